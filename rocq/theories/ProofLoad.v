(** From a data file to densities. *)
From Coq Require Import Reals String Ascii List Bool Arith ZArith Lia Lra.
From Verif Require Import XR PyText SpecParse ModelParse SpecFile ModelSlater SpecDens SpecSlater ProofSlater ModelLoad SpecLoad ProofText ProofConf ProofFile3.
Import ListNotations.
Local Open Scope list_scope.

Lemma electrons_fun ps n l c c' : distinct ps -> electrons ps n l c -> electrons ps n l c' -> c = c'.
Proof.
  intros D [H|[(H & I & ->)|(H & I & ->)]] [K|[(K & J & ->)|(K & J & ->)]]; try (destruct (H _ K)); try (destruct (K _ H)); try contradiction; auto.
  eapply distinct_unique; eauto.
Qed.
Lemma electrons_ex ps n l : exists c, electrons ps n l c.
Proof.
  destruct (listed ps (n, l)) as [c|] eqn:E; [exists c; left; now apply listed_some|]. assert (L' := listed_none _ _ _ E).
  destruct (in_dec piece_dec (Closed n) ps) as [J|J]; [exists (2 * (2 * l + 1)); right; left; auto|exists 0; right; right; auto].
Qed.
Definition sh (l : nat) : shell := match l with 0 => LS | 1 => LP | 2 => LD | _ => LF end.
Lemma sh_lnum l : l <= 3 -> lnum (sh l) = l.
Proof. intros H. destruct l as [|[|[|[|]]]]; auto. lia. Qed.
Lemma letter_sh l : l <= 3 -> letter_of (sh l) = l_char l.
Proof. intros H. destruct l as [|[|[|[|]]]]; auto. lia. Qed.
Lemma label_of_label n l : n <= 9 -> l <= 3 -> label_of (SpecParse.label n l) = (n, sh l).
Proof.
  intros Hn Hl. rewrite label_orb by auto. unfold orb, label_of. f_equal.
  - rewrite nat_ascii_embedding by lia. lia.
  - destruct l as [|[|[|[|]]]]; auto. lia.
Qed.
Lemma key_of_label n l : n <= 9 -> l <= 3 -> key_of (n, sh l) = SpecParse.label n l.
Proof. intros Hn Hl. rewrite label_orb by auto. unfold key_of, orb. cbn [fst snd]. now rewrite letter_sh. Qed.

Lemma seq_from a m : seq a m = map (fun k => a + k) (seq 0 m).
Proof. revert a. induction m as [|m IH]; intros a; auto. cbn [seq map]. f_equal; [lia|]. rewrite IH, <- seq_shift, map_map. apply map_ext. intros. lia. Qed.
Lemma orbital_places Bs : orbital_nl Bs = map (fun p => (bl_l (fst p) + 1 + snd p, bl_l (fst p))) (places Bs).
Proof.
  unfold orbital_nl, places. induction Bs as [|B Bs IH]; auto. cbn [flat_map]. rewrite map_app, IH. f_equal. rewrite map_map. cbn [fst snd]. unfold bl_ns.
  rewrite (seq_from (bl_l B + 1)), map_map. reflexivity.
Qed.
Lemma energy_places Bs : flat_map bl_energy Bs = map (fun p => nth (snd p) (bl_energy (fst p)) NaN) (places Bs).
Proof.
  unfold places. induction Bs as [|B Bs IH]; auto. cbn [flat_map]. rewrite map_app, IH. f_equal. rewrite map_map. cbn [fst snd].
  clear. induction (bl_energy B) as [|e l IH]; auto. cbn [length seq map nth]. f_equal. rewrite <- seq_shift, map_map. exact IH.
Qed.
Lemma places_in Bs B k : In (B, k) (places Bs) <-> In B Bs /\ k < length (bl_energy B).
Proof.
  unfold places. rewrite in_flat_map. split.
  - intros (B' & I & J). apply in_map_iff in J. destruct J as (k' & E & J). injection E as -> ->. apply in_seq in J. split; auto. lia.
  - intros [I L]. exists B. split; auto. apply in_map. apply in_seq. lia.
Qed.

Lemma map_real_fin (xs : list R) : map real_of (map Fin xs) = xs.
Proof. rewrite map_map. apply map_id. Qed.
Lemma Forall2_map2 {A B A' B'} (f : A -> A') (g : B -> B') (P : A' -> B' -> Prop) l m : Forall2 (fun a b => P (f a) (g b)) l m -> Forall2 P (map f l) (map g m).
Proof. induction 1; cbn; constructor; auto. Qed.
Lemma Forall2_eq_map {A B C} (f : A -> C) (g : B -> C) l m : Forall2 (fun a b => f a = g b) l m -> map f l = map g m.
Proof. induction 1; cbn; congruence. Qed.
Lemma Forall2_in_l {A B} (P : A -> B -> Prop) (Q : A -> B -> Prop) l m : Forall2 P l m -> (forall a b, In a l -> P a b -> Q a b) -> Forall2 Q l m.
Proof. induction 1 as [|a b l m H F IH]; intros K; constructor; [apply K; auto; now left|apply IH; intros; apply K; auto; now right]. Qed.

(** The atom of a file has the subshells of the file. *)
Lemma loaded heavy C ps d L : blocks_ok heavy (ct_blocks C) -> distinct ps -> returned C ps d -> file_subs C ps L -> describes (atom_of d) L.
Proof.
  intros (_ & Bo & _) D R F. rewrite Forall_forall in Bo. unfold file_subs in F. split; [|split].
  - cbn [atom_of at_occ]. assert (O := rt_occ _ _ _ R). rewrite orbital_places in O. revert F O. generalize (places (ct_blocks C)) (sd_occ d). clear -D.
    intros P zs F. revert zs. induction F as [|p s P L (_ & (c & E & Eo) & _) F IH]; intros zs O; inversion O as [|? z ? zs' (c' & E' & ->) O']; subst; auto.
    cbn [map]. rewrite (IH _ O'). cbn [fst snd] in E'. rewrite <- (electrons_fun _ _ _ _ _ D E E'), Eo. f_equal. symmetry. apply INR_IZR_INZ.
  - cbn [atom_of at_energy]. rewrite (rt_energy _ _ _ R), energy_places, map_map. apply Forall2_eq_map. eapply Forall2_in_l; [exact F|]. intros p s _ (_ & _ & E & _). cbn beta. now rewrite E.
  - cbn [atom_of at_orbitals]. rewrite (rt_orbs _ _ _ R), orbital_places, !map_map. cbn [fst snd].
    rewrite <- (map_id L). apply Forall2_map2. eapply Forall2_in_l; [exact F|]. intros [B k] s I (E1 & _ & _ & E2). cbn [fst snd] in *. apply places_in in I. destruct I as [I K].
    destruct (Bo B I) as (B1 & B2 & _ & B3 & B4). rewrite label_of_label by lia. cbn [snd]. rewrite sh_lnum by auto. split; auto.
    destruct (rt_block _ _ _ R B I) as (_ & X & N & Co). specialize (Co k K).
    assert (Z1 : map row_exp (bl_rows B) = map Fin (map (fun '(c, z, n) => z) (s_exp s))).
    { apply (f_equal (map (fun x => snd (fst x)))) in E2. rewrite !map_map in E2. cbn [fst snd] in E2. etransitivity; [symmetry; exact E2|]. rewrite map_map. apply map_ext. now intros [[? ?] ?]. }
    assert (Z2 : map row_n (bl_rows B) = map (fun '(c, z, n) => n) (s_exp s)).
    { apply (f_equal (map (fun x => snd x))) in E2. rewrite !map_map in E2. cbn [snd] in E2. etransitivity; [symmetry; exact E2|]. apply map_ext. now intros [[? ?] ?]. }
    assert (Z3 : column k B = map Fin (map (fun '(c, z, n) => c) (s_exp s))).
    { apply (f_equal (map (fun x => fst (fst x)))) in E2. rewrite !map_map in E2. cbn [fst snd] in E2. unfold column. etransitivity; [symmetry; exact E2|]. rewrite map_map. apply map_ext. now intros [[? ?] ?]. }
    unfold atom_of. cbn [at_exps at_nums at_coeff]. rewrite letter_sh by auto. rewrite key_of_label by lia. rewrite X, N, Co. cbn [option_map].
    rewrite Z1, Z3, !map_real_fin. split; auto. split; auto. f_equal. rewrite map_map, <- Z2. apply map_ext. intros r. apply Nat2Z.id.
Qed.

(** Finite numbers give subshells. *)
Lemma nth_finite l k : Forall finite l -> k < length l -> exists r, nth k l NaN = Fin r.
Proof. intros F K. rewrite Forall_forall in F. destruct (F _ (nth_In l NaN K)) as (r & E). eauto. Qed.
Lemma subs_exist heavy C ps : blocks_ok heavy (ct_blocks C) -> finite_blocks C -> exists L, file_subs C ps L.
Proof.
  intros (_ & Bo & _) Fi. rewrite Forall_forall in Bo. unfold file_subs.
  assert (H : forall p, In p (places (ct_blocks C)) -> exists s, sub_of ps (fst p) (snd p) s).
  { intros [B k] I. cbn [fst snd]. apply places_in in I. destruct I as [I K]. destruct (Fi B I) as [Fe Fr]. destruct (Bo B I) as (_ & _ & _ & _ & Len).
    destruct (electrons_ex ps (bl_l B + 1 + k) (bl_l B)) as (c & Ec). destruct (nth_finite _ k Fe K) as (e & Ee).
    assert (X : exists xs, map (fun '(c, z, n) => (Fin c, Fin z, n)) xs = map (fun r => (nth k (row_coef r) NaN, row_exp r, row_n r)) (bl_rows B)).
    { revert Fr Len. induction (bl_rows B) as [|r rs IH]; intros Fr Len; [exists []; auto|]. destruct IH as (xs & E); [intros; apply Fr; now right|intros; apply Len; now right|].
      destruct (Fr r (or_introl eq_refl)) as [(z & Ez) Fc]. destruct (Len r (or_introl eq_refl)) as [_ Lr].
      destruct (nth_finite _ k Fc) as (c0 & E0); [rewrite Lr; exact K|]. exists ((c0, z, row_n r) :: xs). cbn [map]. now rewrite E, E0, Ez. }
    destruct X as (xs & X). exists (mkSub (INR c) e (bl_l B) xs). split; auto. split; [exists c; auto|]. auto. }
  induction (places (ct_blocks C)) as [|p P IH]; [exists []; constructor|]. destruct IH as (L & FL); [intros; apply H; now right|].
  destruct (H p (or_introl eq_refl)) as (s & Hs). exists (s :: L). constructor; auto.
Qed.
Lemma subs_valid C ps L : positive_blocks C -> file_subs C ps L -> Forall valid L.
Proof.
  intros P F. apply Forall_forall. intros s I.
  assert (X : exists p, In p (places (ct_blocks C)) /\ sub_of ps (fst p) (snd p) s).
  { unfold file_subs in F. induction F as [|p s' Ps L' H F IH]; [destruct I|]. destruct I as [->|I]; [exists p; split; auto; now left|]. destruct (IH I) as (q & J & K). exists q. split; auto. now right. }
  destruct X as ([B k] & J & (_ & _ & _ & E)). cbn [fst snd] in *. apply places_in in J. destruct J as [J _].
  intros c z n K. apply (in_map (fun '(c, z, n) => (Fin c, Fin z, n))) in K. rewrite E in K. apply in_map_iff in K. destruct K as (r & Er & Ir). injection Er as _ E2 E3.
  rewrite <- E3. exact (P B r z J Ir E2).
Qed.
Lemma subs_occ C ps L : file_subs C ps L -> Forall (fun s => (0 <= s_occ s)%R) L.
Proof. intros F. unfold file_subs in F. induction F as [|p s P L (_ & (c & _ & E) & _) F IH]; constructor; auto. rewrite E. apply pos_INR. Qed.

