(** Numbers of electrons of the shipped atoms. *)
From Coq Require Import Reals.
From Coquelicot Require Import Coquelicot.
From Coq Require Import String Ascii List Bool Arith ZArith Lia Lra.
From Verif Require Import XR PyStr PyText SpecParse ProofText ModelParse SpecFile ModelSlater SpecDens SpecSlater ProofSlater ModelLoad SpecLoad ProofLoad ProofOver SpecKin ProofKin
  ProofConf ProofConf2 ProofFile ProofFile2 ProofCheck DataSlater SpecShipped ProofShipped ProofNames.
Import ListNotations.
Local Open Scope Z_scope.

(** ** Decimal numbers as integers *)
Definition dval (d : text) : Z := fold_left (fun a c => 10 * a + (Z.of_nat (nat_of_ascii c) - 48)) d 0.
Lemma dval_digits d : dval d = digits d.
Proof.
  unfold dval. enough (H : forall a, fold_left (fun a c => 10 * a + (Z.of_nat (nat_of_ascii c) - 48)) d a = a * 10 ^ Z.of_nat (length d) + digits d) by (rewrite H; lia).
  induction d as [|c d IH]; intros a; [cbn; lia|]. cbn [fold_left digits length]. rewrite IH, Nat2Z.inj_succ, Z.pow_succ_r by lia. ring.
Qed.
(** Value in units of 10^-k. *)
Definition scaled (k : nat) (t : text) : option Z :=
  let neg := match t with c :: _ => Ascii.eqb c "-" | [] => false end in
  let u := if neg then tl t else t in
  match split_char "." [] u with
  | [d; e] =>
      if Nat.leb (length e) k && negb (Nat.eqb (length e) 0) && forallb is_digit (d ++ e)
      then let v := dval (d ++ e) * 10 ^ Z.of_nat (k - length e) in Some (if neg then - v else v) else None
  | _ => None
  end.

Section Values.
Context (fl : text -> res xr) (Hfl : reads_decimals fl).
Definition val (t : text) : xr := match fl t with Ok x => x | Raise _ => NaN end.
Lemma fl_val t : is_decimal t -> exists r, fl t = Ok (Fin r).
Proof.
  intros (g & d & e & -> & G & E & D). destruct (Hfl d e E D) as [H1 H2]. destruct G as [G|G]; rewrite G; eauto.
Qed.
Lemma val_ok t : is_decimal t -> fl t = Ok (val t).
Proof. intros H. destruct (fl_val t H) as (r & E). unfold val. now rewrite E. Qed.
Lemma val_finite t : is_decimal t -> finite (val t).
Proof. intros H. destruct (fl_val t H) as (r & E). exists r. unfold val. now rewrite E. Qed.
Lemma scaled_ok k t v : scaled k t = Some v -> val t = Fin (IZR v / 10 ^ k).
Proof.
  unfold scaled. set (neg := match t with c :: _ => Ascii.eqb c "-" | [] => false end). set (u := if neg then tl t else t). intros H.
  destruct (split_char "." [] u) as [|d [|e [|]]] eqn:S; try discriminate. destruct (Nat.leb (length e) k && negb (Nat.eqb (length e) 0) && forallb is_digit (d ++ e)) eqn:C; [|discriminate].
  rewrite !andb_true_iff in C. destruct C as [[C1 C2] C3]. apply Nat.leb_le in C1. injection H as <-. apply split_two in S. destruct S as [S _]. cbn [app] in S.
  assert (E0 : e <> []) by (destruct e; [discriminate|congruence]). rewrite forallb_forall in C3.
  destruct (Hfl d e E0) as [H1 H2]; [intros c I; apply is_digit_spec; auto|].
  assert (P : (IZR (dval (d ++ e) * 10 ^ Z.of_nat (k - length e)) / 10 ^ k = IZR (digits (d ++ e)) / 10 ^ length e)%R).
  { rewrite dval_digits, mult_IZR, <- pow_IZR. replace k with (length e + (k - length e))%nat at 2 by lia. rewrite pow_add. field. split; apply pow_nonzero; lra. }
  assert (T : t = (if neg then str "-" else []) ++ u).
  { unfold u, neg. destruct t as [|c r]; auto. destruct (Ascii.eqb_spec c "-") as [->|]; auto. }
  clearbody u. subst u. unfold val. rewrite T. destruct neg.
  - change (fl (str "-" ++ d ++ "."%char :: e)) with (fl (str "-" ++ d ++ str "." ++ e)). rewrite H2, opp_IZR. f_equal. rewrite <- P. lra.
  - change (fl ([] ++ d ++ "."%char :: e)) with (fl (d ++ str "." ++ e)). rewrite H1. now rewrite P.
Qed.

(** ** Blocks whose orbitals have norm one within [tol] * 10^-7 *)
Definition sc (k : nat) (s : string) : Z := match scaled k (str s) with Some v => v | None => 0 end.
Definition scb (k : nat) (s : string) : bool := match scaled k (str s) with Some _ => true | None => false end.
Lemma sc_ok k s : scb k s = true -> val (str s) = Fin (IZR (sc k s) / 10 ^ k).
Proof. unfold scb, sc. destruct (scaled k (str s)) eqn:E; [|discriminate]. intros _. now apply scaled_ok. Qed.
Definition trow := (nat * string * list string)%type.
Definition row_near (ne : nat) (r : trow) : bool :=
  Nat.leb 1 (fst (fst r)) && Nat.leb (fst (fst r)) 9 && scb 6 (snd (fst r)) && (0 <? sc 6 (snd (fst r))) && Nat.eqb (length (snd r)) ne && forallb (scb 7) (snd r).
Definition rows_i (b : tblock) : list (Z * nat) := map (fun r : trow => (sc 6 (snd (fst r)), fst (fst r))) (tb_rows b).
Definition coefs_i (b : tblock) (k : nat) : list Z := map (fun r : trow => sc 7 (nth k (snd r) ""%string)) (tb_rows b).
Definition terms_i (b : tblock) (k : nat) : list (Z * (Z * nat)) :=
  map (fun r : trow => (sc 7 (nth k (snd r) ""%string), (sc 6 (snd (fst r)), fst (fst r)))) (tb_rows b).
Definition well_formed (b : tblock) : bool := numerals (tb_energy b) && forallb (row_near (length (tb_energy b))) (tb_rows b).
Definition block_near (tol : Z) (b : tblock) (o : list (list (Z * Z))) : bool :=
  let m := lows o in well_formed b && tight o && forallb (fun k => near_one tol m (coefs_i b k)) (seq 0 (length (tb_energy b))).
Definition block_kin (ps : list piece) (b : tblock) (o : list (list (Z * Z))) : list (Z * Z) :=
  let t := ktri (Z.of_nat (tb_l b)) (rows_i b) o in let g := map (map fst) t in let e := map (map snd) t in
  map (fun k => let c := coefs_i b k in let q := Z.of_nat (count ps (tb_l b + 1 + k) (tb_l b)) in (q * quad g c, q * quad e (map Z.abs c))) (seq 0 (length (tb_energy b))).
Definition block_data (tol : Z) (ps : list piece) (b : tblock) : bool * list (Z * Z) :=
  let o := overs (rows_i b) in (block_near tol b o, block_kin ps b o).

Lemma row_near_ok b r : well_formed b = true -> In r (tb_rows b) ->
  (1 <= fst (fst r) <= 9)%nat /\ val (str (snd (fst r))) = Fin (IZR (sc 6 (snd (fst r))) / 10 ^ 6) /\ 0 < sc 6 (snd (fst r)) /\ length (snd r) = length (tb_energy b) /\
  forall c, In c (snd r) -> val (str c) = Fin (IZR (sc 7 c) / 10 ^ 7).
Proof.
  intros F I. unfold well_formed in F. apply andb_true_iff in F. destruct F as [_ F]. rewrite forallb_forall in F. apply F in I. unfold row_near in I. rewrite !andb_true_iff in I. destruct I as [[[[[I1 I0] I2] I3] I4] I5].
  apply Nat.leb_le in I1, I0. apply Z.ltb_lt in I3. apply Nat.eqb_eq in I4. rewrite forallb_forall in I5. split; auto. split; [now apply sc_ok|]. split; auto. split; auto.
  intros c J. apply sc_ok. auto.
Qed.
Lemma sub_terms ps b k s : well_formed b = true -> (k < length (tb_energy b))%nat -> sub_of ps (block_of val b) k s -> s_exp s = orbital_i (terms_i b k).
Proof.
  intros Wf Hk (_ & _ & _ & E).
  apply (f_equal (map (fun x : xr * xr * nat => (real_of (fst (fst x)), real_of (snd (fst x)), snd x)))) in E. rewrite !map_map in E.
  assert (E1 : map (fun x => (real_of (fst (fst (let '(c, z, n) := x in (Fin c, Fin z, n)))), real_of (snd (fst (let '(c, z, n) := x in (Fin c, Fin z, n)))), snd (let '(c, z, n) := x in (Fin c, Fin z, n)))) (s_exp s) = s_exp s).
  { rewrite <- (map_id (s_exp s)) at 2. apply map_ext. now intros [[? ?] ?]. }
  rewrite E1 in E. rewrite E. unfold terms_i, orbital_i. cbn [block_of bl_rows]. rewrite !map_map. apply map_ext_in. intros r Ir. destruct (row_near_ok b r Wf Ir) as (_ & X2 & _ & X4 & X5). cbn [row_coef row_exp row_n fst snd].
  rewrite X2. cbn [real_of]. f_equal. f_equal. unfold vals. rewrite nth_indep with (d' := val (str ""%string)) by (rewrite map_length; lia). rewrite (map_nth (fun s => val (str s))). rewrite X5 by (apply nth_In; lia). reflexivity.
Qed.
Lemma terms_pos b k x : well_formed b = true -> In x (terms_i b k) -> 0 < fst (snd x) /\ (1 <= snd (snd x) <= 9)%nat.
Proof. intros Wf I. unfold terms_i in I. apply in_map_iff in I. destruct I as (r & <- & Ir). destruct (row_near_ok b r Wf Ir) as (X1 & _ & X3 & _). auto. Qed.
Lemma terms_snd b k : map snd (terms_i b k) = rows_i b.
Proof. unfold terms_i, rows_i. now rewrite map_map. Qed.
Lemma terms_fst b k : map fst (terms_i b k) = coefs_i b k.
Proof. unfold terms_i, coefs_i. now rewrite map_map. Qed.

(** Orbitals of the blocks. *)
Definition tplaces (bs : list tblock) : list (tblock * nat) := flat_map (fun b => map (fun k => (b, k)) (seq 0 (length (tb_energy b)))) bs.
Lemma tplaces_in bs b k : In (b, k) (tplaces bs) <-> In b bs /\ (k < length (tb_energy b))%nat.
Proof.
  unfold tplaces. rewrite in_flat_map. split.
  - intros (B' & I & J). apply in_map_iff in J. destruct J as (k' & E & J). injection E as -> ->. apply in_seq in J. split; auto. lia.
  - intros [I L]. exists b. split; auto. apply in_map. apply in_seq. lia.
Qed.
Lemma places_tplaces w t : places (ct_blocks (contents_of val w t)) = map (fun p => (block_of val (fst p), snd p)) (tplaces (tf_blocks t)).
Proof.
  cbn [contents_of ct_blocks]. unfold places, tplaces. induction (tf_blocks t) as [|b bs IH]; auto. cbn [map flat_map]. rewrite map_app, IH. f_equal. rewrite map_map. cbn [fst snd block_of bl_energy].
  unfold vals. now rewrite map_length.
Qed.
Lemma subs_tplaces w t ps L : file_subs (contents_of val w t) ps L -> Forall2 (fun p s => sub_of ps (block_of val (fst p)) (snd p) s) (tplaces (tf_blocks t)) L.
Proof.
  unfold file_subs. rewrite places_tplaces. generalize (tplaces (tf_blocks t)). intros l. revert L. induction l as [|p l IH]; intros L F; cbn [map] in F; inversion F; subst; constructor; auto.
Qed.

Definition near (tol : Z) (C : contents) : Prop :=
  finite_blocks C /\ positive_blocks C /\
  forall ps L, file_subs C ps L -> Forall (fun s => Rabs (orb_norm s - 1) <= IZR tol / 10 ^ 7)%R L.
Lemma near_blocks tol w t : forallb (fun b => block_near tol b (overs (rows_i b))) (tf_blocks t) = true -> near tol (contents_of val w t).
Proof.
  intros H. rewrite forallb_forall in H.
  assert (K : forall b, In b (tf_blocks t) -> well_formed b = true /\ tight (overs (rows_i b)) = true /\
    forall k, (k < length (tb_energy b))%nat -> near_one tol (lows (overs (rows_i b))) (coefs_i b k) = true).
  { intros b I. apply H in I. unfold block_near in I. cbv zeta in I. rewrite !andb_true_iff in I.
    destruct I as [[I1 I3] I4]. split; auto. split; auto. intros k Hk. rewrite forallb_forall in I4. apply I4, in_seq. lia. }
  split; [|split].
  - intros B I. cbn [contents_of ct_blocks] in I. apply in_map_iff in I. destruct I as (b & <- & I). destruct (K b I) as (Wf & _). cbn [block_of bl_energy bl_rows]. split.
    + unfold well_formed in Wf. apply andb_true_iff in Wf. destruct Wf as [N _]. apply Forall_forall. intros x J. unfold vals in J. apply in_map_iff in J. destruct J as (s & <- & J). unfold numerals in N. rewrite forallb_forall in N.
      apply val_finite. eapply numeral_decimal. apply N. exact J.
    + intros r J. apply in_map_iff in J. destruct J as (x & <- & J). destruct (row_near_ok b x Wf J) as (_ & E & _ & _ & Cs). cbn [row_exp row_coef fst snd]. split; [rewrite E; eexists; reflexivity|].
      apply Forall_forall. intros y J'. unfold vals in J'. apply in_map_iff in J'. destruct J' as (c & <- & J'). rewrite (Cs c J'). eexists; reflexivity.
  - intros B r z I J E. cbn [contents_of ct_blocks] in I. apply in_map_iff in I. destruct I as (b & <- & I). destruct (K b I) as (Wf & _). cbn [block_of bl_rows] in J. apply in_map_iff in J. destruct J as (x & <- & J). destruct (row_near_ok b x Wf J) as (X1 & X2 & X3 & _).
    cbn [row_exp row_n fst snd] in *. rewrite X2 in E. injection E as <-. split; [|lia]. apply IZR_lt in X3. apply Rdiv_lt_0_compat; lra.
  - intros ps L F. apply subs_tplaces in F. apply Forall_forall. intros s I.
    assert (X : exists p, In p (tplaces (tf_blocks t)) /\ sub_of ps (block_of val (fst p)) (snd p) s).
    { induction F as [|p s' Ps L' G F IH]; [destruct I|]. destruct I as [->|I]; [exists p; split; auto; now left|]. destruct (IH I) as (q & J & Q). exists q. split; auto. now right. }
    destruct X as ([b k] & J & X). cbn [fst snd] in *. apply tplaces_in in J. destruct J as [J Hk]. destruct (K b J) as (Wf & T & Nk).
    apply (near_ok tol s (terms_i b k)); rewrite ?terms_snd, ?terms_fst; auto.
    + eapply sub_terms; eauto.
    + intros x Ix. now apply terms_pos in Ix.
Qed.
(** Kinetic energy of all subshells. *)
Definition zsum2 (l : list (Z * Z)) : Z * Z := fold_right (fun x s => (fst x + fst s, snd x + snd s)) (0, 0) l.
Lemma kin_blocks tol w t ps L : distinct ps -> forallb (fun b => block_near tol b (overs (rows_i b))) (tf_blocks t) = true -> file_subs (contents_of val w t) ps L ->
  let z := zsum2 (flat_map (fun b => block_kin ps b (overs (rows_i b))) (tf_blocks t)) in
  (Rabs (rsum (map (fun s => s_occ s * orb_kin s) L) * (2 * 10 ^ 14 * KS) - IZR (fst z)) <= IZR (snd z))%R.
Proof.
  intros D H F. apply subs_tplaces in F. rewrite forallb_forall in H.
  set (f := fun p : tblock * nat => let b := fst p in let k := snd p in let t := ktri (Z.of_nat (tb_l b)) (rows_i b) (overs (rows_i b)) in let q := Z.of_nat (count ps (tb_l b + 1 + k) (tb_l b)) in
    (q * quad (map (map fst) t) (coefs_i b k), q * quad (map (map snd) t) (map Z.abs (coefs_i b k)))).
  assert (E : flat_map (fun b => block_kin ps b (overs (rows_i b))) (tf_blocks t) = map f (tplaces (tf_blocks t))).
  { unfold tplaces. clear. induction (tf_blocks t) as [|b bs IH]; auto. cbn [flat_map]. rewrite map_app, IH. f_equal. rewrite map_map. reflexivity. }
  rewrite E. cbv zeta.
  assert (P : forall p, In p (tplaces (tf_blocks t)) -> In (fst p) (tf_blocks t) /\ (snd p < length (tb_energy (fst p)))%nat) by (intros [b k] I; now apply tplaces_in).
  revert F P. generalize (tplaces (tf_blocks t)). clear E. intros l F. induction F as [|p s l L S F IH]; intros P.
  - cbn [map zsum2 fold_right fst snd]. change (rsum []) with 0%R. replace (0 * (2 * 10 ^ 14 * KS) - 0)%R with 0%R by ring. rewrite Rabs_R0. lra.
  - specialize (IH (fun q I => P q (or_intror I))). destruct (P p (or_introl eq_refl)) as [I Hk]. destruct p as [b k]. cbn [fst snd] in *.
    assert (Hb := H b I). unfold block_near in Hb. cbv zeta in Hb. rewrite !andb_true_iff in Hb. destruct Hb as [[Wf T] _].
    assert (El : s_l s = tb_l b) by (destruct S as (S1 & _); exact S1).
    assert (Eo : s_occ s = IZR (Z.of_nat (count ps (tb_l b + 1 + k) (tb_l b)))).
    { destruct S as (_ & (c & S2 & S3) & _). cbn [block_of bl_l] in S2. apply count_spec in S2; auto. rewrite S3, S2. apply INR_IZR_INZ. }
    assert (Kn := kin_ok s (terms_i b k) (sub_terms ps b k s Wf Hk S) (fun x => terms_pos b k x Wf)). rewrite terms_snd, terms_fst, El in Kn. specialize (Kn T). cbv zeta in Kn.
    cbn [map]. change (zsum2 (f (b, k) :: map f l)) with (fst (f (b, k)) + fst (zsum2 (map f l)), snd (f (b, k)) + snd (zsum2 (map f l))). cbn [fst snd].
    change (rsum (?x :: ?y)) with (x + rsum y)%R. rewrite !plus_IZR. unfold f at 1 3. cbv zeta. cbn [fst snd]. rewrite !mult_IZR, <- Eo, Rmult_plus_distr_r.
    set (X := rsum _) in *. set (g := IZR (quad (map (map fst) _) _)) in *. set (e := IZR (quad (map (map snd) _) _)) in *.
    assert (O : (0 <= s_occ s)%R) by (rewrite Eo; apply IZR_le; lia).
    replace (s_occ s * orb_kin s * (2 * 10 ^ 14 * KS) + X * (2 * 10 ^ 14 * KS) - (s_occ s * g + IZR (fst (zsum2 (map f l)))))%R
      with (s_occ s * (orb_kin s * (2 * 10 ^ 14 * KS) - g) + (X * (2 * 10 ^ 14 * KS) - IZR (fst (zsum2 (map f l)))))%R by ring.
    eapply Rle_trans; [apply Rabs_triang|]. apply Rplus_le_compat; auto. rewrite (Rabs_mult (s_occ s)), (Rabs_pos_eq (s_occ s)) by auto. apply Rmult_le_compat_l; auto.
Qed.
End Values.

(** ** All shipped files *)
Definition file_tf (x : folder * string * list string * hint) : tfile :=
  let '(d, e, f, h) := x in file_words (heavy_of h) (h_ratio h) (parts_of h (map str f)).
(** Kinetic energy within 5 * 10^-7 of that of the file. *)
Definition kin_near (T : string) (z : Z * Z) : bool :=
  let y := 2 * 10 ^ 17 * U * KM * sc 9 T in scb 9 T && (0 <? sc 9 T) && (10 ^ 7 * (Z.abs (fst z - y) + snd z) <=? 5 * y).
Definition file_near (x : folder * string * list string * hint) : bool :=
  let h := snd x in let t := file_tf x in let ds := map (block_data 5 (core_of h ++ h_pieces h)) (tf_blocks t) in
  forallb fst ds && kin_near (nth 1 (tf_ratio t) ""%string) (zsum2 (flat_map snd ds)).
Lemma files_near : forallb file_near hints = true.
Proof. vm_compute. reflexivity. Qed.
Lemma file_near_ok x : In x hints -> let h := snd x in let t := file_tf x in
  forallb (fun b => block_near 5 b (overs (rows_i b))) (tf_blocks t) = true /\
  kin_near (nth 1 (tf_ratio t) ""%string) (zsum2 (flat_map (fun b => block_kin (core_of h ++ h_pieces h) b (overs (rows_i b))) (tf_blocks t))) = true.
Proof.
  intros I. assert (H := files_near). rewrite forallb_forall in H. apply H in I. clear H. unfold file_near in I. cbv zeta in *. apply andb_true_iff in I. destruct I as [I1 I2].
  set (t := file_tf x) in *. set (ps := core_of (snd x) ++ h_pieces (snd x)) in *. clearbody t. split.
  - rewrite forallb_forall in *. intros b J. apply (in_map (block_data 5 ps)) in J. apply I1 in J. exact J.
  - match goal with |- kin_near ?T ?z = true => replace z with (zsum2 (flat_map snd (map (block_data 5 ps) (tf_blocks t)))); [exact I2|] end.
    f_equal. clear. induction (tf_blocks t) as [|b bs IH]; auto. cbn [map flat_map]. now rewrite IH.
Qed.

Lemma shipped_electrons fl d e f s fuel : reads_decimals fl -> In (d, e, f) data_names -> (d, e) <> (Cation, "cs"%string) -> same_name (str s) (str e) -> (100 <= fuel)%nat ->
  exists data (g : R -> R) N,
    slater_atoms fl data_files (Some s) (folder_eqb d Anion) (folder_eqb d Cation) fuel = Some (Ok data) /\
    (forall pts, atomic_density (atom_of data) (A1 (map Fin pts)) MTotal = Ok (map Fin (map g pts))) /\
    is_RInt_gen (fun r : R => 4 * PI * r ^ 2 * g r)%R (at_point 0%R) (Rbar_locally p_infty) N /\
    (Rabs (N - IZR (electron_number d e)) <= 5 / 10 ^ 7 * IZR (electron_number d e))%R.
Proof.
  intros Hf I Nc S Hl. destruct (shipped_loads_full fl (val fl) (val_ok fl Hf) d e f s I Nc S fuel Hl) as (C & ps & data & F & Cf & Sl & R & T & Bo & D & h & Ih & _ & Eh).
  assert (Nr : near 5 C). { rewrite Eh. apply near_blocks; auto. exact (proj1 (file_near_ok _ Ih)). }
  destruct Nr as (Fi & Po & Nn). destruct (subs_exist _ C ps Bo Fi) as (L & FL). assert (De := loaded _ _ _ _ _ Bo D R FL). assert (V := subs_valid _ _ _ Po FL). assert (O := subs_occ _ _ _ FL). specialize (Nn ps L FL).
  destruct (density_integral_api _ L De V) as (g & G1 & G2 & _). exists data, g, (rsum (map (fun s => s_occ s * orb_norm s)%R L)). split; auto. split; auto. split; auto.
  assert (Ez : IZR (electron_number d e) = rsum (map s_occ L)).
  { rewrite <- T. destruct De as (Oc & _). rewrite <- Oc. cbn [atom_of at_occ]. clear. induction (sd_occ data) as [|z zs IH]; auto. cbn [map]. change (zsum (z :: zs)) with (z + zsum zs). change (rsum (?a :: ?b)) with (a + rsum b)%R. rewrite plus_IZR. now rewrite IH. }
  rewrite Ez. clear -Nn O. induction L as [|x L IH].
  - cbn. rewrite Rminus_0_r, Rabs_R0. lra.
  - inversion Nn; inversion O; subst. specialize (IH H2 H6). cbn [map]. change (rsum (?a :: ?b)) with (a + rsum b)%R.
    set (A := rsum (map (fun s => (s_occ s * orb_norm s)%R) L)) in *. set (B := rsum (map s_occ L)) in *.
    replace (s_occ x * orb_norm x + A - (s_occ x + B))%R with (s_occ x * (orb_norm x - 1) + (A - B))%R by ring.
    eapply Rle_trans; [apply Rabs_triang|]. rewrite Rabs_mult, (Rabs_pos_eq (s_occ x)) by auto.
    assert (Q : (s_occ x * Rabs (orb_norm x - 1) <= s_occ x * (5 / 10 ^ 7))%R) by (apply Rmult_le_compat_l; auto). lra.
Qed.

Lemma shipped_kinetic fl d e f s fuel : reads_decimals fl -> In (d, e, f) data_names -> (d, e) <> (Cation, "cs"%string) -> same_name (str s) (str e) -> (100 <= fuel)%nat ->
  exists data T L (dphi : subshell -> R -> R) K,
    slater_atoms fl data_files (Some s) (folder_eqb d Anion) (folder_eqb d Cation) fuel = Some (Ok data) /\ sd_T data = Fin T /\ (0 < T)%R /\ describes (atom_of data) L /\
    (forall s r, In s L -> r <> 0%R -> is_derive (phi s) r (dphi s r)) /\
    (forall pts, Forall (fun r => / 10 ^ 10 <= Rabs r)%R pts -> kinetic_energy (atom_of data) (A1 (map Fin pts)) = Ok (map Fin (map (tau dphi L) pts))) /\
    is_RInt_gen (fun r : R => 4 * PI * r ^ 2 * tau dphi L r)%R (at_point 0%R) (Rbar_locally p_infty) K /\
    (Rabs (K - T) <= 5 / 10 ^ 7 * T)%R.
Proof.
  intros Hf I Nc S Hl. destruct (shipped_loads_full fl (val fl) (val_ok fl Hf) d e f s I Nc S fuel Hl) as (C & ps & data & F & Cf & Sl & R & T & Bo & D & h & Ih & Ep & Eh).
  destruct (file_near_ok _ Ih) as [N1 N2]. cbn [snd] in N1, N2. cbv zeta in N1, N2. set (t := file_tf (d, e, f, h)) in *. change (C = contents_of (val fl) (word_of h) t) in Eh.
  assert (Nr : near 5 C) by (rewrite Eh; now apply near_blocks). destruct Nr as (Fi & Po & _).
  destruct (subs_exist _ C ps Bo Fi) as (L & FL). assert (De := loaded _ _ _ _ _ Bo D R FL). assert (V := subs_valid _ _ _ Po FL).
  rewrite Eh in FL. assert (Kb := kin_blocks fl Hf 5 (word_of h) t ps L D N1 FL). rewrite <- Ep in N2. cbv zeta in Kb. set (z := zsum2 _) in *. unfold kin_near in N2. cbv zeta in N2. rewrite !andb_true_iff in N2. destruct N2 as [[M1 M2] M3].
  apply (sc_ok fl Hf) in M1. apply Z.ltb_lt in M2. apply Z.leb_le in M3. set (Tz := sc 9 (nth 1 (tf_ratio t) ""%string)) in *.
  destruct (kinetic_integral _ L De V) as (dphi & G0 & G1 & G2). exists data, (IZR Tz / 10 ^ 9)%R, L, dphi, (rsum (map (fun s => s_occ s * orb_kin s)%R L)).
  assert (Tp : (0 < IZR Tz)%R) by (apply IZR_lt; exact M2).
  split; auto. split; [rewrite (rt_T _ _ _ R), Eh; exact M1|]. split; [lra|]. split; auto. split; auto. split; auto. split; auto.
  set (K := rsum _) in *. clearbody K Tz. assert (U0 := U_pos). assert (K0 : (0 < IZR KM)%R) by (apply IZR_lt; reflexivity). unfold KS in Kb.
  apply IZR_le in M3. rewrite !mult_IZR, plus_IZR, abs_IZR, minus_IZR, !mult_IZR in M3. change (IZR (10 ^ 7)) with 10000000%R in M3. change (IZR (10 ^ 17)) with 100000000000000000%R in M3.
  set (u := IZR U) in *. set (m := IZR KM) in *. clearbody u m. set (x := IZR (fst z)) in *. set (ee := IZR (snd z)) in *. clearbody x ee.
  assert (Pu : (0 < u * m)%R) by (apply Rmult_lt_0_compat; auto). set (um := (u * m)%R) in *.
  replace (2 * 100000000000000000 * u * m * IZR Tz)%R with (200000000000000000 * um * IZR Tz)%R in M3 by (unfold um; ring).
  replace (K * (2 * 10 ^ 14 * (u * 10 ^ 12 * m)))%R with (200000000000000000000000000 * um * K)%R in Kb by (unfold um; ring).
  assert (A : (Rabs (200000000000000000000000000 * um * K - 200000000000000000 * um * IZR Tz) <= Rabs (200000000000000000000000000 * um * K - x) + Rabs (x - 200000000000000000 * um * IZR Tz))%R).
  { replace (200000000000000000000000000 * um * K - 200000000000000000 * um * IZR Tz)%R with ((200000000000000000000000000 * um * K - x) + (x - 200000000000000000 * um * IZR Tz))%R by ring. apply Rabs_triang. }
  replace (K - IZR Tz / 10 ^ 9)%R with ((200000000000000000000000000 * um * K - 200000000000000000 * um * IZR Tz) / (200000000000000000000000000 * um))%R by (field; lra).
  unfold Rdiv at 1. rewrite (Rabs_mult _ (/ _)), (Rabs_pos_eq (/ _)) by (left; apply Rinv_0_lt_compat; lra).
  apply Rmult_le_reg_r with (200000000000000000000000000 * um)%R; [lra|]. rewrite Rmult_assoc, Rinv_l, Rmult_1_r by lra.
  replace (5 / 10 ^ 7 * (IZR Tz / 10 ^ 9) * (200000000000000000000000000 * um))%R with (5 * (200000000000000000 * um * IZR Tz) / 10000000)%R by field. lra.
Qed.

(** ** Files and the functions of an atom *)
Lemma file_methods fl heavy C ps f fuel : file_lines fl heavy C f -> blocks_ok heavy (ct_blocks C) ->
  config_of heavy (ct_word C) ps -> Forall piece_ok ps -> distinct ps -> all_occupied C ps -> finite_blocks C -> positive_blocks C -> (length f < fuel)%nat ->
  exists d L, parse_slater fl heavy fuel f = Some (Ok d) /\ file_subs C ps L /\
    (forall pts, atomic_density (atom_of d) (A1 (map Fin pts)) MTotal = Ok (map Fin (map (rho L) pts))) /\
    (forall pts, exists g, derivative_density (atom_of d) (A1 (map Fin pts)) = Ok (map Fin g) /\ length g = length pts /\
       forall i, (i < length pts)%nat -> (/ 10 ^ 10 <= Rabs (nth i pts 0))%R -> is_derive (rho L) (nth i pts 0%R) (nth i g 0%R)) /\
    (forall pts, exists (dphi : subshell -> R -> R) t, kinetic_energy (atom_of d) (A1 (map Fin pts)) = Ok (map Fin t) /\ length t = length pts /\
       forall i, (i < length pts)%nat -> (/ 10 ^ 10 <= Rabs (nth i pts 0))%R ->
         nth i t 0%R = tau dphi L (nth i pts 0%R) /\ forall s, In s L -> is_derive (phi s) (nth i pts 0%R) (dphi s (nth i pts 0%R))) /\
    is_RInt_gen (fun r : R => 4 * PI * r ^ 2 * rho L r)%R (at_point 0%R) (Rbar_locally p_infty) (rsum (map (fun s => s_occ s * orb_norm s)%R L)).
Proof.
  intros F B Cf P D O Fi Po Fu. destruct (ProofFile3.parse_ok fl heavy C ps f fuel) as (d & E & R); auto. destruct (subs_exist heavy C ps B Fi) as (L & S).
  assert (De := loaded _ _ _ _ _ B D R S). assert (V := subs_valid _ _ _ Po S). assert (Oc := subs_occ _ _ _ S).
  exists d, L. split; auto. split; auto. split; [intros; now apply density_total|]. split; [|split].
  - intros pts. destruct (deriv_density_api _ L pts De V) as (dens & g & _ & H1 & _ & H2 & H3). exists g. split; auto. split; auto. intros i Hi. now apply H3.
  - intros pts. destruct (kinetic_api _ L pts De V Oc) as (dphi & t & H1 & H2 & H3). exists dphi, t. split; auto. split; auto. intros i Hi. now apply H3.
  - now apply rho_integral.
Qed.

(** ** Reading of decimal numbers, as an example *)
Definition read_decimal (t : text) : res xr :=
  match (match t with c :: r => if Ascii.eqb c "-" then ((-1)%R, r) else (1%R, t) | [] => (1%R, []) end) with
  | (g, u) => match split_char "." [] u with
              | [d; e] => Ok (Fin (g * (IZR (digits (d ++ e)) / 10 ^ length e)))
              | _ => Raise ValueError
              end
  end.
Lemma read_decimal_ok : reads_decimals read_decimal.
Proof.
  intros d e E D.
  assert (Nd : forall c, digit c -> c <> "."%char /\ c <> "-"%char).
  { intros c [Hc1 Hc2]. split; intros ->; cbn in Hc1, Hc2; lia. }
  assert (S : split_char "." [] (d ++ str "." ++ e) = [d; e]).
  { change (d ++ str "." ++ e) with (d ++ "."%char :: e). rewrite split_char_at, split_char_none; auto; intros I; assert (J : digit "."%char) by (apply D, in_or_app; auto); destruct (Nd _ J); congruence. }
  split.
  - unfold read_decimal. destruct (d ++ str "." ++ e) as [|c r] eqn:Q; [rewrite S; do 2 f_equal; lra|]. destruct (Ascii.eqb_spec c "-") as [->|].
    + destruct d as [|c' d']; [discriminate|]. injection Q as Q _. exfalso. destruct (Nd c' (D c' (or_introl eq_refl))). congruence.
    + rewrite S. do 2 f_equal. lra.
  - unfold read_decimal. change (str "-" ++ d ++ str "." ++ e) with ("-"%char :: (d ++ str "." ++ e)). cbn [Ascii.eqb Bool.eqb]. rewrite S. do 2 f_equal. lra.
Qed.
(** Beryllium: eight Slater functions in one block. *)
Lemma be_methods fl : reads_decimals fl ->
  exists C, file_lines fl false C (map str be_neutral) /\ blocks_ok false (ct_blocks C) /\ config_of false (ct_word C) [Sub 1 0 2; Sub 2 0 2] /\
    distinct [Sub 1 0 2; Sub 2 0 2] /\ all_occupied C [Sub 1 0 2; Sub 2 0 2] /\ finite_blocks C /\ positive_blocks C /\
    map (fun B => length (bl_rows B)) (ct_blocks C) = [8%nat] /\ exists d L, parse_slater fl false 100 (map str be_neutral) = Some (Ok d) /\ file_subs C [Sub 1 0 2; Sub 2 0 2] L /\ length L = 2%nat.
Proof.
  intros Hf. 
  set (h := mkH 0 0 1 [11%nat] ["   T =    "; "14.573023130"; "     V =   "; "-29.146046297"; "     V/T =    "; "-2.000000003"; ""]%string None [Sub 1 0 2; Sub 2 0 2]).
  set (p := parts_of h (map str be_neutral)). assert (E : leqb (lines_of p) (map str be_neutral) = true) by (vm_compute; reflexivity). apply leqb_spec in E.
  set (t := file_words (heavy_of h) (h_ratio h) p). assert (R : readable false [] [Sub 1 0 2; Sub 2 0 2] (word_of h) t p = true) by (vm_compute; reflexivity).
  destruct (readable_ok fl (val fl) (val_ok fl Hf) _ _ _ _ _ _ R eq_refl) as (F & B & P & D & O). exists (contents_of (val fl) (word_of h) t). rewrite E in F.
  assert (Nr : near 5 (contents_of (val fl) (word_of h) t)) by (apply near_blocks; auto; vm_compute; reflexivity). destruct Nr as (Fi & Po & _).
  split; [exact F|]. split; [exact B|]. split; [reflexivity|]. split; [exact D|]. split; [exact O|]. split; [exact Fi|]. split; [exact Po|]. split; [vm_compute; reflexivity|].
  assert (Len : (length (map str be_neutral) < 100)%nat) by (apply Nat.ltb_lt; vm_compute; reflexivity).
  destruct (file_methods fl false _ _ _ 100%nat F B eq_refl P D O Fi Po Len) as (d & L & H1 & H2 & _). exists d, L. split; [exact H1|]. split; [exact H2|].
  assert (Q : length L = length (places (ct_blocks (contents_of (val fl) (word_of h) t)))) by (unfold file_subs in H2; clear -H2; induction H2; cbn; auto). rewrite Q. vm_compute. reflexivity.
Qed.

(** ** Whatever loads *)
Lemma lower_char_idem c : lower_char (lower_char c) = lower_char c.
Proof. destruct c as [[] [] [] [] [] [] [] []]; reflexivity. Qed.
Lemma same_name_lower s : same_name (str s) (str (lower s)).
Proof. apply same_lower. rewrite lower_txt, map_map. apply map_ext. intros c. symmetry. apply lower_char_idem. Qed.
Lemma data_files_in d e f : data_files d e = Some f -> exists g, In (d, e, g) data_names /\ f = map str g.
Proof.
  unfold data_files. destruct (List.find _ data_names) as [[[d' e'] g]|] eqn:F; [|discriminate]. intros H. injection H as <-. apply find_some in F. destruct F as [I E]. cbn [fst snd] in E.
  apply andb_true_iff in E. destruct E as [E1 E2]. apply String.eqb_eq in E2. subst e'. exists g. split; auto. destruct d, d'; try discriminate; exact I.
Qed.
Lemma loads_from fl s anion cation fuel data : slater_atoms fl data_files (Some s) anion cation fuel = Some (Ok data) ->
  exists d f, In (d, lower s, f) data_names /\ anion = folder_eqb d Anion /\ cation = folder_eqb d Cation.
Proof.
  intros H. destruct (rejections fl data_files fuel) as (_ & R2 & R3 & R4).
  assert (N : s <> ""%string) by (intros E; rewrite R2 in H; [discriminate|auto]).
  assert (A : alphabetic (str s)). { apply alphabetic_spec. destruct (forallb is_alpha (txt s)) eqn:E; auto. rewrite R2 in H; [discriminate|]. right. intros K. apply alphabetic_spec in K. change (forallb is_alpha (txt s) = true) in K. rewrite E in K. discriminate. }
  assert (B : anion && cation = false) by (destruct anion, cation; auto; rewrite R3 in H; [discriminate|auto|auto]).
  assert (A1 : anion = true -> In (lower s) anion_atoms).
  { intros ->. destruct cation; [discriminate|]. destruct (in_dec string_dec (lower s) anion_atoms) as [|Ni]; auto. rewrite (R4 s true false) in H; [discriminate|auto|auto|auto]. }
  assert (A2 : cation = true -> In (lower s) cation_atoms).
  { intros ->. destruct anion; [discriminate|]. destruct (in_dec string_dec (lower s) cation_atoms) as [|Ni]; auto. rewrite (R4 s false true) in H; [discriminate|auto|auto|auto]. }
  destruct (data_files (place anion cation) (lower s)) as [f|] eqn:F.
  - apply data_files_in in F. destruct F as (g & I & _). exists (place anion cation), g. split; auto. destruct anion, cation; auto; discriminate.
  - rewrite (file_missing fl data_files s anion cation fuel N A B A1 A2 F) in H. discriminate.
Qed.
Lemma not_cesium fl s d fuel data : reads_decimals fl -> slater_atoms fl data_files (Some s) (folder_eqb d Anion) (folder_eqb d Cation) fuel = Some (Ok data) -> (d, lower s) <> (Cation, "cs"%string).
Proof.
  intros Hf H E. assert (S := same_name_lower s). injection E as -> E. rewrite E in S. rewrite (case_insensitive fl data_files s "Cs" _ _ fuel S) in H.
  change (slater_atoms fl data_files (Some "Cs"%string) false true fuel = Some (Ok data)) in H. rewrite (shipped_cesium fl (val fl) (val_ok fl Hf)) in H. discriminate.
Qed.
Lemma loaded_electrons fl s anion cation fuel data : reads_decimals fl -> (100 <= fuel)%nat ->
  slater_atoms fl data_files (Some s) anion cation fuel = Some (Ok data) ->
  exists e (g : R -> R) N, same_name (str s) (str e) /\ In e (map fst atomic_numbers) /\
    (forall pts, atomic_density (atom_of data) (A1 (map Fin pts)) MTotal = Ok (map Fin (map g pts))) /\
    is_RInt_gen (fun r : R => 4 * PI * r ^ 2 * g r)%R (at_point 0%R) (Rbar_locally p_infty) N /\
    (Rabs (N - IZR (electron_number (place anion cation) e)) <= 5 / 10 ^ 7 * IZR (electron_number (place anion cation) e))%R.
Proof.
  intros Hf Hl H. destruct (loads_from _ _ _ _ _ _ H) as (d & f & I & -> & ->). exists (lower s). assert (S := same_name_lower s).
  assert (Nc := not_cesium fl s d fuel data Hf H).
  destruct (shipped_electrons fl d (lower s) f s fuel Hf I Nc S Hl) as (data' & g & N & E1 & E2 & E3 & E4). rewrite H in E1. injection E1 as <-.
  exists g, N. split; auto. split.
  - assert (K : forallb (fun x => existsb (String.eqb (snd (fst x))) (map fst atomic_numbers)) data_names = true) by (vm_compute; reflexivity).
    rewrite forallb_forall in K. apply K in I. cbn [fst snd] in I. apply existsb_exists in I. destruct I as (y & Iy & Ey). apply String.eqb_eq in Ey. now rewrite Ey.
  - split; auto. split; auto. destruct d; exact E4.
Qed.
Lemma loaded_kinetic fl s anion cation fuel data : reads_decimals fl -> (100 <= fuel)%nat ->
  slater_atoms fl data_files (Some s) anion cation fuel = Some (Ok data) ->
  exists T L (dphi : subshell -> R -> R) K, sd_T data = Fin T /\ (0 < T)%R /\ describes (atom_of data) L /\
    (forall s r, In s L -> r <> 0%R -> is_derive (phi s) r (dphi s r)) /\
    (forall pts, Forall (fun r => / 10 ^ 10 <= Rabs r)%R pts -> kinetic_energy (atom_of data) (A1 (map Fin pts)) = Ok (map Fin (map (tau dphi L) pts))) /\
    is_RInt_gen (fun r : R => 4 * PI * r ^ 2 * tau dphi L r)%R (at_point 0%R) (Rbar_locally p_infty) K /\
    (Rabs (K - T) <= 5 / 10 ^ 7 * T)%R.
Proof.
  intros Hf Hl H. destruct (loads_from _ _ _ _ _ _ H) as (d & f & I & -> & ->). assert (S := same_name_lower s).
  assert (Nc := not_cesium fl s d fuel data Hf H).
  destruct (shipped_kinetic fl d (lower s) f s fuel Hf I Nc S Hl) as (data' & T & L & dphi & K & E1 & E2). rewrite H in E1. injection E1 as <-. exists T, L, dphi, K. exact E2.
Qed.
