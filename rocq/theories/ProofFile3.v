(** Reading a well-formed data file: the returned dictionary. *)
From Coq Require Import String Ascii List Bool Arith ZArith Lia.
From Verif Require Import XR PyText SpecParse ProofText ModelParse SpecFile ProofConf ProofConf2 ProofFile ProofFile2.
Import ListNotations.
Local Open Scope list_scope.

Lemma flat_block {A} (g : block -> list A) Bs : NoDup (map bl_l Bs) -> forall B, In B Bs ->
  flat_map (fun B' => if Nat.eqb (bl_l B') (bl_l B) then g B' else []) Bs = g B.
Proof.
  induction Bs as [|B0 Bs IH]; intros N B I; [destruct I|]. inversion N; subst. cbn [flat_map]. destruct I as [<-|I].
  - rewrite Nat.eqb_refl. assert (E : flat_map (fun B' => if Nat.eqb (bl_l B') (bl_l B0) then g B' else []) Bs = []).
    { clear -H1. induction Bs as [|B1 Bs IH]; auto. cbn in *. destruct (Nat.eqb_spec (bl_l B1) (bl_l B0)); [exfalso; apply H1; auto|]. apply IH. tauto. }
    rewrite E. apply app_nil_r.
  - destruct (Nat.eqb_spec (bl_l B0) (bl_l B)) as [E|E].
    + exfalso. apply H1. rewrite E. now apply in_map.
    + cbn [app]. now apply IH.
Qed.
Lemma flat_absent {A} (g : block -> list A) Bs l : ~ In l (map bl_l Bs) ->
  flat_map (fun B' => if Nat.eqb (bl_l B') l then g B' else []) Bs = [].
Proof.
  induction Bs as [|B Bs IH]; intros N; auto. cbn in *. destruct (Nat.eqb_spec (bl_l B) l); [exfalso; apply N; auto|]. apply IH. tauto.
Qed.
Lemma orbital_labels Bs : flat_map bl_labels Bs = map (fun nl => label (fst nl) (snd nl)) (orbital_nl Bs).
Proof.
  induction Bs as [|B Bs IH]; auto. unfold orbital_nl in *. cbn [flat_map]. rewrite map_app, <- IH. f_equal. unfold bl_labels. now rewrite map_map.
Qed.
Lemma orbital_ok heavy Bs : Forall (block_ok heavy) Bs -> forall nl, In nl (orbital_nl Bs) -> subshell_ok (fst nl) (snd nl).
Proof.
  intros H [n l] I. apply in_flat_map in I. destruct I as (B & IB & I). apply in_map_iff in I. destruct I as (m & E & I). injection E as <- <-.
  rewrite Forall_forall in H. destruct (H _ IB) as (H1 & H2 & _). unfold bl_ns in I. apply in_seq in I. unfold subshell_ok. cbn. lia.
Qed.

(** Occupations of the listed orbitals. *)
Lemma occ_ok ps nls : Forall piece_ok ps -> distinct ps -> (forall nl, In nl nls -> subshell_ok (fst nl) (snd nl)) ->
  (forall nl, In nl nls -> ~ electrons ps (fst nl) (snd nl) 0) ->
  exists occ, mapM (fun k => do d <- occupations (show_all ps); dlookup k d) (map (fun nl => label (fst nl) (snd nl)) nls) = Ok occ /\
    Forall2 (fun nl z => exists c, electrons ps (fst nl) (snd nl) c /\ z = Z.of_nat c) nls occ.
Proof.
  intros P D. destruct (occupations_ok ps P D) as (d & -> & V & _). cbn [bind].
  assert (X : forall n l, exists c, electrons ps n l c).
  { intros n l. destruct (listed ps (n, l)) as [c|] eqn:L; [exists c; left; now apply listed_some|]. assert (L' := listed_none _ _ _ L).
    destruct (in_dec piece_dec (Closed n) ps) as [J|J]; [exists (2 * (2 * l + 1)); right; left; auto|exists 0; right; right; auto]. }
  induction nls as [|[n l] nls IH]; intros S O; [exists []; split; [reflexivity|constructor]|].
  destruct (X n l) as (c & E). assert (C : c <> 0) by (intros ->; apply (O (n, l) (or_introl eq_refl)); exact E).
  assert (G : dlookup (label n l) d = Ok (Z.of_nat c)).
  { unfold dlookup. rewrite (V n l c); auto; [|apply (S (n, l)); now left]. destruct c; [congruence|]. reflexivity. }
  destruct IH as (occ & E1 & E2); [intros; apply S; now right|intros; apply O; now right|].
  exists (Z.of_nat c :: occ). split; [|constructor; eauto]. cbn [map mapM fst snd]. rewrite G. cbn [bind]. rewrite E1. reflexivity.
Qed.

Lemma mapM_dict {A B} (h : A -> res B) (h' : A -> B) (d : dict A) : (forall k v, In (k, v) d -> h v = Ok (h' v)) ->
  mapM (fun p => do x <- h (snd p); Ok (fst p, x)) d = Ok (map (fun p => (fst p, h' (snd p))) d).
Proof.
  induction d as [|[k v] d IH]; intros H; auto. cbn [mapM map fst snd]. rewrite (H k v) by now left. cbn [bind]. rewrite IH by (intros k0 v0 I; apply (H k0 v0); now right). reflexivity.
Qed.
Lemma dget_map {A B} (h : A -> B) (d : dict A) k : dget k (map (fun p => (fst p, h (snd p))) d) = option_map h (dget k d).
Proof. induction d as [|[a v] d IH]; auto. cbn. destruct (text_eqb k a); auto. Qed.
Lemma In_dget {A} (d : dict A) k v : NoDup (map fst d) -> In (k, v) d -> dget k d = Some v.
Proof.
  induction d as [|[a x] d IH]; intros N I; [destruct I|]. cbn in *. inversion N; subst. destruct I as [I|I].
  - injection I as -> ->. now rewrite text_eqb_refl.
  - destruct (text_eqb_spec k a) as [E|E]; auto. subst a. exfalso. apply H1. apply (in_map fst) in I. exact I.
Qed.
Definition first_int (x : text) : Z := match py_int (firstn 1 x) with Ok z => z | Raise _ => 0%Z end.
Lemma first_int_label n l : n <= 9 -> py_int (firstn 1 (label n l)) = Ok (Z.of_nat n).
Proof. intros H. rewrite label_orb by auto. cbn [orb firstn]. now apply py_int_digit. Qed.

Lemma letters_nodup : NoDup letters.
Proof.
  assert (B : (fix nd (l : list text) := match l with [] => true | x :: t => negb (existsb (text_eqb x) t) && nd t end) letters = true) by (vm_compute; reflexivity).
  revert B. generalize letters. induction l as [|x t IH]; intros B; constructor; apply andb_true_iff in B; destruct B as [B1 B2]; auto.
  intros I. apply negb_true_iff in B1. apply existsb_text in I. congruence.
Qed.
Lemma letter_cases k : In k letters -> exists l, l <= 3 /\ k = [l_char l].
Proof. intros [<-|[<-|[<-|[<-|[]]]]]; [exists 0|exists 1|exists 2|exists 3]; (split; [lia|reflexivity]). Qed.
Definition nonempty {A} (l : list A) : bool := negb (Nat.eqb (length l) 0).

Lemma make_data_ok heavy C ps s : blocks_ok heavy (ct_blocks C) -> Forall piece_ok ps -> distinct ps -> all_occupied C ps ->
  state_of (ct_blocks C) s -> exists d, make_data (show_all ps) (ct_E C) (ct_T C) (ct_V C) s = Ok d /\ returned C ps d.
Proof.
  intros (Bn & Bo & Bd) P D O S. unfold make_data. rewrite (so_orbs _ _ S), orbital_labels.
  destruct (occ_ok ps (orbital_nl (ct_blocks C)) P D (orbital_ok heavy _ Bo) O) as (occ & -> & F). cbn [bind].
  set (Bs := ct_blocks C) in *.
  set (fb := filter (fun p : text * list text => negb (Nat.eqb (length (snd p)) 0)) (ps_basis s)).
  assert (NDb : NoDup (map fst (ps_basis s))) by (rewrite (so_bkeys _ _ S); apply letters_nodup).
  assert (NDe : NoDup (map fst (ps_exp s))) by (rewrite (so_ekeys _ _ S); apply letters_nodup).
  assert (H : forall k v, In (k, v) fb -> mapM (fun x : text => py_int (firstn 1 x)) v = Ok (map first_int v)).
  { intros k v I. apply filter_In in I. destruct I as [I _]. assert (K := in_map fst _ _ I). rewrite (so_bkeys _ _ S) in K. apply letter_cases in K.
    destruct K as (l & L & K). cbn [fst] in K. subst k. apply In_dget in I; auto. rewrite (so_basis _ _ S l L) in I. injection I as <-.
    assert (Q : forall v, (forall x, In x v -> exists n l, n <= 9 /\ x = label n l) -> mapM (fun x : text => py_int (firstn 1 x)) v = Ok (map first_int v)).
    { induction v as [|x v IH]; intros V; auto. destruct (V x (or_introl eq_refl)) as (n & l' & Hn & ->). cbn [mapM map]. unfold first_int at 1.
      rewrite first_int_label by auto. cbn [bind]. rewrite IH by (intros; apply V; now right). reflexivity. }
    apply Q. intros x I. apply in_flat_map in I. destruct I as (B & IB & I). destruct (Nat.eqb _ _); [|destruct I].
    apply in_map_iff in I. destruct I as (r & <- & I). exists (row_n r), (bl_l B). split; auto. rewrite Forall_forall in Bo. destruct (Bo _ IB) as (_ & _ & _ & _ & R). now apply R. }
  rewrite (mapM_dict (fun v : list text => mapM (fun x : text => py_int (firstn 1 x)) v) (map first_int) fb H). cbn [bind].
  eexists. split; [reflexivity|].
  assert (Gb : forall l, l <= 3 -> dget [l_char l] fb = match dget [l_char l] (ps_basis s) with Some v => if nonempty v then Some v else None | None => None end) by
    (intros l L; unfold fb; apply (dget_filter _ nonempty); auto).
  assert (Ge : forall l, l <= 3 -> dget [l_char l] (filter (fun p : text * list xr => negb (Nat.eqb (length (snd p)) 0)) (ps_exp s)) = match dget [l_char l] (ps_exp s) with Some v => if nonempty v then Some v else None | None => None end) by
    (intros l L; apply (dget_filter _ nonempty); auto).
  assert (Gc : forall k, dget k (filter (fun p : text * list xr => negb (Nat.eqb (length (snd p)) 0)) (ps_coeff s)) = match dget k (ps_coeff s) with Some v => if nonempty v then Some v else None | None => None end) by
    (intros k; apply (dget_filter _ nonempty), (so_ckeys _ _ S)).
  constructor; cbn [sd_conf sd_E sd_T sd_V sd_orbs sd_energy sd_cusp sd_basis sd_exp sd_coeff sd_occ sd_nums]; auto.
  - apply (so_energy _ _ S).
  - apply (so_cusp _ _ S).
  - intros B IB. fold Bs in IB. rewrite Forall_forall in Bo. destruct (Bo _ IB) as (L & M & _ & Rn & R).
    assert (NE : bl_basis B <> []) by (unfold bl_basis; destruct (bl_rows B); [congruence|discriminate]).
    assert (Eb : dget [l_char (bl_l B)] (ps_basis s) = Some (bl_basis B)) by (rewrite (so_basis _ _ S) by auto; now rewrite flat_block).
    assert (Ee : dget [l_char (bl_l B)] (ps_exp s) = Some (map row_exp (bl_rows B))) by (rewrite (so_exp _ _ S) by auto; now rewrite (flat_block (fun B => map row_exp (bl_rows B)))).
    split; auto. split; [|split].
    + rewrite Ge, Ee by auto. destruct (bl_rows B); [congruence|]. reflexivity.
    + rewrite dget_map, Gb, Eb by auto. assert (NT : @nonempty text (bl_basis B) = true) by (destruct (bl_basis B); [congruence|reflexivity]). rewrite NT. cbn [option_map]. f_equal.
      unfold bl_basis. rewrite map_map. apply map_ext_in. intros r I. unfold first_int. rewrite first_int_label; auto. now apply R.
    + intros k K. rewrite Gc, (so_coeff _ _ S B k) by auto. unfold column. destruct (bl_rows B); [congruence|]. reflexivity.
  - intros l L N. fold Bs in N. rewrite (so_basis _ _ S), (flat_absent bl_basis) by auto. split; auto. split.
    + rewrite Ge, (so_exp _ _ S), (flat_absent (fun B => map row_exp (bl_rows B))) by auto. reflexivity.
    + rewrite dget_map, Gb, (so_basis _ _ S), (flat_absent bl_basis) by auto. reflexivity.
  - intros x X. fold Bs. rewrite <- orbital_labels. rewrite Gc in X. destruct (in_dec (list_eq_dec ascii_dec) x (flat_map bl_labels Bs)) as [I|I]; auto.
    exfalso. apply X. now rewrite (so_other _ _ S x I).
Qed.

Section File.
Context (fl : text -> res xr).

Lemma read_more_ok ls x r : forall line, fst (read_more (length ls + 1) line (ls ++ x :: r)) = x /\ snd (read_more (length ls + 1) line (ls ++ x :: r)) = r.
Proof. induction ls as [|l ls IH]; intros line; auto. cbn [length Nat.add app read_more readline]. apply IH. Qed.

Lemma energy_nonblank v s : energy_line fl v s -> ~ blank s.
Proof.
  intros (a & b & c & t & d & r & -> & _) B. assert (W : white "E"%char). { apply B. apply in_or_app. right. now left. } unfold white in W. cbn in W. lia.
Qed.

Lemma parse_ok heavy C ps f fuel : file_lines fl heavy C f -> blocks_ok heavy (ct_blocks C) ->
  config_of heavy (ct_word C) ps -> Forall piece_ok ps -> distinct ps -> all_occupied C ps -> length f < fuel ->
  exists d, parse_slater fl heavy fuel f = Some (Ok d) /\ returned C ps d.
Proof.
  intros (l0 & b1 & more & le & lt & b2 & titles & bls & tail & -> & (w0 & w1 & ws & S0 & W1) & B1 & Hm & He & Ht & B2 & T & F & Tl) BO Cf P D O Fu.
  destruct (energy_parts fl _ _ He) as (ep & eq & er & E1 & E2 & E3). destruct (ratio_numbers fl _ _ _ Ht) as (ra & rb & rc & R1 & R2 & R3).
  unfold parse_slater. cbn [readline]. rewrite (words_spaced _ _ S0). change (py_get (w0 :: w1 :: ws) 1) with (@Ok text w1). cbn [bindo]. unfold remove_char. rewrite W1.
  assert (Hc : (if heavy then heavy_configuration (ct_word C) else @Ok text (ct_word C)) = Ok (show_all ps)).
  { destruct heavy; [|cbn in Cf; now rewrite Cf]. destruct Cf as (qs & Q & [[-> ->]|[-> ->]]); apply heavy_ok; auto. }
  rewrite Hc. cbn [bindo].
  set (rest := lt :: b2 ++ titles ++ concat bls ++ tail) in *.
  assert (Q : exists x r, (let '(l1, f1) := readline (b1 ++ more ++ le :: rest) in skip_blank fuel l1 f1) = Some (x, r) /\
    (if heavy then read_more 6 x r else (x, r)) = (le, rest)).
  { cbn in Fu. rewrite !app_length in Fu. destruct heavy.
    - destruct Hm as [M1 M2]. destruct more as [|m0 more]; [discriminate|]. exists m0, (more ++ le :: rest). split.
      + cbn [app]. apply skip_blank_ok; auto. lia.
      + cbn in M1. injection M1 as M1. change 6 with (5 + 1). rewrite <- M1. destruct (read_more_ok more le rest m0) as [X Y]. rewrite (surjective_pairing (read_more _ _ _)). exact (f_equal2 pair X Y).
    - subst more. exists le, rest. split; auto. cbn [app]. apply skip_blank_ok; auto; [eapply energy_nonblank; eauto|lia]. }
  destruct Q as (x & r & Q1 & Q2).
  destruct (readline (b1 ++ more ++ le :: rest)) as [l1 f1]. rewrite Q1, Q2, E1. cbn [nth]. rewrite E2. cbn [text_eqb Ascii.eqb Bool.eqb andb negb].
  change (py_get (ep :: eq :: er) 1) with (@Ok text eq). cbn [bindo]. rewrite E3. cbn [bindo]. unfold rest at 1. cbn [readline]. rewrite R1, R2, R3. cbn [bindo].
  destruct BO as (Bn & Bo & Bd).
  assert (X : exists y g, titles ++ concat bls ++ tail = y :: g /\ ~ blank y).
  { inversion T as [|t ts T1 T2]; subst; [|exists t, (ts ++ concat bls ++ tail); split; [reflexivity|apply T1]].
    inversion F as [|B ls todo bls' HB F']; subst; [congruence|]. destruct (block_lines_head _ _ _ _ HB) as (h & t & -> & Hh).
    exists h, ((t ++ concat bls') ++ tail). split; [reflexivity|]. destruct Hh as [Hh _]. eapply spaced_nonblank; eauto. }
  destruct X as (y & g & X1 & X2). rewrite X1.
  assert (L : length b2 + length titles + length (concat bls) < fuel).
  { cbn in Fu. unfold rest in Fu. rewrite !app_length in Fu. cbn in Fu. rewrite !app_length in Fu. lia. }
  assert (K := skip_blank_ok b2 y g fuel B2 X2 ltac:(lia)). destruct (readline (b2 ++ y :: g)) as [l3 f3]. rewrite K.
  assert (TT := read_titles_ok fl heavy (concat bls ++ tail) titles T (fuel - length titles) empty_state).
  replace (length titles + (fuel - length titles)) with fuel in TT by lia. rewrite X1 in TT. cbn [readline] in TT. rewrite TT.
  destruct (read_blocks_ok fl heavy tail Tl (ct_blocks C) bls F [] empty_state (fuel - length titles) Bo Bd empty_state_of ltac:(lia)) as (s & -> & S).
  cbn [bindo app] in *. destruct (make_data_ok heavy C ps s) as (d & E & R); auto; [split; auto|]. exists d. rewrite E. auto.
Qed.
End File.
