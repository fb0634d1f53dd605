(** Derivatives of the Gaussian models with respect to their parameters. *)
From Coquelicot Require Import Coquelicot.
From Coq Require Import Reals List ZArith Lia Lra Bool.
From Verif Require Import XR ModelDens SpecDens Lists ProofDens.
Import ListNotations.
Local Open Scope R_scope.

Lemma Rpower_mult_div x y p : 0 < x -> 0 < y -> Rpower (x / y) p = Rpower x p / Rpower y p.
Proof.
  intros Hx Hy. unfold Rdiv. rewrite <- Rpower_mult_distr; auto.
  2: now apply Rinv_0_lt_compat.
  f_equal. unfold Rpower. rewrite ln_Rinv by auto.
  rewrite <- exp_Ropp. f_equal. ring.
Qed.

Lemma is_derive_Rpower x p : 0 < x -> is_derive (fun y => Rpower y p) x (p * Rpower x (p - 1)).
Proof. intros. apply is_derive_Reals. now apply derivable_pt_lim_power. Qed.

Lemma is_derive_gauss a r : is_derive (fun y => exp (- y * r ^ 2)) a (- r ^ 2 * exp (- a * r ^ 2)).
Proof. auto_derive; auto. simpl. ring. Qed.

Lemma is_derive_basis_unnorm p a r :
  is_derive (fun y => basis_fn false p y r) a (dbasis false p a r).
Proof.
  unfold basis_fn, dbasis, basis_fn.
  eapply is_derive_ext with (f := fun y => (if p then r ^ 2 else 1) * exp (- y * r ^ 2)).
  { intros; simpl; ring. }
  eapply is_derive_ext_loc; [apply filter_forall; intros; reflexivity|].
  replace (- r ^ 2 * (1 * (if p then r ^ 2 else 1) * exp (- a * r ^ 2)) + 0)
    with (scal (if p then r ^ 2 else 1) (- r ^ 2 * exp (- a * r ^ 2))).
  2:{ unfold scal; simpl; unfold mult; simpl; ring. }
  apply (is_derive_scal (fun y => exp (- y * r ^ 2))). apply is_derive_gauss.
Qed.

Lemma norm_const_s a : 0 < a -> norm_const false a = Rpower a (3/2) / Rpower PI (3/2).
Proof. intros. unfold norm_const. apply Rpower_mult_div; auto. apply PI_RGT_0. Qed.

Lemma norm_const_pos p a : 0 < norm_const p a.
Proof.
  unfold norm_const. destruct p; [|apply Rpower_pos].
  apply Rmult_lt_0_compat; [lra|]. apply Rdiv_lt_0_compat; apply Rpower_pos.
Qed.

Lemma is_derive_norm_const p a : 0 < a ->
  is_derive (norm_const p) a
    (if p then 5 / 3 * Rpower a (3/2) / Rpower PI (3/2)
     else 3 / 2 * Rpower a (1/2) / Rpower PI (3/2)).
Proof.
  intros Ha. pose proof (Rpower_pos PI (3/2)) as Hpi.
  destruct p.
  - unfold norm_const.
    replace (5 / 3 * Rpower a (3 / 2) / Rpower PI (3 / 2)) with
      (2 / 3 * (5 / 2 * Rpower a (5 / 2 - 1) * / Rpower PI (3/2))).
    2:{ replace (5/2 - 1) with (3/2) by lra. field. lra. }
    apply is_derive_scal.
    apply (is_derive_ext (fun y => scal (/ Rpower PI (3/2)) (Rpower y (5/2)))).
    { intros; unfold scal; simpl; unfold mult; simpl. unfold Rdiv. ring. }
    replace (5 / 2 * Rpower a (5 / 2 - 1) * / Rpower PI (3 / 2)) with
      (scal (/ Rpower PI (3/2)) (5 / 2 * Rpower a (5 / 2 - 1))).
    2:{ unfold scal; simpl; unfold mult; simpl. ring. }
    apply is_derive_scal. now apply is_derive_Rpower.
  - apply (is_derive_ext_loc (fun y => scal (/ Rpower PI (3/2)) (Rpower y (3/2)))).
    { exists (mkposreal a Ha). intros y Hy. unfold ball in Hy; simpl in Hy.
      unfold AbsRing_ball, abs, minus, plus, opp in Hy; simpl in Hy.
      apply Rabs_def2 in Hy. rewrite norm_const_s by lra.
      unfold scal; simpl; unfold mult; simpl. unfold Rdiv. ring. }
    replace (3 / 2 * Rpower a (1 / 2) / Rpower PI (3 / 2)) with
      (scal (/ Rpower PI (3/2)) (3 / 2 * Rpower a (3 / 2 - 1))).
    2:{ unfold scal; simpl; unfold mult; simpl. replace (3/2 - 1) with (1/2) by lra. field. lra. }
    apply is_derive_scal. now apply is_derive_Rpower.
Qed.

Lemma is_derive_basis norm p a r : (norm = true -> 0 < a) ->
  is_derive (fun y => basis_fn norm p y r) a (dbasis norm p a r).
Proof.
  destruct norm; intros Ha; [|apply is_derive_basis_unnorm].
  specialize (Ha eq_refl).
  set (q := if p then r ^ 2 else 1).
  apply (is_derive_ext (fun y => norm_const p y * (q * exp (- y * r ^ 2)))).
  { intros; unfold basis_fn; fold q; simpl; ring. }
  replace (dbasis true p a r) with
    (plus (mult (if p then 5 / 3 * Rpower a (3/2) / Rpower PI (3/2)
            else 3 / 2 * Rpower a (1/2) / Rpower PI (3/2)) (q * exp (- a * r ^ 2)))
          (mult (norm_const p a) (q * (- r ^ 2 * exp (- a * r ^ 2))))).
  2:{ unfold plus, mult; cbn -[pow]. unfold dbasis, basis_fn. fold q.
      pose proof (Rpower_pos PI (3/2)) as Hpi.
      destruct p; unfold q; field; lra. }
  apply (is_derive_mult (norm_const p) (fun y => q * exp (- y * r ^ 2))).
  - now apply is_derive_norm_const.
  - apply (is_derive_scal (fun y => exp (- y * r ^ 2))). apply is_derive_gauss.
  - intros; apply Rmult_comm.
Qed.

(** Column k is the partial derivative with respect to coefficient k. *)
Lemma is_derive_gsum_c norm lay (c e : list R) (k : nat) :
  length lay = length c -> length lay = length e -> (k < length c)%nat ->
  is_derive (fun t : R => gsum norm lay (upd c k t) e) (nth k c 0) (nth k (bcol norm lay e) 0).
Proof.
  revert c e k; induction lay as [|[p r] l IH]; intros [|c0 c] [|a e] k H1 H2 Hk;
    simpl in H1, H2, Hk; try discriminate; try lia.
  destruct k as [|k]; cbn [upd gsum nth bcol].
  - auto_derive; auto. ring.
  - specialize (IH c e k ltac:(lia) ltac:(lia) ltac:(lia)).
    replace (nth k (bcol norm l e) 0) with (0 + nth k (bcol norm l e) 0) by ring.
    apply (is_derive_plus (fun _ => c0 * basis_fn norm p a r)); auto.
    apply (is_derive_const (c0 * basis_fn norm p a r)).
Qed.

(** Column nbasis + k is the partial derivative with respect to exponent k. *)
Lemma is_derive_gsum_e norm lay (c e : list R) (k : nat) :
  length lay = length c -> length lay = length e -> (k < length e)%nat ->
  (norm = true -> 0 < nth k e 0) ->
  is_derive (fun t : R => gsum norm lay c (upd e k t)) (nth k e 0) (nth k (ecol norm lay c e) 0).
Proof.
  revert c e k; induction lay as [|[p r] l IH]; intros [|c0 c] [|a e] k H1 H2 Hk Hp;
    simpl in H1, H2, Hk; try discriminate; try lia.
  destruct k as [|k]; cbn [upd gsum nth ecol].
  - replace (c0 * dbasis norm p a r) with (c0 * dbasis norm p a r + 0) by ring.
    apply (is_derive_plus (fun t => c0 * basis_fn norm p t r)).
    + apply (is_derive_scal (fun t => basis_fn norm p t r)). apply is_derive_basis; auto.
    + apply (is_derive_const (gsum norm l c e)).
  - specialize (IH c e k ltac:(lia) ltac:(lia) ltac:(lia) Hp).
    replace (nth k (ecol norm l c e) 0) with (0 + nth k (ecol norm l c e) 0) by ring.
    apply (is_derive_plus (fun _ => c0 * basis_fn norm p a r)); auto.
    apply (is_derive_const (c0 * basis_fn norm p a r)).
Qed.
