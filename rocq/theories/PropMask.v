(** Property C102: the objective of ScipyFit and its gradient where model values are masked. *)
From Coquelicot Require Import Coquelicot.
From Coq Require Import Reals List ZArith Lia Lra Bool.
From Verif Require Import XR SpecDens SpecMeas SpecGrid ModelDens ModelMeas ModelGrid ModelFit SpecFit ProofFitView ProofScipy2 ProofFPI4 ProofFitEx SpecMask ProofMask.
Import ListNotations.
Local Open Scope R_scope.

(** The objective is the integral of [f ln (f/g)] over the points that are not masked.  The gradient returned
    with it is that of the objective minus the integral of the model over the masked points. *)
Theorem C102_gradient : forall s mask neg W w f norm lays N a x c e,
  scipy_setting s (MKL (Fin mask) neg) W w f norm lays N -> mode a x c e -> sized lays c e -> (norm = true -> positive e) ->
  0 <= mask -> positive f -> all_settled mask f (values norm lays c e) ->
  exists d, scipy_func s (map Fin x) a = Ok (Fin (quad W (map2 Rmult w (map2 (kl_masked mask) f (values norm lays c e)))), map Fin d) /\
    length d = length x /\
    forall k, (k < length x)%nat -> exists (O : R -> R) (C E : R -> list R) h,
      locally (nth k x 0) (fun t => exists d', scipy_func s (map Fin (upd x k t)) a = Ok (Fin (O t), d')) /\
      (forall t, mode a (upd x k t) (C t) (E t) /\ sized lays (C t) (E t)) /\
      is_derive (fun t : R => hidden mask W w (values norm lays c e) (values norm lays (C t) (E t))) (nth k x 0) h /\
      is_derive O (nth k x 0) (nth k d 0 + h).
Proof. exact masked_gradient. Qed.
Print Assumptions C102_gradient.

(** For a coefficient the difference is at most the mask value over the coefficient, times the weight of the
    masked points.  It is not zero when one of them has a weight and lies where the function is not zero. *)
Theorem C102_coefficients : forall s mask neg W w f norm lays N c e,
  scipy_setting s (MKL (Fin mask) neg) W w f norm lays N -> sized lays c e -> (norm = true -> positive e) ->
  0 <= mask -> positive f -> positive c -> nonneg W -> nonneg w -> all_settled mask f (values norm lays c e) ->
  exists o d, scipy_func s (map Fin (c ++ e)) SBoth = Ok (o, map Fin d) /\
    forall k, (k < nfun lays)%nat -> exists (O : R -> R) h,
      locally (nth k c 0) (fun t => exists d', scipy_func s (map Fin (upd c k t ++ e)) SBoth = Ok (Fin (O t), d')) /\
      is_derive O (nth k c 0) (nth k d 0 + h) /\
      0 <= h <= mask / nth k c 0 * hidden mask W w (values norm lays c e) (repeat 1 (length W)) /\
      forall i, (i < length W)%nat -> 0 < nth i W 0 -> 0 < nth i w 0 -> nth i (values norm lays c e) 0 <= mask ->
        0 < basis_fn norm (kind (nth i lays []) k) (nth k e 0) (away (nth i lays []) k) -> 0 < h.
Proof. exact masked_coefficients. Qed.
Print Assumptions C102_coefficients.

(** Two normalized functions with exponents 16 pi on the points 1/2 (kept) and 1 (masked); mask value 10^-12. *)
Lemma tight_norm : norm_const false (16 * PI) = 64.
Proof.
  pose proof PI_RGT_0. unfold norm_const. replace (16 * PI / PI) with (4 * 4) by (field; lra). rewrite <- Rpower_mult_distr by lra.
  replace (3 / 2) with (1 + / 2) by lra. rewrite Rpower_plus, Rpower_1, Rpower_sqrt by lra. replace 4 with (2 * 2) by lra. rewrite sqrt_square; lra.
Qed.
Lemma exp_le_3 : exp 1 <= 3.
Proof. exact exp_le_3. Qed.
Lemma exp_nat n : exp (INR n) = exp 1 ^ n.
Proof. induction n as [|n IH]; [apply exp_0|]. rewrite S_INR, exp_plus, IH. cbn. ring. Qed.
Lemma tight_values : / 10 ^ 6 < basis_fn true false (16 * PI) (two_r 0) /\ 0 < basis_fn true false (16 * PI) (two_r 1) < nan_mask.
Proof.
  pose proof PI_4. assert (P3 : 3 < PI) by (generalize PI2_3_2; lra). unfold basis_fn. rewrite tight_norm, Rmult_1_r. cbn [two_r].
  assert (EX : forall x y, x <= y -> exp x <= exp y). { intros x y Hxy. destruct (Rle_lt_or_eq_dec _ _ Hxy); [left; now apply exp_increasing|subst; lra]. }
  split; [|split].
  - apply Rlt_le_trans with (64 * / 3 ^ 16); [lra|]. apply Rmult_le_compat_l; [lra|].
    apply Rle_trans with (exp (- INR 16)); [|apply EX; cbn [INR]; lra]. rewrite exp_Ropp, exp_nat. apply Rinv_le_contravar; [apply pow_lt, exp_pos|].
    apply pow_incr. split; [left; apply exp_pos|apply exp_le_3].
  - apply Rmult_lt_0_compat; [lra|apply exp_pos].
  - apply Rle_lt_trans with (64 * / 2 ^ 48); [|unfold nan_mask; lra]. apply Rmult_le_compat_l; [lra|].
    apply Rle_trans with (exp (- INR 48)); [apply EX; cbn [INR]; lra|]. rewrite exp_Ropp, exp_nat. apply Rinv_le_contravar; [apply pow_lt; lra|].
    apply pow_incr. split; [lra|]. pose proof (exp_ineq1_le 1). lra.
Qed.
Lemma tight_settled : all_settled nan_mask [1; 1] (values true two_lays [1/3; 2/3] [16 * PI; 16 * PI]).
Proof.
  destruct tight_values as (A & B & C). intros i Hi. cbn in Hi. rewrite two_value by exact Hi.
  destruct i as [|[|i]]; [|right; auto|lia]. left. cbn [nth]. split; [unfold nan_mask; lra|].
  rewrite Rabs_R1, Rabs_right by lra. apply Rlt_trans with (/ 10 ^ 6); [|exact A]. rewrite Rmult_1_l. apply Rinv_lt_contravar.
  - apply Rmult_lt_0_compat; apply pow_lt; lra.
  - apply Rlt_le_trans with (2 ^ 20); [lra|]. apply Rle_pow; [lra|]. apply Nat.leb_le. vm_compute. reflexivity.
Qed.

(** The gradient is not that of the objective. *)
Example C102_example : exists o d (O : R -> R) h,
  scipy_func (two_scipy true) (map Fin ([1/3; 2/3] ++ [16 * PI; 16 * PI])) SBoth = Ok (o, map Fin d) /\
  locally (1/3) (fun t => exists d', scipy_func (two_scipy true) (map Fin ([t; 2/3] ++ [16 * PI; 16 * PI])) SBoth = Ok (Fin (O t), d')) /\
  is_derive O (1/3) (nth 0 d 0 + h) /\ 0 < h <= 3 / 4 * nan_mask.
Proof.
  pose proof PI_RGT_0. destruct tight_values as (A & B & C).
  destruct (C102_coefficients (two_scipy true) nan_mask (Fin 100000) two_W [1; 1] [1; 1] true two_lays 1 [1/3; 2/3] [16 * PI; 16 * PI]) as (o & d & E & G).
  - apply two_scipy_setting.
  - apply two_sized.
  - intros _. apply two_pos_e. lra.
  - unfold nan_mask. lra.
  - repeat constructor; lra.
  - repeat constructor; lra.
  - exact two_nonneg.
  - repeat constructor; lra.
  - exact tight_settled.
  - destruct (G 0%nat ltac:(cbn; lia)) as (O & h & H1 & H2 & [_ H3] & H4). exists o, d, O, h. split; [exact E|]. split; [exact H1|]. split; [exact H2|]. split.
    + apply (H4 1%nat); [cbn; lia|cbn; lra|cbn; lra| |].
      * rewrite two_value by lia. lra.
      * rewrite two_lay by lia. exact B.
    + eapply Rle_trans; [exact H3|]. unfold hidden, values. cbn [map two_lays map2 repeat length two_W].
      change (gsum true (lay_atom 2 0 (Rabs (1 / 2))) [1 / 3; 2 / 3] [16 * PI; 16 * PI]) with (nth 0 (values true two_lays [1 / 3; 2 / 3] [16 * PI; 16 * PI]) 0).
      change (gsum true (lay_atom 2 0 (Rabs 1)) [1 / 3; 2 / 3] [16 * PI; 16 * PI]) with (nth 1 (values true two_lays [1 / 3; 2 / 3] [16 * PI; 16 * PI]) 0).
      rewrite !two_value by lia. destruct (Rlt_dec nan_mask (basis_fn true false (16 * PI) (two_r 0))) as [_|Q]; [|exfalso; apply Q; unfold nan_mask; lra].
      destruct (Rlt_dec nan_mask (basis_fn true false (16 * PI) (two_r 1))); [lra|]. unfold quad, rdot, rsum. cbn [map2 fold_right nth]. assert (M : 0 < nan_mask) by (unfold nan_mask; lra). replace (nan_mask / (1 / 3)) with (3 * nan_mask) by field. unfold two_W. cbn [map2 fold_right]. lra.
Qed.
