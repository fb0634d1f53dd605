(** Rounded arithmetic: binary formats with rounding to the nearest number, ties to even. *)
From Coq Require Import Reals List ZArith Lia Lra.
From Flocq Require Import Core Plus_error Relative.
From Verif Require Import SpecDens SpecGrid SpecRnd SpecBin ModelRnd ProofRnd ProofRnd2 ProofRnd3 ProofRnd4 ProofRnd5.
Import ListNotations.
Local Open Scope R_scope.


Lemma half_pow : forall k, / 2 * bpow radix2 (k + 1) = bpow radix2 k.
Proof. intro k. rewrite bpow_plus. change (bpow radix2 1) with 2. field. Qed.

Lemma bin_u : forall prec, (1 < prec)%Z -> 0 <= bpow radix2 (- prec) < 1.
Proof.
  intros prec P. split; [apply bpow_ge_0|]. change 1 with (bpow radix2 0). apply bpow_lt. lia.
Qed.

Lemma u_ro_le : forall prec, u_ro radix2 prec / (1 + u_ro radix2 prec) <= bpow radix2 (- prec).
Proof.
  intro prec. assert (E : u_ro radix2 prec = bpow radix2 (- prec)) by (unfold u_ro; apply half_pow).
  rewrite E. assert (P := bpow_gt_0 radix2 (- prec)). set (b := bpow radix2 (- prec)) in *.
  apply Rmult_le_reg_r with (1 + b); [lra|]. unfold Rdiv. rewrite Rmult_assoc, Rinv_l by lra.
  assert (0 <= b * b) by (apply Rmult_le_pos; lra). lra.
Qed.

Lemma bin_rounding : forall emin prec, (1 < prec)%Z ->
  rounding (bpow radix2 (- prec)) (bpow radix2 (emin - 1)) (bin_fmt emin prec) (bin_rnd emin prec).
Proof.
  intros emin prec P. assert (P0 : Prec_gt_0 prec) by (unfold Prec_gt_0; lia).
  constructor.
  - apply bin_u, P.
  - apply bpow_ge_0.
  - apply generic_format_0.
  - intros x F. apply generic_format_opp, F.
  - intro x. apply generic_format_round; [apply FLT_exp_valid, P0 | apply valid_rnd_N].
  - intros x F. apply round_generic; [apply valid_rnd_N | exact F].
  - intros x y L. apply round_le; [apply FLT_exp_valid, P0 | apply valid_rnd_N | exact L].
  - intro x. destruct (relative_error_N_FLT'_ex radix2 emin prec P0 (fun x => negb (Z.even x)) x) as (eps & et & He & Ht & _ & E).
    unfold bin_rnd. rewrite E. replace (x * (1 + eps) + et - x) with (eps * x + et) by ring.
    eapply Rle_trans; [apply Rabs_triang|]. rewrite Rabs_mult.
    apply Rplus_le_compat.
    + apply Rmult_le_compat_r; [apply Rabs_pos|]. eapply Rle_trans; [exact He | apply u_ro_le].
    + replace (bpow radix2 (emin - 1)) with (/ 2 * bpow radix2 emin); [exact Ht|].
      rewrite <- (half_pow (emin - 1)). replace (emin - 1 + 1)%Z with emin by lia. reflexivity.
  - intros x y Fx Fy. destruct (FLT_plus_error_N_ex radix2 emin prec (fun x => negb (Z.even x)) x y Fx Fy) as (eps & He & E).
    unfold bin_rnd. rewrite E. replace ((x + y) * (1 + eps) - (x + y)) with (eps * (x + y)) by ring.
    rewrite Rabs_mult. apply Rmult_le_compat_r; [apply Rabs_pos|]. eapply Rle_trans; [exact He | apply u_ro_le].
Qed.

(** The same without a least exponent: no underflow. *)

Lemma free_rounding : forall prec, (1 < prec)%Z ->
  rounding (bpow radix2 (- prec)) 0 (free_fmt prec) (free_rnd prec).
Proof.
  intros prec P. assert (P0 : Prec_gt_0 prec) by (unfold Prec_gt_0; lia).
  assert (Er : forall x, Rabs (free_rnd prec x - x) <= bpow radix2 (- prec) * Rabs x).
  { intro x. destruct (relative_error_N_FLX'_ex radix2 prec P0 (fun x => negb (Z.even x)) x) as (eps & He & E).
    unfold free_rnd. rewrite E. replace (x * (1 + eps) - x) with (eps * x) by ring.
    rewrite Rabs_mult. apply Rmult_le_compat_r; [apply Rabs_pos|]. eapply Rle_trans; [exact He | apply u_ro_le]. }
  constructor.
  - apply bin_u, P.
  - lra.
  - apply generic_format_0.
  - intros x F. apply generic_format_opp, F.
  - intro x. apply generic_format_round; [apply FLX_exp_valid, P0 | apply valid_rnd_N].
  - intros x F. apply round_generic; [apply valid_rnd_N | exact F].
  - intros x y L. apply round_le; [apply FLX_exp_valid, P0 | apply valid_rnd_N | exact L].
  - intro x. rewrite Rplus_0_r. apply Er.
  - intros x y _ _. apply Er.
Qed.

(** Whole numbers of at most [prec] bits are numbers of the format. *)
Lemma int_fmt : forall emin prec m, (1 < prec)%Z -> (emin <= 0)%Z -> (Z.abs m < 2 ^ prec)%Z -> bin_fmt emin prec (IZR m).
Proof.
  intros emin prec m P E L. unfold bin_fmt. apply generic_format_FLT. exists (Float radix2 m 0).
  - unfold F2R; simpl. ring.
  - exact L.
  - exact E.
Qed.
Lemma int_free : forall prec m, (1 < prec)%Z -> (Z.abs m < 2 ^ prec)%Z -> free_fmt prec (IZR m).
Proof.
  intros prec m P L. unfold free_fmt. apply generic_format_FLX. exists (Float radix2 m 0).
  - unfold F2R; simpl. ring.
  - exact L.
Qed.

(** Powers of a number just above 1. *)
Lemma pow_small : forall u k, 0 <= u -> INR k * u <= 1 / 2 -> (1 + u) ^ k <= 1 + 2 * (INR k * u).
Proof.
  intros u k Hu. induction k as [|k IH]; intro L; [simpl; lra|].
  rewrite S_INR in *. assert (Lk : INR k * u <= 1 / 2) by lra. specialize (IH Lk). cbn [pow].
  assert ((1 + u) * (1 + u) ^ k <= (1 + u) * (1 + 2 * (INR k * u))) by (apply Rmult_le_compat_l; lra).
  assert (u * (INR k * u) <= u * (1 / 2)) by (apply Rmult_le_compat_l; lra). lra.
Qed.

(** [float64]. *)
Lemma trapz_float64 : forall t x y, length x = length y ->
  Forall (bin_fmt (-1074) 53) x -> Forall (bin_fmt (-1074) 53) y -> ascending x ->
  orders (Nat.pred (length x)) t -> INR (height t + 4) <= 2 ^ 52 ->
  Rabs (fl_trapz (bin_rnd (-1074) 53) t x y - trap x y) <=
    INR (height t + 4) * / 2 ^ 52 * trap x (map Rabs y) + INR (length x) * / 2 ^ 1072.
Proof.
  intros t x y L Fx Fy A O Hh.
  assert (B := trapz_error _ _ _ _ (bin_rounding (-1074) 53 eq_refl) t x y L Fx Fy A O).
  eapply Rle_trans; [exact B|].
  set (u := bpow radix2 (- (53))) in *. set (eta := bpow radix2 (-1074 - 1)) in *.
  assert (Eu : u = / 2 ^ 53) by (unfold u; rewrite bpow_opp; f_equal; rewrite pow_IZR; reflexivity).
  assert (Ee : 4 * eta = / 2 ^ 1073).
  { unfold eta. change 4 with (bpow radix2 2). rewrite <- bpow_plus. change (2 + (-1074 - 1))%Z with (- (1073))%Z.
    rewrite bpow_opp. f_equal. rewrite pow_IZR. unfold bpow. f_equal. }
  assert (Hu : 0 <= u) by apply bpow_ge_0.
  assert (He : 0 <= eta) by apply bpow_ge_0.
  assert (P52 : 0 < 2 ^ 52) by (apply pow_lt; lra).
  assert (E52 : 2 * u = / 2 ^ 52).
  { rewrite Eu. replace (2 ^ 53) with (2 * 2 ^ 52) by (simpl; ring). field. }
  assert (Hk : INR (height t + 4) * u <= 1 / 2).
  { assert (INR (height t + 4) * (2 * u) <= 2 ^ 52 * (2 * u)) by (apply Rmult_le_compat_r; lra).
    rewrite E52 in H at 2. rewrite Rinv_r in H by lra. lra. }
  assert (T : 0 <= trap x (map Rabs y)).
  { rewrite <- trap_terms_sum. assert (P : Forall (Rle 0) (trap_terms x (map Rabs y))).
    { apply trap_terms_pos; [exact A|]. apply Forall_map, Forall_forall. intros; apply Rabs_pos. }
    induction P; [apply Rle_refl | unfold rsum in *; simpl; lra]. }
  apply Rplus_le_compat.
  - apply Rmult_le_compat_r; [exact T|]. assert (S := pow_small u (height t + 4) Hu Hk). rewrite <- E52. lra.
  - assert (Hk' : INR (height t) * u <= 1 / 2).
    { assert (INR (height t) * u <= INR (height t + 4) * u); [|lra]. apply Rmult_le_compat_r; [exact Hu|]. apply le_INR; lia. }
    assert (S := pow_small u (height t) Hu Hk').
    assert (S2 : (1 + u) ^ height t <= 2) by lra.
    assert (Hn : INR (Nat.pred (length x)) <= INR (length x)) by (apply le_INR; lia).
    assert (Hn0 := pos_INR (Nat.pred (length x))).
    replace (/ 2 ^ 1072) with (2 * / 2 ^ 1073) by (replace (2 ^ 1073) with (2 * 2 ^ 1072) by (simpl; ring); field; apply pow_nonzero; lra).
    rewrite <- Ee.
    assert ((1 + u) ^ height t * (INR (Nat.pred (length x)) * (2 * eta)) <= 2 * (INR (length x) * (2 * eta))).
    { apply Rmult_le_compat; [apply pow_le; lra | apply Rmult_le_pos; lra | exact S2 | apply Rmult_le_compat_r; lra]. }
    assert (0 <= INR (length x) * eta) by (apply Rmult_le_pos; lra). lra.
Qed.
