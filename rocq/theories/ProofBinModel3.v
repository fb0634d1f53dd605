(** A correctly rounded library satisfies what the properties of models in floating-point formats ask. *)
From Coq Require Import Reals List ZArith Bool Lia Lra.
From Flocq Require Import Core IEEE754.BinarySingleNaN.
From Verif Require Import SpecGrid SpecRnd SpecRnd2 SpecBin SpecBin64 SpecBinModel ModelRnd ModelRnd2 ModelBin64 ModelBinModel ProofRnd ProofBin64 ProofBin64b ProofBinModel ProofBinModel2.
From Coq Require Import List.
Import ListNotations.
Local Open Scope R_scope.

Section Format.
Variable fm : format.
Local Notation rnd := (near fm).
Local Notation pow2 := (Raux.bpow radix2).

Lemma nearest_exact : forall x, (fits fm (rnd x) -> represents (nearest fm x) (rnd x)) /\ (largest fm <= Rabs (rnd x) -> ~ finite (nearest fm x)).
Proof.
  intro x. set (m := ZnearestE (scaled_mantissa radix2 (FLT_exp (bottom fm) (digits fm)) x)). set (e := cexp radix2 (FLT_exp (bottom fm) (digits fm)) x).
  assert (E : rnd x = IZR m * pow2 e) by reflexivity.
  assert (F : bin_fmt (bottom fm) (digits fm) (IZR m * pow2 e)) by (rewrite <- E; apply (rd_fmt _ _ _ _ (r64 fm))).
  split; intro L; rewrite E in L; unfold nearest; fold m e; [rewrite E; apply lit_rep; assumption|].
  assert (C := binary_normalize_correct (digits fm) (top fm) (digits_pos fm) (digits_top fm) mode_NE m e false). cbv zeta in C.
  change (F2R (Float radix2 m e)) with (IZR m * pow2 e) in C.
  assert (I : round radix2 (SpecFloat.fexp (digits fm) (top fm)) (round_mode mode_NE) (IZR m * pow2 e) = IZR m * pow2 e)
    by (apply round_generic; [apply valid_rnd_round_mode | exact F]).
  rewrite I, Rlt_bool_false in C by exact L. eapply nan_inf, C.
Qed.
Lemma nearest_agrees : forall x, agrees (nearest fm x) (rnd x).
Proof. intros x F. destruct (nearest_exact x) as [U V]. destruct (Rlt_or_le (Rabs (rnd x)) (largest fm)) as [L|L]; [apply U, L | destruct (V L F)]. Qed.

Lemma tiny_zero : forall x, 0 < x < pow2 (bottom fm - 1) -> rnd x = 0.
Proof.
  intros x [P L]. assert (N : x <> 0) by lra. unfold near, bin_rnd.
  assert (Mg : (mag radix2 x <= bottom fm - 1)%Z) by (apply mag_le_bpow; [exact N | rewrite Rabs_pos_eq by lra; exact L]).
  apply (round_N_small_pos radix2 (FLT_exp (bottom fm) (digits fm)) (fun z => negb (Z.even z)) x (mag radix2 x)).
  - destruct (mag radix2 x) as [ex Hx]. cbn. assert (Hy := Hx N). rewrite Rabs_pos_eq in Hy by lra. exact Hy.
  - unfold FLT_exp. lia.
Qed.
Lemma exp_pow2 : forall k : Z, pow2 k = exp (IZR k * ln 2).
Proof. intro k. rewrite bpow_exp. reflexivity. Qed.
Lemma pow_over : forall k : Z, (0 <= k)%Z -> (k < 2 ^ k)%Z.
Proof. intros k P. apply Z.pow_gt_lin_r; lia. Qed.
Lemma exp_gone : forall y, y <= - largest fm -> rnd (exp y) = 0.
Proof.
  intros y L. apply tiny_zero. split; [apply exp_pos|]. rewrite exp_pow2. apply exp_increasing. eapply Rle_lt_trans; [exact L|].
  assert (F := facts fm). assert (L2 : 0 < ln 2 < 1).
  { split; [rewrite <- ln_1; apply ln_increasing; lra|]. replace 1 with (ln (exp 1)) by apply ln_exp. apply ln_increasing; [lra|].
    assert (E := exp_ineq1 1 ltac:(lra)). lra. }
  unfold largest. assert (B : IZR (2 * top fm) < pow2 (top fm)).
  { rewrite <- IZR_Zpower by lia. apply IZR_lt. change (Z.pow radix2 (top fm)) with (2 ^ top fm)%Z. replace (top fm) with (1 + (top fm - 1))%Z at 2 by lia. rewrite Z.pow_add_r by lia.
    assert (Q := pow_over (top fm - 1)). replace (top fm - 1)%Z with (1 + (top fm - 2))%Z in * by lia. rewrite Z.pow_add_r by lia.
    assert (Q2 := pow_over (top fm - 2)). assert (Q3 : (0 <= top fm - 2)%Z) by lia. specialize (Q2 Q3). lia. }
  assert (Fi : IZR (- (2 * top fm)) <= IZR (bottom fm - 1)) by (apply IZR_le; lia).
  rewrite opp_IZR in Fi. assert (Nb : IZR (bottom fm - 1) < 0) by (apply IZR_lt; lia). nra.
Qed.
Lemma exp_one : forall y, y <= 0 -> 0 <= rnd (exp y) <= 1.
Proof.
  intros y L. assert (P := exp_pos y). assert (Q : exp y <= 1).
  { destruct L as [L|L]; [left; rewrite <- exp_0; apply exp_increasing, L | rewrite L, exp_0; lra]. }
  split; [rewrite <- (rnd0 fm) at 1; apply (rd_mono _ _ _ _ (r64 fm)); lra|].
  assert (F := facts fm). assert (E : rnd (pow2 0) = 1) by (exact (rd_id _ _ _ _ (r64 fm) _ (bpow_fmt fm 0 ltac:(lia)))).
  rewrite <- E. apply (rd_mono _ _ _ _ (r64 fm)). exact Q.
Qed.
Lemma ideal_value : forall x, finite x -> ideal_exp fm x = nearest fm (exp (value x)).
Proof. intros [s|s| |s m e H] F; try reflexivity; discriminate F. Qed.
Lemma ideal_damping : damping (ideal_exp fm) (fun y => rnd (exp y)).
Proof.
  split; [split; [|split; [|split; [|split]]] | split].
  - intros x F Fe. rewrite ideal_value in Fe |- * by exact F. apply nearest_agrees, Fe.
  - split; reflexivity.
  - exact exp_gone.
  - discriminate.
  - discriminate.
  - intros x F L. rewrite ideal_value by exact F. apply (proj1 (nearest_exact _)). unfold fits. destruct (exp_one _ L) as [A B].
    rewrite Rabs_pos_eq by exact A. eapply Rle_lt_trans; [exact B|]. apply (pow_lt_largest fm 0). assert (Fc := facts fm). lia.
  - exact exp_one.
Qed.
Lemma ideal_library : library2 (ideal_pow fm) (fun x y => rnd (Rpower x y)).
Proof. intros x y _ _ F. apply nearest_agrees, F. Qed.
Lemma rnd_int_le : forall k x, (Z.abs k < 2 ^ 53)%Z -> IZR k <= x -> IZR k <= rnd x.
Proof. intros k x L X. assert (E : rnd (IZR k) = IZR k) by (destruct (lit_int fm k L) as [_ <-]; apply (rd_id _ _ _ _ (r64 fm)), value_fmt). rewrite <- E. apply (rd_mono _ _ _ _ (r64 fm)), X. Qed.
Lemma rnd_le_int : forall k x, (Z.abs k < 2 ^ 53)%Z -> x <= IZR k -> rnd x <= IZR k.
Proof. intros k x L X. assert (E : rnd (IZR k) = IZR k) by (destruct (lit_int fm k L) as [_ <-]; apply (rd_id _ _ _ _ (r64 fm)), value_fmt). rewrite <- E. apply (rd_mono _ _ _ _ (r64 fm)), X. Qed.
Lemma int_fits : forall k x, (0 <= k < 2 ^ 53)%Z -> 0 <= x <= IZR k -> fits fm x.
Proof.
  intros k x L [X0 X]. unfold fits. rewrite Rabs_pos_eq by exact X0. apply Rle_lt_trans with (IZR (2 ^ 53)); [eapply Rle_trans; [exact X | apply IZR_le; lia]|].
  change (IZR (2 ^ 53)) with (pow2 53). apply pow_lt_largest. assert (F := facts fm). lia.
Qed.
Lemma pi_rep : represents (ideal_pi fm) (rnd PI) /\ 3 <= rnd PI <= 4.
Proof.
  assert (A := PI2_3_2). assert (B := PI_4). assert (C : 3 <= rnd PI <= 4) by (split; [apply (rnd_int_le 3); [reflexivity | lra] | apply (rnd_le_int 4); [reflexivity | lra]]).
  split; [apply nearest_exact, (int_fits 4); [lia | lra] | exact C].
Qed.
Lemma ideal_circle : circle (ideal_pow fm) (ideal_pi fm) (b_lit 3 (-1)).
Proof.
  destruct pi_rep as [[F V] B]. split; [exact F|]. split; [rewrite V; lra|]. unfold ideal_pow. apply nearest_exact.
  rewrite V, (proj2 (half_rep fm 3 eq_refl)).
  assert (P : 0 < Rpower (rnd PI) (3 / 2) <= 16).
  { split; [apply exp_pos|]. apply Rle_trans with (Rpower 4 2).
    - apply Rle_trans with (Rpower (rnd PI) 2); [apply Rle_Rpower; lra | apply Rle_Rpower_l; lra].
    - replace 2 with (INR 2) by (simpl; ring). rewrite Rpower_pow by lra. simpl. lra. }
  apply (int_fits 16); [lia|]. split; [apply (rnd_int_le 0); [reflexivity | lra] | apply (rnd_le_int 16); [reflexivity | lra]].
Qed.
End Format.

(** Distances whose square overflows. *)
Section Far.
Variable fm : format.
Variable r : number fm.
Hypothesis Fr : finite r.
Hypothesis Hr : largest fm <= Rabs (near fm (value r * value r)).
Lemma far_square : b_mul r r = B754_infinity false.
Proof.
  assert (C := Bmult_correct (digits fm) (top fm) (digits_pos fm) (digits_top fm) mode_NE r r). rewrite Rlt_bool_false in C by exact Hr.
  change (Bmult mode_NE r r) with (b_mul r r) in C. rewrite xorb_nilpotent in C.
  destruct (b_mul r r) as [s|s| |s m e H]; cbn in C; try discriminate C. injection C as ->. reflexivity.
Qed.
Lemma far_p : forall bexp bpow pi norm a, ~ finite (b_elem bexp bpow pi norm true r a).
Proof.
  intros bexp bpow pi norm a F. unfold b_elem in F. cbv zeta in F. rewrite far_square in F.
  assert (G : finite (b_mul (bexp (b_mul (Bopp a) (B754_infinity false))) (B754_infinity false))).
  { destruct norm; [|exact F]. apply div_finite in F; [|apply half_rep; reflexivity]. apply (mul_finite fm _ _ (proj1 F)). }
  apply mul_finite in G. discriminate (proj2 G).
Qed.
Lemma far_zero : forall bexp fexp bpow pi norm a, exponential bexp fexp -> finite a -> value a = 0 -> ~ finite (b_elem bexp bpow pi norm false r a).
Proof.
  intros bexp fexp bpow pi norm a (_ & _ & _ & _ & E) Fa Va F. unfold b_elem in F. cbv zeta in F. rewrite far_square in F.
  assert (Z : exists s, a = B754_zero s).
  { destruct a as [s|s| |s m e H]; [exists s; reflexivity | discriminate Fa | discriminate Fa|]. exfalso. unfold value in Va. cbn in Va.
    apply eq_0_F2R in Va. destruct s; discriminate Va. }
  destruct Z as [s ->]. change (b_mul (Bopp (B754_zero s)) (B754_infinity false)) with (B754_nan : number fm) in F. apply E.
  destruct norm; [apply (mul_finite fm _ _ F) | exact F].
Qed.
Lemma far_s : forall bexp fexp bpow pi a, exponential bexp fexp -> finite a -> 0 < value a -> represents (b_elem bexp bpow pi false false r a) 0.
Proof.
  intros bexp fexp bpow pi a (_ & E & _) Fa Pa. unfold b_elem. cbv zeta. rewrite far_square.
  destruct a as [s|s| |s m e H]; try (unfold value in Pa; cbn in Pa; lra). destruct s; [|exact E].
  exfalso. unfold value in Pa. cbn in Pa. assert (N := F2R_lt_0 radix2 (Float radix2 (Zneg m) e) eq_refl). change (F2R (Float radix2 (cond_Zopp true (Zpos m)) e)) with (F2R (Float radix2 (Zneg m) e)) in Pa. lra.
Qed.
End Far.
