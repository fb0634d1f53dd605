(** Derivatives with respect to the exponents in rounded arithmetic. *)
From Coquelicot Require Import Coquelicot.
From Coq Require Import Reals List ZArith Lia Lra.
From Verif Require Import XR SpecDens SpecRnd SpecRnd2 SpecSlope ModelRnd ModelRnd2 ModelSlope ProofRnd ProofRnd2 ProofRnd3 ProofRnd8.
From Coq Require Import List.
Import ListNotations.
Local Open Scope R_scope.

(** *** The derivative *)
Lemma slope_true : forall norm p a r, 0 < a -> is_derive (fun t : R => basis_fn norm p t r) a (basis_slope norm p a r).
Proof.
  intros norm p a r Ha. unfold basis_fn, basis_slope, basis_fn, norm_const, degree. assert (P := PI_RGT_0).
  assert (E : forall s, is_derive (fun t : R => Rpower t s) a (s / a * Rpower a s)).
  { intro s. unfold Rpower. auto_derive; [exact Ha|]. field. lra. }
  assert (G : is_derive (fun t : R => exp (- t * r ^ 2)) a (- r ^ 2 * exp (- a * r ^ 2))) by (auto_derive; [exact I | simpl; ring]).
  destruct norm, p.
  - evar_last. { apply (is_derive_mult (fun t : R => 2 / 3 * (Rpower t (5 / 2) / Rpower PI (3 / 2)) * r ^ 2) (fun t : R => exp (- t * r ^ 2))); [|exact G | intros; apply Rmult_comm].
      apply (is_derive_ext (fun t : R => scal (2 / 3 / Rpower PI (3 / 2) * r ^ 2) (Rpower t (5 / 2)))); [intro t; unfold scal; simpl; unfold mult; simpl; field; apply Rgt_not_eq, exp_pos|].
      apply (is_derive_scal (fun t : R => Rpower t (5 / 2))), E. }
    unfold plus, mult; simpl. field. split; [first [lra | apply Rgt_not_eq, exp_pos] | first [lra | apply Rgt_not_eq, exp_pos]].
  - evar_last. { apply (is_derive_mult (fun t : R => Rpower (t / PI) (3 / 2) * 1) (fun t : R => exp (- t * r ^ 2))); [|exact G | intros; apply Rmult_comm].
      apply (is_derive_ext (fun t : R => Rpower (t / PI) (3 / 2))); [intro t; symmetry; apply Rmult_1_r|]. unfold Rpower. auto_derive; [apply Rmult_lt_0_compat; [lra | apply Rinv_0_lt_compat, P]|]. reflexivity. }
    unfold plus, mult, Rpower; simpl. change (a * / PI) with (a / PI). field. lra.
  - evar_last. { apply (is_derive_mult (fun t : R => 1 * r ^ 2) (fun t : R => exp (- t * r ^ 2))); [apply is_derive_const | exact G | intros; apply Rmult_comm]. }
    unfold plus, mult, zero; simpl. ring.
  - evar_last. { apply (is_derive_mult (fun t : R => 1 * 1) (fun t : R => exp (- t * r ^ 2))); [apply is_derive_const | exact G | intros; apply Rmult_comm]. }
    unfold plus, mult, zero; simpl. ring.
Qed.
Lemma powers : forall a s, 0 < a -> Rpower a (s + 1) = a * Rpower a s.
Proof. intros a s Ha. rewrite Rpower_plus, Rpower_1 by exact Ha. ring. Qed.
Lemma second_s : forall a, 0 < a -> 3 / 2 / a * norm_const false a = 3 / 2 * Rpower a (1 / 2) / Rpower PI (3 / 2).
Proof.
  intros a Ha. assert (P := PI_RGT_0). unfold norm_const. assert (D : Rpower (a / PI) (3 / 2) = Rpower a (3 / 2) / Rpower PI (3 / 2)).
  { apply Rmult_eq_reg_r with (Rpower PI (3 / 2)); [|apply Rgt_not_eq, exp_pos]. rewrite Rpower_mult_distr by (try apply Rdiv_lt_0_compat; lra).
    replace (a / PI * PI) with a by (field; lra). field. apply Rgt_not_eq, exp_pos. }
  rewrite D. replace (3 / 2) with (1 / 2 + 1) at 2 by field. rewrite powers by exact Ha. field. split; [apply Rgt_not_eq, exp_pos | lra].
Qed.
Lemma second_p : forall a, 0 < a -> 5 / 2 / a * norm_const true a = 5 * Rpower a (3 / 2) / (3 * Rpower PI (3 / 2)).
Proof.
  intros a Ha. unfold norm_const. replace (5 / 2) with (3 / 2 + 1) at 2 by field. rewrite powers by exact Ha. field. split; [apply Rgt_not_eq, exp_pos | lra].
Qed.

(** *** Rounding *)
Section Model.
Context (u eta : R) (fmt : R -> Prop) (rnd : R -> R) (H : rounding u eta fmt rnd) (Hu8 : u <= 1 / 8).
Notation within := (within u).
Notation q := (/ (1 - u)).
Local Notation q_pow1 := (q_pow1 u eta fmt rnd H Hu8).
Local Notation q_ge := (q_ge u eta fmt rnd H Hu8).
Local Notation u0 := (u0 u eta fmt rnd H).
Local Notation after := (after q eta).

Lemma eta0 : 0 <= eta.
Proof. assert (E := rd_err _ _ _ _ H 0). assert (P := Rabs_pos (rnd 0 - 0)). rewrite Rabs_R0 in E. lra. Qed.
Lemma q1 : 1 <= q.
Proof. assert (G := q_ge). assert (U := u0). lra. Qed.
(** [m'] approximates [m] of size at most [F] up to [k] roundings, the error [A] of the Gaussian, and [e]. *)
Definition apx (A : R) (k : nat) (e m' m F : R) : Prop := 0 <= e /\ Rabs m <= F /\ Rabs (m' - m) <= (q ^ k * (1 + A) - 1) * F + e.

Lemma apx_of : forall A k e m' m F, 0 <= e -> appr u A k e m' m F -> apx A k e m' m F.
Proof. intros A k e m' m F P [B C]. split; [exact P|]. split; [rewrite Rabs_pos_eq; lra | lra]. Qed.
Lemma apx_abs : forall A k e m' m F, apx A k e m' m F -> Rabs m' <= q ^ k * (1 + A) * F + e.
Proof. intros A k e m' m F (P & B & C). replace m' with (m + (m' - m)) by ring. eapply Rle_trans; [apply Rabs_triang|]. lra. Qed.
Lemma apx_F : forall A k e m' m F, apx A k e m' m F -> 0 <= F.
Proof. intros A k e m' m F (_ & B & _). assert (P := Rabs_pos m). lra. Qed.
Lemma apx_weaken : forall A k k' e m' m F, 0 <= A -> (k <= k')%nat -> apx A k e m' m F -> apx A k' e m' m F.
Proof.
  intros A k k' e m' m F HA L X. assert (HF := apx_F _ _ _ _ _ _ X). destruct X as (P & B & C). split; [exact P|]. split; [exact B|]. eapply Rle_trans; [exact C|].
  apply Rplus_le_compat_r. apply Rmult_le_compat_r; [exact HF|]. assert (q ^ k * (1 + A) <= q ^ k' * (1 + A)); [|lra]. apply Rmult_le_compat_r; [lra|]. apply (q_mono u eta fmt rnd H Hu8), L.
Qed.
Lemma apx_rnd : forall A k e m' m F, 0 <= A -> apx A k e m' m F -> apx A (S k) (after e) (rnd m') m F.
Proof.
  intros A k e m' m F HA X. assert (B := apx_abs _ _ _ _ _ _ X). assert (E0 := eta0). assert (Q1 := q1). destruct X as (P & X & Y). unfold SpecSlope.after.
  split; [assert (0 <= q * e) by (apply Rmult_le_pos; lra); lra|]. split; [exact X|].
  assert (E := rd_err _ _ _ _ H m'). assert (G := q_ge). assert (U := u0).
  replace (rnd m' - m) with ((rnd m' - m') + (m' - m)) by ring. eapply Rle_trans; [apply Rabs_triang|].
  assert (u * Rabs m' <= (q - 1) * (q ^ k * (1 + A) * F + e)) by (apply Rmult_le_compat; [exact U | apply Rabs_pos | lra | exact B]).
  cbn [pow]. lra.
Qed.
Lemma apx_opp : forall A k e m' m F, apx A k e m' m F -> apx A k e (- m') (- m) F.
Proof. intros A k e m' m F (P & B & C). split; [exact P|]. split; [rewrite Rabs_Ropp; exact B|]. replace (- m' - - m) with (- (m' - m)) by ring. rewrite Rabs_Ropp. exact C. Qed.
(** Products, where the second factor has no Gaussian. *)
Lemma apx_mul : forall A k j e d m' m F n' n G, 0 <= A -> apx A k e m' m F -> apx 0 j d n' n G ->
  apx A (k + j) (e * (q ^ j * G + d) + q ^ k * (1 + A) * F * d) (m' * n') (m * n) (F * G).
Proof.
  intros A k j e d m' m F n' n G HA X Y. assert (PF := apx_F _ _ _ _ _ _ X). assert (PG := apx_F _ _ _ _ _ _ Y). assert (Bn := apx_abs _ _ _ _ _ _ Y).
  destruct X as (X0 & X1 & X2). destruct Y as (Y0 & Y1 & Y2). assert (Pj := q_pow1 j). assert (Pk := q_pow1 k).
  split. { apply Rplus_le_le_0_compat; repeat apply Rmult_le_pos; try lra. apply Rplus_le_le_0_compat; [apply Rmult_le_pos; lra | lra]. }
  split; [rewrite Rabs_mult; apply Rmult_le_compat; try apply Rabs_pos; assumption|].
  replace (m' * n' - m * n) with ((m' - m) * n' + m * (n' - n)) by ring. eapply Rle_trans; [apply Rabs_triang|]. rewrite !Rabs_mult.
  assert (T1 : Rabs (m' - m) * Rabs n' <= ((q ^ k * (1 + A) - 1) * F + e) * (q ^ j * (1 + 0) * G + d)) by (apply Rmult_le_compat; try apply Rabs_pos; assumption).
  assert (T2 : Rabs m * Rabs (n' - n) <= F * ((q ^ j * (1 + 0) - 1) * G + d)) by (apply Rmult_le_compat; try apply Rabs_pos; assumption).
  rewrite pow_add. lra.
Qed.
(** The second factor does not underflow. *)
Lemma apx_mul0 : forall A k j e m' m F n' n G, 0 <= A -> apx A k e m' m F -> apx 0 j 0 n' n G ->
  apx A (k + j) (e * (q ^ j * G)) (m' * n') (m * n) (F * G).
Proof.
  intros A k j e m' m F n' n G HA X Y. assert (Z := apx_mul _ _ _ _ _ _ _ _ _ _ _ HA X Y).
  replace (e * (q ^ j * G)) with (e * (q ^ j * G + 0) + q ^ k * (1 + A) * F * 0) by ring. exact Z.
Qed.
Lemma apx_within : forall j f' f, 0 <= f -> within j f' f -> apx 0 j 0 f' f f.
Proof. intros j f' f P W. assert (D := within_diff u eta fmt rnd H Hu8 j f' f P W). split; [lra|]. split; [rewrite Rabs_pos_eq; lra | lra]. Qed.
Lemma apx_id : forall c, apx 0 0 0 c c (Rabs c).
Proof. intro c. split; [lra|]. split; [lra|]. rewrite Rminus_diag_eq, Rabs_R0 by reflexivity. simpl. lra. Qed.
Lemma apx_add : forall A k e d m' m F n' n G, apx A k e m' m F -> apx A k d n' n G -> apx A k (e + d) (m' + n') (m + n) (F + G).
Proof.
  intros A k e d m' m F n' n G (X0 & X1 & X2) (Y0 & Y1 & Y2). split; [lra|]. split; [eapply Rle_trans; [apply Rabs_triang | lra]|].
  replace (m' + n' - (m + n)) with ((m' - m) + (n' - n)) by ring. eapply Rle_trans; [apply Rabs_triang | lra].
Qed.
Lemma within_inv : forall j a b, 0 < a -> 0 < b -> within j a b -> within j (/ a) (/ b).
Proof.
  intros j a b Pa Pb W. assert (E := within_quot u Hu8 0 j 1 1 a b). unfold Rdiv in E. rewrite !Rmult_1_l in E. apply E; try lra; [|exact W]. split; simpl; lra.
Qed.

Section Norm.
Context (lo : R) (k : nat) (fpow : R -> R -> R) (pi : R).
Hypothesis (Hlo : 0 < lo <= 1 / 2) (Nr : normal u lo rnd) (Pw : pow_error u lo k fpow)
  (Hpi : Rabs (pi - PI) <= u * PI) (Hk : 1 / 2 <= (1 - u) ^ (2 * k + 2)).
Context (v z : R) (fexp : R -> R) (X : exp_error v z fexp) (M : R) (HM : 0 <= M).
Notation A := (gauss_error u eta v z M).

Lemma pi_power : 1 <= Rpower PI (3 / 2) /\ 0 < fpow pi (3 / 2) /\ within (k + 2) (fpow pi (3 / 2)) (Rpower PI (3 / 2)) /\ 1 / 2 <= fpow pi (3 / 2).
Proof.
  destruct (pi_within u eta fmt rnd H Hu8 pi Hpi) as [P1 Wpi]. destruct Pw as [Pn Pp]. assert (P3 : 3 < PI) by (generalize PI2_3_2; lra).
  assert (HB : 1 <= Rpower PI (3 / 2)) by (apply Rpower_ge1; lra).
  assert (LB : 1 <= Rpower pi (3 / 2)) by (apply Rpower_ge1; lra).
  assert (W2 : within k (fpow pi (3 / 2)) (Rpower pi (3 / 2))) by (apply Pp; lra).
  assert (W3 : within 2 (Rpower pi (3 / 2)) (Rpower PI (3 / 2))) by (apply (within_Rpower u eta fmt rnd H Hu8 1); try lra; [simpl; lra | exact Wpi]).
  assert (W4 := within_tr u Hu8 _ _ _ _ _ W2 W3).
  assert (Hf : 0 < fpow pi (3 / 2)) by (eapply (within_gt u Hu8); [|exact W4]; lra).
  split; [exact HB|]. split; [exact Hf|]. split; [exact W4|]. destruct W4 as [W4 _].
  assert (U := u0). assert (Mo : (1 - u) ^ (2 * k + 2) <= (1 - u) ^ (k + 2)).
  { replace (2 * k + 2)%nat with (k + (k + 2))%nat by lia. rewrite pow_add. assert (P : 0 < (1 - u) ^ (k + 2)) by (apply pow_lt; lra).
    assert (L : (1 - u) ^ k <= 1) by (apply Rle_trans with (1 ^ k); [apply pow_incr; lra | rewrite pow1; lra]). rewrite <- (Rmult_1_l ((1 - u) ^ (k + 2))) at 2. apply Rmult_le_compat_r; lra. }
  assert (1 / 2 * 1 <= (1 - u) ^ (k + 2) * Rpower PI (3 / 2)) by (apply Rmult_le_compat; lra). lra.
Qed.
Lemma slope_apx : forall norm p r c a, 0 <= a <= M -> smooth lo norm p r a ->
  apx A (slope_roundings norm k) (slope_floor q eta A k norm p r c a) (fl_slope rnd fexp fpow pi norm p r c a) (c * basis_slope norm p a r) (Rabs c * reach norm p r a).
Proof.
  intros norm p r c a Ha (Sf & Sr & Sp). assert (HA := A_pos u eta fmt rnd H v z fexp X M HM). assert (Q1 := q1). assert (E1 := eta0).
  assert (Ef : 0 <= eta * (2 + q ^ (2 * k + 5) * size norm p a)).
  { assert (T := q_pow1 (2 * k + 5)). apply Rmult_le_pos; [exact E1|]. assert (0 <= size norm p a) by (unfold size, norm_const; destruct norm, p; try lra; [|left; apply exp_pos];
      apply Rmult_le_pos; [lra|]; left; apply Rdiv_lt_0_compat; apply exp_pos). assert (0 <= q ^ (2 * k + 5) * size norm p a) by (apply Rmult_le_pos; lra). lra. }
  assert (E0 := apx_of _ _ _ _ _ _ Ef (elem_appr u eta fmt rnd H Hu8 lo k fpow pi Hlo Nr Pw Hpi Hk v z fexp X M HM norm p r a Ha Sf)).
  assert (Er : r ^ 2 = r * r) by (simpl; ring). assert (R0 : 0 <= r * r) by apply Rle_0_sqr.
  assert (Wr := apx_within _ _ _ R0 (square_within u eta fmt rnd H Hu8 lo Nr r Sr)).
  assert (X1 := apx_rnd _ _ _ _ _ _ HA (apx_mul0 _ _ _ _ _ _ _ _ _ _ HA (apx_rnd _ _ _ _ _ _ HA (apx_mul0 _ _ _ _ _ _ _ _ _ _ HA (apx_opp _ _ _ _ _ _ E0) Wr)) (apx_id c))).
  rewrite pow_1, pow_O, Rmult_1_l in X1. fold (first_floor q eta k norm p r c a) in X1.
  assert (K1 : (S (S (roundings norm p k + 1) + 0) <= if norm then 2 * k + 10 else 5)%nat) by (unfold roundings; destruct norm, p; lia).
  unfold fl_slope, slope_roundings, basis_slope, reach, slope_floor. cbv zeta. rewrite Er. destruct norm.
  - destruct Sf as [S1 _]. destruct (S1 eq_refl) as [A0 _]. assert (Lp := Sp eq_refl). destruct pi_power as (HB & Hf & Wf & Lf).
    assert (G0 := apx_of _ _ _ _ _ _ (Rle_refl 0) (gauss_appr u eta fmt rnd H Hu8 v z fexp X M a r Ha)).
    assert (Pw' : forall s, lo <= Rpower a s -> apx 0 (k + 1) eta (rnd (c * fpow a s)) (c * Rpower a s) (Rabs c * Rpower a s)).
    { intros s L. replace (k + 1)%nat with (S (0 + k)) by lia. assert (T : apx 0 k 0 (fpow a s) (Rpower a s) (Rpower a s)) by (apply apx_within; [left; apply exp_pos | apply Pw; assumption]).
      assert (Y := apx_rnd _ _ _ _ _ _ (Rle_refl 0) (apx_mul0 _ _ _ _ _ _ _ _ _ _ (Rle_refl 0) (apx_id c) T)). rewrite Rmult_0_l in Y.
      unfold SpecSlope.after in Y. rewrite Rmult_0_r, Rplus_0_l in Y. exact Y. }
    assert (Y : apx A (2 * k + 10) (second_floor q eta A k p r c a) (if p then rnd (rnd (rnd (5 * rnd (fexp (rnd (- a * rnd (r * r))) * rnd (r * r))) * rnd (c * fpow a (3 / 2))) / rnd (3 * fpow pi (3 / 2)))
             else rnd (rnd (rnd (3 / 2 * fexp (rnd (- a * rnd (r * r)))) * rnd (c * fpow a (1 / 2))) / fpow pi (3 / 2)))
             (c * (degree p / a * basis_fn true p a r)) (Rabs c * (degree p / a * top true p r a))).
    { unfold degree, basis_fn, top, size, second_floor. cbv zeta. destruct p.
      - assert (Wt : within (1 + (k + 2)) (rnd (3 * fpow pi (3 / 2))) (3 * Rpower PI (3 / 2))).
        { eapply (within_tr u Hu8); [apply (within_normal u eta fmt rnd H Hu8); [lra | apply Nr; rewrite Rabs_pos_eq; lra]|]. destruct Wf as [W1 W2]. split; lra. }
        assert (Pt : 0 < rnd (3 * fpow pi (3 / 2))) by (eapply (within_gt u Hu8); [|exact Wt]; lra).
        assert (T0 : 0 < 3 * Rpower PI (3 / 2)) by lra.
        assert (Wi := apx_within _ _ _ (Rlt_le _ _ (Rinv_0_lt_compat _ T0)) (within_inv _ _ _ Pt T0 Wt)).
        assert (G1 := apx_rnd _ _ _ _ _ _ HA (apx_mul0 _ _ _ _ _ _ _ _ _ _ HA G0 Wr)).
        rewrite Rmult_0_l in G1. unfold SpecSlope.after at 1 in G1. rewrite Rmult_0_r, Rplus_0_l in G1.
        assert (G2 := apx_rnd _ _ _ _ _ _ HA (apx_mul0 _ _ _ _ _ _ _ _ _ _ HA G1 (apx_id 5))). rewrite (Rabs_pos_eq 5), pow_O, Rmult_1_l in G2 by lra.
        rewrite (Rmult_comm (rnd (fexp _ * _)) 5) in G2.
        assert (G3 := apx_rnd _ _ _ _ _ _ HA (apx_mul _ _ _ _ _ _ _ _ _ _ _ HA G2 (Pw' _ Lp))).
        assert (G4 := apx_rnd _ _ _ _ _ _ HA (apx_mul0 _ _ _ _ _ _ _ _ _ _ HA G3 Wi)).
        assert (Q := second_p a A0). rewrite Er.
        replace (c * (5 / 2 / a * (norm_const true a * (r * r) * exp (- a * (r * r))))) with (5 / 2 / a * norm_const true a * (c * (r * r) * exp (- a * (r * r)))) by ring.
        replace (Rabs c * (5 / 2 / a * (norm_const true a * (r * r)))) with (5 / 2 / a * norm_const true a * (Rabs c * (r * r))) by ring. rewrite Q.
        eapply apx_weaken; [exact HA | |]; cycle 1.
        + replace (5 * Rpower a (3 / 2) / (3 * Rpower PI (3 / 2)) * (c * (r * r) * exp (- a * (r * r)))) with (exp (- a * (r * r)) * (r * r) * 5 * (c * Rpower a (3 / 2)) * / (3 * Rpower PI (3 / 2))) by (unfold Rdiv; ring).
          replace (5 * Rpower a (3 / 2) / (3 * Rpower PI (3 / 2)) * (Rabs c * (r * r))) with (1 * (r * r) * 5 * (Rabs c * Rpower a (3 / 2)) * / (3 * Rpower PI (3 / 2))) by (unfold Rdiv; ring).
          replace (k + 3)%nat with (1 + (k + 2))%nat by lia. replace (q ^ 3 * (1 + A) * (r * r * 5) * eta) with (q ^ S (S (0 + 1) + 0) * (1 + A) * (1 * (r * r) * 5) * eta) by (cbn [pow Nat.add]; ring).
          exact G4.
        + lia.
      - assert (T0 : 0 < Rpower PI (3 / 2)) by lra.
        assert (Wf3 : within (k + 3) (fpow pi (3 / 2)) (Rpower PI (3 / 2))).
        { destruct Wf as [W1 W2]. replace (k + 3)%nat with (S (k + 2)) by lia. unfold SpecRnd.within in *. assert (U := u0). assert (0 < (1 - u) ^ (k + 2)) by (apply pow_lt; lra).
          cbn [pow]. split; nra. }
        assert (Wi := apx_within _ _ _ (Rlt_le _ _ (Rinv_0_lt_compat _ T0)) (within_inv _ _ _ Hf T0 Wf3)).
        assert (G2 := apx_rnd _ _ _ _ _ _ HA (apx_mul0 _ _ _ _ _ _ _ _ _ _ HA G0 (apx_id (3 / 2)))). rewrite (Rabs_pos_eq (3 / 2)), Rmult_0_l in G2 by lra.
        unfold SpecSlope.after at 1 in G2. rewrite Rmult_0_r, Rplus_0_l in G2. rewrite (Rmult_comm (fexp _) (3 / 2)) in G2.
        assert (G3 := apx_rnd _ _ _ _ _ _ HA (apx_mul _ _ _ _ _ _ _ _ _ _ _ HA G2 (Pw' _ Lp))).
        assert (G4 := apx_rnd _ _ _ _ _ _ HA (apx_mul0 _ _ _ _ _ _ _ _ _ _ HA G3 Wi)).
        assert (Q := second_s a A0). rewrite Er.
        replace (c * (3 / 2 / a * (norm_const false a * 1 * exp (- a * (r * r))))) with (3 / 2 / a * norm_const false a * (c * exp (- a * (r * r)))) by ring.
        replace (Rabs c * (3 / 2 / a * (norm_const false a * 1))) with (3 / 2 / a * norm_const false a * Rabs c) by ring. rewrite Q.
        eapply apx_weaken; [exact HA | |]; cycle 1.
        + replace (3 / 2 * Rpower a (1 / 2) / Rpower PI (3 / 2) * (c * exp (- a * (r * r)))) with (exp (- a * (r * r)) * (3 / 2) * (c * Rpower a (1 / 2)) * / Rpower PI (3 / 2)) by (unfold Rdiv; ring).
          replace (3 / 2 * Rpower a (1 / 2) / Rpower PI (3 / 2) * Rabs c) with (1 * (3 / 2) * (Rabs c * Rpower a (1 / 2)) * / Rpower PI (3 / 2)) by (unfold Rdiv; ring).
          replace (q * (1 + A) * (3 / 2) * eta) with (q ^ S (0 + 0) * (1 + A) * (1 * (3 / 2)) * eta) by (cbn [pow Nat.add]; ring).
          exact G4.
        + lia. }
    assert (X2 := apx_rnd _ _ _ _ _ _ HA (apx_add _ _ _ _ _ _ _ _ _ _ (apx_weaken _ _ _ _ _ _ _ HA K1 X1) Y)).
    replace (S (2 * k + 10))%nat with (2 * k + 11)%nat in X2 by lia.
    replace (c * ((- (r * r) + degree p / a) * basis_fn true p a r)) with (- basis_fn true p a r * (r * r) * c + c * (degree p / a * basis_fn true p a r)) by ring.
    replace (Rabs c * ((r * r + degree p / a) * top true p r a)) with (top true p r a * (r * r) * Rabs c + Rabs c * (degree p / a * top true p r a)) by ring. exact X2.
  - replace (c * ((- (r * r) + 0) * basis_fn false p a r)) with (- basis_fn false p a r * (r * r) * c) by ring.
    replace (Rabs c * ((r * r + 0) * top false p r a)) with (top false p r a * (r * r) * Rabs c) by ring. exact (apx_weaken _ _ _ _ _ _ _ HA K1 X1).
Qed.
Lemma slope_error : forall norm p r c a, 0 <= a <= M -> smooth lo norm p r a ->
  Rabs (fl_slope rnd fexp fpow pi norm p r c a - c * basis_slope norm p a r) <=
    (q ^ slope_roundings norm k * (1 + A) - 1) * (Rabs c * reach norm p r a) + slope_floor q eta A k norm p r c a.
Proof. intros. apply slope_apx; assumption. Qed.
End Norm.
End Model.
Lemma floor_none : forall q A k norm p r c a, slope_floor q 0 A k norm p r c a = 0.
Proof. intros q A k norm p r c a. unfold slope_floor, first_floor, second_floor, after, Rdiv. cbv zeta. destruct norm, p; ring. Qed.
Lemma elem_error : forall u eta fmt rnd, rounding u eta fmt rnd -> u <= 1 / 8 ->
  forall lo k fpow pi, 0 < lo <= 1 / 2 -> normal u lo rnd -> pow_error u lo k fpow ->
  Rabs (pi - PI) <= u * PI -> 1 / 2 <= (1 - u) ^ (2 * k + 2) ->
  forall v z fexp, exp_error v z fexp -> forall M, 0 <= M ->
  forall norm p r a, 0 <= a <= M -> safe lo norm p r a ->
  Rabs (fl_elem rnd fexp fpow pi norm p r a - basis_fn norm p a r) <=
    ((/ (1 - u)) ^ roundings norm p k * (1 + gauss_error u eta v z M) - 1) * top norm p r a + eta * (2 + (/ (1 - u)) ^ (2 * k + 5) * size norm p a).
Proof.
  intros. apply (elem_appr u eta fmt rnd H H0 lo k fpow pi H1 H2 H3 H4 H5 v z fexp H6 M H7 norm p r a H8 H9).
Qed.
