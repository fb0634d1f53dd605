(** Rounded arithmetic: the measures at one point. *)
From Coq Require Import Reals List ZArith Lia Lra.
From Verif Require Import SpecRnd SpecRnd2 SpecRnd3 SpecRnd4 ModelRnd ModelRnd4 ProofRnd ProofRnd3 ProofRnd4 ProofRnd8 ProofRnd13.
Import ListNotations.
Local Open Scope R_scope.

Section Measures.
Context (u eta : R) (fmt : R -> Prop) (rnd : R -> R) (H : rounding u eta fmt rnd) (Hu8 : u <= 1 / 8).
Notation q := (/ (1 - u)).

Lemma minus_err : forall f g, fmt f -> fmt g -> Rabs (rnd (f - g) - (f - g)) <= u * Rabs (f - g).
Proof. intros f g F G. apply (rd_add _ _ _ _ H f (- g) F). apply (rd_opp _ _ _ _ H), G. Qed.

(** *** Squared difference *)
Lemma square_near : forall w z fsq, square_error w z fsq -> forall f g, fmt f -> fmt g ->
  Rabs (fl_square rnd fsq f g - square_loss f g) <= square_bound u w z f g.
Proof.
  intros w z fsq (Hw & Hz & _ & S) f g F G. unfold fl_square, square_loss, square_bound.
  assert (E := minus_err f g F G). set (d := f - g) in *. set (d' := rnd d) in *. destruct (S d') as [_ E2].
  assert (U := u0 _ _ _ _ H). assert (N := near_abs _ _ _ E). assert (P := Rabs_pos d). assert (P' := Rabs_pos d').
  assert (M := mul_near _ _ _ _ _ _ E E).
  assert (Sq : d' * d' <= ((1 + u) * Rabs d) * ((1 + u) * Rabs d)).
  { replace (d' * d') with (Rabs d' * Rabs d') by (rewrite <- Rabs_mult; apply Rabs_pos_eq, Rle_0_sqr).
    apply Rmult_le_compat; lra. }
  assert (Sd : Rabs d * Rabs d = d ^ 2) by (rewrite <- Rabs_mult, Rabs_pos_eq by apply Rle_0_sqr; ring).
  replace (fsq d' - d ^ 2) with ((fsq d' - d' * d') + (d' * d' - d * d)) by ring. eapply Rle_trans; [apply Rabs_triang|].
  assert (T : w * (d' * d') <= w * ((1 + u) ^ 2 * d ^ 2)).
  { apply Rmult_le_compat_l; [exact Hw|]. rewrite <- Sd. eapply Rle_trans; [exact Sq|]. apply Req_le. ring. }
  replace ((Rabs d + u * Rabs d) * (Rabs d + u * Rabs d) - Rabs d * Rabs d) with (((1 + u) ^ 2 - 1) * (Rabs d * Rabs d)) in M by ring.
  rewrite Sd in M. replace (((1 + w) * (1 + u) ^ 2 - 1) * d ^ 2) with (w * ((1 + u) ^ 2 * d ^ 2) + ((1 + u) ^ 2 - 1) * d ^ 2) by ring. lra.
Qed.

Lemma square_pos : forall w z fsq, square_error w z fsq -> forall f g, 0 <= fl_square rnd fsq f g.
Proof. intros w z fsq (_ & _ & _ & S) f g. apply (S _). Qed.
Lemma square_zero : forall w z fsq, square_error w z fsq -> forall f, fl_square rnd fsq f f = 0.
Proof.
  intros w z fsq (_ & _ & Z & _) f. unfold fl_square. rewrite Rminus_diag_eq, (rnd_0 _ _ _ _ H) by reflexivity. exact Z.
Qed.

Lemma square_slope_near : forall f g, fmt f -> fmt g ->
  Rabs (fl_square_slope rnd f g - (-2 * (f - g))) <= square_slope_bound u eta f g.
Proof. intros f g F G. apply (prod_rnd u eta fmt rnd H Hu8); [apply near_refl | apply minus_err; assumption]. Qed.
Lemma square_slope_sign : forall f g, (g <= f -> fl_square_slope rnd f g <= 0) /\ (f <= g -> 0 <= fl_square_slope rnd f g).
Proof.
  intros f g. unfold fl_square_slope. split; intro L.
  - assert (0 <= rnd (f - g)) by (apply (rnd_pos _ _ _ _ H); lra). apply (rnd_neg _ _ _ _ H). lra.
  - assert (rnd (f - g) <= 0) by (apply (rnd_neg _ _ _ _ H); lra). apply (rnd_pos _ _ _ _ H). lra.
Qed.

(** *** Logarithms of a number with one rounding *)
Lemma lnq_pos : 0 <= ln q.
Proof. rewrite <- ln_1. destruct (Rle_lt_or_eq_dec 1 q) as [L|E]; [generalize (q_ge _ _ _ _ H Hu8), (u0 _ _ _ _ H); lra | left; apply ln_increasing; lra | rewrite <- E; lra]. Qed.

Lemma ln_within : forall x x', 0 < x -> within u 1 x' x -> 0 < x' /\ Rabs (ln x' - ln x) <= ln q.
Proof.
  intros x x' Px W. assert (Px' := within_gt _ Hu8 _ _ _ Px W). split; [exact Px'|].
  assert (U := u0 _ _ _ _ H). destruct W as [A B]. rewrite pow_1 in A, B.
  assert (Hq : ln (1 - u) = - ln q) by (rewrite ln_Rinv by lra; lra).
  assert (L1 : ln (1 - u) + ln x <= ln x').
  { rewrite <- ln_mult by lra. destruct A as [A|A]; [left; apply ln_increasing; [apply Rmult_lt_0_compat; lra | exact A] | rewrite A; lra]. }
  assert (L2 : ln (1 - u) + ln x' <= ln x).
  { rewrite <- ln_mult by lra. destruct B as [B|B]; [left; apply ln_increasing; [apply Rmult_lt_0_compat; lra | exact B] | rewrite B; lra]. }
  apply Rabs_le. lra.
Qed.

Context (lo : R) (Nr : normal u lo rnd).

Lemma ratio_within : forall f g, 0 < f -> 0 < g -> lo <= f / g -> within u 1 (rnd (f / g)) (f / g).
Proof.
  intros f g F G L. assert (0 < f / g) by (apply Rdiv_lt_0_compat; assumption).
  apply (within_normal _ _ _ _ H Hu8); [lra|]. apply Nr. rewrite Rabs_pos_eq; lra.
Qed.

(** *** Kullback-Leibler *)
Lemma ratio_kept : forall mask f g, mask < g -> fl_ratio rnd mask f g = rnd (f / g).
Proof. intros mask f g L. unfold fl_ratio. destruct (Rle_dec g mask); [lra | reflexivity]. Qed.
Lemma ratio_masked : forall mask f g, g <= mask -> fl_ratio rnd mask f g = 1.
Proof. intros mask f g L. unfold fl_ratio. destruct (Rle_dec g mask); [reflexivity | lra]. Qed.

Lemma log_near : forall w z flog, log_error w z flog -> forall x x', 0 < x -> within u 1 x' x ->
  Rabs (flog x' - ln x) <= w * (Rabs (ln x) + ln q) + z + ln q.
Proof.
  intros w z flog (Hw & Hz & _ & _ & _ & E) x x' Px W. destruct (ln_within x x' Px W) as [Px' L]. assert (E1 := E x' Px').
  assert (N := near_abs _ _ _ L). assert (w * Rabs (ln x') <= w * (Rabs (ln x) + ln q)) by (apply Rmult_le_compat_l; assumption).
  replace (flog x' - ln x) with ((flog x' - ln x') + (ln x' - ln x)) by ring. eapply Rle_trans; [apply Rabs_triang|]. lra.
Qed.

Lemma kl_near : forall w z flog, log_error w z flog -> forall mask f g, 0 < f -> 0 < g -> mask < g -> lo <= f / g ->
  Rabs (fl_kl rnd flog mask f g - kl_loss f g) <= kl_bound u eta w z f g.
Proof.
  intros w z flog E mask f g F G M L. unfold fl_kl. rewrite ratio_kept by exact M.
  apply (prod_rnd u eta fmt rnd H Hu8); [apply near_refl|]. apply log_near; [exact E | apply Rdiv_lt_0_compat; assumption | apply ratio_within; assumption].
Qed.

Lemma kl_masked : forall w z flog, log_error w z flog -> forall mask f g, g <= mask -> fl_kl rnd flog mask f g = 0.
Proof.
  intros w z flog (_ & _ & E & _) mask f g M. unfold fl_kl. rewrite ratio_masked, E, Rmult_0_r by exact M. apply (rnd_0 _ _ _ _ H).
Qed.
Lemma kl_same : forall w z flog, log_error w z flog -> fmt 1 -> forall mask f, f <> 0 -> fl_kl rnd flog mask f f = 0.
Proof.
  intros w z flog E F1 mask f N. destruct (Rle_dec f mask) as [L|L]; [apply (kl_masked _ _ _ E), L|].
  unfold fl_kl. rewrite ratio_kept by lra. replace (f / f) with 1 by (field; exact N). rewrite (rd_id _ _ _ _ H 1 F1).
  destruct E as (_ & _ & E & _). rewrite E, Rmult_0_r. apply (rnd_0 _ _ _ _ H).
Qed.
Lemma kl_sign : forall w z flog, log_error w z flog -> fmt 1 -> forall mask f g, 0 < f -> 0 < g -> lo <= f / g ->
  (g <= f -> 0 <= fl_kl rnd flog mask f g) /\ (f <= g -> fl_kl rnd flog mask f g <= 0).
Proof.
  intros w z flog E F1 mask f g F G L. destruct (Rle_dec g mask) as [M|M]; [rewrite (kl_masked _ _ _ E) by exact M; lra|].
  unfold fl_kl. rewrite ratio_kept by lra. destruct E as (_ & _ & _ & Up & Dn & _).
  assert (I : f / g * g = f) by (field; lra).
  split; intro C.
  - apply (rnd_pos _ _ _ _ H). apply Rmult_le_pos; [lra|]. apply Up. rewrite <- (rd_id _ _ _ _ H 1 F1). apply (rd_mono _ _ _ _ H).
    apply Rmult_le_reg_r with g; [exact G|]. lra.
  - apply (rnd_neg _ _ _ _ H). assert (flog (rnd (f / g)) <= 0); [|assert (0 <= f * - flog (rnd (f / g))) by (apply Rmult_le_pos; lra); lra].
    apply Dn. split.
    + apply (within_gt _ Hu8 1 _ (f / g)); [apply Rdiv_lt_0_compat; assumption | apply ratio_within; assumption].
    + rewrite <- (rd_id _ _ _ _ H 1 F1). apply (rd_mono _ _ _ _ H). apply Rmult_le_reg_r with g; [exact G|]. lra.
Qed.
Lemma kl_slope_near : forall mask f g, mask < g -> Rabs (fl_kl_slope rnd mask f g - - (f / g)) <= u * Rabs (f / g) + eta.
Proof.
  intros mask f g M. unfold fl_kl_slope. rewrite ratio_kept by exact M. replace (- rnd (f / g) - - (f / g)) with (- (rnd (f / g) - f / g)) by ring.
  rewrite Rabs_Ropp. apply (rd_err _ _ _ _ H).
Qed.

(** *** Tsallis *)
Lemma power_near : forall w z fpow, rpower_error w z fpow -> forall x x' a, 0 < x -> within u 1 x' x ->
  Rabs (fpow x' a - Rpower x a) <= power_bound u w z x a.
Proof.
  intros w z fpow (Hw & Hz & _ & _ & E) x x' a Px W. destruct (ln_within x x' Px W) as [Px' L].
  destruct (E x' a Px') as [_ E1]. unfold power_bound, exp_bound. rewrite Ropp_involutive.
  set (d := Rabs a * ln q). assert (D : Rabs (a * ln x' - a * ln x) <= d).
  { rewrite <- Rmult_minus_distr_l, Rabs_mult. apply Rmult_le_compat_l; [apply Rabs_pos | exact L]. }
  unfold Rpower in *. set (s := a * ln x') in *. set (t := a * ln x) in *.
  assert (Ps := exp_pos s). assert (Pt := exp_pos t).
  assert (Up : exp s <= exp t * exp d).
  { rewrite <- exp_plus. assert (s - t <= d) by (generalize (Rle_abs (s - t)); lra).
    destruct (Rle_lt_or_eq_dec s (t + d)) as [C|C]; [lra | left; apply exp_increasing, C | rewrite C; lra]. }
  assert (Lw : Rabs (exp s - exp t) <= exp t * (exp d - 1)).
  { assert (D0 : 0 <= d) by (generalize (Rabs_pos (s - t)); lra). apply Rabs_le. split; [|lra].
    assert (exp t - exp s <= exp t * (1 - exp (- d))).
    { assert (exp t * exp (- d) <= exp s); [|lra]. rewrite <- exp_plus. assert (t - s <= d) by (generalize (Rle_abs (- (s - t))); rewrite Rabs_Ropp; lra).
      destruct (Rle_lt_or_eq_dec (t + - d) s) as [C|C]; [lra | left; apply exp_increasing, C | rewrite C; lra]. }
    assert (1 - exp (- d) <= exp d - 1).
    { assert (exp d * exp (- d) = 1) by (rewrite <- exp_plus; replace (d + - d) with 0 by ring; apply exp_0).
      assert (G := exp_pos d). assert (G' := exp_pos (- d)). assert (0 <= (exp d - 1) * (exp d - 1)) by apply Rle_0_sqr.
      apply Rmult_le_reg_l with (exp d); [exact G|]. lra. }
    assert (exp t * (1 - exp (- d)) <= exp t * (exp d - 1)) by (apply Rmult_le_compat_l; lra). lra. }
  assert (w * exp s <= w * (exp t * exp d)) by (apply Rmult_le_compat_l; assumption).
  replace (fpow x' a - exp t) with ((fpow x' a - exp s) + (exp s - exp t)) by ring. eapply Rle_trans; [apply Rabs_triang|].
  replace (exp t * ((1 + w) * exp d - 1)) with (w * (exp t * exp d) + exp t * (exp d - 1)) by ring. lra.
Qed.

Lemma ratio0_kept : forall mask f g, mask < g -> fl_ratio0 rnd mask f g = rnd (f / g).
Proof. intros mask f g L. unfold fl_ratio0. destruct (Rle_dec g mask); [lra | reflexivity]. Qed.
Lemma ratio0_masked : forall mask f g, g <= mask -> fl_ratio0 rnd mask f g = 0.
Proof. intros mask f g L. unfold fl_ratio0. destruct (Rle_dec g mask); [reflexivity | lra]. Qed.

Lemma over_rnd : forall x x' d a, Rabs (x' - x) <= d -> a <> 0 -> Rabs (rnd (x' / a) - x / a) <= grow u 1 (x / a) (d / Rabs a) + eta.
Proof.
  intros x x' d a L N. apply (grow_rnd u eta fmt rnd H Hu8). replace (x' / a - x / a) with ((x' - x) * / a) by (field; exact N).
  rewrite Rabs_mult, Rabs_inv. apply Rmult_le_compat_r; [left; apply Rinv_0_lt_compat, Rabs_pos_lt, N | exact L].
Qed.

Lemma tsallis_near : forall w z fpow, rpower_error w z fpow -> forall alpha mask f g, fmt (alpha - 1) -> alpha <> 1 ->
  0 < f -> 0 < g -> mask < g -> lo <= f / g ->
  Rabs (fl_tsallis rnd fpow alpha mask f g - tsallis_loss alpha f g) <= tsallis_bound u eta w z alpha f g.
Proof.
  intros w z fpow E alpha mask f g A N F G M L. unfold fl_tsallis, tsallis_loss, tsallis_bound. cbv zeta.
  rewrite ratio0_kept by exact M. rewrite (rd_id _ _ _ _ H _ A). apply over_rnd; [|lra].
  apply (prod_rnd u eta fmt rnd H Hu8); [apply near_refl|]. apply (grow_rnd u eta fmt rnd H Hu8).
  replace (fpow (rnd (f / g)) (alpha - 1) - 1 - (Rpower (f / g) (alpha - 1) - 1)) with (fpow (rnd (f / g)) (alpha - 1) - Rpower (f / g) (alpha - 1)) by ring.
  apply (power_near _ _ _ E); [apply Rdiv_lt_0_compat; assumption | apply ratio_within; assumption].
Qed.

Lemma tsallis_same : forall w z fpow, rpower_error w z fpow -> fmt 1 -> forall alpha mask f, f <> 0 -> mask < f ->
  fl_tsallis rnd fpow alpha mask f f = 0.
Proof.
  intros w z fpow (_ & _ & E & _) F1 alpha mask f N M. unfold fl_tsallis. cbv zeta. rewrite ratio0_kept by exact M.
  replace (f / f) with 1 by (field; exact N). rewrite (rd_id _ _ _ _ H 1 F1), E, Rminus_diag_eq by reflexivity.
  assert (Z := rnd_0 _ _ _ _ H). rewrite Z, Rmult_0_r, Z. unfold Rdiv. rewrite Rmult_0_l. exact Z.
Qed.

(** Where the model is masked the divergence of order above 1 is [- f / (alpha - 1)]. *)
Lemma tsallis_masked : forall w z fpow, rpower_error w z fpow -> forall alpha mask f g, fmt f -> fmt 1 -> fmt (alpha - 1) -> 1 < alpha -> g <= mask ->
  fl_tsallis rnd fpow alpha mask f g = rnd (- f / (alpha - 1)).
Proof.
  intros w z fpow (_ & _ & _ & E & _) alpha mask f g Ff F1 A L M. unfold fl_tsallis. cbv zeta. rewrite ratio0_masked by exact M.
  rewrite (rd_id _ _ _ _ H _ A), E by lra. replace (0 - 1) with (- (1)) by ring. rewrite (rd_id _ _ _ _ H (- (1))) by (apply (rd_opp _ _ _ _ H), F1).
  replace (f * - (1)) with (- f) by ring. rewrite (rd_id _ _ _ _ H (- f)) by (apply (rd_opp _ _ _ _ H), Ff). reflexivity.
Qed.

Lemma tsallis_slope_near : forall w z fpow, rpower_error w z fpow -> forall alpha mask f g, 0 < f -> 0 < g -> mask < g -> lo <= f / g ->
  Rabs (fl_tsallis_slope rnd fpow alpha mask f g - - Rpower (f / g) alpha) <= power_bound u w z (f / g) alpha.
Proof.
  intros w z fpow E alpha mask f g F G M L. unfold fl_tsallis_slope. rewrite ratio0_kept by exact M.
  replace (- fpow (rnd (f / g)) alpha - - Rpower (f / g) alpha) with (- (fpow (rnd (f / g)) alpha - Rpower (f / g) alpha)) by ring.
  rewrite Rabs_Ropp. apply (power_near _ _ _ E); [apply Rdiv_lt_0_compat; assumption | apply ratio_within; assumption].
Qed.

(** Integrand of Kullback-Leibler: never below [f - g]. *)
Lemma kl_loss_low : forall f g, 0 < f -> 0 < g -> f - g <= kl_loss f g.
Proof.
  intros f g F G. unfold kl_loss. assert (R : 0 < g / f) by (apply Rdiv_lt_0_compat; assumption).
  assert (L : ln (g / f) <= g / f - 1).
  { assert (E := exp_ineq1_le (ln (g / f))). rewrite exp_ln in E by exact R. lra. }
  replace (f / g) with (/ (g / f)) by (field; lra). rewrite ln_Rinv by exact R.
  assert (f * ln (g / f) <= f * (g / f - 1)) by (apply Rmult_le_compat_l; lra).
  replace (f * (g / f - 1)) with (g - f) in * by (field; lra). lra.
Qed.
End Measures.
