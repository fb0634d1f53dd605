(** Properties C100 and C101: floating point values of all kinds of models, and floating point fits. *)
From Coq Require Import Reals List ZArith Lia Lra Permutation Sorted.
From Verif Require Import XR SpecDens SpecGrid SpecRnd SpecRnd2 SpecBin ModelRnd ModelRnd2 ProofRnd ProofRnd2 ProofRnd3
  ProofRnd4 ProofRnd5 ProofRnd6 ProofRnd7 ProofRnd8 ProofRnd9 ProofRnd10.
From Flocq Require Import Core.
Import ListNotations.
Local Open Scope R_scope.

(** ** C100 *)
(** Binary formats do not underflow from their least normal number on. *)
Theorem C100_formats : forall emin prec, (1 < prec)%Z ->
  normal (bpow radix2 (- prec)) (bpow radix2 (emin + prec - 1)) (bin_rnd emin prec) /\
  (forall lo, normal (bpow radix2 (- prec)) lo (free_rnd prec)).
Proof. exact (fun emin prec P => conj (bin_normal emin prec P) (fun lo => free_normal prec lo P)). Qed.
Print Assumptions C100_formats.

(** The value at one point of an atomic or molecular model of s-type and p-type functions,
    normalized or not: at most [height t + 1 + K] roundings besides the error of the Gaussian,
    relative to the sizes of the terms, and underflow. *)
Theorem C100_value : forall u eta fmt rnd, rounding u eta fmt rnd -> u <= 1 / 8 ->
  forall lo k fpow pi, 0 < lo <= 1 / 2 -> normal u lo rnd -> pow_error u lo k fpow ->
  Rabs (pi - PI) <= u * PI -> 1 / 2 <= (1 - u) ^ (2 * k + 2) ->
  forall v z fexp, exp_error v z fexp -> forall M, 0 <= M ->
  forall fused t norm lay c e K, length lay = length c -> length e = length c -> orders (length c) t ->
  Forall2 (fun pr a => 0 <= a <= M /\ safe lo norm (fst pr) (snd pr) a) lay e ->
  Forall (fun pr => (roundings norm (fst pr) k <= K)%nat) lay ->
  let q := / (1 - u) in
  Rabs (fl_model rnd fexp fpow pi fused t norm lay c e - gsum norm lay c e) <=
    (q ^ (height t + 1 + K) * (1 + gauss_error u eta v z M) - 1) * spread (top norm) lay c e
    + q ^ (height t + 1) * (eta * (spread (fun p r a => 2 + q ^ (2 * k + 5) * size norm p a) lay c e + INR (length c + additions t))).
Proof. exact model_error. Qed.
Print Assumptions C100_value.

(** It is never negative when the coefficients and the exponents are not. *)
Theorem C100_sign : forall u eta fmt rnd, rounding u eta fmt rnd -> u <= 1 / 8 ->
  forall lo k fpow pi, pow_error u lo k fpow -> Rabs (pi - PI) <= u * PI ->
  forall v z fexp, exp_error v z fexp ->
  forall fused t norm lay c e, Forall (Rle 0) c -> Forall (Rle 0) e ->
  0 <= fl_model rnd fexp fpow pi fused t norm lay c e.
Proof. exact model_pos. Qed.
Print Assumptions C100_sign.

(** With exact arithmetic it is the documented linear combination. *)
Theorem C100_exact : forall fused t norm lay c e, length lay = length c -> length e = length c -> orders (length c) t ->
  (norm = true -> Forall (Rlt 0) e) ->
  fl_model (fun x => x) exp Rpower PI fused t norm lay c e = gsum norm lay c e.
Proof. exact model_exact. Qed.
Print Assumptions C100_exact.

Definition d_rnd := bin_rnd (-1074) 53.
Definition d_u := bpow radix2 (- (53)).
Definition d_eta := bpow radix2 (-1075).
Definition d_lo := bpow radix2 (-1022).
Definition d_pow (x y : R) := d_rnd (Rpower x y).
Definition d_exp (x : R) := d_rnd (exp x).
Lemma d_rounding : rounding d_u d_eta (bin_fmt (-1074) 53) d_rnd.
Proof. exact (bin_rounding (-1074) 53 eq_refl). Qed.
Lemma d_normal : normal d_u d_lo d_rnd.
Proof. exact (proj1 (C100_formats (-1074) 53 eq_refl)). Qed.
Lemma d_small : d_u <= 1 / 8.
Proof. unfold d_u. replace (1 / 8) with (bpow radix2 (- (3))) by (simpl; lra). apply bpow_le. lia. Qed.
Lemma d_pow_error : pow_error d_u d_lo 1 d_pow.
Proof. exact (round_pow d_u d_lo d_eta _ d_rnd d_rounding d_small d_normal). Qed.
Lemma d_exp_error : exp_error d_u d_eta d_exp.
Proof.
  split; [apply bpow_ge_0|]. split; [apply bpow_ge_0|]. intros x _. split.
  - apply (rnd_pos _ _ _ _ d_rounding). left; apply exp_pos.
  - assert (E := rd_err _ _ _ _ d_rounding (exp x)). rewrite (Rabs_pos_eq (exp x)) in E by (left; apply exp_pos). exact E.
Qed.
Lemma d_lo_small : 0 < d_lo <= / 64.
Proof.
  split; [apply bpow_gt_0|]. replace (/ 64) with (bpow radix2 (- (6))) by (simpl; lra). apply bpow_le. lia.
Qed.
Lemma d_pi : Rabs (d_rnd PI - PI) <= d_u * PI.
Proof.
  assert (P3 : 3 < PI) by (generalize PI2_3_2; lra).
  assert (E := d_normal PI). rewrite (Rabs_pos_eq PI) in E by lra. apply E. generalize d_lo_small. lra.
Qed.

Definition ex_t : order := Plus (At 1) (At 0).
Lemma ex_t_orders : orders 2 ex_t.
Proof. unfold orders, ex_t. simpl. apply perm_swap. Qed.

(** An s-type and a p-type function, normalized, in double precision. *)
Definition ex_lay : list (bool * R) := [(false, 1 / 2); (true, 2)].
Lemma ex_safe : Forall2 (fun pr a => 0 <= a <= 5 /\ safe d_lo true (fst pr) (snd pr) a) ex_lay [1; 5].
Proof.
  assert (L := d_lo_small). assert (P3 : 3 < PI) by (generalize PI2_3_2; lra). assert (P4 : PI <= 4) by apply PI_4.
  unfold ex_lay. constructor; [|constructor; [|constructor]]; cbn [fst snd]; (split; [lra|]); (split; [intros _; split; [lra|] | try discriminate]).
  - unfold norm_const.
    assert (E : Rpower (1 / PI) (3 / 2) >= / 16).
    { apply Rle_ge. replace (/ 16) with (Rpower (/ 4) 2).
      - apply Rle_trans with (Rpower (/ 4) (3 / 2)).
        + unfold Rpower. assert (ln (/ 4) < 0) by (rewrite <- ln_1; apply ln_increasing; lra). left. apply exp_increasing. lra.
        + apply Rle_Rpower_l; [lra|]. split; [lra|]. unfold Rdiv. rewrite Rmult_1_l. apply Rinv_le_contravar; lra.
      - change 2 with (INR 2). rewrite Rpower_pow by lra. simpl. lra. }
    lra.
  - unfold norm_const.
    assert (E1 : 1 <= Rpower 5 (5 / 2)) by (apply Rpower_ge1; lra).
    assert (E2 : Rpower PI (3 / 2) <= 16).
    { apply Rle_trans with (Rpower 4 (3 / 2)); [apply Rle_Rpower_l; lra|].
      apply Rle_trans with (Rpower 4 2); [apply Rle_Rpower; lra|]. change 2 with (INR 2). rewrite Rpower_pow by lra. simpl. lra. }
    assert (E3 : 0 < Rpower PI (3 / 2)) by apply exp_pos.
    assert (E4 : / 16 <= Rpower 5 (5 / 2) / Rpower PI (3 / 2)).
    { apply Rmult_le_reg_r with (Rpower PI (3 / 2)); [exact E3|]. unfold Rdiv at 2. rewrite Rmult_assoc, Rinv_l by lra. lra. }
    lra.
  - intros _. right. simpl. lra.
Qed.

Example C100_value_example : let q := / (1 - d_u) in
  Rabs (fl_model d_rnd d_exp d_pow (d_rnd PI) (fun i => Nat.eqb i 1) ex_t true ex_lay [3; -2] [1; 5] - gsum true ex_lay [3; -2] [1; 5]) <=
    (q ^ 11 * (1 + gauss_error d_u d_eta d_u d_eta 5) - 1) * spread (top true) ex_lay [3; -2] [1; 5]
    + q ^ 2 * (d_eta * (spread (fun p r a => 2 + q ^ 7 * size true p a) ex_lay [3; -2] [1; 5] + INR 3)).
Proof.
  assert (L := d_lo_small).
  apply (C100_value d_u d_eta _ d_rnd d_rounding d_small d_lo 1 d_pow (d_rnd PI)
    ltac:(split; lra) d_normal d_pow_error d_pi) with (K := 9%nat) (fused := fun i => Nat.eqb i 1) (t := ex_t).
  - assert (U := d_small). assert (U0 : 0 <= d_u) by apply bpow_ge_0. assert (T := pow_incr (7 / 8) (1 - d_u) 4 ltac:(lra)).
    simpl in *. lra.
  - exact d_exp_error.
  - lra.
  - reflexivity.
  - reflexivity.
  - exact ex_t_orders.
  - exact ex_safe.
  - repeat constructor.
Qed.

Example C100_sign_example : forall r, 0 <= fl_model d_rnd d_exp d_pow (d_rnd PI) (fun _ => true) ex_t true [(false, r); (true, r)] [3; 2] [1 / 10; 5].
Proof. intro r. apply (C100_sign _ _ _ _ d_rounding d_small _ _ _ _ d_pow_error d_pi _ _ _ d_exp_error); repeat constructor; lra. Qed.

Example C100_exact_example :
  fl_model (fun x => x) exp Rpower PI (fun _ => false) ex_t true [(false, 1); (true, 2)] [3; -2] [1; 4] =
  3 * (Rpower (1 / PI) (3 / 2) * 1 * exp (- (1) * 1 ^ 2)) +
    (-2 * (2 / 3 * (Rpower 4 (5 / 2) / Rpower PI (3 / 2)) * 2 ^ 2 * exp (- (4) * 2 ^ 2)) + 0).
Proof. rewrite C100_exact; [reflexivity | reflexivity | reflexivity | exact ex_t_orders | intros _; repeat constructor; lra]. Qed.

(** ** C101 *)
(** The rules of the three kinds of grids. *)
Theorem C101_grids : forall u fmt rnd, rounding u 0 fmt rnd ->
  (forall t w, orders (length w) t -> Forall (Rle 0) w -> rule u fmt (height t + 1) w (fl_cubic rnd t w)) /\
  (forall t x, ascending x -> orders (Nat.pred (length x)) t ->
     exists W, length W = length x /\ (forall y, length y = length x -> wsum W y = trap x y) /\
       rule u fmt (height t + 4) W (fl_trapz rnd t x)) /\
  (forall p t x, 0 < p -> ascending x -> orders (Nat.pred (length x)) t ->
     exists W, length W = length x /\
       (forall y, length y = length x -> wsum W y = 4 * p * trap x (map2 (fun r b => r * r * b) x y)) /\
       rule u fmt (height t + 8) W (fl_spherical rnd p t x)).
Proof. exact (fun u fmt rnd H => conj (rule_cubic u fmt rnd H) (conj (rule_radial u fmt rnd H) (rule_spherical u fmt rnd H))). Qed.
Print Assumptions C101_grids.

(** Whatever is optimised and however many passes: no coefficient and no exponent is ever
    negative, with any rounding and underflow. *)
Theorem C101_sign : forall rnd fexp fpow pi u eta fmt, rounding u eta fmt rnd -> u <= 1 / 8 ->
  forall lo k, pow_error u lo k fpow -> Rabs (pi - PI) <= u * PI ->
  forall v z, exp_error v z fexp ->
  forall quadr fused t norm mask N f ty D oc oe n c e c' e', 0 <= mask -> 0 <= N ->
  (forall y, Forall (Rle 0) y -> 0 <= quadr y) -> Forall (Rle 0) f -> 0 < rnd (quadr f / N) -> length e = length c ->
  Forall (Rle 0) c -> Forall (Rle 0) e ->
  fl_fit rnd fexp fpow pi quadr fused t norm mask N f ty D oc oe n c e = Some (c', e') ->
  Forall (Rle 0) c' /\ Forall (Rle 0) e'.
Proof. exact fit_pos. Qed.
Print Assumptions C101_sign.

(** Without underflow the coefficients add up to N after every pass, whether or not the exponents
    change too; the number of roundings does not grow with the number of passes. *)
Theorem C101_sum : forall rnd fexp fpow pi u fmt, rounding u 0 fmt rnd -> u <= 1 / 8 ->
  forall lo kp, pow_error u lo kp fpow -> Rabs (pi - PI) <= u * PI ->
  forall v z, exp_error v z fexp ->
  forall kI W quadr fused t norm mask N f ty D oe n c0 e0 c e c' e',
  rule u fmt kI W quadr -> 0 < N -> 0 <= mask ->
  length f = length W -> length D = length f -> Forall fmt f -> Forall (Rle 0) f -> 0 < wsum W f ->
  length e0 = length c0 -> length ty = length c0 -> Forall (fun ds => length ds = length c0) D ->
  Forall (Rle 0) c0 -> Forall (Rle 0) e0 -> orders (length c0) t ->
  fl_fit rnd fexp fpow pi quadr fused t norm mask N f ty D true oe n c0 e0 = Some (c, e) ->
  fl_fit rnd fexp fpow pi quadr fused t norm mask N f ty D true oe (S n) c0 e0 = Some (c', e') ->
  Forall (fun ds => mask < fl_model rnd fexp fpow pi fused t norm (combine ty ds) c e) D ->
  within u (height t + 2 * kI + 6) (rsum c') N.
Proof. exact fit_sum. Qed.
Print Assumptions C101_sum.

(** After any number of passes every optimised exponent lies between 3/2 (5/2 for p-type functions)
    over the largest and over the smallest squared distance of the points to its center, up to
    roundings: exponents can neither vanish nor blow up. *)
Theorem C101_bounds : forall rnd fexp fpow pi u fmt, rounding u 0 fmt rnd -> u <= 1 / 8 ->
  forall lo kp, pow_error u lo kp fpow -> Rabs (pi - PI) <= u * PI ->
  forall v z, exp_error v z fexp ->
  forall kI W quadr fused t norm mask N f ty D oc n c0 e0 c' e' k a2 b2,
  rule u fmt kI W quadr -> 0 < N -> 0 <= mask ->
  length f = length W -> length D = length f -> Forall fmt f -> Forall (Rle 0) f -> 0 < wsum W f ->
  length e0 = length c0 -> Forall (Rle 0) c0 -> Forall (Rle 0) e0 ->
  fl_fit rnd fexp fpow pi quadr fused t norm mask N f ty D oc true (S n) c0 e0 = Some (c', e') -> (k < length c0)%nat ->
  Forall (fun ds => a2 <= nth k ds 0 ^ 2 <= b2) D ->
  (1 - u) ^ (2 * kI + 4) * (pref (nth k ty false) / b2) <= nth k e' 0 /\
  (0 < a2 -> (1 - u) ^ (2 * kI + 4) * nth k e' 0 <= pref (nth k ty false) / a2).
Proof. exact fit_bounds. Qed.
Print Assumptions C101_bounds.

(** The new exponent is that of the formula, for the basis functions as they were computed, up to
    roundings. *)
Theorem C101_formula : forall rnd fexp fpow pi u fmt, rounding u 0 fmt rnd -> u <= 1 / 8 ->
  forall lo kp, pow_error u lo kp fpow -> Rabs (pi - PI) <= u * PI ->
  forall v z, exp_error v z fexp ->
  forall kI W quadr fused t norm mask N f ty D oc c e c' e' k,
  rule u fmt kI W quadr -> 0 <= mask ->
  length f = length W -> length D = length f -> Forall (Rle 0) f ->
  length e = length c -> length ty = length c -> Forall (fun ds => length ds = length c) D ->
  Forall (Rle 0) c -> Forall (Rle 0) e -> orders (length c) t ->
  fl_params rnd fexp fpow pi quadr fused t norm mask N f ty D oc true c e = Some (c', e') -> (k < length c)%nat ->
  Forall (fun ds => mask < fl_model rnd fexp fpow pi fused t norm (combine ty ds) c e) D ->
  let M := map (fun ds => fl_basis rnd fexp fpow pi norm (combine ty ds) e) D in
  let S1 := average W f M c k (repeat 1 (length f)) in
  let S2 := average W f M c k (map (fun ds => nth k ds 0 ^ 2) D) in
  0 < S2 /\ within u (2 * kI + 2 * height t + 10) (nth k e' 0) (pref (nth k ty false) * S1 / S2).
Proof. exact params_formula. Qed.
Print Assumptions C101_formula.

(** Without underflow a fit never breaks down: from positive parameters every pass succeeds (no
    average in a denominator is zero) and all parameters stay positive, as long as one point of
    positive weight with a positive density is not a center. *)
Theorem C101_runs : forall rnd fexp fpow pi u fmt, rounding u 0 fmt rnd -> u <= 1 / 8 ->
  forall kp, pow_error u 0 kp fpow -> Rabs (pi - PI) <= u * PI ->
  forall v, exp_error v 0 fexp -> v < 1 ->
  forall kI W quadr fused t norm mask N f ty D oc oe n c e i,
  rule u fmt kI W quadr -> 0 < N -> 0 <= mask ->
  length f = length W -> length D = length f -> Forall fmt f -> Forall (Rle 0) f ->
  length e = length c -> length ty = length c -> Forall (fun ds => length ds = length c) D ->
  Forall (Rlt 0) c -> Forall (Rlt 0) e ->
  (i < length f)%nat -> 0 < nth i W 0 -> 0 < nth i f 0 -> Forall (fun d => d <> 0) (nth i D []) ->
  exists c' e', fl_fit rnd fexp fpow pi quadr fused t norm mask N f ty D oc oe n c e = Some (c', e') /\
    Forall (Rlt 0) c' /\ Forall (Rlt 0) e'.
Proof. exact fit_runs. Qed.
Print Assumptions C101_runs.

(** With the default mask value of zero this needs no assumption about the values in between: every
    pass of a fit from positive coefficients and exponents succeeds, and after every one of them the
    coefficients are positive and add up to N. *)
Theorem C101_always : forall rnd fexp fpow pi u fmt, rounding u 0 fmt rnd -> u <= 1 / 8 ->
  forall kp, pow_error u 0 kp fpow -> Rabs (pi - PI) <= u * PI ->
  forall v, exp_error v 0 fexp -> v < 1 ->
  forall kI W quadr fused t norm N f ty D oe n c e i,
  rule u fmt kI W quadr -> 0 < N ->
  length f = length W -> length D = length f -> Forall fmt f -> Forall (Rle 0) f ->
  length e = length c -> length ty = length c -> Forall (fun ds => length ds = length c) D ->
  Forall (Rlt 0) c -> Forall (Rlt 0) e -> orders (length c) t ->
  (i < length f)%nat -> 0 < nth i W 0 -> 0 < nth i f 0 -> Forall (fun d => d <> 0) (nth i D []) ->
  Forall (fun ds => exists k, (k < length c)%nat /\ (nth k ty false = false \/ nth k ds 0 <> 0)) D ->
  exists c' e', fl_fit rnd fexp fpow pi quadr fused t norm 0 N f ty D true oe (S n) c e = Some (c', e') /\
    Forall (Rlt 0) c' /\ Forall (Rlt 0) e' /\ within u (height t + 2 * kI + 6) (rsum c') N.
Proof. exact fit_always. Qed.
Print Assumptions C101_always.

(** 53 bits without underflow; an s-type and a p-type function, normalized, on two points. *)
Definition s_rnd := free_rnd 53.
Definition s_exp (x : R) := s_rnd (exp x).
Definition s_pow (x y : R) := s_rnd (Rpower x y).
Lemma s_rounding : rounding d_u 0 (free_fmt 53) s_rnd.
Proof. exact (free_rounding 53 eq_refl). Qed.
Lemma s_pow_error : pow_error d_u 0 1 s_pow.
Proof. exact (round_pow d_u 0 0 _ s_rnd s_rounding d_small (free_normal 53 0 eq_refl)). Qed.
Lemma s_exp_error : exp_error d_u 0 s_exp.
Proof.
  split; [apply bpow_ge_0|]. split; [lra|]. intros x _. split.
  - apply (rnd_pos _ _ _ _ s_rounding). left; apply exp_pos.
  - assert (E := rd_err _ _ _ _ s_rounding (exp x)). rewrite (Rabs_pos_eq (exp x)) in E by (left; apply exp_pos). exact E.
Qed.
Lemma s_pi : Rabs (s_rnd PI - PI) <= d_u * PI.
Proof. assert (E := rd_err _ _ _ _ s_rounding PI). rewrite (Rabs_pos_eq PI), Rplus_0_r in E by (left; apply PI_RGT_0). exact E. Qed.
Lemma ex_f_fmt : Forall (free_fmt 53) [1; 5].
Proof. repeat constructor; apply (int_free 53); reflexivity. Qed.

Definition ex_fit := fl_fit s_rnd s_exp s_pow (s_rnd PI) (fl_cubic s_rnd ex_t [1; 2]) (fun _ => false) ex_t true 0 7 [1; 5] [false; true] [[1; 2]; [1; 3]].
Lemma ex_rule : rule d_u (free_fmt 53) 2 [1; 2] (fl_cubic s_rnd ex_t [1; 2]).
Proof. apply (proj1 (C101_grids _ _ _ s_rounding) ex_t [1; 2]); [exact ex_t_orders | repeat constructor; lra]. Qed.

Example C101_runs_example : forall n, exists c' e', ex_fit true true n [1; 3] [1; 2] = Some (c', e') /\ Forall (Rlt 0) c' /\ Forall (Rlt 0) e'.
Proof.
  intro n. apply (C101_runs _ _ _ _ _ _ s_rounding d_small 1 s_pow_error s_pi _ s_exp_error ltac:(generalize d_small; lra)) with (kI := 2%nat) (W := [1; 2]) (i := 1%nat);
    try reflexivity; try exact ex_rule; try exact ex_f_fmt; try lra;
    try (simpl; lia); try (simpl; lra); try (repeat constructor; lra); repeat constructor.
Qed.

Example C101_example : forall n, exists c' e', ex_fit true true (S n) [1; 3] [1; 2] = Some (c', e') /\
  Forall (Rle 0) c' /\ within d_u 11 (rsum c') 7 /\
  (1 - d_u) ^ 8 * (5 / 2 / 9) <= nth 1 e' 0 /\ (1 - d_u) ^ 8 * nth 1 e' 0 <= 5 / 2 / 4.
Proof.
  intro n. destruct (C101_runs_example n) as (c & e & E & Pc & Pe). destruct (C101_runs_example (S n)) as (c' & e' & E' & Pc' & Pe').
  assert (P13 : Forall (Rle 0) [1; 3]) by (repeat constructor; lra). assert (P12 : Forall (Rle 0) [1; 2]) by (repeat constructor; lra).
  assert (P15 : Forall (Rle 0) [1; 5]) by (repeat constructor; lra).
  exists c', e'. split; [exact E'|].
  assert (L := fit_length s_rnd s_exp s_pow (s_rnd PI) _ _ _ _ _ _ _ _ _ _ _ n [1; 3] [1; 2] c e eq_refl E). destruct L as [Lc Le].
  split; [|split].
  - apply (C101_sign _ _ _ _ _ _ _ s_rounding d_small _ _ s_pow_error s_pi _ _ s_exp_error) with
      (quadr := fl_cubic s_rnd ex_t [1; 2]) (fused := fun _ => false) (t := ex_t) (norm := true) (mask := 0) (N := 7) (f := [1; 5])
      (ty := [false; true]) (D := [[1; 2]; [1; 3]]) (oc := true) (oe := true) (n := S n) (c := [1; 3]) (e := [1; 2]) (e' := e'); try lra; try reflexivity; try assumption.
    + apply (proj1 (proj2 ex_rule)).
    + apply (lm_pos d_u (free_fmt 53) s_rnd s_rounding 2 [1; 2]); try reflexivity; try lra; try assumption.
      * apply rule_accurate, ex_rule.
      * exact ex_f_fmt.
      * simpl. lra.
  - change 11%nat with (height ex_t + 2 * 2 + 6)%nat.
    apply (C101_sum _ _ _ _ _ _ s_rounding d_small _ _ s_pow_error s_pi _ _ s_exp_error) with
      (W := [1; 2]) (quadr := fl_cubic s_rnd ex_t [1; 2]) (fused := fun _ => false) (norm := true) (mask := 0) (f := [1; 5])
      (ty := [false; true]) (D := [[1; 2]; [1; 3]]) (oe := true) (n := n) (c0 := [1; 3]) (e0 := [1; 2]) (c := c) (e := e) (e' := e'); try lra; try reflexivity; try assumption.
    + exact ex_rule.
    + exact ex_f_fmt.
    + simpl. lra.
    + repeat constructor.
    + exact ex_t_orders.
    + assert (G : forall ds, length ds = 2%nat -> Forall (fun d => d <> 0) ds ->
        0 < fl_model s_rnd s_exp s_pow (s_rnd PI) (fun _ => false) ex_t true (combine [false; true] ds) c e).
      { intros [|d1 [|d2 [|? ?]]] Ld Nd; try discriminate. inversion Nd as [|? ? N1 Nd']; subst. inversion Nd' as [|? ? N2 _]; subst.
        destruct c as [|c1 [|c2 [|? ?]]]; try discriminate. destruct e as [|e1 [|e2 [|? ?]]]; try discriminate.
        inversion Pc as [|? ? C1 Pc1]; subst. inversion Pc1 as [|? ? C2 _]; subst. inversion Pe as [|? ? X1 Pe1]; subst. inversion Pe1 as [|? ? X2 _]; subst.
        unfold fl_model. cbn [combine fl_basis].
        assert (El : forall p r a, 0 < a -> r <> 0 -> 0 < fl_elem s_rnd s_exp s_pow (s_rnd PI) true p r a).
        { intros p r a Ha Hr. apply (elem_gt _ _ _ _ _ _ s_rounding d_small 1 s_pow_error s_pi _ s_exp_error ltac:(generalize d_small; lra)); auto. }
        assert (B1 := El false d1 e1 X1 N1). assert (B2 := El true d2 e2 X2 N2).
        set (b1 := fl_elem _ _ _ _ _ false _ _) in *. set (b2 := fl_elem _ _ _ _ _ true _ _) in *.
        destruct (dot_within d_u (free_fmt 53) s_rnd s_rounding (fun _ => false) ex_t [b1; b2] [c1; c2] eq_refl ex_t_orders) as [_ Dw]; try (repeat constructor; lra).
        eapply (within_pos d_u (free_fmt 53) s_rnd s_rounding); [|exact Dw]. cbn [wsum].
        assert (0 < b1 * c1) by (apply Rmult_lt_0_compat; assumption). assert (0 < b2 * c2) by (apply Rmult_lt_0_compat; assumption). lra. }
      constructor; [|constructor; [|constructor]]; apply G; try reflexivity; repeat constructor; lra.
  - destruct (C101_bounds _ _ _ _ _ _ s_rounding d_small _ _ s_pow_error s_pi _ _ s_exp_error 2 [1; 2] (fl_cubic s_rnd ex_t [1; 2])
      (fun _ => false) ex_t true 0 7 [1; 5] [false; true] [[1; 2]; [1; 3]] true n [1; 3] [1; 2] c' e' 1 4 9) as [B1 B2]; try lra; try reflexivity; try assumption.
    + exact ex_rule.
    + exact ex_f_fmt.
    + simpl. lra.
    + simpl. lia.
    + repeat constructor; simpl; lra.
    + split; [exact B1 | apply B2; lra].
Qed.

Example C101_always_example : forall n, exists c' e',
  fl_fit s_rnd s_exp s_pow (s_rnd PI) (fl_cubic s_rnd ex_t [1; 2]) (fun _ => true) ex_t true 0 7 [1; 5] [false; true] [[0; 0]; [1; 3]]
    true true (S n) [1; 3] [1; 2] = Some (c', e') /\
  Forall (Rlt 0) c' /\ Forall (Rlt 0) e' /\ within d_u 11 (rsum c') 7.
Proof.
  intro n. change 11%nat with (height ex_t + 2 * 2 + 6)%nat.
  apply (C101_always _ _ _ _ _ _ s_rounding d_small 1 s_pow_error s_pi _ s_exp_error ltac:(generalize d_small; lra)) with (W := [1; 2]) (i := 1%nat);
    try reflexivity; try exact ex_rule; try exact ex_f_fmt; try exact ex_t_orders; try lra;
    try (simpl; lia); try (simpl; lra); try (repeat constructor; lra); try (repeat constructor; fail).
  constructor; [|constructor; [|constructor]]; exists 0%nat; (split; [simpl; lia | left; reflexivity]).
Qed.

(** Exact arithmetic is the rounding with u = 0: there the new exponents are those of the formula. *)
Lemma id_rounding : rounding 0 0 (fun _ => True) (fun x => x).
Proof. constructor; intros; try lra; try exact I; auto; try (replace (_ - _) with 0 by ring; rewrite Rabs_R0; lra). Qed.
Lemma id_pow : pow_error 0 0 0 Rpower.
Proof. split; [intros; left; apply exp_pos | intros; split; simpl; lra]. Qed.
Lemma id_exp : exp_error 0 0 exp.
Proof.
  split; [lra|]. split; [lra|]. intros x _. split; [left; apply exp_pos|]. replace (exp x - exp x) with 0 by ring. rewrite Rabs_R0. lra.
Qed.
Lemma within_0 : forall k a b, within 0 k a b -> a = b.
Proof. intros k a b [C D]. rewrite Rminus_0_r, pow1 in C, D. lra. Qed.

Example C101_formula_example : exists c' e1 e2,
  fl_params (fun x => x) exp Rpower PI (fl_cubic (fun x => x) ex_t [1; 2]) (fun _ => false) ex_t false 0 7 [1; 5] [false; false] [[0; 1]; [1; 1]]
    true true [1; 3] [1; 2] = Some (c', [e1; e2]) /\
  let g1 := exp (- (1) * (0 * 0)) * 1 + (exp (- (2) * (1 * 1)) * 3 + 0) in
  let g2 := exp (- (1) * (1 * 1)) * 1 + (exp (- (2) * (1 * 1)) * 3 + 0) in
  e1 = 3 / 2 * (1 * (1 / g1 * exp (- (1) * (0 * 0)) * 1) + (2 * (5 / g2 * exp (- (1) * (1 * 1)) * 1) + 0)) /
    (1 * (1 / g1 * exp (- (1) * (0 * 0)) * 0 ^ 2) + (2 * (5 / g2 * exp (- (1) * (1 * 1)) * 1 ^ 2) + 0)).
Proof.
  assert (Hpi : Rabs (PI - PI) <= 0 * PI) by (replace (PI - PI) with 0 by ring; rewrite Rabs_R0; lra).
  assert (Ru : rule 0 (fun _ => True) 2 [1; 2] (fl_cubic (fun x => x) ex_t [1; 2])).
  { apply (proj1 (C101_grids _ _ _ id_rounding) ex_t [1; 2]); [exact ex_t_orders | repeat constructor; lra]. }
  destruct (params_runs (fun x => x) exp Rpower PI 0 (fun _ => True) id_rounding ltac:(lra) 0 id_pow Hpi 0 id_exp ltac:(lra)
    2 [1; 2] (fl_cubic (fun x => x) ex_t [1; 2]) (fun _ => false) ex_t false 0 7 [1; 5] [false; false] [[0; 1]; [1; 1]] true true [1; 3] [1; 2] 1) as (c' & e' & E & _ & _);
    try reflexivity; try exact Ru; try lra; try (repeat constructor; lra); try (repeat constructor); try (simpl; lra); try (simpl; lia).
  assert (L := params_length _ _ _ _ _ _ _ _ _ _ _ _ _ _ _ [1; 3] [1; 2] c' e' eq_refl E). destruct L as [_ Le].
  destruct e' as [|e1 [|e2 [|? ?]]]; try discriminate. exists c', e1, e2. split; [exact E|].
  destruct (C101_formula (fun x => x) exp Rpower PI 0 (fun _ => True) id_rounding ltac:(lra) 0 0 id_pow Hpi 0 0 id_exp
    2 [1; 2] (fl_cubic (fun x => x) ex_t [1; 2]) (fun _ => false) ex_t false 0 7 [1; 5] [false; false] [[0; 1]; [1; 1]] true [1; 3] [1; 2] c' [e1; e2] 0) as [_ F];
    try reflexivity; try exact Ru; try lra; try (repeat constructor; lra); try (repeat constructor; fail); try exact E; try (simpl; lia); try exact ex_t_orders.
  - assert (G : forall a b, 0 < fl_model (fun x => x) exp Rpower PI (fun _ => false) ex_t false [(false, a); (false, b)] [1; 3] [1; 2]).
    { intros a b. rewrite C100_exact; [| reflexivity | reflexivity | exact ex_t_orders | discriminate].
      cbn [gsum]. unfold basis_fn. assert (0 < exp (- (1) * a ^ 2)) by apply exp_pos. assert (0 < exp (- (2) * b ^ 2)) by apply exp_pos. lra. }
    constructor; [|constructor; [|constructor]]; apply G.
  - apply within_0 in F. exact F.
Qed.
