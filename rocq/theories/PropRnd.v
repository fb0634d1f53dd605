(** Properties C90, C91, C92: floating point. *)
From Coq Require Import Reals List ZArith Lia Lra Permutation Sorted.
From Verif Require Import XR SpecDens SpecGrid SpecRnd SpecBin ModelRnd ProofRnd ProofRnd2 ProofRnd3 ProofRnd4 ProofRnd5 ProofRnd6 ProofRnd7 ProofRnd12.
From Flocq Require Import Core.
Import ListNotations.
Local Open Scope R_scope.

(** ** The arithmetic *)
(** Every binary format with rounding to nearest is a [rounding]; so is every one without a least
    exponent, and then nothing underflows. *)
Theorem C90_formats : forall emin prec, (1 < prec)%Z ->
  rounding (bpow radix2 (- prec)) (bpow radix2 (emin - 1)) (bin_fmt emin prec) (bin_rnd emin prec) /\
  rounding (bpow radix2 (- prec)) 0 (free_fmt prec) (free_rnd prec).
Proof. exact (fun emin prec P => conj (bin_rounding emin prec P) (free_rounding prec P)). Qed.
Print Assumptions C90_formats.

Example C90_formats_example :
  rounding (bpow radix2 (- (53))) (bpow radix2 (-1074 - 1)) (bin_fmt (-1074) 53) (bin_rnd (-1074) 53).
Proof. exact (proj1 (C90_formats (-1074) 53 eq_refl)). Qed.

(** ** C90 *)
(** The integral of a radial grid in rounded arithmetic, whatever the order of the additions. *)
Theorem C90_radial : forall u eta fmt rnd, rounding u eta fmt rnd ->
  forall t x y, length x = length y -> Forall fmt x -> Forall fmt y -> ascending x ->
  orders (Nat.pred (length x)) t ->
  Rabs (fl_trapz rnd t x y - trap x y) <=
    ((1 + u) ^ (height t + 4) - 1) * trap x (map Rabs y) + (1 + u) ^ height t * (INR (Nat.pred (length x)) * (2 * eta)).
Proof. exact trapz_error. Qed.
Print Assumptions C90_radial.

(** In double precision. *)
Theorem C90_radial_double : forall t x y, length x = length y ->
  Forall (bin_fmt (-1074) 53) x -> Forall (bin_fmt (-1074) 53) y -> ascending x ->
  orders (Nat.pred (length x)) t -> INR (height t + 4) <= 2 ^ 52 ->
  Rabs (fl_trapz (bin_rnd (-1074) 53) t x y - trap x y) <=
    INR (height t + 4) * / 2 ^ 52 * trap x (map Rabs y) + INR (length x) * / 2 ^ 1072.
Proof. exact trapz_float64. Qed.
Print Assumptions C90_radial_double.

(** The integral of a cubic grid. *)
Theorem C90_cubic : forall u eta fmt rnd, rounding u eta fmt rnd ->
  forall t w y, length w = length y -> orders (length w) t ->
  Rabs (fl_cubic rnd t w y - wsum w y) <=
    ((1 + u) ^ (height t + 1) - 1) * wsum (map Rabs w) (map Rabs y) + (1 + u) ^ height t * (INR (length w) * eta).
Proof. exact cubic_error. Qed.
Print Assumptions C90_cubic.

(** The spherical integral (weight 4 pi r^2, [p] is the rounded pi) of non-negative values, when
    nothing underflows. *)
Theorem C90_spherical : forall u fmt rnd, rounding u 0 fmt rnd ->
  forall p t x y, Rabs (p - PI) <= u * PI -> length x = length y -> ascending x -> Forall fmt y -> Forall (Rle 0) y ->
  orders (Nat.pred (length x)) t ->
  within u (height t + 9) (fl_spherical rnd p t x y) (4 * PI * trap x (map2 (fun r b => r * r * b) x y)).
Proof. exact spherical_within. Qed.
Print Assumptions C90_spherical.

(** A larger integrand never has a smaller computed integral, and that of a non-negative one is
    not negative: rounding costs nothing here. *)
Theorem C90_order : forall u eta fmt rnd, rounding u eta fmt rnd ->
  (forall t x y z, ascending x -> below y z -> fl_trapz rnd t x y <= fl_trapz rnd t x z) /\
  (forall t w y z, Forall (Rle 0) w -> below y z -> fl_cubic rnd t w y <= fl_cubic rnd t w z) /\
  (forall t x y, ascending x -> Forall (Rle 0) y -> 0 <= fl_trapz rnd t x y) /\
  (forall p t x y, ascending x -> 0 <= p -> Forall (Rle 0) y -> 0 <= fl_spherical rnd p t x y) /\
  (forall t w y, Forall (Rle 0) w -> Forall (Rle 0) y -> 0 <= fl_cubic rnd t w y).
Proof.
  exact (fun u eta fmt rnd H => conj (trapz_mono u eta fmt rnd H) (conj (cubic_mono u eta fmt rnd H)
    (conj (trapz_pos u eta fmt rnd H) (conj (spherical_pos u eta fmt rnd H) (cubic_pos u eta fmt rnd H))))).
Qed.
Print Assumptions C90_order.

(** With exact arithmetic both are the sums of the exact model. *)
Theorem C90_exact :
  (forall t x y, length x = length y -> orders (Nat.pred (length x)) t -> fl_trapz (fun a => a) t x y = trap x y) /\
  (forall t w y, length w = length y -> orders (length w) t -> fl_cubic (fun a => a) t w y = wsum w y).
Proof. exact (conj trapz_exact cubic_exact). Qed.
Print Assumptions C90_exact.

Definition d_rnd := bin_rnd (-1074) 53.
Definition ex_t : order := Plus (At 1) (At 0).
Lemma ex_t_orders : orders 2 ex_t.
Proof. unfold orders, ex_t. simpl. apply perm_swap. Qed.
Lemma ex_x_fmt : Forall (bin_fmt (-1074) 53) [0; 1; 3].
Proof. repeat constructor; apply (int_fmt (-1074) 53); reflexivity || discriminate. Qed.
Lemma ex_y_fmt : Forall (bin_fmt (-1074) 53) [d_rnd (1 / 10); - d_rnd (2 / 10); 7].
Proof.
  repeat constructor.
  - apply (rd_fmt _ _ _ _ C90_formats_example).
  - apply (rd_opp _ _ _ _ C90_formats_example), (rd_fmt _ _ _ _ C90_formats_example).
  - apply (int_fmt (-1074) 53); reflexivity || discriminate.
Qed.
Lemma ex_asc : ascending [0; 1; 3].
Proof. repeat constructor; lra. Qed.

Example C90_radial_example : let y := [d_rnd (1 / 10); - d_rnd (2 / 10); 7] in
  Rabs (fl_trapz d_rnd ex_t [0; 1; 3] y - trap [0; 1; 3] y) <=
    5 * / 2 ^ 52 * trap [0; 1; 3] (map Rabs y) + 3 * / 2 ^ 1072.
Proof.
  cbv zeta. assert (B := C90_radial_double ex_t [0; 1; 3] [d_rnd (1 / 10); - d_rnd (2 / 10); 7] eq_refl ex_x_fmt ex_y_fmt ex_asc ex_t_orders).
  replace (INR (height ex_t + 4)) with 5 in B by (simpl; ring).
  replace (INR (length [0; 1; 3])) with 3 in B by (simpl; ring).
  apply B. simpl. lra.
Qed.

Example C90_cubic_example :
  Rabs (fl_cubic d_rnd ex_t [/ 3; / 3] [d_rnd (1 / 10); -7] - wsum [/ 3; / 3] [d_rnd (1 / 10); -7]) <=
    ((1 + bpow radix2 (- (53))) ^ 2 - 1) * wsum (map Rabs [/ 3; / 3]) (map Rabs [d_rnd (1 / 10); -7])
    + (1 + bpow radix2 (- (53))) ^ 1 * (INR 2 * bpow radix2 (-1074 - 1)).
Proof. exact (C90_cubic _ _ _ _ C90_formats_example ex_t [/ 3; / 3] [d_rnd (1 / 10); -7] eq_refl ex_t_orders). Qed.

Example C90_order_example : fl_trapz d_rnd ex_t [0; 1; 3] [1; 2; 3] <= fl_trapz d_rnd ex_t [0; 1; 3] [1; 2; 4].
Proof.
  apply (proj1 (C90_order _ _ _ _ C90_formats_example)); [exact ex_asc|]. repeat constructor; lra.
Qed.

Example C90_exact_example : fl_trapz (fun a => a) ex_t [0; 1; 3] [1; 2; 3] = 13 / 2.
Proof. rewrite (proj1 C90_exact) by (reflexivity || exact ex_t_orders). simpl. lra. Qed.

(** ** C91 *)
(** The value of a model at one point differs from the exact linear combination of Gaussians by a
    few units of roundoff times the sum of the absolute coefficients, whatever the distance. *)
Theorem C91_value : forall u eta fmt rnd, rounding u eta fmt rnd ->
  forall v z fexp, exp_error v z fexp ->
  forall fused t c e r M, length c = length e -> orders (length c) t ->
  Forall (fun a => 0 <= a <= M) e -> 0 <= M -> u <= 1 / 8 ->
  Rabs (fl_eval rnd fexp fused t c e r - gauss_sum c e r) <=
    ((1 + u) ^ (height t + 1) * (1 + gauss_error u eta v z M) - 1) * rsum (map Rabs c)
    + (1 + u) ^ height t * (INR (length c + additions t) * eta).
Proof. exact eval_error. Qed.
Print Assumptions C91_value.

(** It is never negative when the coefficients and the exponents are not. *)
Theorem C91_sign : forall u eta fmt rnd, rounding u eta fmt rnd ->
  forall v z fexp, exp_error v z fexp ->
  forall fused t c e r, Forall (Rle 0) c -> Forall (Rle 0) e -> 0 <= fl_eval rnd fexp fused t c e r.
Proof. exact eval_pos. Qed.
Print Assumptions C91_sign.

(** A correctly rounded exponential is such a function. *)
Lemma d_exp_error : exp_error (bpow radix2 (- (53))) (bpow radix2 (-1074 - 1)) (fun x => d_rnd (exp x)).
Proof.
  split; [apply bpow_ge_0|]. split; [apply bpow_ge_0|]. intros x _. split.
  - apply (rnd_pos _ _ _ _ C90_formats_example). left; apply exp_pos.
  - assert (E := rd_err _ _ _ _ C90_formats_example (exp x)). rewrite (Rabs_pos_eq (exp x)) in E by (left; apply exp_pos). exact E.
Qed.

Lemma d_u_small : bpow radix2 (- (53)) <= 1 / 8.
Proof. replace (1 / 8) with (bpow radix2 (- (3))) by (simpl; lra). apply bpow_le. lia. Qed.

Example C91_value_example : forall r,
  Rabs (fl_eval d_rnd (fun x => d_rnd (exp x)) (fun i => Nat.eqb i 1) ex_t [3; -2] [1 / 10; 5] r - gauss_sum [3; -2] [1 / 10; 5] r) <=
    ((1 + bpow radix2 (- (53))) ^ 2 * (1 + gauss_error (bpow radix2 (- (53))) (bpow radix2 (-1074 - 1)) (bpow radix2 (- (53))) (bpow radix2 (-1074 - 1)) 5) - 1)
      * rsum (map Rabs [3; -2])
    + (1 + bpow radix2 (- (53))) ^ 1 * (INR 3 * bpow radix2 (-1074 - 1)).
Proof.
  intro r. apply (C91_value _ _ _ _ C90_formats_example _ _ _ d_exp_error (fun i => Nat.eqb i 1) ex_t [3; -2] [1 / 10; 5] r 5);
    [reflexivity | exact ex_t_orders | repeat constructor; lra | lra | exact d_u_small].
Qed.

Example C91_sign_example : forall r, 0 <= fl_eval d_rnd (fun x => d_rnd (exp x)) (fun _ => true) ex_t [3; 2] [1 / 10; 5] r.
Proof. intro r. apply (C91_sign _ _ _ _ C90_formats_example _ _ _ d_exp_error); repeat constructor; lra. Qed.

(** ** C92 *)
(** Updated coefficients are never negative, with any rounding and underflow. *)
Theorem C92_sign : forall u eta fmt rnd, rounding u eta fmt rnd ->
  forall quadr fused t mask N f M n c, 0 <= mask -> 0 <= N ->
  (forall y, Forall (Rle 0) y -> 0 <= quadr y) ->
  Forall (Rle 0) f -> Forall (Forall (Rle 0)) M -> Forall (Rle 0) c -> 0 < rnd (quadr f / N) ->
  Forall (Rle 0) (fl_updates rnd quadr fused t mask N f M n c).
Proof. exact updates_pos. Qed.
Print Assumptions C92_sign.

(** Without underflow the coefficients add up to N, after any number of updates, up to a number of
    roundings that does not grow with the number of updates. *)
Theorem C92_sum : forall u fmt rnd, rounding u 0 fmt rnd ->
  (forall tg w fused t mask N f M n c,
     orders (length w) tg -> Forall (Rle 0) w -> 0 < N -> 0 <= mask ->
     length f = length w -> length M = length f -> Forall fmt f -> Forall (Rle 0) f -> 0 < wsum w f ->
     Forall (Rle 0) c -> orders (length c) t ->
     Forall (fun row => length row = length c /\ Forall (Rle 0) row) M ->
     Forall (fun row => mask < fl_dot rnd fused t row (fl_updates rnd (fl_cubic rnd tg w) fused t mask N f M n c)) M ->
     within u (height t + 2 * height tg + 8) (rsum (fl_updates rnd (fl_cubic rnd tg w) fused t mask N f M (S n) c)) N) /\
  (forall tg x fused t mask N f M n c,
     orders (Nat.pred (length x)) tg -> ascending x -> 0 < N -> 0 <= mask ->
     length f = length x -> length M = length f -> Forall fmt f -> Forall (Rle 0) f -> 0 < trap x f ->
     Forall (Rle 0) c -> orders (length c) t ->
     Forall (fun row => length row = length c /\ Forall (Rle 0) row) M ->
     Forall (fun row => mask < fl_dot rnd fused t row (fl_updates rnd (fl_trapz rnd tg x) fused t mask N f M n c)) M ->
     within u (height t + 2 * height tg + 14) (rsum (fl_updates rnd (fl_trapz rnd tg x) fused t mask N f M (S n) c)) N) /\
  (forall p tg x fused t mask N f M n c,
     orders (Nat.pred (length x)) tg -> ascending x -> 0 < p -> 0 < N -> 0 <= mask ->
     length f = length x -> length M = length f -> Forall fmt f -> Forall (Rle 0) f ->
     0 < trap x (map2 (fun r b => r * r * b) x f) ->
     Forall (Rle 0) c -> orders (length c) t ->
     Forall (fun row => length row = length c /\ Forall (Rle 0) row) M ->
     Forall (fun row => mask < fl_dot rnd fused t row (fl_updates rnd (fl_spherical rnd p tg x) fused t mask N f M n c)) M ->
     within u (height t + 2 * height tg + 22) (rsum (fl_updates rnd (fl_spherical rnd p tg x) fused t mask N f M (S n) c)) N).
Proof.
  exact (fun u fmt rnd H => conj (updates_cubic u fmt rnd H) (conj (updates_radial u fmt rnd H) (updates_spherical u fmt rnd H))).
Qed.
Print Assumptions C92_sum.

(** With exact arithmetic this is the update formula. *)
Theorem C92_exact : forall quadr fused t mask N f M c, orders (length c) t -> length f = length M ->
  Forall (fun row => length row = length c /\ mask < wsum row c) M ->
  fl_update (fun x => x) quadr fused t mask N f M c =
  map (fun k => nth k c 0 * quadr (map2 (fun a row => a / wsum row c * nth k row 0) f M) / (quadr f / N)) (seq 0 (length c)).
Proof. exact update_exact. Qed.
Print Assumptions C92_exact.

(** With masked model values the quotient is 1 there. *)
Theorem C92_exact_masked : forall quadr fused t mask N f M c, orders (length c) t -> length f = length M ->
  Forall (fun row => length row = length c) M ->
  fl_update (fun x => x) quadr fused t mask N f M c =
  map (fun k => nth k c 0 * quadr (map2 (fun a row => (if Rlt_dec mask (wsum row c) then a / wsum row c else 1) * nth k row 0) f M) / (quadr f / N))
      (seq 0 (length c)).
Proof. exact update_exact_masked. Qed.
Print Assumptions C92_exact_masked.

Definition s_rnd := free_rnd 53.
Lemma s_rounding : rounding (bpow radix2 (- (53))) 0 (free_fmt 53) s_rnd.
Proof. exact (proj2 (C90_formats 0 53 eq_refl)). Qed.

Lemma ex_f_fmt : Forall (free_fmt 53) [1; 5].
Proof. repeat constructor; apply (int_free 53); reflexivity. Qed.

Example C92_sum_example : let M := [[1; 2]; [4; 1]] in
  within (bpow radix2 (- (53))) 11 (rsum (fl_updates s_rnd (fl_cubic s_rnd ex_t [1; 2]) (fun _ => false) ex_t 0 7 [1; 5] M 1 [1; 3])) 7.
Proof.
  cbv zeta. apply (proj1 (C92_sum _ _ _ s_rounding) ex_t [1; 2] (fun _ => false) ex_t 0 7 [1; 5] [[1; 2]; [4; 1]] 0%nat [1; 3]);
    try reflexivity; try exact ex_t_orders; try exact ex_f_fmt; try (repeat constructor; lra); try lra.
  - simpl. lra.
  - cbn [fl_updates]. assert (P : forall row, length row = 2%nat -> Forall (Rle 0) row -> 0 < wsum row [1; 3] ->
      0 < fl_dot s_rnd (fun _ => false) ex_t row [1; 3]).
    { intros row L R W. destruct (dot_within _ _ _ s_rounding (fun _ => false) ex_t row [1; 3] L ex_t_orders R) as [_ D]; [repeat constructor; lra|].
      exact (within_pos _ _ _ s_rounding _ _ _ W D). }
    repeat constructor; apply P; try reflexivity; try (repeat constructor; lra); simpl; lra.
Qed.

Example C92_sign_example :
  Forall (Rle 0) (fl_updates d_rnd (fl_cubic d_rnd ex_t [1; 2]) (fun _ => true) ex_t 0 7 [1; 5] [[1; 2]; [4; 1]] 9 [1; 3]).
Proof.
  apply (C92_sign _ _ _ _ C90_formats_example); try lra; try (repeat constructor; lra).
  - intros y P. apply (C90_order _ _ _ _ C90_formats_example); [repeat constructor; lra | exact P].
  - assert (Q : d_rnd 11 <= fl_cubic d_rnd ex_t [1; 2] [1; 5]).
    { unfold fl_cubic, ex_t. cbn [fl_mul fl_sum nth].
      assert (I : forall m, (Z.abs m < 2 ^ 53)%Z -> d_rnd (IZR m) = IZR m).
      { intros m L. apply (rd_id _ _ _ _ C90_formats_example), (int_fmt (-1074) 53); [reflexivity | discriminate | exact L]. }
      replace (2 * 5) with (IZR 10) by lra. replace (1 * 1) with (IZR 1) by lra. rewrite (I 10%Z eq_refl), (I 1%Z eq_refl).
      apply (rd_mono _ _ _ _ C90_formats_example). lra. }
    assert (E : d_rnd 11 = 11) by (apply (rd_id _ _ _ _ C90_formats_example), (int_fmt (-1074) 53 11); [reflexivity | discriminate | reflexivity]).
    apply Rlt_le_trans with (d_rnd 1).
    + replace (d_rnd 1) with 1; [lra|]. symmetry. apply (rd_id _ _ _ _ C90_formats_example), (int_fmt (-1074) 53 1); [reflexivity | discriminate | reflexivity].
    + apply (rd_mono _ _ _ _ C90_formats_example). lra.
Qed.

Example C92_exact_example :
  fl_update (fun x => x) (wsum [1; 2]) (fun _ => true) ex_t 0 7 [1; 5] [[1; 2]; [4; 1]] [1; 3] =
  map (fun k => nth k [1; 3] 0 * wsum [1; 2] (map2 (fun a row => a / wsum row [1; 3] * nth k row 0) [1; 5] [[1; 2]; [4; 1]]) / (wsum [1; 2] [1; 5] / 7)) [0%nat; 1%nat].
Proof.
  apply C92_exact; [exact ex_t_orders | reflexivity | repeat constructor; simpl; lra].
Qed.

(** The second of two model values, 1 and 7, is masked. *)
Example C92_masked_example :
  fl_update (fun x => x) (wsum [1; 2]) (fun _ => false) ex_t 1 7 [3; 5] [[1; 2]; [1; 0]] [1; 3] =
  map (fun k => nth k [1; 3] 0 * wsum [1; 2] [3 / 7 * nth k [1; 2] 0; 1 * nth k [1; 0] 0] / (wsum [1; 2] [3; 5] / 7)) [0%nat; 1%nat].
Proof.
  rewrite C92_exact_masked; [|exact ex_t_orders|reflexivity|repeat constructor]. cbn [length seq]. apply map_ext. intros k. cbn [map2 wsum].
  destruct (Rlt_dec 1 (1 * 1 + (2 * 3 + 0))); [|lra]. destruct (Rlt_dec 1 (1 * 1 + (0 * 3 + 0))); [lra|].
  replace (1 * 1 + (2 * 3 + 0)) with 7 by lra. reflexivity.
Qed.

Example C90_spherical_example :
  within (bpow radix2 (- (53))) 10 (fl_spherical s_rnd (s_rnd PI) ex_t [0; 1; 3] [1; 5; 2])
    (4 * PI * trap [0; 1; 3] [0 * 0 * 1; 1 * 1 * 5; 3 * 3 * 2]).
Proof.
  apply (C90_spherical _ _ _ s_rounding (s_rnd PI) ex_t [0; 1; 3] [1; 5; 2]); try reflexivity; try exact ex_asc; try exact ex_t_orders.
  - assert (E := rd_err _ _ _ _ s_rounding PI). rewrite (Rabs_pos_eq PI), Rplus_0_r in E by (left; apply PI_RGT_0). exact E.
  - repeat constructor; apply (int_free 53); reflexivity.
  - repeat constructor; lra.
Qed.
