(** Property C116: IEEE 754 arithmetic with overflow, infinities and NaN, in double precision and in every
    wider binary format, such as the extended precision of [longdouble]. *)
From Coq Require Import Reals List ZArith Bool Lia Lra Permutation.
From Flocq Require Import Core IEEE754.BinarySingleNaN.
From Verif Require Import SpecGrid SpecRnd SpecBin SpecBin64 ModelRnd ModelRnd4 ModelBin64 ProofRnd ProofBin64 ProofBin64b.
From Coq Require Import List.
Import ListNotations.
Local Open Scope R_scope.

(** An operation on finite numbers gives the rounded exact result, or no finite number when that is
    too large. *)
Theorem C116_operations : forall (fm : format) (a b : number fm), finite a -> finite b ->
  ((Rabs ((near fm) (value a + value b)) < (largest fm) -> represents (b_add a b) ((near fm) (value a + value b))) /\
   ((largest fm) <= Rabs ((near fm) (value a + value b)) -> ~ finite (b_add a b))) /\
  ((Rabs ((near fm) (value a - value b)) < (largest fm) -> represents (b_sub a b) ((near fm) (value a - value b))) /\
   ((largest fm) <= Rabs ((near fm) (value a - value b)) -> ~ finite (b_sub a b))) /\
  ((Rabs ((near fm) (value a * value b)) < (largest fm) -> represents (b_mul a b) ((near fm) (value a * value b))) /\
   ((largest fm) <= Rabs ((near fm) (value a * value b)) -> ~ finite (b_mul a b))) /\
  (value b <> 0 ->
   (Rabs ((near fm) (value a / value b)) < (largest fm) -> represents (b_div a b) ((near fm) (value a / value b))) /\
   ((largest fm) <= Rabs ((near fm) (value a / value b)) -> ~ finite (b_div a b))).
Proof. exact (fun fm a b A B => conj (add_exact fm a b A B) (conj (sub_exact fm a b A B) (conj (mul_exact fm a b A B) (div_exact fm a b A B)))). Qed.
Print Assumptions C116_operations.

(** An integral that is finite has the value of the rounded model, so the bounds of the properties
    on rounding hold for it. *)
Theorem C116_integrals : forall fm : format,
  (forall t (x : list (number fm)), same_rule (b_trapz t x) (fl_trapz (near fm) t (map value x))) /\
  (forall t (w : list (number fm)), same_rule (b_cubic t w) (fl_cubic (near fm) t (map value w))) /\
  (forall (p : number fm) t x, same_rule (b_spherical p t x) (fl_spherical (near fm) (value p) t (map value x))).
Proof.
  exact (fun fm => conj (fun t x y y' => trapz_agrees fm t x _ y y' (selves_agree fm x))
        (conj (fun t w y y' => cubic_agrees fm t w _ y y' (selves_agree fm w))
              (fun p t x y y' => spherical_agrees fm p _ t x _ y y' (self_agrees fm p) (selves_agree fm x)))).
Qed.
Print Assumptions C116_integrals.

(** No integral of moderate values on moderately many points overflows. *)
Theorem C116_no_overflow : forall fm : format,
  (forall t (x : list (number fm)) x' y y' a b, (bottom fm <= a)%Z -> (a + 1 < top fm)%Z -> (bottom fm <= b)%Z -> (b + 1 < top fm)%Z ->
    (bottom fm <= a + b)%Z ->
    length x = length y -> orders (Nat.pred (length x)) t -> (Z.of_nat (length x) < 2 ^ digits fm)%Z ->
    INR (length x) * bpow radix2 (a + b + 2) < (largest fm) ->
    Forall2 represents x x' -> Forall2 represents y y' ->
    Forall (fun r => Rabs r <= bpow radix2 a) x' -> Forall (fun r => Rabs r <= bpow radix2 b) y' ->
    represents (b_trapz t x y) (fl_trapz (near fm) t x' y')) /\
  (forall t (w : list (number fm)) w' y y' a b, (bottom fm <= a + b)%Z ->
    length w = length y -> orders (length w) t -> (Z.of_nat (length w) < 2 ^ digits fm)%Z ->
    INR (length w) * bpow radix2 (a + b) < (largest fm) ->
    Forall2 represents w w' -> Forall2 represents y y' ->
    Forall (fun r => Rabs r <= bpow radix2 a) w' -> Forall (fun r => Rabs r <= bpow radix2 b) y' ->
    represents (b_cubic t w y) (fl_cubic (near fm) t w' y')) /\
  (forall (p : number fm) p' t x x' y y' a b, (0 <= a)%Z -> (2 * a < top fm)%Z -> (bottom fm <= b)%Z ->
    represents p p' -> Rabs p' <= 4 ->
    length x = length y -> orders (Nat.pred (length x)) t -> (Z.of_nat (length x) < 2 ^ digits fm)%Z ->
    INR (length x) * bpow radix2 (3 * a + b + 6) < (largest fm) ->
    Forall2 represents x x' -> Forall2 represents y y' ->
    Forall (fun r => Rabs r <= bpow radix2 a) x' -> Forall (fun r => Rabs r <= bpow radix2 b) y' ->
    represents (b_spherical p t x y) (fl_spherical (near fm) p' t x' y')).
Proof. exact (fun fm => conj (trapz_rep fm) (conj (cubic_rep fm) (spherical_rep fm))). Qed.
Print Assumptions C116_no_overflow.

(** The integral of finite numbers on a radial grid is finite and close to the exact one. *)
Theorem C116_radial : forall (fm : format) t (x y : list (number fm)) a b,
  (bottom fm <= a)%Z -> (a + 1 < top fm)%Z -> (bottom fm <= b)%Z -> (b + 1 < top fm)%Z -> (bottom fm <= a + b)%Z ->
  length x = length y -> orders (Nat.pred (length x)) t -> INR (height t + 4) <= bpow radix2 (digits fm - 1) ->
  (Z.of_nat (length x) < 2 ^ digits fm)%Z -> INR (length x) * bpow radix2 (a + b + 2) < (largest fm) ->
  Forall finite x -> Forall finite y -> ascending (map value x) ->
  Forall (fun r => Rabs (value r) <= bpow radix2 a) x -> Forall (fun r => Rabs (value r) <= bpow radix2 b) y ->
  finite (b_trapz t x y) /\
  Rabs (value (b_trapz t x y) - trap (map value x) (map value y)) <=
    INR (height t + 4) * bpow radix2 (1 - digits fm) * trap (map value x) (map Rabs (map value y)) + INR (length x) * bpow radix2 (bottom fm + 2).
Proof. exact radial_near. Qed.
Print Assumptions C116_radial.

(** Large values do overflow in double precision, even when the integral is a double. *)
Theorem C116_overflow :
  let z : number binary64 := b_zero in let q : number binary64 := b_lit 1 (-2) in let h : number binary64 := b_lit 1 1023 in
  b_trapz (At 0) [z; q] [h; h] = B754_infinity false /\
  trap (map value [z; q]) (map value [h; h]) = bpow radix2 1021.
Proof. exact overflow_witness. Qed.
Print Assumptions C116_overflow.

(** Data in double precision keep their values in every wider format. *)
Theorem C116_widen : forall (fm : format) (a : number binary64), finite a -> exists a' : number fm, represents a' (value a).
Proof. exact widen_rep. Qed.
Print Assumptions C116_widen.

(** The quotient of density and model never overflows: it is hidden first, and replaced by the
    value for masked points. *)
Theorem C116_ratio : forall (fm : format) (fill mask f g : number fm), finite mask -> finite f -> finite g ->
  (value g <= value mask \/ Rabs (value g) <= (near fm) (Rabs (value f) * / 2 ^ 1022) -> b_ratio fill mask f g = fill) /\
  (value mask < value g -> (near fm) (Rabs (value f) * / 2 ^ 1022) < Rabs (value g) ->
    b_ratio fill mask f g = b_div f g /\ represents (b_ratio fill mask f g) ((near fm) (value f / value g))).
Proof. exact ratio_spec. Qed.
Print Assumptions C116_ratio.

(** Measures that are finite have the values of the rounded model. *)
Theorem C116_measures : forall fm : format,
  (forall (bsq : number fm -> number fm) fsq f g, library bsq fsq -> agrees (b_square bsq f g) (fl_square (near fm) fsq (value f) (value g))) /\
  (forall f g : number fm, agrees (b_square_slope f g) (fl_square_slope (near fm) (value f) (value g))) /\
  (forall (blog : number fm -> number fm) flog mask f g, library blog flog -> seen mask f g ->
    agrees (b_kl blog mask f g) (fl_kl (near fm) flog (value mask) (value f) (value g))) /\
  (forall mask f g : number fm, seen mask f g -> agrees (b_kl_slope mask f g) (fl_kl_slope (near fm) (value mask) (value f) (value g))) /\
  (forall (blog : number fm -> number fm) flog neg mask f g, library blog flog -> length f = length g ->
    (forall a b, In (a, b) (combine f g) -> seen mask a b) -> Forall finite g ->
    Forall2 agrees (b_kl_values blog neg mask f g) (fl_kl_values (near fm) flog (value neg) (value mask) (map value f) (map value g))) /\
  (forall (bpow : number fm -> number fm -> number fm) fpow alpha mask f g, library2 bpow fpow -> seen mask f g -> finite alpha -> finite (b_sub alpha (b_lit 1 0)) ->
    agrees (b_tsallis bpow alpha mask f g) (fl_tsallis (near fm) fpow (value alpha) (value mask) (value f) (value g))).
Proof.
  exact (fun fm => conj (fun bsq fsq f g L => square_agrees fm bsq fsq f g _ _ L (self_agrees fm f) (self_agrees fm g))
        (conj (fun f g => square_slope_agrees fm f g _ _ (self_agrees fm f) (self_agrees fm g))
        (conj (kl_agrees fm) (conj (kl_slope_agrees fm) (conj (kl_values_agree fm) (tsallis_agrees fm)))))).
Qed.
Print Assumptions C116_measures.

(** And they are finite unless an intermediate result overflows. *)
Theorem C116_finite_measures : forall fm : format,
  (forall (bsq : number fm -> number fm) fsq f g, computes (fun _ => True) bsq fsq -> finite f -> finite g ->
    fits fm ((near fm) (value f - value g)) -> fits fm (fl_square (near fm) fsq (value f) (value g)) ->
    represents (b_square bsq f g) (fl_square (near fm) fsq (value f) (value g))) /\
  (forall f g : number fm, finite f -> finite g -> fits fm ((near fm) (value f - value g)) -> fits fm (fl_square_slope (near fm) (value f) (value g)) ->
    represents (b_square_slope f g) (fl_square_slope (near fm) (value f) (value g))) /\
  (forall (blog : number fm -> number fm) flog mask f g, computes (fun r => 0 < r) blog flog -> seen mask f g ->
    0 < fl_ratio (near fm) (value mask) (value f) (value g) -> fits fm (flog (fl_ratio (near fm) (value mask) (value f) (value g))) ->
    fits fm (fl_kl (near fm) flog (value mask) (value f) (value g)) ->
    represents (b_kl blog mask f g) (fl_kl (near fm) flog (value mask) (value f) (value g))) /\
  (forall mask f g : number fm, seen mask f g -> represents (b_kl_slope mask f g) (fl_kl_slope (near fm) (value mask) (value f) (value g))) /\
  (forall (bpow : number fm -> number fm -> number fm) fpow D alpha mask f g, computes2 D bpow fpow -> seen mask f g -> finite alpha ->
    let a := (near fm) (value alpha - 1) in let q := fl_ratio0 (near fm) (value mask) (value f) (value g) in
    a <> 0 -> fits fm a -> D q a -> fits fm (fpow q a) -> fits fm ((near fm) (fpow q a - 1)) -> fits fm ((near fm) (value f * (near fm) (fpow q a - 1))) ->
    fits fm (fl_tsallis (near fm) fpow (value alpha) (value mask) (value f) (value g)) ->
    represents (b_tsallis bpow alpha mask f g) (fl_tsallis (near fm) fpow (value alpha) (value mask) (value f) (value g))).
Proof. exact (fun fm => conj (square_fits fm) (conj (slope_fits fm) (conj (kl_fits fm) (conj (kl_slope_fits fm) (tsallis_fits fm))))). Qed.
Print Assumptions C116_finite_measures.

(** One negative value of the model makes all values of the Kullback-Leibler measure the large one, even with
    NaN in the density. *)
Theorem C116_negative : forall (fm : format) (blog : number fm -> number fm) neg mask f g, Forall finite g ->
  ((exists b, In b g /\ value b < 0) -> b_kl_values blog neg mask f g = map (fun _ => neg) g) /\
  ((forall b, In b g -> 0 <= value b) -> b_kl_values blog neg mask f g = b_map2 (b_kl blog mask) f g).
Proof. exact (fun fm blog neg mask f g F => conj (neg_values fm blog neg mask f g F) (pos_values fm blog neg mask f g F)). Qed.
Print Assumptions C116_negative.

(** Objectives, gradients, differences and updated coefficients that are finite have the values of
    the rounded model. *)
Theorem C116_objective : forall (fm : format) (quadr : list (number fm) -> number fm) quadr', same_rule quadr quadr' ->
  (forall m m' om f g, (forall a b, In (a, b) (combine f g) -> agrees (m a b) (m' (value a) (value b))) ->
    agrees (b_objective quadr om (b_map2 m f g)) (fl_objective (near fm) quadr' (map value om) (fl_map2 m' (map value f) (map value g)))) /\
  (forall m m' om f g b, (forall x y, In (x, y) (combine f g) -> agrees (m x y) (m' (value x) (value y))) ->
    agrees (b_gradient quadr om (b_map2 m f g) b)
      (fl_gradient (near fm) quadr' (map value om) (fl_map2 m' (map value f) (map value g)) (map value b))) /\
  (forall f g : list (number fm), Forall2 agrees (b_diff f g) (fl_diff (near fm) (map value f) (map value g))) /\
  (forall mask N f g b c, (forall x y, In (x, y) (combine f g) -> seen mask x y) -> finite N -> finite (b_div (quadr f) N) ->
    agrees (b_update quadr mask N f g b c)
      ((near fm) ((near fm) (value c * quadr' (fl_integrand (near fm) (value mask) (map value f) (map value g) (map value b)))
              / (near fm) (quadr' (map value f) / value N)))).
Proof.
  exact (fun fm quadr quadr' Q => conj (fun m m' om f g => objective_agrees fm quadr quadr' m m' om f g Q)
    (conj (fun m m' om f g b => gradient_agrees fm quadr quadr' m m' om f g b Q)
    (conj (diff_agree fm) (fun mask N f g b c => update_agrees fm quadr quadr' mask N f g b c Q)))).
Qed.
Print Assumptions C116_objective.

(** And they are finite unless an intermediate result overflows. *)
Theorem C116_finite_objective : forall fm : format,
  (forall f g : list (number fm), (forall a b, In (a, b) (combine f g) -> finite a /\ finite b /\ fits fm ((near fm) (value a - value b))) ->
    Forall2 represents (b_diff f g) (fl_diff (near fm) (map value f) (map value g))) /\
  forall P (quadr : list (number fm) -> number fm) quadr', finite_rule P quadr quadr' ->
  (forall m m' om f g, Forall finite om ->
    (forall a b, In (a, b) (combine f g) -> represents (m a b) (m' (value a) (value b))) ->
    let v := fl_mul (near fm) (map value om) (fl_map2 m' (map value f) (map value g)) in Forall (fits fm) v -> P v ->
    represents (b_objective quadr om (b_map2 m f g)) (fl_objective (near fm) quadr' (map value om) (fl_map2 m' (map value f) (map value g)))) /\
  (forall m m' om f g b, Forall finite om -> Forall finite b ->
    (forall x y, In (x, y) (combine f g) -> represents (m x y) (m' (value x) (value y))) ->
    let u := fl_mul (near fm) (map value om) (fl_map2 m' (map value f) (map value g)) in let v := fl_mul (near fm) u (map value b) in
    Forall (fits fm) u -> Forall (fits fm) v -> P v ->
    represents (b_gradient quadr om (b_map2 m f g) b)
      (fl_gradient (near fm) quadr' (map value om) (fl_map2 m' (map value f) (map value g)) (map value b))) /\
  (forall mask N f g b c, (forall x y, In (x, y) (combine f g) -> seen mask x y) ->
    finite N -> finite c -> Forall finite f -> Forall finite b ->
    let v := fl_integrand (near fm) (value mask) (map value f) (map value g) (map value b) in
    let lm := (near fm) (quadr' (map value f) / value N) in let u := (near fm) (value c * quadr' v) in
    Forall (fits fm) v -> P v -> P (map value f) -> value N <> 0 -> fits fm lm -> lm <> 0 -> fits fm u -> fits fm ((near fm) (u / lm)) ->
    represents (b_update quadr mask N f g b c) ((near fm) (u / lm))).
Proof.
  exact (fun fm => conj (diff_rep fm) (fun P quadr quadr' Q => conj (fun m m' om f g => objective_fits fm P quadr quadr' m m' om f g Q)
    (conj (fun m m' om f g b => gradient_fits fm P quadr quadr' m m' om f g b Q)
          (fun mask N f g b c => update_fits fm P quadr quadr' mask N f g b c Q)))).
Qed.
Print Assumptions C116_finite_objective.

(** The least squares objective is not negative unless it is infinite or NaN. *)
Theorem C116_squares : forall (fm : format) (bsq : number fm -> number fm) fsq t x om f g, library bsq fsq -> (forall r, 0 <= fsq r) ->
  ascending (map value x) -> Forall (fun r => 0 <= value r) om ->
  finite (b_objective (b_trapz t x) om (b_map2 (b_square bsq) f g)) ->
  0 <= value (b_objective (b_trapz t x) om (b_map2 (b_square bsq) f g)).
Proof. exact squares_pos. Qed.
Print Assumptions C116_squares.

(** ** Examples *)
Local Notation double := (number binary64).
Local Notation rnd64 := (near binary64).
Local Notation largest := (SpecBin64.largest binary64).
Local Notation fits := (SpecBin64.fits binary64).
Local Notation b_lit := (@ModelBin64.b_lit binary64).
Local Notation b_zero := (@ModelBin64.b_zero binary64).
Local Notation mul_finite := (ProofBin64.mul_finite binary64).
Local Notation add_agrees := (ProofBin64.add_agrees binary64).
Local Notation mul_agrees := (ProofBin64.mul_agrees binary64).
Local Notation self_agrees := (ProofBin64.self_agrees binary64).
Local Notation selves_agree := (ProofBin64.selves_agree binary64).
Local Notation lit_int := (ProofBin64.lit_int binary64).
Local Notation r64 := (ProofBin64.r64 binary64).
Local Notation rnd_bound := (ProofBin64.rnd_bound binary64).
Local Notation bpow_fmt := (ProofBin64.bpow_fmt binary64).
Local Notation pow_lt_largest := (ProofBin64.pow_lt_largest binary64).
Local Notation lift_reps := (ProofBin64.lift_reps binary64).
Local Notation mul_fits := (ProofBin64b.mul_fits binary64).
Local Notation self_rep := (ProofBin64b.self_rep binary64).
(** 0.1 as a double. *)
Definition tenth : double := b_lit 3602879701896397 (-55).
Definition b3 : double := b_lit 3 0.
Definition b1 : double := b_lit 1 0.
Lemma tenth_finite : finite tenth. Proof. vm_compute. reflexivity. Qed.
Lemma b3_rep : represents b3 3. Proof. exact (lit_int 3 eq_refl). Qed.
Lemma b1_rep : represents b1 1. Proof. exact (lit_int 1 eq_refl). Qed.

(** 0.1 + 0.1 + 0.1 is not 0.3, and 2^1023 * 2 is no finite number. *)
Example C116_operations_example : B2SF (b_add tenth (b_add tenth tenth)) = SpecFloat.S754_finite false 5404319552844596 (-54) /\
  value (b_add tenth (b_add tenth tenth)) = rnd64 (value tenth + rnd64 (value tenth + value tenth)) /\
  b_mul (b_lit 1 1023) (b_lit 2 0) = B754_infinity false.
Proof.
  split; [vm_compute; reflexivity|]. split; [|vm_compute; reflexivity].
  apply (add_agrees tenth (b_add tenth tenth) _ _ (self_agrees _) (add_agrees tenth tenth _ _ (self_agrees _) (self_agrees _))).
  vm_compute. reflexivity.
Qed.

Definition grid3 : list double := [b_zero; b1; b3].
Definition vals3 : list double := [tenth; b1; b3].
Definition t3 : order := Plus (At 1) (At 0).
Lemma t3_orders : orders 2 t3. Proof. unfold orders, t3. simpl. apply perm_swap. Qed.
Lemma tenth_value : 0 <= value tenth <= 1.
Proof.
  assert (V : value tenth = IZR 7205759403792794 * bpow radix2 (-56)).
  { unfold value. rewrite <- SF2R_B2SF. replace (B2SF tenth) with (SpecFloat.S754_finite false 7205759403792794 (-56)) by (vm_compute; reflexivity). reflexivity. }
  rewrite V. change (bpow radix2 (-56)) with (/ IZR 72057594037927936). lra.
Qed.
Lemma grid3_values : map value grid3 = [0; 1; 3].
Proof. unfold grid3. cbn [map]. rewrite (proj2 b1_rep), (proj2 b3_rep). reflexivity. Qed.
Lemma vals3_values : map value vals3 = [value tenth; 1; 3].
Proof. unfold vals3. cbn [map]. rewrite (proj2 b1_rep), (proj2 b3_rep). reflexivity. Qed.
Lemma grid3_finite : Forall finite grid3. Proof. repeat constructor; vm_compute; reflexivity. Qed.
Lemma vals3_finite : Forall finite vals3. Proof. repeat constructor; vm_compute; reflexivity. Qed.
Lemma small3 : INR 3 * bpow radix2 (2 + 2 + 2) < largest.
Proof. change (bpow radix2 (2 + 2 + 2)) with 64. apply Rlt_trans with (bpow radix2 8); [|apply pow_lt_largest; reflexivity]. change (bpow radix2 8) with 256. simpl. lra. Qed.
Lemma pow22 : bpow radix2 2 = 4. Proof. reflexivity. Qed.

Example C116_integrals_example : finite (b_trapz t3 grid3 vals3) /\
  value (b_trapz t3 grid3 vals3) = fl_trapz rnd64 t3 [0; 1; 3] [value tenth; 1; 3].
Proof.
  split; [vm_compute; reflexivity|]. rewrite <- grid3_values, <- vals3_values.
  apply (proj1 (C116_integrals binary64) t3 grid3 vals3 (map value vals3) (selves_agree vals3)). vm_compute. reflexivity.
Qed.

Lemma grid3_bound : Forall (fun r => Rabs (value r) <= bpow radix2 2) grid3.
Proof. rewrite pow22. apply (Forall_map value (fun r => Rabs r <= 4) grid3). rewrite grid3_values. repeat apply Forall_cons; try apply Forall_nil; apply Rabs_le; lra. Qed.
Lemma vals3_bound : Forall (fun r => Rabs (value r) <= bpow radix2 2) vals3.
Proof. rewrite pow22. assert (T := tenth_value). apply (Forall_map value (fun r => Rabs r <= 4) vals3). rewrite vals3_values. repeat apply Forall_cons; try apply Forall_nil; apply Rabs_le; lra. Qed.

Example C116_no_overflow_example : represents (b_trapz t3 grid3 vals3) (fl_trapz rnd64 t3 [0; 1; 3] [value tenth; 1; 3]).
Proof.
  rewrite <- grid3_values, <- vals3_values.
  apply (proj1 (C116_no_overflow binary64) t3 grid3 (map value grid3) vals3 (map value vals3) 2%Z 2%Z); try (unfold bottom; simpl; lia); try reflexivity;
    [exact t3_orders | exact small3 | apply lift_reps, grid3_finite | apply lift_reps, vals3_finite
    | apply Forall_map, grid3_bound | apply Forall_map, vals3_bound].
Qed.

Example C116_radial_example : finite (b_trapz t3 grid3 vals3) /\
  Rabs (value (b_trapz t3 grid3 vals3) - trap [0; 1; 3] [value tenth; 1; 3]) <=
    INR 5 * bpow radix2 (-52) * trap [0; 1; 3] (map Rabs [value tenth; 1; 3]) + INR 3 * bpow radix2 (-1072).
Proof.
  rewrite <- grid3_values, <- vals3_values. apply (C116_radial binary64 t3 grid3 vals3 2%Z 2%Z); try (unfold bottom; simpl; lia); try reflexivity.
  - exact t3_orders.
  - apply Rle_trans with (bpow radix2 3); [simpl; lra | apply bpow_le; cbv; discriminate].
  - exact small3.
  - exact grid3_finite.
  - exact vals3_finite.
  - rewrite grid3_values. repeat constructor; lra.
  - exact grid3_bound.
  - exact vals3_bound.
Qed.

(** The same numbers in extended precision: the integral is found exactly. *)
Example C116_overflow_example :
  let z : number extended := ModelBin64.b_zero in let q : number extended := ModelBin64.b_lit 1 (-2) in let h : number extended := ModelBin64.b_lit 1 1023 in
  represents (b_trapz (At 0) [z; q] [h; h]) (bpow radix2 1021).
Proof.
  cbv zeta. split; [vm_compute; reflexivity|]. unfold value. rewrite <- SF2R_B2SF.
  match goal with |- SF2R radix2 ?a = _ => replace a with (SpecFloat.S754_finite false 9223372036854775808 958) by (vm_compute; reflexivity) end.
  replace (bpow radix2 1021) with (bpow radix2 63 * bpow radix2 958) by (rewrite <- bpow_plus; reflexivity). reflexivity.
Qed.
(** The double next to 0.1 in quadruple precision. *)
Example C116_widen_example : exists a : number binary128, represents a (value tenth).
Proof. exact (C116_widen binary128 tenth tenth_finite). Qed.
(** 0.1 has other values in the two formats. *)
Example C116_formats_example :
  B2SF (b_div (ModelBin64.b_lit 1 0 : number binary64) (ModelBin64.b_lit 10 0)) = SpecFloat.S754_finite false 7205759403792794 (-56) /\
  B2SF (b_div (ModelBin64.b_lit 1 0 : number extended) (ModelBin64.b_lit 10 0)) = SpecFloat.S754_finite false 14757395258967641293 (-67).
Proof. split; vm_compute; reflexivity. Qed.

(** A density of 2^1000 where the model is 2^-22: the quotient is hidden and its place taken by 1. *)
Example C116_ratio_example : B2SF (b_ratio b1 (b_lit 1 (-40)) (b_lit 1 1000) (b_lit 1 (-22))) = B2SF b1 /\
  B2SF (b_ratio b1 (b_lit 1 (-40)) (b_lit 1 999) (b_lit 1 (-22))) = B2SF (b_lit 1 1021) /\
  B2SF (b_ratio b1 (b_lit 1 (-40)) b3 (b_lit 1 (-41))) = B2SF b1.
Proof. repeat split; vm_compute; reflexivity. Qed.

(** Squares by multiplication, and a logarithm that only knows log 1. *)
Definition ex_sq (x : double) : double := b_mul x x.
Lemma ex_sq_lib : library ex_sq (fun r => rnd64 (r * r)).
Proof. intros x F. split; [apply (mul_finite x x F)|]. apply (mul_agrees x x _ _ (self_agrees x) (self_agrees x) F). Qed.
Definition ex_log (x : double) : double := if Beqb x b1 then b_zero else B754_nan.
Lemma ex_log_lib : library ex_log (fun _ => 0).
Proof.
  intros x. unfold ex_log. destruct (Beqb x b1) eqn:E; intro F; [|discriminate F]. split; [|reflexivity].
  destruct x as [s|s| |s m e Hb]; try reflexivity; try discriminate E. destruct s; discriminate E.
Qed.
Lemma one_seen : seen (b_lit 1 (-40)) b3 b3.
Proof.
  assert (F3 := proj1 b3_rep). split; [vm_compute; reflexivity|]. split; [exact F3|]. split; [exact F3|]. right.
  rewrite (proj2 b3_rep). apply Rle_lt_trans with 1; [|rewrite Rabs_pos_eq; lra].
  eapply Rle_trans; [apply Rle_abs|]. apply rnd_bound; [exact (bpow_fmt 0 ltac:(unfold bottom; simpl; lia))|].
  rewrite (Rabs_pos_eq 3) by lra. assert (P : 4 <= 2 ^ 1022). { replace 4 with (2 ^ 2) by ring. apply Rle_pow; [lra | repeat constructor]. }
  assert (0 < 2 ^ 1022) by lra. rewrite Rabs_pos_eq by (apply Rmult_le_pos; [lra | left; apply Rinv_0_lt_compat; lra]).
  apply Rmult_le_reg_r with (2 ^ 1022); [lra|]. rewrite Rmult_assoc, Rinv_l by lra. lra.
Qed.

Example C116_measures_example :
  agrees (b_square ex_sq tenth b3) (fl_square rnd64 (fun r => rnd64 (r * r)) (value tenth) (value b3)) /\ finite (b_square ex_sq tenth b3) /\
  agrees (b_kl ex_log (b_lit 1 (-40)) b3 b3) (fl_kl rnd64 (fun _ => 0) (value (b_lit 1 (-40))) (value b3) (value b3)) /\
  finite (b_kl ex_log (b_lit 1 (-40)) b3 b3).
Proof.
  destruct (C116_measures binary64) as (M1 & _ & M2 & _). split; [exact (M1 _ _ _ _ ex_sq_lib)|]. split; [vm_compute; reflexivity|].
  split; [exact (M2 _ _ _ _ _ ex_log_lib one_seen) | vm_compute; reflexivity].
Qed.

Example C116_objective_example : finite (b_objective (b_trapz t3 grid3) [b1; b1; b3] (b_map2 (b_square ex_sq) vals3 grid3)) /\
  value (b_objective (b_trapz t3 grid3) [b1; b1; b3] (b_map2 (b_square ex_sq) vals3 grid3)) =
  fl_objective rnd64 (fl_trapz rnd64 t3 (map value grid3)) (map value [b1; b1; b3])
    (fl_map2 (fl_square rnd64 (fun r => rnd64 (r * r))) (map value vals3) (map value grid3)).
Proof.
  split; [vm_compute; reflexivity|].
  apply (proj1 (C116_objective binary64 (b_trapz t3 grid3) _ (proj1 (C116_integrals binary64) t3 grid3))); [|vm_compute; reflexivity].
  intros a b _. exact (proj1 (C116_measures binary64) _ _ a b ex_sq_lib).
Qed.

(** A step of the self-consistent method at a perfect fit. *)
Example C116_update_example : B2SF (b_update (b_cubic (At 0) [b3]) (b_lit 1 (-40)) b1 [b3] [b3] [b1] b1) = SpecFloat.S754_finite false 6004799503160661 (-54).
Proof. vm_compute. reflexivity. Qed.

Example C116_squares_example : 0 <= value (b_objective (b_trapz t3 grid3) [b1; b1; b3] (b_map2 (b_square ex_sq) vals3 grid3)).
Proof.
  apply (C116_squares binary64 ex_sq (fun r => rnd64 (r * r))).
  - exact ex_sq_lib.
  - intro r. rewrite <- (rd_id _ _ _ _ r64 0 (rd_zero _ _ _ _ r64)). apply (rd_mono _ _ _ _ r64), Rle_0_sqr.
  - rewrite grid3_values. repeat constructor; lra.
  - repeat constructor; rewrite ?(proj2 b1_rep), ?(proj2 b3_rep); lra.
  - vm_compute. reflexivity.
Qed.

Lemma ex_sq_comp : computes (fun _ => True) ex_sq (fun r => rnd64 (r * r)).
Proof. intros x F _ L. apply mul_fits; [apply self_rep, F | apply self_rep, F | exact L]. Qed.
Lemma fits_small : forall x, Rabs x <= 64 -> fits (rnd64 x).
Proof.
  intros x L. unfold SpecBin64.fits. apply Rle_lt_trans with (bpow radix2 6); [|apply pow_lt_largest; reflexivity].
  apply rnd_bound; [apply bpow_fmt; unfold bottom; simpl; lia | exact L].
Qed.
Lemma rnd_small : forall x, Rabs x <= 4 -> Rabs (rnd64 x) <= 4.
Proof. intros x L. change 4 with (bpow radix2 2). apply rnd_bound; [apply bpow_fmt; unfold bottom; simpl; lia | exact L]. Qed.

Example C116_finite_measures_example :
  represents (b_square ex_sq tenth b3) (fl_square rnd64 (fun r => rnd64 (r * r)) (value tenth) (value b3)) /\
  represents (b_square_slope tenth b3) (fl_square_slope rnd64 (value tenth) (value b3)) /\
  represents (b_kl_slope (b_lit 1 (-40)) b3 b3) (-1).
Proof.
  assert (T := tenth_value). assert (V3 := proj2 b3_rep). assert (A : Rabs (value tenth - value b3) <= 4) by (rewrite V3; apply Rabs_le; lra).
  assert (B := rnd_small _ A). destruct (C116_finite_measures binary64) as (M1 & M2 & _ & M4 & _). split; [|split].
  - apply (M1 _ _ _ _ ex_sq_comp tenth_finite (proj1 b3_rep)); [apply fits_small; lra|]. apply fits_small. rewrite Rabs_mult.
    apply Rle_trans with (4 * 4); [|lra]. apply Rmult_le_compat; try apply Rabs_pos; exact B.
  - apply (M2 _ _ tenth_finite (proj1 b3_rep)); [apply fits_small; lra|]. apply fits_small. rewrite Rabs_mult, (Rabs_left (-2)) by lra. lra.
  - assert (M := M4 _ _ _ one_seen). replace (fl_kl_slope rnd64 (value (b_lit 1 (-40))) (value b3) (value b3)) with (-1) in M; [exact M|].
    unfold fl_kl_slope, fl_ratio. destruct (Rle_dec (value b3) (value (b_lit 1 (-40)))) as [L|L]; [reflexivity|].
    rewrite V3. replace (3 / 3) with (bpow radix2 0) by (simpl; field). unfold near.
    rewrite (rd_id _ _ _ _ r64 (bpow radix2 0)) by (apply bpow_fmt; unfold bottom; simpl; lia). reflexivity.
Qed.

(** The density is not even a number. *)
Example C116_negative_example : forall blog neg mask, b_kl_values blog neg mask [B754_nan; b3] [b1; Bopp b3] = [neg; neg].
Proof.
  intros blog neg mask. apply (C116_negative binary64 blog neg mask [B754_nan; b3] [b1; Bopp b3]).
  - repeat constructor.
  - exists (Bopp b3). split; [right; left; reflexivity|]. unfold value. rewrite B2R_Bopp. assert (V := proj2 b3_rep). unfold value in V. rewrite V. lra.
Qed.

Lemma rule3 : finite_rule (fun y => length y = 3%nat /\ Forall (fun r => Rabs r <= bpow radix2 6) y) (b_trapz t3 grid3) (fl_trapz rnd64 t3 [0; 1; 3]).
Proof.
  intros y y' Y [Ly By]. rewrite <- grid3_values. assert (E : length y = 3%nat) by (rewrite <- Ly; clear - Y; induction Y; simpl; congruence).
  apply (proj1 (C116_no_overflow binary64) t3 grid3 (map value grid3) y y' 2%Z 6%Z); try (unfold bottom; simpl; lia); try exact Y; try exact By;
    [exact t3_orders | | apply lift_reps, grid3_finite | apply Forall_map, grid3_bound].
  change (bpow radix2 (2 + 6 + 2)) with 1024. apply Rlt_trans with (bpow radix2 12); [|apply pow_lt_largest; reflexivity]. change (bpow radix2 12) with 4096. simpl. lra.
Qed.
Example C116_finite_objective_example :
  Forall2 represents (b_diff vals3 grid3) (fl_diff rnd64 (map value vals3) (map value grid3)) /\
  represents (b_objective (b_trapz t3 grid3) [b1; b1; b3] (b_map2 b_square_slope vals3 grid3))
    (fl_objective rnd64 (fl_trapz rnd64 t3 [0; 1; 3]) (map value [b1; b1; b3])
       (fl_map2 (fl_square_slope rnd64) (map value vals3) (map value grid3))).
Proof.
  destruct (C116_finite_objective binary64) as [D O]. assert (T := tenth_value). assert (V1 := proj2 b1_rep). assert (V3 := proj2 b3_rep).
  assert (Z : value b_zero = 0) by reflexivity.
  assert (F : forall a b, In (a, b) (combine vals3 grid3) -> finite a /\ finite b /\ Rabs (value a - value b) <= 4).
  { intros a b [E|[E|[E|[]]]]; injection E as <- <-; split; try apply tenth_finite; try apply b1_rep; try apply b3_rep;
      (split; [try reflexivity; try apply b1_rep; try apply b3_rep|]); rewrite ?V1, ?V3, ?Z; apply Rabs_le; lra. }
  assert (S : forall a b, In (a, b) (combine vals3 grid3) -> Rabs (fl_square_slope rnd64 (value a) (value b)) <= 8).
  { intros a b I. destruct (F a b I) as (_ & _ & L). apply rnd_small in L. unfold fl_square_slope. change 8 with (bpow radix2 3).
    apply rnd_bound; [apply bpow_fmt; unfold bottom; simpl; lia|]. change (bpow radix2 3) with 8. rewrite Rabs_mult, (Rabs_left (-2)) by lra. lra. }
  assert (W : Forall (fun r => Rabs r <= bpow radix2 6) (fl_mul rnd64 (map value [b1; b1; b3]) (fl_map2 (fl_square_slope rnd64) (map value vals3) (map value grid3)))).
  { assert (M : forall w a b, In (a, b) (combine vals3 grid3) -> 0 <= w <= 4 -> Rabs (rnd64 (w * fl_square_slope rnd64 (value a) (value b))) <= bpow radix2 6).
    { intros w a b I L. specialize (S a b I). apply rnd_bound; [apply bpow_fmt; unfold bottom; simpl; lia|]. change (bpow radix2 6) with 64. rewrite Rabs_mult, (Rabs_pos_eq w) by lra.
      apply Rle_trans with (4 * 8); [|lra]. apply Rmult_le_compat; try apply Rabs_pos; lra. }
    unfold fl_map2, vals3, grid3. cbn [map combine fst snd fl_mul]. repeat apply Forall_cons; try apply Forall_nil;
      apply M; rewrite ?V1, ?V3; try lra; unfold vals3, grid3; cbn [combine]; simpl; auto. }
  split.
  - apply D. intros a b I. destruct (F a b I) as (Fa & Fb & L). split; [exact Fa|]. split; [exact Fb|]. apply fits_small. lra.
  - apply (proj1 (O _ _ _ rule3)).
    + repeat apply Forall_cons; try apply Forall_nil; first [apply b1_rep | apply b3_rep].
    + intros a b I. destruct (F a b I) as (Fa & Fb & L). apply (proj1 (proj2 (C116_finite_measures binary64)) a b Fa Fb); [apply fits_small; lra|].
      unfold SpecBin64.fits. eapply Rle_lt_trans; [apply (S a b I)|]. change 8 with (bpow radix2 3). apply pow_lt_largest. reflexivity.
    + eapply Forall_impl; [|exact W]. intros r L. unfold SpecBin64.fits. eapply Rle_lt_trans; [exact L | apply pow_lt_largest; reflexivity].
    + split; [reflexivity | exact W].
Qed.
