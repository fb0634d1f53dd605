(** Properties C12-C19, C70-C72: pointwise measures (/repo/bfit/measure.py). *)
From Coquelicot Require Import Coquelicot.
From Coq Require Import Reals List ZArith Bool Lra Lia.
From Verif Require Import XR ModelMeas SpecDens SpecMeas Lists ProofMeas ProofErr2.
From Verif Require ProofMore.
Import ListNotations.
Local Open Scope R_scope.

Theorem C12_squared_value_and_derivative : forall f g b, length f = length g ->
  exists d, measure_evaluate MSq (VArr (A1 (map Fin f))) (VArr (A1 (map Fin g))) (VBool b) =
    Ok (map Fin (map2 sq_fn f g), if b then Some (map Fin d) else None) /\
    length d = length f /\
    forall i, (i < length f)%nat -> is_derive (fun t : R => sq_fn (nth i f 0) t) (nth i g 0) (nth i d 0).
Proof. exact sq_value. Qed.
Print Assumptions C12_squared_value_and_derivative.

Example C12_squared_example : exists d, measure_evaluate MSq (VArr (A1 (map Fin [1; 2]))) (VArr (A1 (map Fin [3; -4]))) (VBool true) =
    Ok (map Fin [4; 36], Some (map Fin d)) /\ is_derive (fun t : R => sq_fn 2 t) (-4) (nth 1 d 0).
Proof.
  destruct (C12_squared_value_and_derivative [1; 2] [3; -4] true eq_refl) as (d & E & _ & D). exists d. split; [|exact (D 1%nat ltac:(simpl; lia))].
  rewrite E. unfold map2, sq_fn. simpl. repeat (f_equal; try lra).
Qed.

Theorem C12_squared_nonneg : forall f g, 0 <= sq_fn f g.
Proof. exact sq_fn_nonneg. Qed.
Print Assumptions C12_squared_nonneg.

Theorem C12_squared_zero_iff : forall f g, sq_fn f g = 0 <-> f = g.
Proof. exact sq_fn_zero. Qed.
Print Assumptions C12_squared_zero_iff.

Example C12_squared_zero_example : sq_fn (1 / 3) (1 / 3) = 0 /\ 0 <= sq_fn 1 (-2) /\ sq_fn 1 (-2) <> 0.
Proof. split; [apply C12_squared_zero_iff; reflexivity|]. split; [apply C12_squared_nonneg|]. rewrite C12_squared_zero_iff. lra. Qed.

(** Same acceptance test in the three classes. *)
Theorem C12_accepts : forall me density model deriv,
  (exists out, measure_evaluate me density model deriv = Ok out) <->
  exists f g b, density = VArr (A1 f) /\ model = VArr (A1 g) /\ deriv = VBool b /\
                length f = length g.
Proof. exact evaluate_accepts. Qed.
Print Assumptions C12_accepts.

Example C12_accepts_example : (exists out, measure_evaluate (MKL (Fin 0) (Fin 7)) (VArr (A1 [NaN; Fin 2])) (VArr (A1 [Fin 1; PInf])) (VBool false) = Ok out) /\
  ~ (exists out, measure_evaluate (MTs 2 (Fin 0)) (VArr (A1 [Fin 2])) (VArr (A1 [Fin 1; PInf])) (VBool false) = Ok out).
Proof.
  split; [apply C12_accepts; do 3 eexists; repeat split|]. rewrite C12_accepts. intros (f & g & b & F & G & _ & L).
  injection F as <-. injection G as <-. discriminate L.
Qed.

Theorem C12_raises : forall me f model deriv x,
  measure_evaluate me (VArr f) model deriv = Raise x ->
  (x = ValueError \/ x = TypeError) /\
  (x = TypeError <-> (exists l g, f = A1 l /\ model = VArr (A1 g) /\ length l = length g) /\
                     forall b, deriv <> VBool b).
Proof. exact evaluate_raises. Qed.
Print Assumptions C12_raises.

Example C12_raises_example : measure_evaluate MSq (VArr (A1 [Fin 1; NaN])) (VArr (A1 [Fin 1])) (VBool true) = Raise ValueError /\
  measure_evaluate MSq (VArr (A1 [Fin 1])) (VArr (A1 [Fin 1])) (VInt 1) = Raise TypeError.
Proof. split; reflexivity. Qed.

Example C12_example :
  measure_evaluate MSq (VArr (A1 [Fin 1; NaN])) (VArr (A1 [Fin 1])) (VBool true) = Raise ValueError /\
  measure_evaluate MSq (VArr (A1 [Fin 1])) (VArr (A1 [Fin 1])) (VInt 1) = Raise TypeError /\
  length [1; 2] = length [3; -4].
Proof. repeat split. Qed.

Theorem C13_kl_value : forall mask neg f g b, 0 <= mask -> length f = length g ->
  Forall (fun x => 0 < x) f -> Forall (fun x => 0 <= x) g ->
  exists v q,
    measure_evaluate (MKL (Fin mask) neg) (VArr (A1 (map Fin f))) (VArr (A1 (map Fin g))) (VBool b) =
      Ok (map Fin v, if b then Some (map Fin q) else None) /\
    length v = length f /\ length q = length f /\
    forall i, (i < length f)%nat ->
      (kept mask (nth i f 0) (nth i g 0) ->
         nth i v 0 = kl_fn (nth i f 0) (nth i g 0) /\ nth i q 0 = - (nth i f 0 / nth i g 0)) /\
      (~ kept mask (nth i f 0) (nth i g 0) -> nth i v 0 = 0 /\ nth i q 0 = -1).
Proof. exact kl_value. Qed.
Print Assumptions C13_kl_value.

Lemma tiny_small : 0 < / 2 ^ 1022 <= / 4.
Proof.
  split; [apply Rinv_0_lt_compat, pow_lt; lra|]. replace (/ 4) with (/ 2 ^ 2) by (simpl; f_equal; ring).
  apply Rinv_le_contravar; [lra|]. apply Rle_pow; [lra|lia].
Qed.
(** One kept and one masked point. *)
Example C13_kl_value_example : exists v q,
  measure_evaluate (MKL (Fin (1/2)) (Fin 7)) (VArr (A1 (map Fin [3; 3]))) (VArr (A1 (map Fin [1; 1/4]))) (VBool true) =
    Ok (map Fin v, Some (map Fin q)) /\ nth 0 v 0 = kl_fn 3 1 /\ nth 0 q 0 = - (3 / 1) /\ nth 1 v 1 = 0 /\ nth 1 q 0 = -1.
Proof.
  destruct (C13_kl_value (1/2) (Fin 7) [3; 3] [1; 1/4] true) as (v & q & E & Lv & _ & S); [lra | reflexivity | repeat constructor; lra | repeat constructor; lra|].
  exists v, q. split; [exact E|]. assert (T := tiny_small). destruct (S 0%nat) as [K _]; [simpl; lia|]. destruct (S 1%nat) as [_ M]; [simpl; lia|].
  destruct K as [K1 K2]; [unfold kept; simpl; rewrite !Rabs_right by lra; lra|].
  destruct M as [M1 M2]; [unfold kept; simpl; lra|]. repeat split; try assumption. rewrite (nth_indep v 1 0); [exact M1 | rewrite Lv; simpl; lia].
Qed.

Theorem C13_kl_negative_model : forall mask neg f g b, length f = length g ->
  Exists (fun x => x < 0) g ->
  measure_evaluate (MKL mask neg) (VArr (A1 (map Fin f))) (VArr (A1 (map Fin g))) (VBool b) =
    Ok (repeat neg (length f), if b then Some (repeat neg (length f)) else None).
Proof. exact kl_negative. Qed.
Print Assumptions C13_kl_negative_model.

Example C13_kl_negative_example : measure_evaluate (MKL (Fin 0) (Fin 7)) (VArr (A1 (map Fin [1; 2]))) (VArr (A1 (map Fin [1; -1]))) (VBool true) =
  Ok ([Fin 7; Fin 7], Some [Fin 7; Fin 7]).
Proof. apply (C13_kl_negative_model (Fin 0) (Fin 7) [1; 2] [1; -1] true eq_refl). apply Exists_cons_tl, Exists_cons_hd. lra. Qed.

(** Infinite and undefined entries of the model. *)
Theorem C13_special_values : forall mask neg f g b,
  length f = length g -> Forall (fun x => x <> NInf /\ forall y, x = Fin y -> 0 <= y) g ->
  exists v q, measure_evaluate (MKL (Fin mask) neg) (VArr (A1 f)) (VArr (A1 g)) (VBool b) = Ok (v, if b then Some q else None) /\
    forall i d, nth_error f i = Some (Fin d) -> 0 < d ->
      (nth_error g i = Some PInf -> nth_error v i = Some NInf /\ nth_error q i = Some (Fin 0)) /\
      (nth_error g i = Some NaN -> nth_error v i = Some (Fin 0) /\ nth_error q i = Some (Fin (-1))).
Proof. exact kl_special. Qed.
Print Assumptions C13_special_values.

Example C13_special_example : Forall (fun x => x <> NInf /\ forall y, x = Fin y -> 0 <= y) [Fin 1; PInf; NaN] /\
  nth_error [Fin 2; Fin 2; Fin 3] 1 = Some (Fin 2) /\ nth_error [Fin 1; PInf; NaN] 1 = Some PInf.
Proof.
  split; [|split; reflexivity]. repeat apply Forall_cons; try apply Forall_nil; (split; [discriminate|]); intros y E; try discriminate. injection E as <-. lra.
Qed.

(** One kept point, one masked point; and a model with one negative entry. *)
Example C13_example :
  kept (1/2) 3 1 /\ ~ kept (1/2) 3 (1/4) /\ Exists (fun x => x < 0) [1; -1].
Proof.
  split; [|split].
  - split; [lra|]. rewrite !Rabs_right by lra.
    assert (/ 2 ^ 1022 <= / 2 ^ 2).
    { apply Rinv_le_contravar; [lra|]. apply Rle_pow; [lra|lia]. }
    replace (/ 2 ^ 2) with (/ 4) in H by (simpl; f_equal; ring). lra.
  - intros [H _]. lra.
  - apply Exists_cons_tl. apply Exists_cons_hd. lra.
Qed.

(** At kept points the derivative array -f/g (C13_kl_value) is the derivative of the
    integrand.  Missing: masked points, see C14_masked_refuted. *)
Theorem C14_kl_derivative_partial : forall f g, 0 < f -> 0 < g ->
  is_derive (fun t : R => kl_fn f t) g (- (f / g)).
Proof. exact kl_fn_derive. Qed.
Print Assumptions C14_kl_derivative_partial.

Example C14_kl_derivative_example : is_derive (fun t : R => kl_fn 3 t) 2 (- (3 / 2)).
Proof. apply C14_kl_derivative_partial; lra. Qed.

(** At a masked point the value is the same for all models below the mask, so its derivative
    is 0, but -1 is returned. *)
Theorem C14_masked_refuted : exists mask f g v dv,
  0 < mask /\ 0 < f /\ 0 < g < mask /\
  measure_evaluate (MKL (Fin mask) (Fin 100000)) (VArr (A1 [Fin f])) (VArr (A1 [Fin g])) (VBool true) =
    Ok ([Fin v], Some [Fin dv]) /\
  (forall t, 0 <= t <= mask ->
     measure_evaluate (MKL (Fin mask) (Fin 100000)) (VArr (A1 [Fin f])) (VArr (A1 [Fin t])) (VBool false) =
       Ok ([Fin v], None)) /\
  dv = -1.
Proof. exact kl_masked_deriv. Qed.
Print Assumptions C14_masked_refuted.

(** An integrand with a negative slope. *)
Example C14_example : 0 < 3 /\ 0 < 2 /\ - (3 / 2) < -1.
Proof. lra. Qed.

(** A zero density value at an unmasked point gives NaN (0 * log 0), for every mask below 1. *)
Theorem C15_zero_density_refuted : forall mask neg, 0 <= mask < 1 ->
  measure_evaluate (MKL (Fin mask) neg) (VArr (A1 [Fin 0])) (VArr (A1 [Fin 1])) (VBool false) =
    Ok ([NaN], None).
Proof. exact kl_zero_density. Qed.
Print Assumptions C15_zero_density_refuted.

(** An undefined model is scored 0, the value of a perfect fit. *)
Theorem C15_nan_model_refuted : forall mask neg f,
  measure_evaluate (MKL mask neg) (VArr (A1 [Fin f])) (VArr (A1 [NaN])) (VBool false) =
    Ok ([Fin 0], None).
Proof. exact kl_nan_model. Qed.
Print Assumptions C15_nan_model_refuted.

(** Exactly which points are finite, for finite non-negative density and model.
    Missing from C15: points with zero density above the mask (NaN) and NaN models. *)
Theorem C15_finite_iff_partial : forall mask neg f g b, 0 <= mask -> length f = length g ->
  Forall (fun x => 0 <= x) f -> Forall (fun x => 0 <= x) g ->
  exists v d,
    measure_evaluate (MKL (Fin mask) neg) (VArr (A1 (map Fin f))) (VArr (A1 (map Fin g))) (VBool b) =
      Ok (v, d) /\ length v = length f /\
    forall i, (i < length f)%nat ->
      (nth i f 0 = 0 /\ mask < nth i g 0 -> nth i v NaN = NaN) /\
      (~ (nth i f 0 = 0 /\ mask < nth i g 0) -> exists x, nth i v NaN = Fin x).
Proof. exact kl_finite_iff. Qed.
Print Assumptions C15_finite_iff_partial.

Example C15_finite_iff_example : exists v d,
  measure_evaluate (MKL (Fin (/ 10)) (Fin 7)) (VArr (A1 (map Fin [0; 0; 2]))) (VArr (A1 (map Fin [1; 0; 3]))) (VBool false) = Ok (v, d) /\
  nth 0 v (Fin 5) = NaN /\ exists x y, nth 1 v NaN = Fin x /\ nth 2 v NaN = Fin y.
Proof.
  destruct (C15_finite_iff_partial (/ 10) (Fin 7) [0; 0; 2] [1; 0; 3] false) as (v & d & E & L & S); [lra | reflexivity | repeat constructor; lra | repeat constructor; lra|].
  exists v, d. split; [exact E|]. split.
  - rewrite (nth_indep v (Fin 5) NaN) by (rewrite L; simpl; lia). apply (S 0%nat); simpl; [lia | lra].
  - destruct (proj2 (S 1%nat ltac:(simpl; lia))) as [x X]; [simpl; lra|]. destruct (proj2 (S 2%nat ltac:(simpl; lia))) as [y Y]; [simpl; lra|].
    exists x, y. split; assumption.
Qed.

(** Zero density above the mask, zero density at a masked point, positive density. *)
Example C15_example : Forall (fun x => 0 <= x) [0; 0; 2] /\ Forall (fun x => 0 <= x) [1; 0; 3] /\
  (0 = 0 /\ / 10 < 1) /\ ~ (0 = 0 /\ / 10 < 0).
Proof. split; [repeat constructor; lra|]. split; [repeat constructor; lra|]. split; lra. Qed.

Theorem C16_gibbs : forall mask neg w f g, 0 <= mask -> all_kept mask f g ->
  length w = length f -> Forall (fun x => 0 <= x) w ->
  exists v,
    measure_evaluate (MKL (Fin mask) neg) (VArr (A1 (map Fin f))) (VArr (A1 (map Fin g))) (VBool false)
      = Ok (map Fin v, None) /\
    quad w f - quad w g <= quad w v /\
    (quad w v <= quad w f - quad w g ->
     forall i, (i < length f)%nat -> 0 < nth i w 0 -> nth i f 0 = nth i g 0).
Proof. exact gibbs. Qed.
Print Assumptions C16_gibbs.

Lemma all_kept_example : all_kept 0 [1; 3] [2; 2].
Proof.
  assert (HT : 0 < / 2 ^ 1022 <= / 2 ^ 2).
  { split; [apply Rinv_0_lt_compat, pow_lt; lra|].
    apply Rinv_le_contravar; [lra|]. apply Rle_pow; [lra|lia]. }
  replace (/ 2 ^ 2) with (/ 4) in HT by (simpl; f_equal; ring).
  split; [reflexivity|]. intros i Hi. unfold kept.
  destruct i as [|[|i]]; cbn [nth]; [| |simpl in Hi; lia]; rewrite !Rabs_right by lra; lra.
Qed.

(** f = (1,3), g = (2,2), equal integrals for equal weights: all hypotheses hold. *)
Example C16_example : all_kept 0 [1; 3] [2; 2] /\ quad [1; 1] [1; 3] = quad [1; 1] [2; 2].
Proof. split; [exact all_kept_example|]. unfold quad, rdot, rsum. simpl. lra. Qed.

Theorem C17_tsallis_accepts : forall alpha mask,
  (exists m, tsallis_init alpha mask = Ok m) <-> 0 <= alpha /\ 1 / 10 ^ 10 <= Rabs (alpha - 1).
Proof. exact tsallis_accepts. Qed.
Print Assumptions C17_tsallis_accepts.

Example C17_accepts_example : (exists m, tsallis_init (1/2) (Fin 0) = Ok m) /\ (exists m, tsallis_init 0 (Fin 0) = Ok m) /\ ~ (exists m, tsallis_init (-1) (Fin 0) = Ok m).
Proof.
  split; [apply C17_tsallis_accepts; split; [lra|]; rewrite Rabs_left by lra; lra|].
  split; [apply C17_tsallis_accepts; split; [lra|]; rewrite Rabs_left by lra; lra|]. rewrite C17_tsallis_accepts. lra.
Qed.

(** Every other order is a ValueError, measure.py:257-262. *)
Theorem C17_tsallis_rejects : forall alpha mask,
  ~ (0 <= alpha /\ 1 / 10 ^ 10 <= Rabs (alpha - 1)) -> tsallis_init alpha mask = Raise ValueError.
Proof. exact ProofMore.tsallis_rejects. Qed.
Print Assumptions C17_tsallis_rejects.

Example C17_rejects_example : tsallis_init (-1) (Fin 0) = Raise ValueError /\ tsallis_init 1 (Fin 0) = Raise ValueError.
Proof.
  split; apply C17_tsallis_rejects; [lra|]. intros [_ H]. replace (1 - 1) with 0 in H by lra. rewrite Rabs_R0 in H. simpl in H. lra.
Qed.

Theorem C17_tsallis_value_and_derivative : forall alpha mask m f g b, 0 <= mask -> all_kept mask f g ->
  tsallis_init alpha (Fin mask) = Ok m ->
  exists d,
    measure_evaluate m (VArr (A1 (map Fin f))) (VArr (A1 (map Fin g))) (VBool b) =
      Ok (map Fin (map2 (ts_fn alpha) f g), if b then Some (map Fin d) else None) /\
    length d = length f /\
    forall i, (i < length f)%nat ->
      is_derive (fun t : R => ts_fn alpha (nth i f 0) t) (nth i g 0) (nth i d 0).
Proof. exact ts_value. Qed.
Print Assumptions C17_tsallis_value_and_derivative.

Example C17_value_example : exists m d, tsallis_init 2 (Fin 0) = Ok m /\
  measure_evaluate m (VArr (A1 (map Fin [1; 3]))) (VArr (A1 (map Fin [2; 2]))) (VBool true) = Ok (map Fin (map2 (ts_fn 2) [1; 3] [2; 2]), Some (map Fin d)) /\
  is_derive (fun t : R => ts_fn 2 3 t) 2 (nth 1 d 0).
Proof.
  destruct (proj2 (C17_tsallis_accepts 2 (Fin 0))) as [m M]; [split; [lra|]; rewrite Rabs_right by lra; lra|].
  destruct (C17_tsallis_value_and_derivative 2 0 m [1; 3] [2; 2] true ltac:(lra) all_kept_example M) as (d & E & _ & D).
  exists m, d. split; [exact M|]. split; [exact E|]. exact (D 1%nat ltac:(simpl; lia)).
Qed.

Theorem C17_special_values : forall alpha mask f g b, length f = length g -> alpha <> 1 -> 0 < alpha ->
  exists v q, measure_evaluate (MTs alpha (Fin mask)) (VArr (A1 f)) (VArr (A1 g)) (VBool b) = Ok (v, if b then Some q else None) /\
    forall i d, nth_error f i = Some (Fin d) -> 0 < d -> nth_error g i = Some PInf \/ nth_error g i = Some NaN ->
      nth_error v i = Some (if rltb 1 alpha then Fin (- d / (alpha - 1)) else NInf) /\ nth_error q i = Some (Fin 0).
Proof. exact ts_special. Qed.
Print Assumptions C17_special_values.

Example C17_special_example : 3 <> 1 /\ 0 < 3 /\ nth_error [Fin 2; Fin 5] 1 = Some (Fin 5) /\ nth_error [Fin 1; PInf] 1 = Some PInf /\
  (if rltb 1 3 then Fin (- 5 / (3 - 1)) else NInf) = Fin (- (5 / 2)).
Proof. repeat split; try lra. rewrite rltb_true by lra. f_equal. lra. Qed.

Example C17_example : exists m, tsallis_init (1/2) (Fin 0) = Ok m.
Proof. apply tsallis_accepts. split; [lra|]. rewrite Rabs_left by lra. simpl. lra. Qed.

(** At kept points.  Missing: masked points, see C18_masked_refuted. *)
Theorem C18_tsallis_bounds_kl_partial : forall alpha mask neg m f g,
  1 < alpha -> 0 <= mask -> all_kept mask f g ->
  tsallis_init alpha (Fin mask) = Ok m ->
  exists t k,
    measure_evaluate m (VArr (A1 (map Fin f))) (VArr (A1 (map Fin g))) (VBool false)
      = Ok (map Fin t, None) /\
    measure_evaluate (MKL (Fin mask) neg) (VArr (A1 (map Fin f))) (VArr (A1 (map Fin g))) (VBool false)
      = Ok (map Fin k, None) /\
    forall i, (i < length f)%nat -> nth i k 0 <= nth i t 0.
Proof. exact ts_bounds_kl. Qed.
Print Assumptions C18_tsallis_bounds_kl_partial.

Example C18_bounds_example : exists m t k, tsallis_init 2 (Fin 0) = Ok m /\
  measure_evaluate m (VArr (A1 (map Fin [1; 3]))) (VArr (A1 (map Fin [2; 2]))) (VBool false) = Ok (map Fin t, None) /\
  measure_evaluate (MKL (Fin 0) (Fin 7)) (VArr (A1 (map Fin [1; 3]))) (VArr (A1 (map Fin [2; 2]))) (VBool false) = Ok (map Fin k, None) /\
  nth 1 k 0 <= nth 1 t 0.
Proof.
  destruct (proj2 (C17_tsallis_accepts 2 (Fin 0))) as [m M]; [split; [lra|]; rewrite Rabs_right by lra; lra|].
  destruct (C18_tsallis_bounds_kl_partial 2 0 (Fin 7) m [1; 3] [2; 2] ltac:(lra) ltac:(lra) all_kept_example M) as (t & k & T & K & L).
  exists m, t, k. repeat split; try assumption. apply (L 1%nat). simpl. lia.
Qed.

(** At every masked point with positive density the order is reversed. *)
Theorem C18_masked_refuted : forall alpha mask f g, 1 < alpha -> 0 <= mask -> 0 < f -> 0 <= g <= mask ->
  measure_evaluate (MTs alpha (Fin mask)) (VArr (A1 [Fin f])) (VArr (A1 [Fin g])) (VBool false) =
    Ok ([Fin (- (f / (alpha - 1)))], None) /\
  measure_evaluate (MKL (Fin mask) (Fin 100000)) (VArr (A1 [Fin f])) (VArr (A1 [Fin g])) (VBool false) =
    Ok ([Fin 0], None) /\
  - (f / (alpha - 1)) < 0.
Proof. exact ts_masked. Qed.
Print Assumptions C18_masked_refuted.

Example C18_example : (exists m, tsallis_init 2 (Fin 0) = Ok m) /\ all_kept 0 [1; 3] [2; 2].
Proof. split; [|exact all_kept_example]. apply tsallis_accepts. split; [lra|]. rewrite Rabs_right by lra. lra. Qed.

(** Quantitative form: every accepted alpha; the bound tends to 0 with alpha - 1. *)
Theorem C19_tsallis_near_kl : forall mask neg alpha m f g, 0 <= mask -> all_kept mask f g ->
  tsallis_init alpha (Fin mask) = Ok m ->
  exists t k,
    measure_evaluate m (VArr (A1 (map Fin f))) (VArr (A1 (map Fin g))) (VBool false)
      = Ok (map Fin t, None) /\
    measure_evaluate (MKL (Fin mask) neg) (VArr (A1 (map Fin f))) (VArr (A1 (map Fin g))) (VBool false)
      = Ok (map Fin k, None) /\
    forall i, (i < length f)%nat ->
      let L := ln (nth i f 0 / nth i g 0) in
      Rabs (nth i t 0 - nth i k 0) <=
      Rabs (alpha - 1) * (nth i f 0 * L ^ 2 * exp (Rabs (alpha - 1) * Rabs L)).
Proof. exact ts_api_near. Qed.
Print Assumptions C19_tsallis_near_kl.

Theorem C19_tsallis_limit : forall f g, 0 < f -> 0 < g ->
  is_lim (fun alpha => ts_fn alpha f g) 1 (kl_fn f g).
Proof. exact ts_limit. Qed.
Print Assumptions C19_tsallis_limit.

Example C19_limit_example : is_lim (fun alpha => ts_fn alpha 3 2) 1 (kl_fn 3 2).
Proof. apply C19_tsallis_limit; lra. Qed.

Example C19_example : (exists m, tsallis_init (1 + 1 / 10 ^ 6) (Fin 0) = Ok m) /\ all_kept 0 [1; 3] [2; 2].
Proof. split; [|exact all_kept_example]. apply tsallis_accepts. split; [lra|]. rewrite Rabs_right by lra. lra. Qed.

(** With alpha < 1 a model that vanishes where the density is positive scores -infinity. *)
Theorem C70_masked_finite_refuted : forall alpha mask f g,
  0 <= alpha < 1 -> 0 <= mask -> 0 < f -> 0 <= g <= mask ->
  measure_evaluate (MTs alpha (Fin mask)) (VArr (A1 [Fin f])) (VArr (A1 [Fin g])) (VBool false) =
    Ok ([NInf], None).
Proof. exact ts_masked_small. Qed.
Print Assumptions C70_masked_finite_refuted.

(** A model that vanishes. *)
Example C70_example : measure_evaluate (MTs (1/2) (Fin (/ 10 ^ 12))) (VArr (A1 [Fin 3])) (VArr (A1 [Fin 0])) (VBool false) = Ok ([NInf], None).
Proof. assert (0 < / 10 ^ 12) by (apply Rinv_0_lt_compat, pow_lt; lra). apply ts_masked_small; lra. Qed.

Theorem C71_tsallis_gibbs : forall alpha mask m w f g, 0 <= mask -> all_kept mask f g ->
  tsallis_init alpha (Fin mask) = Ok m ->
  length w = length f -> Forall (fun x => 0 <= x) w ->
  exists v,
    measure_evaluate m (VArr (A1 (map Fin f))) (VArr (A1 (map Fin g))) (VBool false)
      = Ok (map Fin v, None) /\
    quad w f - quad w g <= quad w v.
Proof. exact ts_gibbs. Qed.
Print Assumptions C71_tsallis_gibbs.

(** Equal integrals: the divergence is not negative. *)
Example C71_gibbs_example : exists m v, tsallis_init (1/2) (Fin 0) = Ok m /\
  measure_evaluate m (VArr (A1 (map Fin [1; 3]))) (VArr (A1 (map Fin [2; 2]))) (VBool false) = Ok (map Fin v, None) /\ 0 <= quad [1; 1] v.
Proof.
  destruct (proj2 (C17_tsallis_accepts (1/2) (Fin 0))) as [m M]; [split; [lra|]; rewrite Rabs_left by lra; lra|].
  destruct (C71_tsallis_gibbs (1/2) 0 m [1; 1] [1; 3] [2; 2] ltac:(lra) all_kept_example M eq_refl) as (v & E & L); [repeat constructor; lra|].
  exists m, v. split; [exact M|]. split; [exact E|]. replace 0 with (quad [1; 1] [1; 3] - quad [1; 1] [2; 2]); [exact L|].
  unfold quad, rdot, rsum. simpl. lra.
Qed.

(** One alpha below and one above one. *)
Example C71_example : (exists m, tsallis_init (1/2) (Fin 0) = Ok m) /\ (exists m, tsallis_init 3 (Fin 0) = Ok m) /\
  all_kept 0 [1; 3] [2; 2] /\ Forall (fun x => 0 <= x) [1; 0].
Proof.
  split; [apply tsallis_accepts; split; [lra|]; rewrite Rabs_left by lra; lra|].
  split; [apply tsallis_accepts; split; [lra|]; rewrite Rabs_right by lra; lra|]. split; [exact all_kept_example|]. repeat constructor; lra.
Qed.

Theorem C72_measure_flag : forall me density model,
  res_fst (measure_evaluate me density model (VBool true)) =
  res_fst (measure_evaluate me density model (VBool false)).
Proof. exact measure_flag. Qed.
Print Assumptions C72_measure_flag.

Example C72_example : exists v d, measure_evaluate MSq (VArr (A1 [Fin 1; NaN])) (VArr (A1 [PInf; Fin 2])) (VBool true) = Ok (v, Some d) /\
  measure_evaluate MSq (VArr (A1 [Fin 1])) (VArr (A1 [])) (VBool true) = Raise ValueError.
Proof. do 2 eexists. split; reflexivity. Qed.
