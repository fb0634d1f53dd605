(** Property C115: measures, objectives and the quality of a fit in floating point. *)
From Coq Require Import Reals List ZArith Lia Lra Permutation.
From Flocq Require Import Core.
From Verif Require Import PropRnd PropRnd2 PropRnd3.
From Verif Require Import SpecGrid SpecRnd SpecRnd2 SpecRnd3 SpecRnd4 SpecBin ModelRnd ModelRnd4 ProofRnd ProofRnd2 ProofRnd8
  ProofRnd13 ProofRnd16 ProofRnd17 ProofRnd18.
From Coq Require Import List.
Import ListNotations.
Local Open Scope R_scope.

(** The squared difference of two floating point numbers is computed with a few roundings, never
    negative, and 0 for equal numbers; its derivative has the sign of the difference. *)
Theorem C115_squared : forall u eta fmt rnd, rounding u eta fmt rnd -> u <= 1 / 8 ->
  forall w z fsq, square_error w z fsq ->
  (forall f g, fmt f -> fmt g ->
    Rabs (fl_square rnd fsq f g - square_loss f g) <= square_bound u w z f g /\
    Rabs (fl_square_slope rnd f g - (-2 * (f - g))) <= square_slope_bound u eta f g) /\
  (forall f g, 0 <= fl_square rnd fsq f g) /\ (forall f, fl_square rnd fsq f f = 0) /\
  (forall f g, (g <= f -> fl_square_slope rnd f g <= 0) /\ (f <= g -> 0 <= fl_square_slope rnd f g)).
Proof.
  exact (fun u eta fmt rnd H U w z fsq S =>
    conj (fun f g F G => conj (square_near u eta fmt rnd H w z fsq S f g F G) (square_slope_near u eta fmt rnd H U f g F G))
    (conj (square_pos rnd w z fsq S) (conj (square_zero u eta fmt rnd H w z fsq S) (square_slope_sign u eta fmt rnd H)))).
Qed.
Print Assumptions C115_squared.

(** The integrand of the Kullback-Leibler divergence where the model is not masked and the ratio
    does not underflow; *)
Theorem C115_kl : forall u eta fmt rnd, rounding u eta fmt rnd -> u <= 1 / 8 -> forall lo, normal u lo rnd ->
  forall w z flog, log_error w z flog ->
  forall mask f g, 0 < f -> 0 < g -> mask < g -> lo <= f / g ->
  Rabs (fl_kl rnd flog mask f g - kl_loss f g) <= kl_bound u eta w z f g /\
  Rabs (fl_kl_slope rnd mask f g - - (f / g)) <= u * Rabs (f / g) + eta.
Proof.
  exact (fun u eta fmt rnd H U lo Nr w z flog L mask f g F G M R =>
    conj (kl_near u eta fmt rnd H U lo Nr w z flog L mask f g F G M R) (kl_slope_near u eta fmt rnd H mask f g M)).
Qed.
Print Assumptions C115_kl.

(** exactly 0 where it is masked or where the model is the density, and of the right sign. *)
Theorem C115_kl_sign : forall u eta fmt rnd, rounding u eta fmt rnd -> u <= 1 / 8 -> forall lo, normal u lo rnd -> fmt 1 ->
  forall w z flog, log_error w z flog ->
  (forall mask f g, g <= mask -> fl_kl rnd flog mask f g = 0) /\
  (forall mask f, f <> 0 -> fl_kl rnd flog mask f f = 0) /\
  (forall mask f g, 0 < f -> 0 < g -> lo <= f / g ->
    (g <= f -> 0 <= fl_kl rnd flog mask f g) /\ (f <= g -> fl_kl rnd flog mask f g <= 0)).
Proof.
  exact (fun u eta fmt rnd H U lo Nr F1 w z flog L => conj (kl_masked u eta fmt rnd H w z flog L)
    (conj (kl_same u eta fmt rnd H w z flog L F1) (kl_sign u eta fmt rnd H U lo Nr w z flog L F1))).
Qed.
Print Assumptions C115_kl_sign.

(** The integrand of the Tsallis divergence. *)
Theorem C115_tsallis : forall u eta fmt rnd, rounding u eta fmt rnd -> u <= 1 / 8 -> forall lo, normal u lo rnd ->
  forall w z fpow, rpower_error w z fpow ->
  (forall alpha mask f g, fmt (alpha - 1) -> alpha <> 1 -> 0 < f -> 0 < g -> mask < g -> lo <= f / g ->
    Rabs (fl_tsallis rnd fpow alpha mask f g - tsallis_loss alpha f g) <= tsallis_bound u eta w z alpha f g /\
    Rabs (fl_tsallis_slope rnd fpow alpha mask f g - - Rpower (f / g) alpha) <= power_bound u w z (f / g) alpha) /\
  (fmt 1 -> forall alpha mask f, f <> 0 -> mask < f -> fl_tsallis rnd fpow alpha mask f f = 0) /\
  (fmt 1 -> forall alpha mask f g, fmt f -> fmt (alpha - 1) -> 1 < alpha -> g <= mask ->
    fl_tsallis rnd fpow alpha mask f g = rnd (- f / (alpha - 1))).
Proof.
  exact (fun u eta fmt rnd H U lo Nr w z fpow E =>
    conj (fun alpha mask f g A N F G M R => conj (tsallis_near u eta fmt rnd H U lo Nr w z fpow E alpha mask f g A N F G M R)
                                              (tsallis_slope_near u eta fmt rnd H U lo Nr w z fpow E alpha mask f g F G M R))
    (conj (tsallis_same u eta fmt rnd H w z fpow E)
          (fun F1 alpha mask f g Ff => tsallis_masked u eta fmt rnd H w z fpow E alpha mask f g Ff F1))).
Qed.
Print Assumptions C115_tsallis.

(** The three ways of integrating: errors of the integrand are carried along, and the roundings of
    the rule come on top. *)
Theorem C115_rules : forall u eta fmt rnd, rounding u eta fmt rnd -> u <= 1 / 8 ->
  (forall t x, Forall fmt x -> ascending x -> orders (Nat.pred (length x)) t ->
    positive_rule (length x) (trap x) /\
    sound_rule fmt (length x) (fl_trapz rnd t x) (trap x)
      (quad_bound u (trap x) (height t + 4) ((1 + u) ^ height t * (INR (Nat.pred (length x)) * (2 * eta))))) /\
  (forall t w, orders (length w) t ->
    (Forall (Rle 0) w -> positive_rule (length w) (wsum w)) /\
    sound_rule fmt (length w) (fl_cubic rnd t w) (wsum w)
      (quad_bound u (wsum (map Rabs w)) (height t + 1) ((1 + u) ^ height t * (INR (length w) * eta)))) /\
  (forall p t x, Rabs (p - PI) <= u * PI -> Forall fmt x -> ascending x -> orders (Nat.pred (length x)) t ->
    let Q := fun y => trap x (map (fun '(r, b) => b * 4 * PI * (r * r)) (combine x y)) in
    positive_rule (length x) Q /\
    sound_rule fmt (length x) (fl_spherical rnd p t x) Q
      (fun l => quad_bound u (trap x) (height t + 4) ((1 + u) ^ height t * (INR (Nat.pred (length x)) * (2 * eta)))
         (map (fun '(r, (b, d)) => (b * 4 * PI * (r * r), sphere_bound u eta r b d)) (combine x l)))).
Proof.
  exact (fun u eta fmt rnd H U =>
    conj (fun t x F A O => conj (radial_positive x A) (radial_sound u eta fmt rnd H U t x F A O))
    (conj (fun t w O => conj (cubic_positive w) (cubic_sound u eta fmt rnd H U t w O))
          (fun p t x P F A O => conj (spherical_positive x A) (spherical_sound u eta fmt rnd H U p t x P F A O)))).
Qed.
Print Assumptions C115_rules.

(** The objective of [ScipyFit] for any measure with known errors, and any entry of its gradient;
    the points are (weight, density, model) and for the gradient also the computed and the exact
    derivative of the model with the error between them. *)
Theorem C115_objective : forall u eta fmt rnd, rounding u eta fmt rnd -> u <= 1 / 8 ->
  forall n quadr Q B, sound_rule fmt n quadr Q B ->
  forall m' m d (pts : list (R * R * R)), length pts = n ->
  (forall om f g, In (om, f, g) pts -> Rabs (m' f g - m f g) <= d f g) ->
  Rabs (fl_objective rnd quadr (map (fun '(om, f, g) => om) pts)
          (fl_map2 m' (map (fun '(om, f, g) => f) pts) (map (fun '(om, f, g) => g) pts))
        - Q (map (fun '(om, f, g) => om * m f g) pts)) <=
    B (map (fun '(om, f, g) => (om * m f g, weighted_bound u eta om (m f g) (d f g))) pts).
Proof. exact objective_near. Qed.
Print Assumptions C115_objective.

Theorem C115_gradient : forall u eta fmt rnd, rounding u eta fmt rnd -> u <= 1 / 8 ->
  forall n quadr Q B, sound_rule fmt n quadr Q B ->
  forall m' m d (pts : list (R * R * R * (R * R * R))), length pts = n ->
  (forall om f g b' b db, In (om, f, g, (b', b, db)) pts -> Rabs (m' f g - m f g) <= d f g /\ Rabs (b' - b) <= db) ->
  Rabs (fl_gradient rnd quadr (map (fun '(om, f, g, _) => om) pts)
          (fl_map2 m' (map (fun '(om, f, g, _) => f) pts) (map (fun '(om, f, g, _) => g) pts))
          (map (fun '(_, (b', b, db)) => b') pts)
        - Q (map (fun '(om, f, g, (b', b, db)) => om * m f g * b) pts)) <=
    B (map (fun '(om, f, g, (b', b, db)) => (om * m f g * b, gradient_bound u eta om (m f g) (d f g) b db)) pts).
Proof. exact gradient_near. Qed.
Print Assumptions C115_gradient.

(** The computed Kullback-Leibler objective is below the difference of the integrals of density and
    model by rounding errors at most. *)
Theorem C115_gibbs : forall u eta fmt rnd, rounding u eta fmt rnd -> u <= 1 / 8 ->
  forall n quadr Q B, sound_rule fmt n quadr Q B -> positive_rule n Q ->
  forall w z flog, log_error w z flog -> forall lo mask, normal u lo rnd ->
  forall pts : list (R * R * R), length pts = n ->
  (forall om f g, In (om, f, g) pts -> 0 <= om /\ 0 < f /\ 0 < g /\ mask < g /\ lo <= f / g) ->
  Q (map (fun '(om, f, g) => om * f) pts) - Q (map (fun '(om, f, g) => om * g) pts)
    - B (map (fun '(om, f, g) => (om * kl_loss f g, weighted_bound u eta om (kl_loss f g) (kl_bound u eta w z f g))) pts)
  <= fl_objective rnd quadr (map (fun '(om, f, g) => om) pts)
       (fl_map2 (fl_kl rnd flog mask) (map (fun '(om, f, g) => f) pts) (map (fun '(om, f, g) => g) pts)).
Proof. exact gibbs_near. Qed.
Print Assumptions C115_gibbs.

(** At a perfect fit all three objectives are computed as 0 exactly, and least squares is never
    negative. *)
Theorem C115_zero : forall u eta fmt rnd, rounding u eta fmt rnd ->
  (forall t x, null_rule (fl_trapz rnd t x)) /\ (forall t w, null_rule (fl_cubic rnd t w)) /\
  (forall p t x, null_rule (fl_spherical rnd p t x)) /\
  (forall quadr m om f, null_rule quadr -> length om = length f -> (forall a, In a f -> m a a = 0) ->
    fl_objective rnd quadr om (fl_map2 m f f) = 0) /\
  (forall quadr m om f g, (forall y, Forall (Rle 0) y -> 0 <= quadr y) -> Forall (Rle 0) om -> (forall a b, 0 <= m a b) ->
    0 <= fl_objective rnd quadr om (fl_map2 m f g)).
Proof.
  exact (fun u eta fmt rnd H => let '(conj A (conj B C)) := rules_null u eta fmt rnd H in
    conj A (conj B (conj C (conj (objective_null u eta fmt rnd H) (objective_pos u eta fmt rnd H))))).
Qed.
Print Assumptions C115_zero.

(** [goodness_of_fit]: the distances are never negative, they are 0 when the model is the density,
    and the largest deviation has one rounding. *)
Theorem C115_goodness : forall u eta fmt rnd, rounding u eta fmt rnd ->
  forall w z fsq w' z' flog, square_error w z fsq -> log_error w' z' flog -> fmt 1 ->
  (forall quadr neg mask f g a b c d e, (forall y, Forall (Rle 0) y -> 0 <= quadr y) ->
    fl_goodness rnd fsq flog quadr neg mask f g = [a; b; c; d; e] ->
    0 <= b /\ 0 <= c /\ 0 <= d /\ (Forall (Rle 0) g -> 0 <= a)) /\
  (forall quadr neg mask f, null_rule quadr -> Forall (Rlt 0) f ->
    fl_goodness rnd fsq flog quadr neg mask f f = [quadr f; 0; 0; 0; 0]) /\
  (forall quadr neg mask f g a b c d e, f <> [] -> length f = length g -> Forall fmt f -> Forall fmt g ->
    fl_goodness rnd fsq flog quadr neg mask f g = [a; b; c; d; e] ->
    forall m, is_max m (map (fun p => Rabs (fst p - snd p)) (combine f g)) -> Rabs (c - m) <= u * m) /\
  (forall quadr neg mask f g, exists a b c d, fl_goodness rnd fsq flog quadr neg mask f g =
    [a; b; c; d; quadr (if existsb (fun b => if Rlt_dec b 0 then true else false) g then map (fun _ => neg) g
                        else fl_map2 (fl_kl rnd flog mask) f g)]).
Proof.
  intros u eta fmt rnd H w z fsq w' z' flog S L F1. split; [exact (goodness_pos rnd w z fsq flog S)|].
  split; [exact (goodness_same u eta fmt rnd H w z w' z' fsq flog S L F1)|]. split.
  - intros quadr neg mask f g a b c d e N E Ff Fg G m M. injection G as _ _ <- _ _. exact (linf_near u eta fmt rnd H f g N E Ff Fg m M).
  - intros. do 4 eexists. reflexivity.
Qed.
Print Assumptions C115_goodness.

(** Its integrals are those of the model, of the absolute and of the squared deviation and of the
    Kullback-Leibler integrand, up to the bounds of the rule. *)
Theorem C115_goodness_error : forall u eta fmt rnd, rounding u eta fmt rnd -> u <= 1 / 8 ->
  forall n quadr Q B, sound_rule fmt n quadr Q B ->
  forall w z fsq w' z' flog, square_error w z fsq -> (forall x, fmt (fsq x)) -> log_error w' z' flog ->
  forall lo neg mask, normal u lo rnd -> 0 <= mask ->
  forall (pts : list (R * R)), length pts = n -> (forall f g, In (f, g) pts -> fmt f /\ fmt g) ->
  forall a b c d e, fl_goodness rnd fsq flog quadr neg mask (map fst pts) (map snd pts) = [a; b; c; d; e] ->
  Rabs (a - Q (map snd pts)) <= B (map (fun '(f, g) => (g, 0)) pts) /\
  Rabs (b - Q (map (fun '(f, g) => Rabs (f - g)) pts)) <= B (map (fun '(f, g) => (Rabs (f - g), u * Rabs (f - g))) pts) /\
  Rabs (d - Q (map (fun '(f, g) => square_loss f g) pts)) <= B (map (fun '(f, g) => (square_loss f g, square_bound u w z f g)) pts) /\
  ((forall f g, In (f, g) pts -> 0 < f /\ mask < g /\ lo <= f / g) ->
   Rabs (e - Q (map (fun '(f, g) => kl_loss f g) pts)) <= B (map (fun '(f, g) => (kl_loss f g, kl_bound u eta w' z' f g)) pts)).
Proof. exact goodness_near. Qed.
Print Assumptions C115_goodness_error.

(** Correctly rounded library functions satisfy the assumptions; the exponents [alpha - 1] of orders
    between 1/2 and 2 are exact. *)
Theorem C115_library : forall u eta fmt rnd, rounding u eta fmt rnd -> fmt 1 ->
  square_error u eta (fun x => rnd (x * x)) /\ log_error u eta (fun x => rnd (ln x)) /\
  rpower_error u eta (fun x a => if Req_EM_T x 0 then 0 else rnd (Rpower x a)).
Proof. exact (fun u eta fmt rnd H F1 => conj (lib_square u eta fmt rnd H) (conj (lib_log u eta fmt rnd H) (lib_power u eta fmt rnd H F1))). Qed.
Print Assumptions C115_library.
Theorem C115_order : forall emin prec, (1 < prec)%Z -> forall alpha, bin_fmt emin prec 1 -> bin_fmt emin prec alpha -> 1 / 2 <= alpha <= 2 ->
  bin_fmt emin prec (alpha - 1).
Proof. exact order_exact. Qed.
Print Assumptions C115_order.

(** With exact arithmetic the program computes the formulas. *)
Theorem C115_exact :
  (forall f g, fl_square (fun x => x) (fun x => x * x) f g = square_loss f g /\ fl_square_slope (fun x => x) f g = -2 * (f - g)) /\
  (forall mask f g, fl_kl (fun x => x) ln mask f g = (if Rle_dec g mask then 0 else kl_loss f g) /\
    fl_kl_slope (fun x => x) mask f g = (if Rle_dec g mask then -1 else - (f / g))) /\
  (forall alpha mask f g, mask < g -> fl_tsallis (fun x => x) Rpower alpha mask f g = tsallis_loss alpha f g /\
    fl_tsallis_slope (fun x => x) Rpower alpha mask f g = - Rpower (f / g) alpha) /\
  (forall quadr m om f g, fl_objective (fun x => x) quadr om (fl_map2 m f g) =
    quadr (map (fun p => fst p * snd p) (combine om (map (fun p => m (fst p) (snd p)) (combine f g))))) /\
  (forall rnd flog neg mask f g, 
    (Forall (Rle 0) g -> fl_kl_values rnd flog neg mask f g = fl_map2 (fl_kl rnd flog mask) f g) /\
    ((exists b, In b g /\ b < 0) -> fl_kl_values rnd flog neg mask f g = map (fun _ => neg) g)).
Proof. exact (conj square_id (conj kl_id (conj tsallis_id (conj objective_id kl_values_spec)))). Qed.
Print Assumptions C115_exact.

(** *** Examples in double precision *)
Definition d_sq (x : R) := d_rnd (x * x).
Definition d_log (x : R) := d_rnd (ln x).
Definition d_rpow (x a : R) := if Req_EM_T x 0 then 0 else d_rnd (Rpower x a).
Lemma d_one : bin_fmt (-1074) 53 1. Proof. exact (d_int 1 eq_refl). Qed.
Lemma d_sq_error : square_error d_u d_eta d_sq.
Proof. exact (proj1 (C115_library _ _ _ _ d_rounding d_one)). Qed.
Lemma d_log_error : log_error d_u d_eta d_log.
Proof. exact (proj1 (proj2 (C115_library _ _ _ _ d_rounding d_one))). Qed.
Lemma d_rpow_error : rpower_error d_u d_eta d_rpow.
Proof. exact (proj2 (proj2 (C115_library _ _ _ _ d_rounding d_one))). Qed.

(** Four roundings at most for 3 and a tenth. *)
Example C115_squared_example : let a := d_rnd (1 / 10) in
  Rabs (fl_square d_rnd d_sq 3 a - (3 - a) ^ 2) <= 4 * / 2 ^ 53 * (3 - a) ^ 2 + d_eta /\ fl_square d_rnd d_sq a a = 0.
Proof.
  intro a. destruct (C115_squared _ _ _ _ d_rounding d_small _ _ _ d_sq_error) as (E & _ & Z & _). split; [|apply Z].
  eapply Rle_trans; [apply (E 3 a); [exact (d_int 3 eq_refl) | apply (rd_fmt _ _ _ _ d_rounding)]|].
  unfold square_bound. apply Rplus_le_compat_r, Rmult_le_compat_r; [apply pow2_ge_0|]. rewrite d_u_eq. lra.
Qed.

Lemma ln2 : 0 <= ln 2 <= 1.
Proof.
  split; [rewrite <- ln_1; left; apply ln_increasing; lra|]. assert (E := exp_ineq1_le (ln 2)). rewrite exp_ln in E by lra. lra.
Qed.
Lemma d_lnq : 0 <= ln (/ (1 - d_u)) <= 2 * d_u.
Proof.
  destruct d_q as [A B]. assert (E := exp_ineq1_le (ln (/ (1 - d_u)))). rewrite exp_ln in E by exact B. split; [|lra].
  apply (lnq_pos _ _ _ _ d_rounding d_small).
Qed.

Example C115_kl_example : Rabs (fl_kl d_rnd d_log 0 2 1 - 2 * ln 2) <= 14 * / 2 ^ 53.
Proof.
  assert (L := d_lo_half). destruct (C115_kl _ _ _ _ d_rounding d_small _ d_normal _ _ _ d_log_error 0 2 1) as [E _]; try lra.
  unfold kl_loss, kl_bound in E. replace (2 / 1) with 2 in E by lra. eapply Rle_trans; [exact E|]. clear E. unfold prod_bound.
  destruct ln2 as [A B]. destruct d_q as [C D]. destruct d_lnq as [F G]. destruct d_eta_small as [I J].
  rewrite (Rabs_pos_eq 2), (Rabs_pos_eq (ln 2)) by lra. replace (2 + 0) with 2 by ring.
  set (q := / (1 - d_u)) in *. set (l := ln 2) in *. set (lq := ln q) in *. set (u := d_u) in *. set (e := d_eta) in *.
  replace (/ 2 ^ 53) with u by (unfold u; rewrite d_u_eq; simpl; lra).
  assert (U : 0 < u <= 1 / 1024) by (unfold u; rewrite d_u_eq; lra).
  assert (S : u * (l + lq) <= u * (1 + 1)) by (apply Rmult_le_compat_l; lra).
  assert (T : 0 <= u * (l + lq)) by (apply Rmult_le_pos; lra).
  set (dd := u * (l + lq) + e + lq). assert (Dd : 0 <= dd <= 4 * u + u / 1024) by (unfold dd; lra).
  assert (M : q * (2 * (l + dd)) <= (1 + 2 * u) * (2 * (l + (4 * u + u / 1024)))) by (apply Rmult_le_compat; lra).
  assert (u * l <= u * 1) by (apply Rmult_le_compat_l; lra). assert (u * u <= u * (1 / 1024)) by (apply Rmult_le_compat_l; lra). lra.
Qed.

Example C115_kl_sign_example : let a := d_rnd (1 / 10) in fl_kl d_rnd d_log (d_rnd (/ 10 ^ 12)) a a = 0 /\ fl_kl d_rnd d_log 0 1 2 <= 0.
Proof.
  intro a. assert (L := d_lo_half). destruct (C115_kl_sign _ _ _ _ d_rounding d_small _ d_normal d_one _ _ _ d_log_error) as (_ & Z & S). split.
  - apply Z. assert (P : 1 / 16 <= a); [|lra]. unfold a.
    assert (F : bin_fmt (-1074) 53 (1 / 16)) by (replace (1 / 16) with (bpow radix2 (-4)) by (simpl; lra); apply generic_format_bpow; vm_compute; discriminate).
    rewrite <- (rd_id _ _ _ _ d_rounding _ F). apply (rd_mono _ _ _ _ d_rounding). lra.
  - apply (S 0 1 2); lra.
Qed.

(** Order 3/2, where the exponent is exact. *)
Example C115_tsallis_example :
  Rabs (fl_tsallis d_rnd d_rpow (3 / 2) 0 2 1 - tsallis_loss (3 / 2) 2 1) <= tsallis_bound d_u d_eta d_u d_eta (3 / 2) 2 1 /\
  fl_tsallis d_rnd d_rpow (3 / 2) 0 2 2 = 0 /\ fl_tsallis d_rnd d_rpow (3 / 2) 1 2 (1 / 2) = -4.
Proof.
  assert (L := d_lo_half). destruct (C115_tsallis _ _ _ _ d_rounding d_small _ d_normal _ _ _ d_rpow_error) as (E & Z & M).
  assert (A : bin_fmt (-1074) 53 (3 / 2)).
  { replace (3 / 2) with (F2R (Float radix2 3 (-1))) by (unfold F2R; simpl; lra). apply generic_format_F2R. intros _.
    unfold cexp, FLT_exp. rewrite (mag_F2R_Zdigits radix2 3 (-1)) by lia. vm_compute. discriminate. }
  assert (A1 := C115_order (-1074) 53 eq_refl (3 / 2) d_one A ltac:(lra)).
  split; [apply (E (3 / 2) 0 2 1); try lra; exact A1|]. split; [apply (Z d_one); lra|].
  rewrite (M d_one (3 / 2) 1 2 (1 / 2)); try lra; [|exact (d_int 2 eq_refl) | exact A1].
  replace (- (2) / (3 / 2 - 1)) with (-4) by lra. apply (rd_id _ _ _ _ d_rounding), (d_int (-4) eq_refl).
Qed.

(** Three points, densities 2, 1, 1 and models 1, 2, 1 on the grid 0, 1, 3. *)
Definition ex_pts : list (R * R * R) := [(1, 2, 1); (2, 1, 2); (1, 1, 1)].
Lemma ex_rule : sound_rule (bin_fmt (-1074) 53) 3 (fl_trapz d_rnd ex_t [0; 1; 3]) (trap [0; 1; 3])
  (quad_bound d_u (trap [0; 1; 3]) (1 + 4) ((1 + d_u) ^ 1 * (INR 2 * (2 * d_eta)))) /\ positive_rule 3 (trap [0; 1; 3]).
Proof.
  destruct (C115_rules _ _ _ _ d_rounding d_small) as (R & _).
  destruct (R ex_t [0; 1; 3] ex_x_fmt) as [P S]; [repeat constructor; lra | exact ex_t_orders|]. split; [exact S | exact P].
Qed.
Example C115_rules_example : sound_rule (bin_fmt (-1074) 53) 3 (fl_trapz d_rnd ex_t [0; 1; 3]) (trap [0; 1; 3])
  (quad_bound d_u (trap [0; 1; 3]) 5 ((1 + d_u) ^ 1 * (INR 2 * (2 * d_eta)))).
Proof. exact (proj1 ex_rule). Qed.
Lemma ex_pts_ok : forall om f g, In (om, f, g) ex_pts -> 0 <= om /\ 0 < f /\ 0 < g /\ 0 < g /\ d_lo <= f / g.
Proof.
  assert (L := d_lo_half). intros om f g I. unfold ex_pts in I. simpl in I.
  destruct I as [E|[E|[E|[]]]]; injection E as <- <- <-; repeat split; lra.
Qed.
Example C115_objective_example :
  Rabs (fl_objective d_rnd (fl_trapz d_rnd ex_t [0; 1; 3]) [1; 2; 1] (fl_map2 (fl_kl d_rnd d_log 0) [2; 1; 1] [1; 2; 1])
        - trap [0; 1; 3] [1 * kl_loss 2 1; 2 * kl_loss 1 2; 1 * kl_loss 1 1]) <=
  quad_bound d_u (trap [0; 1; 3]) 5 ((1 + d_u) ^ 1 * (INR 2 * (2 * d_eta)))
    (map (fun '(om, f, g) => (om * kl_loss f g, weighted_bound d_u d_eta om (kl_loss f g) (kl_bound d_u d_eta d_u d_eta f g))) ex_pts).
Proof.
  apply (C115_objective _ _ _ _ d_rounding d_small 3 _ _ _ (proj1 ex_rule) (fl_kl d_rnd d_log 0) kl_loss (kl_bound d_u d_eta d_u d_eta) ex_pts eq_refl).
  intros om f g I. destruct (ex_pts_ok om f g I) as (_ & F & G & M & R).
  apply (C115_kl _ _ _ _ d_rounding d_small _ d_normal _ _ _ d_log_error 0 f g F G M R).
Qed.
Example C115_gradient_example :
  Rabs (fl_gradient d_rnd (fl_trapz d_rnd ex_t [0; 1; 3]) [1; 2; 1] (fl_map2 (fl_square_slope d_rnd) [2; 1; 1] [1; 2; 1]) [1; d_rnd (1 / 3); 0]
        - trap [0; 1; 3] [1 * (-2 * (2 - 1)) * 1; 2 * (-2 * (1 - 2)) * (1 / 3); 1 * (-2 * (1 - 1)) * 0]) <=
  quad_bound d_u (trap [0; 1; 3]) 5 ((1 + d_u) ^ 1 * (INR 2 * (2 * d_eta)))
    (map (fun '(om, f, g, (b', b, db)) => (om * (-2 * (f - g)) * b, gradient_bound d_u d_eta om (-2 * (f - g)) (square_slope_bound d_u d_eta f g) b db))
       [(1, 2, 1, (1, 1, 0)); (2, 1, 2, (d_rnd (1 / 3), 1 / 3, d_u * Rabs (1 / 3) + d_eta)); (1, 1, 1, (0, 0, 0))]).
Proof.
  apply (C115_gradient _ _ _ _ d_rounding d_small 3 _ _ _ (proj1 ex_rule) (fl_square_slope d_rnd) (fun f g => -2 * (f - g))
    (square_slope_bound d_u d_eta) [(1, 2, 1, (1, 1, 0)); (2, 1, 2, (d_rnd (1 / 3), 1 / 3, d_u * Rabs (1 / 3) + d_eta)); (1, 1, 1, (0, 0, 0))] eq_refl).
  destruct (C115_squared _ _ _ _ d_rounding d_small _ _ _ d_sq_error) as (E & _).
  intros om f g b' b db I. simpl in I.
  destruct I as [I|[I|[I|[]]]]; injection I as <- <- <- <- <- <-; (split; [apply E; apply d_int; reflexivity|]).
  - rewrite Rminus_diag_eq, Rabs_R0 by reflexivity; lra.
  - apply (rd_err _ _ _ _ d_rounding).
  - rewrite Rminus_diag_eq, Rabs_R0 by reflexivity; lra.
Qed.
(** Density 2, 1, 1 against 1, 2, 1 with the weights 1, 2, 1: the integrals differ by -5/2. *)
Example C115_gibbs_example :
  -5 / 2 - quad_bound d_u (trap [0; 1; 3]) 5 ((1 + d_u) ^ 1 * (INR 2 * (2 * d_eta)))
    (map (fun '(om, f, g) => (om * kl_loss f g, weighted_bound d_u d_eta om (kl_loss f g) (kl_bound d_u d_eta d_u d_eta f g))) ex_pts)
  <= fl_objective d_rnd (fl_trapz d_rnd ex_t [0; 1; 3]) [1; 2; 1] (fl_map2 (fl_kl d_rnd d_log 0) [2; 1; 1] [1; 2; 1]).
Proof.
  assert (G := C115_gibbs _ _ _ _ d_rounding d_small 3 _ _ _ (proj1 ex_rule) (proj2 ex_rule) _ _ _ d_log_error d_lo 0 d_normal ex_pts eq_refl ex_pts_ok).
  eapply Rle_trans; [|exact G]. apply Rplus_le_compat_r. cbn [ex_pts map trap]. lra.
Qed.
Example C115_zero_example : let f := [2; 1; d_rnd (1 / 10)] in
  fl_objective d_rnd (fl_trapz d_rnd ex_t [0; 1; 3]) [1; 2; 1] (fl_map2 (fl_square d_rnd d_sq) f f) = 0.
Proof.
  intro f. destruct (C115_zero _ _ _ _ d_rounding) as (A & _ & _ & B & _). apply B; [apply A | reflexivity|].
  intros a _. apply (C115_squared _ _ _ _ d_rounding d_small _ _ _ d_sq_error).
Qed.
Example C115_goodness_example : fl_goodness d_rnd d_sq d_log (fl_trapz d_rnd ex_t [0; 1; 3]) 100000 (/ 2) [2; 1; 1] [2; 1; 1] =
  [fl_trapz d_rnd ex_t [0; 1; 3] [2; 1; 1]; 0; 0; 0; 0].
Proof.
  destruct (C115_goodness _ _ _ _ d_rounding _ _ _ _ _ _ d_sq_error d_log_error d_one) as (_ & G & _).
  destruct (C115_zero _ _ _ _ d_rounding) as (A & _). apply G; [apply A | repeat constructor; lra].
Qed.
(** Integral 9/2 of the model 1, 2, 1 and distance 2 from 2, 1, 1. *)
Example C115_goodness_error_example :
  let Q := fl_trapz d_rnd ex_t [0; 1; 3] in
  let B := quad_bound d_u (trap [0; 1; 3]) 5 ((1 + d_u) ^ 1 * (INR 2 * (2 * d_eta))) in
  forall a b c d e, fl_goodness d_rnd d_sq d_log Q 100000 0 [2; 1; 1] [1; 2; 1] = [a; b; c; d; e] ->
  Rabs (a - 9 / 2) <= B [(1, 0); (2, 0); (1, 0)] /\ Rabs (b - 2) <= B [(1, d_u * 1); (1, d_u * 1); (0, d_u * 0)].
Proof.
  intros Q B a b c d e E.
  destruct (C115_goodness_error _ _ _ _ d_rounding d_small 3 _ _ _ (proj1 ex_rule) _ _ _ _ _ _ d_sq_error
    (fun x => rd_fmt _ _ _ _ d_rounding _) d_log_error d_lo 100000 0 d_normal (Rle_refl 0) [(2, 1); (1, 2); (1, 1)] eq_refl) with (a := a) (b := b) (c := c) (d := d) (e := e) as (A1 & A2 & _).
  - intros f g I. simpl in I. destruct I as [I|[I|[I|[]]]]; injection I as <- <-; split; apply d_int; reflexivity.
  - exact E.
  - cbn [map snd] in A1, A2. assert (T1 : Rabs (2 - 1) = 1) by (rewrite Rabs_pos_eq; lra). assert (T2 : Rabs (1 - 2) = 1) by (rewrite Rabs_left; lra).
    assert (T3 : Rabs (1 - 1) = 0) by (rewrite Rabs_pos_eq; lra). rewrite T1, T2, T3 in A2.
    assert (V1 : trap [0; 1; 3] [1; 2; 1] = 9 / 2) by (cbn [trap]; lra). assert (V2 : trap [0; 1; 3] [1; 1; 0] = 2) by (cbn [trap]; lra).
    rewrite V1 in A1. rewrite V2 in A2. split; [exact A1 | exact A2].
Qed.
Example C115_library_example : log_error (bpow radix2 (- (53))) (bpow radix2 (-1074 - 1)) (fun x => bin_rnd (-1074) 53 (ln x)).
Proof. exact d_log_error. Qed.
Example C115_order_example : bin_fmt (-1074) 53 (d_rnd (1001 / 1000) - 1).
Proof.
  apply (C115_order (-1074) 53 eq_refl); [exact d_one | apply (rd_fmt _ _ _ _ d_rounding)|].
  split; [apply Rle_trans with 1; [lra|] |].
  - rewrite <- (rd_id _ _ _ _ d_rounding 1 d_one). apply (rd_mono _ _ _ _ d_rounding). lra.
  - rewrite <- (rd_id _ _ _ _ d_rounding 2 (d_int 2 eq_refl)). apply (rd_mono _ _ _ _ d_rounding). lra.
Qed.
Example C115_exact_example : fl_kl (fun x => x) ln 0 2 1 = 2 * ln (2 / 1).
Proof. destruct C115_exact as (_ & K & _). rewrite (proj1 (K 0 2 1)). destruct (Rle_dec 1 0); [lra | reflexivity]. Qed.
