(** What the properties about the rounded objective of [ScipyFit] and its gradient, for Gaussian models, say:
    everything is compared with the exact objective and its derivatives. *)
From Coq Require Import Reals List Arith.
From Verif Require Import SpecDens SpecRnd SpecRnd2 SpecRnd3 SpecRnd4 SpecSlope.
Import ListNotations.
Local Open Scope R_scope.

(** A grid point: weight, density, and for every basis function its type and the distance to its center. *)
Definition place : Type := R * R * list (bool * R).
Definition weight (x : place) : R := fst (fst x).
Definition dens (x : place) : R := snd (fst x).
Definition lays (x : place) : list (bool * R) := snd x.

(** A list with another entry at [i]. *)
Definition put (i : nat) (t : R) (l : list R) : list R := firstn i l ++ t :: skipn (S i) l.

(** ** Exact values *)
(** The derivative of the model with respect to the parameter [i], first the coefficients and then the exponents. *)
Definition model_slope (norm : bool) (lay : list (bool * R)) (c e : list R) (i : nat) : R :=
  if i <? length c then basis_fn norm (fst (nth i lay (false, 0))) (nth i e 0) (snd (nth i lay (false, 0)))
  else let j := (i - length c)%nat in
    nth j c 0 * basis_slope norm (fst (nth j lay (false, 0))) (nth j e 0) (snd (nth j lay (false, 0))).
(** The objective for the measure [m] and one entry of its gradient, for the derivative [dm] of the measure. *)
Definition objective (Q : list R -> R) (m : R -> R -> R) (norm : bool) (pts : list place) (c e : list R) : R :=
  Q (map (fun x => weight x * m (dens x) (gsum norm (lays x) c e)) pts).
Definition descent (Q : list R -> R) (dm : R -> R -> R) (norm : bool) (pts : list place) (c e : list R) (i : nat) : R :=
  Q (map (fun x => weight x * dm (dens x) (gsum norm (lays x) c e) * model_slope norm (lays x) c e i) pts).
(** Derivatives with respect to the model. *)
Definition square_change (f g : R) : R := -2 * (f - g).
Definition kl_change (f g : R) : R := - (f / g).

(** Parameters and a point in the range of [C119_value]: exponents at most [M] and nothing that underflows; [t] is an
    order of adding all products. *)
Definition fits (lo M : R) (norm : bool) (lay : list (bool * R)) (c e : list R) (t : order) : Prop :=
  length lay = length c /\ orders (length c) t /\ Forall2 (fun pr a => 0 <= a <= M /\ smooth lo norm (fst pr) (snd pr) a) lay e.

(** ** Bounds of errors *)
(** Most roundings of a basis function. *)
Definition most (norm : bool) (k : nat) : nat := if norm then 2 * k + 7 else 2.
Section Bounds.
(** Unit roundoff, underflow, roundings of a power, error of the Gaussian. *)
Context (u eta : R) (k : nat) (A : R).
Notation q := (/ (1 - u)).
(** The value of the model. *)
Definition model_bound (t : order) (norm : bool) (lay : list (bool * R)) (c e : list R) : R :=
  (q ^ (height t + 1 + most norm k) * (1 + A) - 1) * spread (top norm) lay c e
  + q ^ (height t + 1) * (eta * (spread (fun p r a => 2 + q ^ (2 * k + 5) * size norm p a) lay c e + INR (length c + additions t))).
(** Its derivatives. *)
Definition param_bound (norm : bool) (lay : list (bool * R)) (c e : list R) (i : nat) : R :=
  if i <? length c then
    let '(p, r) := nth i lay (false, 0) in
    (q ^ roundings norm p k * (1 + A) - 1) * top norm p r (nth i e 0) + eta * (2 + q ^ (2 * k + 5) * size norm p (nth i e 0))
  else
    let j := (i - length c)%nat in
    let '(p, r) := nth j lay (false, 0) in
    (q ^ slope_roundings norm k * (1 + A) - 1) * (Rabs (nth j c 0) * reach norm p r (nth j e 0))
    + slope_floor q eta A k norm p r (nth j c 0) (nth j e 0).
(** The measures, where the model has the error [d]; [w] and [z] are the errors of squares and logarithms. *)
Definition residual_bound (x d : R) : R := u * Rabs x + (1 + u) * d + eta.
Definition square_total (w z f g d : R) : R :=
  (1 + w) * (Rabs (f - g) + residual_bound (f - g) d) ^ 2 - (f - g) ^ 2 + z.
Definition square_change_total (f g d : R) : R := prod_bound u eta (-2) 0 (f - g) (residual_bound (f - g) d).
Definition kl_total (w z f g d : R) : R :=
  let s := ln (g / (g - d)) + ln q in
  prod_bound u eta f 0 (ln (f / g)) (w * (Rabs (ln (f / g)) + s) + z + s).
Definition kl_change_total (f g d : R) : R := u * (Rabs f / (g - d)) + eta + Rabs f * d / (g * (g - d)).
End Bounds.
