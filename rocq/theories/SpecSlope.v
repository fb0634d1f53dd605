(** What the properties about rounded derivatives with respect to the exponents say. *)
From Coq Require Import Reals List ZArith.
From Verif Require Import SpecDens SpecRnd SpecRnd2.
Import ListNotations.
Local Open Scope R_scope.

(** The power of the exponent in the normalization constant. *)
Definition degree (p : bool) : R := if p then 5 / 2 else 3 / 2.

(** The derivative of a basis function with respect to its exponent. *)
Definition basis_slope (norm p : bool) (a r : R) : R :=
  (- r ^ 2 + (if norm then degree p / a else 0)) * basis_fn norm p a r.

(** The sum of the sizes of its two terms. *)
Definition reach (norm p : bool) (r a : R) : R :=
  (r ^ 2 + (if norm then degree p / a else 0)) * top norm p r a.

(** Beyond the conditions on the value: the square of the distance and the power in the second term do not
    underflow. *)
Definition smooth (lo : R) (norm p : bool) (r a : R) : Prop :=
  safe lo norm p r a /\ (r = 0 \/ lo <= r ^ 2) /\ (norm = true -> lo <= Rpower a (if p then 3 / 2 else 1 / 2)).

(** Number of roundings, where a power has [k] of them. *)
Definition slope_roundings (norm : bool) (k : nat) : nat := if norm then 2 * k + 11 else 5.

(** What underflow adds to the error.  [after] is one further rounding; [q] is [1 / (1 - u)], [A] the error of the
    Gaussian. *)
Definition after (q eta e : R) : R := q * e + eta.
(** In the first term, [- matrix * r^2 * c]. *)
Definition first_floor (q eta : R) (k : nat) (norm p : bool) (r c a : R) : R :=
  after q eta (after q eta (eta * (2 + q ^ (2 * k + 5) * size norm p a) * (q * (r * r))) * Rabs c).
(** In the second term, [1.5 * matrix * (c * a^0.5) / pi^1.5] or [5 * matrix * r^2 * (c * a^1.5) / (3 * pi^1.5)]. *)
Definition second_floor (q eta A : R) (k : nat) (p : bool) (r c a : R) : R :=
  let w := Rabs c * Rpower a (if p then 3 / 2 else 1 / 2) in
  let e := if p then after q eta (eta * 5) * (q ^ (k + 1) * w + eta) + q ^ 3 * (1 + A) * (r * r * 5) * eta
           else eta * (q ^ (k + 1) * w + eta) + q * (1 + A) * (3 / 2) * eta in
  after q eta (after q eta e * (q ^ (k + 3) / (if p then 3 * Rpower PI (3 / 2) else Rpower PI (3 / 2)))).
Definition slope_floor (q eta A : R) (k : nat) (norm p : bool) (r c a : R) : R :=
  if norm then after q eta (first_floor q eta k norm p r c a + second_floor q eta A k p r c a)
  else first_floor q eta k norm p r c a.
