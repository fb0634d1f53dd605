(** What the properties about rounded measures and objectives say, without reference to the model. *)
From Coq Require Import Reals List.
From Verif Require Import SpecRnd SpecRnd3.
Import ListNotations.
Local Open Scope R_scope.

(** ** The library *)
(** Squares: relative error [w], underflow [z], never negative, and 0 at 0. *)
Definition square_error (w z : R) (fsq : R -> R) : Prop :=
  0 <= w /\ 0 <= z /\ fsq 0 = 0 /\ forall x, 0 <= fsq x /\ Rabs (fsq x - x * x) <= w * (x * x) + z.
(** Logarithms: exact at 1, with the right sign on both sides of it. *)
Definition log_error (w z : R) (flog : R -> R) : Prop :=
  0 <= w /\ 0 <= z /\ flog 1 = 0 /\ (forall x, 1 <= x -> 0 <= flog x) /\ (forall x, 0 < x <= 1 -> flog x <= 0) /\
  forall x, 0 < x -> Rabs (flog x - ln x) <= w * Rabs (ln x) + z.
(** Real powers. *)
Definition rpower_error (w z : R) (fpow : R -> R -> R) : Prop :=
  0 <= w /\ 0 <= z /\ (forall a, fpow 1 a = 1) /\ (forall a, 0 < a -> fpow 0 a = 0) /\
  forall x a, 0 < x -> 0 <= fpow x a /\ Rabs (fpow x a - Rpower x a) <= w * Rpower x a + z.

(** ** Exact values at one point: [f] is the density, [g] the model *)
Definition square_loss (f g : R) : R := (f - g) ^ 2.
Definition kl_loss (f g : R) : R := f * ln (f / g).
Definition tsallis_loss (alpha f g : R) : R := f * (Rpower (f / g) (alpha - 1) - 1) / (alpha - 1).

(** ** Bounds of errors *)
Section Bounds.
(** Unit roundoff, underflow, errors of the library function. *)
Context (u eta w z : R).
Notation q := (/ (1 - u)).

Definition square_bound (f g : R) : R := ((1 + w) * (1 + u) ^ 2 - 1) * (f - g) ^ 2 + z.
Definition square_slope_bound (f g : R) : R := prod_bound u eta (-2) 0 (f - g) (u * Rabs (f - g)).
(** One rounding changes a logarithm by [ln q] at most. *)
Definition kl_bound (f g : R) : R :=
  prod_bound u eta f 0 (ln (f / g)) (w * (Rabs (ln (f / g)) + ln q) + z + ln q).
(** A power with the exponent [a] of a number with one rounding. *)
Definition power_bound (x a : R) : R := exp_bound w z (- (a * ln x)) (Rabs a * ln q).
Definition tsallis_bound (alpha f g : R) : R :=
  let a := alpha - 1 in
  let p := Rpower (f / g) a - 1 in
  let d := prod_bound u eta f 0 p (grow u 1 p (power_bound (f / g) a) + eta) in
  grow u 1 (f * p / a) (d / Rabs a) + eta.

(** Integrals: [I] is the rule applied with absolute weights, [k] the number of its roundings, [e]
    its underflow; [y] holds the exact values of the integrand with their errors. *)
Definition quad_bound (I : list R -> R) (k : nat) (e : R) (y : list (R * R)) : R :=
  q ^ k * I (map (fun '(b, d) => Rabs b + d) y) - I (map (fun '(b, d) => Rabs b) y) + e.
(** A value of the integrand times 4 pi r^2. *)
Definition sphere_bound (r b d : R) : R :=
  prod_bound u eta (b * 4 * PI) (prod_bound u eta (b * 4) (prod_bound u eta b d 4 0) PI (u * PI)) (r * r) (u * (r * r) + eta).
(** A measure times a weight, and times the derivative of the model, [b] up to [db]. *)
Definition weighted_bound (om k d : R) : R := prod_bound u eta om 0 k d.
Definition gradient_bound (om k d b db : R) : R := prod_bound u eta (om * k) (weighted_bound om k d) b db.
End Bounds.

(** Largest element. *)
Definition is_max (m : R) (l : list R) : Prop := In m l /\ forall x, In x l -> x <= m.

(** ** Integration rules *)
(** Computed values with exact values and bounds of their errors. *)
Definition values_near (fmt : R -> Prop) (y' : list R) (l : list (R * R)) : Prop :=
  Forall2 (fun a p => fmt a /\ Rabs (a - fst p) <= snd p) y' l.
(** The computed integral [quadr] of [n] values is [Q] of the exact ones up to [B]. *)
Definition sound_rule (fmt : R -> Prop) (n : nat) (quadr Q : list R -> R) (B : list (R * R) -> R) : Prop :=
  forall y' l, length l = n -> values_near fmt y' l -> Rabs (quadr y' - Q (map fst l)) <= B l.
(** Rules with non-negative weights: sums with such weights. *)
Definition positive_rule (n : nat) (Q : list R -> R) : Prop :=
  exists W, length W = n /\ Forall (Rle 0) W /\ forall y, length y = n -> Q y = wsum W y.
(** Rules that give 0 for a list of zeros. *)
Definition null_rule (quadr : list R -> R) : Prop := forall n, quadr (repeat 0 n) = 0.
