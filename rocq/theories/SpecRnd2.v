(** What the properties about rounded models and fits say, without reference to the model. *)
From Coq Require Import Reals List ZArith.
From Verif Require Import XR SpecDens SpecRnd.
Import ListNotations.
Local Open Scope R_scope.

(** Results of at least [lo] in absolute value do not underflow. *)
Definition normal (u lo : R) (rnd : R -> R) : Prop :=
  forall x, lo <= Rabs x -> Rabs (rnd x - x) <= u * Rabs x.

(** A library power: accurate up to [k] roundings where it does not underflow, never negative. *)
Definition pow_error (u lo : R) (k : nat) (fpow : R -> R -> R) : Prop :=
  (forall x y, 0 <= x -> 0 <= fpow x y) /\
  (forall x y, 0 < x -> lo <= Rpower x y -> within u k (fpow x y) (Rpower x y)).

(** Size of a basis function: its normalization constant, and times the square of the distance
    for p-type functions.  The basis function itself is never larger. *)
Definition size (norm : bool) (p : bool) (a : R) : R := if norm then norm_const p a else 1.
Definition top (norm : bool) (p : bool) (r a : R) : R := size norm p a * (if p then r ^ 2 else 1).

(** Neither the normalization constant nor the square of the distance underflows. *)
Definition safe (lo : R) (norm : bool) (p : bool) (r a : R) : Prop :=
  (norm = true -> 0 < a /\ 2 * lo <= norm_const p a) /\ (p = true -> r = 0 \/ lo <= r ^ 2).

(** Number of roundings of one basis function besides those of the Gaussian. *)
Definition roundings (norm : bool) (p : bool) (k : nat) : nat :=
  if p then if norm then 2 * k + 7 else 2 else if norm then k + 4 else 0.

(** Sums of [F] over the basis functions, weighted with the absolute coefficients. *)
Fixpoint spread (F : bool -> R -> R -> R) (lay : list (bool * R)) (cs es : list R) : R :=
  match lay, cs, es with
  | (p, r) :: l, c :: cs', a :: es' => Rabs c * F p r a + spread F l cs' es'
  | _, _, _ => 0
  end.

(** An integration rule with the weights [W]: never negative for non-negative integrands, and
    accurate up to [k] roundings. *)
Definition rule (u : R) (fmt : R -> Prop) (k : nat) (W : list R) (quadr : list R -> R) : Prop :=
  Forall (Rle 0) W /\ (forall y, Forall (Rle 0) y -> 0 <= quadr y) /\
  forall y, length y = length W -> Forall fmt y -> Forall (Rle 0) y -> within u k (quadr y) (wsum W y).

(** Exact averages of the fixed point method: values of the density [f], rows [M] of basis
    functions, coefficients [c], and the function [h] of the point. *)
Definition average (W f : list R) (M : list (list R)) (c : list R) (k : nat) (h : list R) : R :=
  wsum W (map2 Rmult (map2 (fun a row => a / wsum row c * nth k row 0) f M) h).

(** Factor of the exponent update: a p-type function averages [r^2] to [5 / (2 a)], an s-type
    function to [3 / (2 a)]. *)
Definition pref (p : bool) : R := if p then 5 / 2 else 3 / 2.
