(** What the properties about rounded arithmetic say, without reference to the model. *)
From Coq Require Import Reals List ZArith Lia Lra Permutation.
Import ListNotations.
Local Open Scope R_scope.

(** A floating point arithmetic without overflow: the numbers of the format are [fmt], every
    operation gives [rnd] of the exact result.  [u] is the unit roundoff, [eta] the error of
    underflow; sums and differences do not underflow. *)
Record rounding (u eta : R) (fmt : R -> Prop) (rnd : R -> R) : Prop := mkRounding {
  rd_u : 0 <= u < 1;
  rd_eta : 0 <= eta;
  rd_zero : fmt 0;
  rd_opp : forall x, fmt x -> fmt (- x);
  rd_fmt : forall x, fmt (rnd x);
  rd_id : forall x, fmt x -> rnd x = x;
  rd_mono : forall x y, x <= y -> rnd x <= rnd y;
  rd_err : forall x, Rabs (rnd x - x) <= u * Rabs x + eta;
  rd_add : forall x y, fmt x -> fmt y -> Rabs (rnd (x + y) - (x + y)) <= u * Rabs (x + y) }.

(** The order in which [n] numbers are added up: a binary tree that has each index once.
    [Nil] is the zero an accumulator starts from. *)
Inductive order := Nil | At (i : nat) | Plus (l r : order).
Fixpoint leaves (t : order) : list nat :=
  match t with Nil => [] | At i => [i] | Plus l r => leaves l ++ leaves r end.
Fixpoint height (t : order) : nat :=
  match t with Nil => 0 | At _ => 0 | Plus l r => S (Nat.max (height l) (height r)) end.
(** Number of additions. *)
Fixpoint additions (t : order) : nat :=
  match t with Plus l r => S (additions l + additions r) | _ => 0 end.
Definition orders (n : nat) (t : order) : Prop := Permutation (leaves t) (seq 0 n).

(** Lists of the same length, one below the other. *)
Definition below (y z : list R) : Prop := Forall2 Rle y z.

(** Weighted sum. *)
Fixpoint wsum (w y : list R) : R :=
  match w, y with a :: w', b :: y' => a * b + wsum w' y' | _, _ => 0 end.

(** Linear combination of Gaussians at the distance r. *)
Fixpoint gauss_sum (c e : list R) (r : R) : R :=
  match c, e with c0 :: c', e0 :: e' => c0 * exp (- e0 * (r * r)) + gauss_sum c' e' r | _, _ => 0 end.

(** A library exponential: relative error [v], underflow error [z], never negative. *)
Definition exp_error (v z : R) (fexp : R -> R) : Prop :=
  0 <= v /\ 0 <= z /\ forall x, x <= 0 -> 0 <= fexp x /\ Rabs (fexp x - exp x) <= v * exp x + z.

(** Error of one computed Gaussian with an exponent of at most [M]. *)
Definition gauss_error (u eta v z M : R) : R :=
  let d := ((1 + u) * M + 1) * eta in
  ((1 + u) ^ 2 - 1 + d) * exp d + v + z.

(** [a] is [b >= 0] up to [k] factors in [1 - u .. 1 / (1 - u)]. *)
Definition within (u : R) (k : nat) (a b : R) : Prop :=
  (1 - u) ^ k * b <= a /\ (1 - u) ^ k * a <= b.
