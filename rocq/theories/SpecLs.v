(** Specification of the one-function start of GreedyLeastSquares on points with several coordinates
    (bfit/greedy.py:748-783): what numpy broadcasting makes of the sums. *)
From Coq Require Import Reals List.
From Verif Require Import XR SpecDens.
Import ListNotations.
Local Open Scope R_scope.

(** Entry [j] of a list used together with longer ones: a single entry serves every place. *)
Definition entry (l : list R) (j : nat) : R := match l with [x] => x | _ => nth j l 0 end.

(** [m] places for [n] weights and points of [d] coordinates. *)
Definition places (n d m : nat) : Prop := (n = d /\ m = d) \/ (n = 1%nat /\ m = d) \/ (d = 1%nat /\ m = n).

(** Sum of [F i j] over [n] points [i] and [m] places [j]. *)
Definition double_sum (n m : nat) (F : nat -> nat -> R) : R :=
  rsum (map (fun i => rsum (map (F i) (seq 0 m))) (seq 0 n)).

(** The five sums; weights and logarithms of the density go along the coordinates, not along the points. *)
Definition sum_w (w : list R) : R := 2 * rsum w.
Definition sum_wx2 (n m : nat) (rows : list (list R)) (w : list R) : R :=
  2 * double_sum n m (fun i j => entry w j * entry (nth i rows []) j ^ 2).
Definition sum_wl (w f : list R) : R := 2 * rsum (map (fun p => fst p * ln (snd p)) (combine w f)).
Definition sum_wx4 (n m : nat) (rows : list (list R)) (w : list R) : R :=
  2 * double_sum n m (fun i j => entry w j * entry (nth i rows []) j ^ 4).
Definition sum_wx2l (n m : nat) (rows : list (list R)) (w f : list R) : R :=
  2 * double_sum n m (fun i j => ln (entry f j) * (entry w j * entry (nth i rows []) j ^ 2)).

(** Coefficient and exponent from the sums (greedy.py:759-763). *)
Definition start_of (a b c e g : R) : list R :=
  [exp ((b * g - c * e) / (b * b - a * e)); - ((a * g - c * b) / (a * e - b * b))].
