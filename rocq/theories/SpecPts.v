(** The points of the Clenshaw grid as the class documents them (bfit/grid.py:122-138) and the layout of
    the guesses of a greedy pass (bfit/greedy.py:522-549), without reference to the model. *)
From Coq Require Import Reals List.
From Verif Require Import XR.
Import ListNotations.
Local Open Scope R_scope.

(** Core point [p] of an atom [Z] and diffuse point [p], with the angle [PI * p / q]. *)
Definition core_point (Z q : R) (p : nat) : R := 1 / (2 * Z) * (1 - cos (PI * INR p / q)).
Definition diffuse_point (q : R) (p : nat) : R := 25 * (1 - cos (PI * INR p / q)).

(** Parameters of s-type and p-type functions: coefficients first. *)
Definition layout (cs cp es ep : list xr) : list xr := cs ++ cp ++ es ++ ep.
(** New coefficients and exponents of functions, [n] of each. *)
Definition pairs_of (n : nat) (xs : list (list xr)) (gs : list (list xr * list xr)) : Prop :=
  xs = map (fun g => fst g ++ snd g) gs /\ Forall (fun g => length (fst g) = n /\ length (snd g) = n) gs.
(** A draw from [0, 1) moved to [lo, lo + width). *)
Definition moved_to (lo width : R) (u : list xr) : list xr := map (fun x => xadd (xmul x (Fin width)) (Fin lo)) u.
