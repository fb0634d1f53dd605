(** Guesses made from arrays of integers or floats, without reference to the greedy code. *)
From Coq Require Import Reals List ZArith Bool.
From Verif Require Import XR SpecGreedy.
Import ListNotations.
Local Open Scope R_scope.

(** The integer next to [r] toward zero. *)
Definition toward_zero (r : R) (z : Z) : Prop :=
  Rabs (IZR z) <= Rabs r < Rabs (IZR z) + 1 /\ 0 <= IZR z * r.
(** What is kept of [x] in an array of integers ([b] true) or floats. *)
Definition stored (junk : xr -> xr) (b : bool) (x y : xr) : Prop :=
  if b then match x with Fin r => exists z, toward_zero r z /\ y = Fin (IZR z) | _ => y = junk x end
  else y = x.

(** [q] is [p] (coefficients and exponents with their types) with one function added at position
    [i]: in the middle the types stay, at the end they become floats unless the factor and the
    coefficient are integers. *)
Definition grows (junk : xr -> xr) (factor v : bool * xr) (i : nat) (p q : (bool * list xr) * (bool * list xr)) : Prop :=
  let '((tc, c), (te, e)) := p in
  let '((tc', c'), (te', e')) := q in
  exists x, new_value (snd factor) e i x /\
  ((i < length e)%nat /\ tc' = tc /\ te' = te /\
     (exists w y, stored junk tc (snd v) w /\ inserted i w c c' /\ stored junk te x y /\ inserted i y e e')
   \/
   i = length e /\ tc' = (tc && fst v)%bool /\ te' = (te && fst factor)%bool /\ inserted i (snd v) c c' /\ inserted i x e e').
