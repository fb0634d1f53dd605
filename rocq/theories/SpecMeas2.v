(** Specification of the Tsallis divergence of NaN and of infinite order. *)
From Coq Require Import Reals List Bool.
From Verif Require Import XR SpecMeas.
Import ListNotations.
Local Open Scope R_scope.

(** The value of infinite order at a point with density [f] and model [g]: nothing where the density does not
    exceed the model or is masked, NaN elsewhere. *)
Definition inf_value (mask f g : R) (v : xr) : Prop :=
  (kept mask f g /\ Rabs g < Rabs f -> v = NaN) /\ (~ (kept mask f g /\ Rabs g < Rabs f) -> v = Fin 0).

(** Its derivative: minus infinity above the model, -1 on it, 0 below it or where masked. *)
Definition inf_deriv (mask f g : R) (d : xr) : Prop :=
  (kept mask f g /\ Rabs g < Rabs f -> d = NInf) /\ (kept mask f g /\ Rabs f = Rabs g -> d = Fin (-1)) /\
  (~ kept mask f g \/ Rabs f < Rabs g -> d = Fin 0).

(** The derivative of NaN order: -1 where the density is the model and is not masked, NaN elsewhere. *)
Definition nan_deriv (mask f g : R) (d : xr) : Prop :=
  (kept mask f g /\ f = g -> d = Fin (-1)) /\ (~ (kept mask f g /\ f = g) -> d = NaN).
