(** Densities that vanish at some points (C96). *)
From Coq Require Import Reals List ZArith Bool.
From Verif Require Import XR SpecDens SpecFit ModelFit.
Import ListNotations.
Local Open Scope R_scope.

(** Integration of [n] values by the fit always returns, NaN if one of the values is NaN. *)
Definition nan_passes (ft : fit) (n : nat) : Prop :=
  forall y, length y = n -> exists v, fit_integrate ft y = Ok v /\ (In NaN y -> v = NaN).

(** The density is zero at point [i], the model above the mask. *)
Definition bare_zero (mask : R) (f g : list R) (i : nat) : Prop :=
  (i < length f)%nat /\ nth i f 0 = 0 /\ mask < nth i g 0.
