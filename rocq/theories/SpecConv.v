(** Vocabulary for the convergence of the fixed point iteration (fit.py:245-438). *)
From Coq Require Import Reals List.
From Verif Require Import SpecDens SpecFit.
Import ListNotations.
Local Open Scope R_scope.

(** No point that counts lies on the center of an s-type function (where the values of a normalized
    function grow without bound with the exponent). *)
Definition off_center (W : list R) (lays : list (list (bool * R))) : Prop :=
  forall i k, (i < length W)%nat -> (k < nfun lays)%nat ->
    nth i W 0 = 0 \/ kind (nth i lays []) k = true \/ away (nth i lays []) k <> 0.
