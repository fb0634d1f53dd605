(** Specification of the pointwise measures on real numbers, independent of the code. *)
From Coq Require Import Reals List.
From Verif Require Import XR SpecDens.
Import ListNotations.
Local Open Scope R_scope.

(** Documented integrands (measure.py:70-73, 156-165, 280-286). *)
Definition sq_fn (f g : R) : R := (f - g) ^ 2.
Definition kl_fn (f g : R) : R := f * ln (f / g).
Definition ts_fn (alpha f g : R) : R := f * (Rpower (f / g) (alpha - 1) - 1) / (alpha - 1).

(** A point is kept (not masked): the model exceeds the mask value and the division is safe
    for numpy.ma (smallest normal double 2^-1022). *)
Definition kept (mask f g : R) : Prop := mask < g /\ Rabs f * / 2 ^ 1022 < Rabs g.

(** Two vectors kept at every point, all entries of [f] positive, [mask >= 0]. *)
Definition all_kept (mask : R) (f g : list R) : Prop :=
  length f = length g /\
  forall i, (i < length f)%nat -> 0 < nth i f 0 /\ kept mask (nth i f 0) (nth i g 0).

(** Weighted sum: integral of [v] by a quadrature with weights [w]. *)
Definition quad (w v : list R) : R := rdot w v.
