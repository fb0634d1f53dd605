(** The divergence with masked points (C102). *)
From Coq Require Import Reals List.
From Verif Require Import XR SpecDens SpecMeas.
Import ListNotations.
Local Open Scope R_scope.

(** A positive model value that is clearly kept or clearly masked. *)
Definition settled (mask f g : R) : Prop := kept mask f g \/ 0 < g < mask.
Definition all_settled (mask : R) (f g : list R) : Prop :=
  forall i, (i < length f)%nat -> settled mask (nth i f 0) (nth i g 0).

(** Integrand that is zero where the model is masked. *)
Definition kl_masked (mask f g : R) : R := if Rlt_dec mask g then kl_fn f g else 0.

(** Integral of [g] over the points where the model [g0] is masked; [w] are the weights of the
    objective function. *)
Definition hidden (mask : R) (W w g0 g : list R) : R :=
  quad W (map2 Rmult w (map2 (fun a b => if Rlt_dec mask a then 0 else b) g0 g)).
