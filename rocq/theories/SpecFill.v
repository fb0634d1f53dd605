(** Updates of the fixed point iteration with masked points (C104). *)
From Coq Require Import Reals List Bool.
From Verif Require Import XR SpecDens SpecMeas SpecFit.
Import ListNotations.
Local Open Scope R_scope.

(** Is the quotient density / model used at this point (measure.py:185-201, 215-219)? *)
Definition visible (mask f g : R) : bool :=
  if Rlt_dec mask g then if Rlt_dec (Rabs f * / 2 ^ 1022) (Rabs g) then true else false else false.

(** Integral of [v] over the points where the model [g0] is used, and where it is masked. *)
Definition open_part (mask : R) (W f g0 v : list R) : R :=
  sumn (length W) (fun i => if visible mask (nth i f 0) (nth i g0 0) then nth i W 0 * nth i v 0 else 0).
Definition masked_part (mask : R) (W f g0 v : list R) : R :=
  sumn (length W) (fun i => if visible mask (nth i f 0) (nth i g0 0) then 0 else nth i W 0 * nth i v 0).

(** Divergence of [g] from [f] over the points where [g0] is used. *)
Definition kl_open (mask : R) (W f g0 g : list R) : R := open_part mask W f g0 (map2 kl_fn f g).

(** What an update lowers: the divergence over the used points, plus the multiplier [lam] times
    the sum of the coefficients, less the integral of the model over the masked points. *)
Definition energy (norm : bool) (mask : R) (W f : list R) (lam : R) lays (g0 c e : list R) : R :=
  kl_open mask W f g0 (values norm lays c e) + lam * rsum c - masked_part mask W f g0 (values norm lays c e).

(** Largest value of a masked model at each point. *)
Definition mask_cap (mask : R) (f : list R) : list R := map (fun x => Rmax mask (Rabs x * / 2 ^ 1022)) f.

(** The same points are used by two models. *)
Definition same_mask (mask : R) (f g h : list R) : Prop :=
  forall i, (i < length f)%nat -> visible mask (nth i f 0) (nth i g 0) = visible mask (nth i f 0) (nth i h 0).
