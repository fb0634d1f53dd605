(** When an FPI run stops (fit.py:344-438), without reference to its loop. *)
From Coq Require Import Reals List ZArith Bool.
From Verif Require Import XR SpecFit ModelDens ModelMeas ModelFit.
Import ListNotations.
Local Open Scope R_scope.

(** The divergence after [n] updates: last entry of goodness_of_fit. *)
Definition value_at (f : fpi) (oc oe : bool) (c e : list xr) (n : nat) (v : xr) : Prop :=
  exists cn en g, iterate f oc oe n c e = Ok (cn, en) /\ goodness (fp_fit f) cn en = Ok g /\ v = last g NaN.

(** Largest change of a coefficient and of an exponent in update [n], and change of the divergence
    (known from the second update on); infinite before the first update. *)
Definition moved (f : fpi) (oc oe : bool) (c e : list xr) (n : nat) (dc de dd : xr) : Prop :=
  match n with
  | O => dc = PInf /\ de = PInf /\ dd = PInf
  | S m => exists cp ep cn en, iterate f oc oe m c e = Ok (cp, ep) /\ iterate f oc oe n c e = Ok (cn, en) /\
      change cn cp dc /\ change en ep de /\
      match m with
      | O => dd = PInf
      | S _ => exists u v, value_at f oc oe c e m u /\ value_at f oc oe c e n v /\ dd = xabs (xsub v u)
      end
  end.

(** A change is above its threshold: one of the parameters moves and the divergence does. *)
Definition unfinished (th : thresholds) (dc de dd : xr) : Prop :=
  (xltb (th_c th) dc = true \/ xltb (th_e th) de = true) /\ xltb (th_d th) dd = true.
