(** What the properties about models in floating-point formats with overflow say. *)
From Coq Require Import Reals List ZArith Bool.
From Flocq Require Import Core IEEE754.BinarySingleNaN.
From Verif Require Import SpecRnd SpecBin SpecBin64.
Import ListNotations.
Local Open Scope R_scope.

(** An exponential function of the library: it computes [fexp] where argument and result are finite,
    is zero at minus infinity, as [fexp] is below the negative numbers of the format, and not finite at
    infinity and NaN. *)
Definition exponential {fm : format} (bexp : number fm -> number fm) (fexp : R -> R) : Prop :=
  (forall x, finite x -> finite (bexp x) -> value (bexp x) = fexp (value x)) /\
  represents (bexp (B754_infinity true)) 0 /\ (forall y, y <= - largest fm -> fexp y = 0) /\
  ~ finite (bexp (B754_infinity false)) /\ ~ finite (bexp B754_nan).

(** Its values at finite numbers that are not positive are finite, and [fexp] lies between 0 and 1
    there. *)
Definition damping {fm : format} (bexp : number fm -> number fm) (fexp : R -> R) : Prop :=
  exponential bexp fexp /\ (forall x, finite x -> value x <= 0 -> finite (bexp x)) /\ (forall y, y <= 0 -> 0 <= fexp y <= 1).

(** A distance whose square is below the overflow threshold. *)
Definition moderate {fm : format} (r : number fm) : Prop := finite r /\ fits fm (near fm (value r * value r)).

(** The constant [np.pi] and its power 1.5: finite numbers, the first at least 1. *)
Definition circle {fm : format} (bpow : number fm -> number fm -> number fm) (pi h : number fm) : Prop :=
  finite pi /\ 1 <= value pi /\ finite (bpow pi h).

(** The sum [t] is one product that is added without being rounded. *)
Definition lone (fused : nat -> bool) (t : order) : bool := match t with At i => fused i | _ => false end.
(** Every such product is added to a sum that is rounded. *)
Fixpoint fusable (fused : nat -> bool) (t : order) : Prop :=
  match t with Plus l r => (lone fused l && lone fused r = false) /\ fusable fused l /\ fusable fused r | _ => True end.
