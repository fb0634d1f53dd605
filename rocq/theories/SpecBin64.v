(** What the properties about IEEE 754 arithmetic say, without reference to the model.
    [binary_float p e] is Flocq's type of the numbers of a binary format with [p] digits and exponents
    below [e], with signed zeros, infinities and one NaN. *)
From Coq Require Import Reals List ZArith Lia.
From Flocq Require Import Core IEEE754.BinarySingleNaN.
From Verif Require Import SpecBin.
Import ListNotations.
Local Open Scope R_scope.

(** A binary format at least as wide as double precision. *)
Record format := mkFormat { digits : Z; top : Z; wide : (53 <= digits /\ 1024 <= top /\ digits < top)%Z }.
(** Double precision ([np.float64]), the extended precision of x86 and the quadruple precision of
    other processors ([np.longdouble]). *)
Definition binary64 : format := mkFormat 53 1024 ltac:(lia).
Definition extended : format := mkFormat 64 16384 ltac:(lia).
Definition binary128 : format := mkFormat 113 16384 ltac:(lia).
(** The exponent of the smallest positive number. *)
Definition bottom (fm : format) : Z := (3 - top fm - digits fm)%Z.
Definition number (fm : format) := binary_float (digits fm) (top fm).
Definition finite {fm : format} (a : (number fm)) : Prop := is_finite a = true.
Definition value {fm : format} (a : (number fm)) : R := B2R a.

(** [a] is a finite number and has the value [x]. *)
Definition represents {fm : format} (a : (number fm)) (x : R) : Prop := finite a /\ value a = x.
(** [a] has the value [x] unless it is infinite or NaN. *)
Definition agrees {fm : format} (a : (number fm)) (x : R) : Prop := finite a -> value a = x.

(** Rounding to the format without overflow. *)
Definition near (fm : format) : R -> R := bin_rnd (bottom fm) (digits fm).
Definition largest (fm : format) : R := bpow radix2 (top fm).

(** A function of the library computes [ff] where its result is finite, and only for finite
    arguments, as [np.log] and squares do. *)
Definition library {fm : format} (bf : (number fm) -> (number fm)) (ff : R -> R) : Prop :=
  forall x, finite (bf x) -> finite x /\ value (bf x) = ff (value x).
(** As before for two arguments, of which both are known to be finite. *)
Definition library2 {fm : format} (bf : (number fm) -> (number fm) -> (number fm)) (ff : R -> R -> R) : Prop :=
  forall x y, finite x -> finite y -> finite (bf x y) -> value (bf x y) = ff (value x) (value y).

(** All numbers are finite, and the value [g] of the model is masked or not so small against [f]
    that the division of masked arrays hides the quotient. *)
Definition seen {fm : format} (mask f g : (number fm)) : Prop :=
  finite mask /\ finite f /\ finite g /\ (value g <= value mask \/ (near fm) (Rabs (value f) * / 2 ^ 1022) < Rabs (value g)).

(** A rule of integration that agrees with a rounded one. *)
Definition same_rule {fm : format} (quadr : list (number fm) -> (number fm)) (quadr' : list R -> R) : Prop :=
  forall y y', Forall2 agrees y y' -> agrees (quadr y) (quadr' y').


(** The number [x] is below the overflow threshold. *)
Definition fits (fm : format) (x : R) : Prop := Rabs x < (largest fm).
(** A function of the library computes [ff] for finite arguments in the domain [D] unless the result
    is too large. *)
Definition computes {fm : format} (D : R -> Prop) (bf : (number fm) -> (number fm)) (ff : R -> R) : Prop :=
  forall x, finite x -> D (value x) -> fits fm (ff (value x)) -> represents (bf x) (ff (value x)).
Definition computes2 {fm : format} (D : R -> R -> Prop) (bf : (number fm) -> (number fm) -> (number fm)) (ff : R -> R -> R) : Prop :=
  forall x y, finite x -> finite y -> D (value x) (value y) -> fits fm (ff (value x) (value y)) -> represents (bf x y) (ff (value x) (value y)).
(** A rule of integration that gives a finite result on the arrays in [P], that of a rounded one. *)
Definition finite_rule {fm : format} (P : list R -> Prop) (quadr : list (number fm) -> (number fm)) (quadr' : list R -> R) : Prop :=
  forall y y', Forall2 represents y y' -> P y' -> represents (quadr y) (quadr' y').
