(** What the properties about Slater densities in floating-point formats with overflow say. *)
From Coq Require Import Reals List ZArith Bool.
From Flocq Require Import Core IEEE754.BinarySingleNaN.
From Verif Require Import SpecSlater SpecRnd SpecBin SpecBin64 SpecBinModel.
Import ListNotations.
Local Open Scope R_scope.

(** A subshell whose occupation, energy, coefficients and exponents are numbers of the format. *)
Record bshell (fm : format) := mkShell { h_occ : number fm; h_en : number fm; h_l : nat; h_exp : list (number fm * number fm * nat) }.
Arguments mkShell {fm}.
Arguments h_occ {fm}.
Arguments h_en {fm}.
Arguments h_l {fm}.
Arguments h_exp {fm}.
(** The subshell of their values. *)
Definition worth {fm : format} (s : bshell fm) : subshell :=
  mkSub (value (h_occ s)) (value (h_en s)) (h_l s) (map (fun '(c, z, n) => (value c, value z, n)) (h_exp s)).

(** Powers with natural exponents compute [fpow] where argument and result are finite. *)
Definition powers {fm : format} (bpow : number fm -> nat -> number fm) (fpow : R -> nat -> R) : Prop :=
  forall x n, finite x -> finite (bpow x n) -> value (bpow x n) = fpow (value x) n.

(** A subshell as the program has them: finite exponents, principal quantum numbers that are small
    integers and whose factorials are finite, an angular momentum in the table of the program. *)
Definition proper {fm : format} (bfact : nat -> number fm) (ffact : nat -> R) (s : bshell fm) : Prop :=
  finite (h_en s) /\ (h_l s <= 3)%nat /\
  Forall (fun '(c, z, n) => finite z /\ (Z.of_nat n < 2 ^ 53)%Z /\ represents (bfact (2 * n)%nat) (ffact (2 * n)%nat)) (h_exp s).

(** Sums whose fused products are added to rounded sums, for every subshell. *)
Definition good_sums {fm : format} (fu : subshell -> nat -> bool) (to : subshell -> order) (L : list (bshell fm)) : Prop :=
  Forall (fun s => fusable (fu (worth s)) (to (worth s)) /\ lone (fu (worth s)) (to (worth s)) = false) L.

(** The threshold [1e-10]: a positive number. *)
Definition threshold {fm : format} (tiny : number fm) : Prop := finite tiny /\ 0 < value tiny.
(** The number pi: between 3 and 4. *)
Definition about_pi {fm : format} (pi : number fm) : Prop := finite pi /\ 3 <= value pi <= 4.

(** Everything that enters a subshell at the distance [r] is finite and at most a power of two: the
    normalization constants, the powers of the distance, the coefficients, the number of products and the
    occupation.  The exponents are not negative. *)
Definition small {fm : format} (norm : number fm -> nat -> number fm) (bpow : number fm -> nat -> number fm) (k j b q o : Z)
    (to : subshell -> order) (r : number fm) (s : bshell fm) : Prop :=
  finite (h_occ s) /\ Rabs (value (h_occ s)) <= Raux.bpow radix2 o /\ (Z.of_nat (length (leaves (to (worth s)))) <= 2 ^ q)%Z /\
  Forall (fun '(c, z, n) => finite c /\ Rabs (value c) <= Raux.bpow radix2 b /\ 0 <= value z /\
    finite (norm z n) /\ Rabs (value (norm z n)) <= Raux.bpow radix2 k /\
    finite (bpow r (n - 1)%nat) /\ Rabs (value (bpow r (n - 1)%nat)) <= Raux.bpow radix2 j) (h_exp s).
(** The factors of the derivatives of the functions of a subshell are finite and at most [2^d]. *)
Definition steep {fm : format} (pref : number fm -> nat -> number fm) (d : Z) (s : bshell fm) : Prop :=
  Forall (fun '(c, z, n) => finite (pref z n) /\ Rabs (value (pref z n)) <= Raux.bpow radix2 d) (h_exp s).
