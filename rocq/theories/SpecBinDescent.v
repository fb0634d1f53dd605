(** What the properties about the objective of [ScipyFit] in floating-point formats with overflow say. *)
From Coq Require Import Reals List ZArith.
From Flocq Require Import Core.
From Verif Require Import SpecRnd SpecBin64 SpecBinModel SpecDescent.
Import ListNotations.
Local Open Scope R_scope.

(** A grid point whose weight, density and distances are numbers of the format, and the point of their values. *)
Definition bplace (fm : format) : Type := number fm * number fm * list (bool * number fm).
Definition weightb {fm : format} (x : bplace fm) : number fm := fst (fst x).
Definition densb {fm : format} (x : bplace fm) : number fm := snd (fst x).
Definition laysb {fm : format} (x : bplace fm) : list (bool * number fm) := snd x.
Definition real_place {fm : format} (x : bplace fm) : place :=
  (value (weightb x), value (densb x), map (fun q => (fst q, value (snd q))) (laysb x)).

(** Distances whose squares do not overflow, and sums whose fused products are added to rounded sums. *)
Definition good_place {fm : format} (fu : list (bool * R) -> nat -> bool) (to : list (bool * R) -> order) (x : bplace fm) : Prop :=
  Forall (fun q => moderate (snd q)) (laysb x) /\
  fusable (fu (lays (real_place x))) (to (lays (real_place x))) /\ lone (fu (lays (real_place x))) (to (lays (real_place x))) = false.

(** Distances of at most [2^s], and sums of products of at most [2^v] that do not overflow. *)
Definition sized_place {fm : format} (s v : Z) (fu : list (bool * R) -> nat -> bool) (to : list (bool * R) -> order) (x : bplace fm) : Prop :=
  let t := to (lays (real_place x)) in
  Forall (fun q => finite (snd q) /\ Rabs (value (snd q)) <= bpow radix2 s) (laysb x) /\ fusable (fu (lays (real_place x))) t /\ lone (fu (lays (real_place x))) t = false /\
  (Z.of_nat (length (leaves t)) < 2 ^ digits fm)%Z /\ INR (length (leaves t)) * bpow radix2 v < largest fm.
