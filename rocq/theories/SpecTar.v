(** Ions with data in the archive of data files, and their numbers of electrons. *)
From Coq Require Import String List ZArith.
From Verif Require Import ModelParse SpecElem.
Import ListNotations.

(** Electrons of the neutral atom, the cation with charge +1 and the anion with charge -1 of the
    element with atomic number [n]. *)
Definition ion_electrons (d : folder) (n : nat) : Z :=
  match d with Neutral => Z.of_nat n | Anion => Z.of_nat n + 1 | Cation => Z.of_nat n - 1 end%Z.
(** The reader offers the atom or ion. *)
Definition offered (d : folder) (s : string) : Prop :=
  match d with Neutral => True | Anion => anion_offered s | Cation => cation_offered s end.
