(** What the files of fitted models should contain. *)
From Coq Require Import Reals String Ascii List ZArith.
From Verif Require Import SpecJson SpecUgbs.
Import ListNotations.
Local Open Scope R_scope.

(** The names of the entries, by atomic number from 1. *)
Definition fit_names : list string := (["h"; "he"; "li"; "be"; "b"; "c"; "n"; "o"; "f"; "ne"; "na"; "mg"; "al"; "si"; "p"; "s"; "cl"; "ar";
   "k"; "ca"; "sc"; "ti"; "v"; "cr"; "mn"; "fe"; "co"; "ni"; "cu"; "zn"; "ga"; "ge"; "as"; "se"; "br"; "kr";
   "rb"; "sr"; "y"; "zr"; "nb"; "mo"; "tc"; "ru"; "rh"; "pd"; "ag"; "cd"; "in"; "sn"; "sb"; "te"; "i"; "xe"])%string.

(** The number m * 10^e. *)
Definition dec (m e : Z) : R := IZR m * powerRZ 10 e.
(** [fl] reads decimal numbers of moderate size with the accuracy of IEEE double precision. *)
Definition reads_floats (fl : Z -> Z -> R) : Prop :=
  forall m e, / 10 ^ 300 <= Rabs (dec m e) <= 10 ^ 300 -> Rabs (fl m e - dec m e) <= Rabs (dec m e) / 2 ^ 53.

(** The numbers of s- and p-type functions are those of the universal Gaussian basis set. *)
Definition ugbs_counts (k ns np : nat) : Prop :=
  exists name d f, nth_error ugbs_sizes k = Some (name, [ns; np; d; f]).
