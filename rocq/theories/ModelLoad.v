(** The atom built from the data of a file: /repo/bfit/density.py:89-101. *)
From Coq Require Import Reals String Ascii List ZArith Bool.
From Verif Require Import XR PyText ModelParse ModelSlater.
Import ListNotations.

(** Letter of an orbital, [orbital[1]] (density.py:293, 432); letters other than S, P, D do not
    occur apart from F. *)
Definition shell_of (c : ascii) : shell :=
  if Ascii.eqb c "S" then LS else if Ascii.eqb c "P" then LP else if Ascii.eqb c "D" then LD else LF.
Definition letter_of (s : shell) : ascii := match s with LS => "S" | LP => "P" | LD => "D" | LF => "F" end%char.
(** Orbital "2P" as a pair, and back (keys of the dictionaries). *)
Definition label_of (t : text) : label :=
  match t with d :: c :: _ => (nat_of_ascii d - 48, shell_of c)%nat | _ => (0%nat, LS) end.
Definition key_of (o : label) : text := [ascii_of_nat (48 + fst o); letter_of (snd o)].
(** Finite value; the numbers of a file are finite. *)
Definition real_of (x : xr) : R := match x with Fin r => r | _ => 0%R end.

(** SlaterAtoms.__init__: density.py:89-101. *)
Definition atom_of (d : slater_data) : atom :=
  mkAtom (map label_of (sd_orbs d)) (map IZR (sd_occ d)) (map real_of (sd_energy d))
    (fun s => option_map (map real_of) (dget [letter_of s] (sd_exp d)))
    (fun s => option_map (map Z.to_nat) (dget [letter_of s] (sd_nums d)))
    (fun o => option_map (map real_of) (dget (key_of o) (sd_coeff d))).
