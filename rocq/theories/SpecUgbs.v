(** Sizes of the universal Gaussian basis sets, numbers in scientific notation. *)
From Coq Require Import Reals String Ascii List ZArith.
From Verif Require Import XR PyText SpecParse SpecLoad.
Import ListNotations.

(** Numbers of S, P, D and F exponents of each element: the lines "#BASIS SET: (31s,21p,17d)" of
    /repo/bfit/data/ygbs. *)
Definition ugbs_sizes : list (string * list nat) := ([
   ("H", [20; 0; 0; 0]); ("He", [21; 0; 0; 0]); ("Li", [25; 0; 0; 0]); ("Be", [25; 0; 0; 0]);
   ("B", [25; 15; 0; 0]); ("C", [23; 15; 0; 0]); ("N", [23; 16; 0; 0]); ("O", [23; 16; 0; 0]);
   ("F", [24; 16; 0; 0]); ("Ne", [23; 16; 0; 0]); ("Na", [27; 16; 0; 0]); ("Mg", [27; 16; 0; 0]);
   ("Al", [27; 19; 0; 0]); ("Si", [27; 19; 0; 0]); ("P", [27; 19; 0; 0]); ("S", [27; 19; 0; 0]);
   ("Cl", [27; 19; 0; 0]); ("Ar", [26; 19; 0; 0]); ("K", [29; 19; 0; 0]); ("Ca", [29; 19; 0; 0]);
   ("Sc", [30; 20; 14; 0]); ("Ti", [30; 20; 14; 0]); ("V", [30; 20; 14; 0]); ("Cr", [30; 20; 14; 0]);
   ("Mn", [30; 20; 15; 0]); ("Fe", [31; 20; 15; 0]); ("Co", [31; 20; 15; 0]); ("Ni", [30; 20; 15; 0]);
   ("Cu", [30; 20; 15; 0]); ("Zn", [30; 21; 15; 0]); ("Ga", [30; 22; 14; 0]); ("Ge", [30; 22; 14; 0]);
   ("As", [30; 22; 14; 0]); ("Se", [30; 21; 14; 0]); ("Br", [30; 21; 14; 0]); ("Kr", [30; 20; 14; 0]);
   ("Rb", [30; 20; 14; 0]); ("Sr", [30; 21; 14; 0]); ("Y", [30; 22; 18; 0]); ("Zr", [30; 22; 18; 0]);
   ("Nb", [31; 23; 18; 0]); ("Mo", [30; 23; 18; 0]); ("Tc", [32; 22; 17; 0]); ("Ru", [31; 22; 17; 0]);
   ("Rh", [32; 21; 17; 0]); ("Pd", [29; 22; 18; 0]); ("Ag", [31; 21; 17; 0]); ("Cd", [31; 20; 16; 0]);
   ("In", [30; 22; 16; 0]); ("Sn", [30; 22; 16; 0]); ("Sb", [30; 22; 16; 0]); ("Te", [30; 23; 16; 0]);
   ("I", [30; 22; 16; 0]); ("Xe", [31; 22; 16; 0]); ("Cs", [32; 22; 15; 0]); ("Ba", [32; 22; 16; 0]);
   ("La", [32; 24; 19; 0]); ("Hf", [32; 22; 18; 12]); ("Ta", [31; 23; 19; 13]); ("W", [31; 23; 19; 12]);
   ("Re", [31; 23; 19; 12]); ("Os", [32; 23; 18; 12]); ("Ir", [32; 22; 18; 13]); ("Pt", [32; 23; 18; 13]);
   ("Au", [32; 22; 18; 12]); ("Hg", [32; 23; 17; 13]); ("Tl", [32; 23; 18; 13]); ("Pb", [32; 23; 17; 13]);
   ("Bi", [32; 25; 17; 12]); ("Po", [32; 23; 18; 13]); ("At", [32; 24; 18; 13]); ("Rn", [32; 25; 17; 13])])%string.

(** [fl] gives "7.66E-002" its value 766 / 10^(2+2). *)
Definition reads_scientific (fl : list ascii -> res xr) : Prop :=
  forall d e k, e <> [] -> k <> [] -> (forall c, In c (d ++ e ++ k) -> digit c) ->
    fl (d ++ str "." ++ e ++ str "E-" ++ k) = Ok (Fin (IZR (digits (d ++ e)) / 10 ^ (length e + Z.to_nat (digits k)))).
