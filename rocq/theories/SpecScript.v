(** The fits of the example scripts /repo/examples/table (C99). *)
From Coq Require Import Reals String Ascii List ZArith Bool.
From Verif Require Import XR PyText ModelParse SpecParse SpecDens SpecSlater ModelSlater ModelLoad ModelDens ModelGrid ModelFit.
Import ListNotations.
Local Open Scope R_scope.

(** One term of the expansion of [s] has a non-zero coefficient and an exponent of its own. *)
Definition leading (s : subshell) : Prop :=
  exists l1 c z n l2, s_exp s = l1 ++ (c, z, n) :: l2 /\ c <> 0 /\ ~ In z (map (fun '(c, z, n) => z) (l1 ++ l2)).
(** Sum of the quantum numbers of the expansion. *)
Definition size (s : subshell) : nat := list_sum (map snd (s_exp s)).

(** The division [atomic_numb / (num_s + num_p)]; integers. *)
Definition share (z : Z) (n : nat) : res xr :=
  match n with O => Raise ZeroDivisionError | _ => Ok (Fin (IZR z / INR n)) end.

(** One round of the loop of table_1_and_2.py:32-57 (density, factor 2) and of
    table_5.py:27-64 (kinetic energy density, factor 10/3; there the statements come in another order).  [kinetic] selects the density that is fitted,
    [origin] whether the grid contains the origin, [total] the argument integral_dens; [nc], [nd] and [extra] are the
    arguments of the grid.  [fl] reads numbers, [ugbs] are the lines of data/ygbs and [files] the data files;
    [fuel] bounds the reading of the file of the element. *)
Definition table_fit fl ugbs files (element : string) (z nc nd : Z) (extra : list xr) (kinetic origin : bool) (factor : R)
           (total : option xr) (fuel : nat) : option (res fpi_result) :=
  doo pts <- Some (clenshaw_init (VInt z) (VInt nc) (VInt nd) (EList extra) (VBool origin));
  doo d <- Some (get_ugbs_exponents fl ugbs (Some element));
  doo es <- Some (dlookup (str "S") d);
  doo ep <- Some (dlookup (str "P") d);
  let ns := length es in
  let np := length ep in
  doo c <- Some (share z (ns + np));
  let c0 := repeat c (ns + np) in
  let e0 := map (fun x => xmul x (Fin factor)) (es ++ ep) in
  doo data <- slater_atoms fl files (Some element) false false fuel;
  doo f <- Some (if kinetic then kinetic_energy (atom_of data) (A1 pts) else atomic_density (atom_of data) (A1 pts) MTotal);
  doo m <- Some (atomic_init (VArr (A1 pts)) VNone (VInt (Z.of_nat ns)) (VInt (Z.of_nat np)) true);
  doo fp <- Some (fpi_init (mkGridArg (Some (A1 pts)) (Some (gr_integrate (radial_grid pts)))) f (GAtom m) (Fin (/ 10 ^ 18)) total true);
  Some (fpi_run fp (VArr (A1 c0)) (VArr (A1 e0)) true true 10000 (mkThr (Fin (/ 10 ^ 6)) (Fin (/ 10 ^ 6)) (Fin (/ 10 ^ 14)))).

(** table_1_and_2.py:32-57. *)
Definition table_1 fl ugbs files (element : string) (z : Z) (fuel : nat) : option (res fpi_result) :=
  table_fit fl ugbs files element z 10000 899 (map Fin [50; 75; 100]) false true 2 (Some (Fin (IZR z))) fuel.
(** table_5.py:29-64. *)
Definition table_5 fl ugbs files (element : string) (z : Z) (fuel : nat) : option (res fpi_result) :=
  table_fit fl ugbs files element z 10000 899 (map Fin [50; 75; 100]) true false (10 / 3) None fuel.

(** The elements of the loops, with their atomic numbers: table_1_and_2.py:20-26 and table_5.py:18-28
    (before the slice [6:] that keeps the last three). *)
Definition table_1_atoms : list (string * Z) := combine
  ["h"; "he"; "li"; "be"; "b"; "c"; "n"; "o"; "f"; "ne"; "na"; "mg"; "al"; "si"; "p"; "s"; "cl"; "ar"; "k"; "ca";
   "sc"; "ti"; "v"; "cr"; "mn"; "fe"; "co"; "ni"; "cu"; "zn"; "ga"; "ge"; "as"; "se"; "br"; "kr"; "rb"; "sr";
   "y"; "zr"; "nb"; "mo"; "tc"; "ru"; "rh"; "pd"; "ag"; "cd"; "in"; "sn"; "sb"; "te"; "i"; "xe"]%string
  (map Z.of_nat (seq 1 54)).
Definition table_5_atoms : list (string * Z) :=
  [("he", 2); ("be", 4); ("f", 9); ("al", 13); ("k", 19); ("ti", 22); ("zn", 30); ("rh", 45); ("i", 53)]%string%Z.
