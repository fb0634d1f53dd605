(** The fits of the example scripts table_3.py and table_4.py of /repo/examples/table (C103). *)
From Coq Require Import Reals String Ascii List ZArith Bool.
From Verif Require Import XR PyText ModelParse SpecParse SpecDens SpecMeas SpecGrid SpecSlater ModelSlater ModelLoad ModelDens ModelMeas ModelGrid ModelFit SpecFit SpecScript.
Import ListNotations.
Local Open Scope R_scope.

(** One round of the loop up to the call of run: table_3.py:32-51, table_4.py:37-63 (there the starting
    parameters are computed after the fitting object).  [me] is the measure, [norm] the argument normalize;
    the other arguments are those of [table_fit].  The fitting object, the starting coefficients and exponents. *)
Definition slsqp_setup fl ugbs files (element : string) (z nc nd : Z) (extra : list xr) (me : measure) (norm : bool)
           (fuel : nat) : option (res (scipy * list xr * list xr)) :=
  doo pts <- Some (clenshaw_init (VInt z) (VInt nc) (VInt nd) (EList extra) (VBool true));
  doo d <- Some (get_ugbs_exponents fl ugbs (Some element));
  doo es <- Some (dlookup (str "S") d);
  doo ep <- Some (dlookup (str "P") d);
  let ns := length es in
  let np := length ep in
  doo c <- Some (share z (ns + np));
  let c0 := repeat c (ns + np) in
  let e0 := map (fun x => xmul x (Fin 2)) (es ++ ep) in
  doo m <- Some (atomic_init (VArr (A1 pts)) VNone (VInt (Z.of_nat ns)) (VInt (Z.of_nat np)) norm);
  doo data <- slater_atoms fl files (Some element) false false fuel;
  doo f <- Some (atomic_density (atom_of data) (A1 pts) MTotal);
  doo s <- Some (scipy_init (mkGridArg (Some (A1 pts)) (Some (gr_integrate (radial_grid pts)))) f (GAtom m) (MInst me) "SLSQP" None None true (Fin (/ 10 ^ 18)));
  Some (Ok (s, c0, e0)).

(** The whole round, with any optimizer: table_3.py:32-54, table_4.py:37-68. *)
Definition slsqp_fit minimize fl ugbs files element z nc nd extra me norm cons fuel : option (res scipy_result) :=
  doo t <- slsqp_setup fl ugbs files element z nc nd extra me norm fuel;
  let '(s, c0, e0) := t in
  Some (scipy_run minimize s c0 e0 true true 10000 (Fin (/ 10 ^ 14)) cons).

(** table_3.py:32-54. *)
Definition table_3 minimize fl ugbs files (element : string) (z : Z) (fuel : nat) : option (res scipy_result) :=
  slsqp_fit minimize fl ugbs files element z 10000 899 (map Fin [50; 75; 100]) (MKL (Fin (/ 10 ^ 18)) (Fin 100000)) true true fuel.
(** table_4.py:37-68, with WITH_CONSTRAINT as in line 21. *)
Definition table_4 minimize fl ugbs files (element : string) (z : Z) (fuel : nat) : option (res scipy_result) :=
  slsqp_fit minimize fl ugbs files element z 10000 899 (map Fin [50; 75; 100]) MSq false false fuel.

(** The elements of both loops are those of table_5.py (table_3.py:18-28, table_4.py:23-33, before the slices
    that keep the last one). *)
Definition table_34_atoms : list (string * Z) :=
  [("he", 2); ("be", 4); ("f", 9); ("al", 13); ("k", 19); ("ti", 22); ("zn", 30); ("rh", 45); ("i", 53)]%string%Z.

(** [W] are weights of the trapezoidal rule for 4 pi r^2 y. *)
Definition spherical_weights (pts W : list R) : Prop :=
  length W = length pts /\ nonneg W /\
  forall y, length y = length pts -> quad W y = 4 * PI * trap pts (map2 (fun r y => r ^ 2 * y) pts y).

(** An optimizer that returns a vector within the bounds. *)
Definition keeps_bounds (minimize : problem -> res opt_result) : Prop :=
  forall pb, exists o x, minimize pb = Ok o /\ o_x o = map Fin x /\ Forall2 Rle (pb_lower pb) x.
