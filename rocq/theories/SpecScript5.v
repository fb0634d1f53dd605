(** The cells of /repo/examples/molecular_density.ipynb and functions that start alike (C110). *)
From Coq Require Import Reals List ZArith Bool.
From Verif Require Import XR SpecDens ModelDens ModelFit SpecMeas SpecFit.
Import ListNotations.
Local Open Scope R_scope.

(** Two functions of a layout list are twins: same type and same distance at every point, as two functions of the same type
    on one center are. *)
Definition twins (lays : list (list (bool * R))) (k l : nat) : Prop :=
  forall lay, In lay lays -> kind lay k = kind lay l /\ away lay k = away lay l.

(** A vector without its [l]-th entry; coefficients with the [l]-th added to the [k]-th and removed. *)
Definition without {A} (l : nat) (x : list A) : list A := firstn l x ++ skipn (S l) x.
Definition merge (k l : nat) (c : list R) : list R := without l (upd c k (nth k c 0 + nth l c 0)).

(** The quadrature of a grid object: weighted sum of finite values; NaN values give NaN.  Grid objects of the notebook come from
    another package. *)
Definition quadrature (I : list xr -> res xr) (W : list R) : Prop :=
  (forall y, length y = length W -> I (map Fin y) = Ok (Fin (rdot W y))) /\
  (forall y, length y = length W -> exists v, I y = Ok v /\ (In NaN y -> v = NaN)).

(** Start values of cell 13.  The coefficients [c_h1], [c_h2] of the hydrogens are also used as their exponents, the lists [e_h1]
    and [e_h2] of the cell are not used. *)
Definition water_coeffs : list R := repeat 1 10 ++ repeat 1 3 ++ repeat 1 3.
Definition water_exps : list R := [1/1000; 1/10; 1; 10; 100; 1000; 2000; 1/100; 1; 10] ++ repeat 1 3 ++ repeat 1 3.

(** Numbers of s-type and p-type functions of cell 10. *)
Definition water_basis : list (nat * nat) := [(7, 3); (3, 0); (3, 0)]%nat.

(** The cells that use bfit: the model (cell 10), the fitting object and its run (cell 13).  Points, quadrature, coordinates
    and density values come from other packages (cells 4 and 7) and are arguments.  Printing and plots are not modelled. *)
Definition mol_notebook (pts : ndarray) (integrate : list xr -> res xr) (density : list xr) (coords : ndarray) : res fpi_result :=
  do m <- mol_init pts (VArr coords) (B2 (basis_rows water_basis)) true;
  do fp <- fpi_init (mkGridArg (Some pts) (Some integrate)) density (GMol m) (Fin 0) None false;
  fpi_run fp (VArr (A1 (map Fin water_coeffs))) (VArr (A1 (map Fin water_exps))) true true 15 (mkThr (Fin (/ 10 ^ 3)) (Fin (/ 10 ^ 4)) (Fin (/ 10 ^ 6))).

(** Layouts of the model with [b] on three centers at the points [rows]. *)
Definition three_lays (b : list (nat * nat)) (rows : list (list R)) (A B C : list R) : list (list (bool * R)) :=
  map (fun x => lay_mol (combine b [dist x A; dist x B; dist x C])) rows.

(** Coefficients (exponents) of a model with one function per hydrogen: the three coefficients of a hydrogen are added. *)
Definition merged_coeffs (c : list R) : list R := firstn 10 c ++ [3 * nth 10 c 0; 3 * nth 13 c 0].
Definition merged_exps (e : list R) : list R := firstn 10 e ++ [nth 10 e 0; nth 13 e 0].
