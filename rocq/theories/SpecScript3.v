(** The fits of /repo/examples/atomdb_db.py and /repo/examples/atomic_density.ipynb (C105). *)
From Coq Require Import Reals String Ascii List ZArith Bool.
From Verif Require Import XR PyText ModelParse SpecParse SpecDens SpecSlater ModelSlater ModelLoad ModelDens ModelGrid ModelFit SpecMeas SpecFit SpecZero SpecScript.
Import ListNotations.
Local Open Scope R_scope.

(** [density[density < 0.0] = 0.0]: atomdb_db.py:65. *)
Definition clip (x : xr) : xr := if xltb x (Fin 0) then Fin 0 else x.

(** The relative errors computed from a row of measures: atomdb_db.py:96-103, table_1_and_2.py:69-75. *)
Definition relative_errors (pts f row : list xr) : res (list xr) :=
  let spherical := map (fun r => xmul (Fin (4 * PI)) (xsq r)) pts in
  let integrate := gr_integrate (radial_grid pts) in
  do a <- integrate (map2 xmul f spherical);
  do b <- np_max f;
  do d <- integrate (map2 xmul (map xsq f) spherical);
  do k <- integrate (map2 xmul (map2 xmul f (map xln f)) spherical);
  Ok [xdiv (nth 1 row NaN) a; xdiv (nth 2 row NaN) b; xdiv (nth 3 row NaN) d; xdiv (nth 4 row NaN) k].

(** What is stored for one element: atomdb_db.py:107-113. *)
Record entry := mkEntry { en_coeffs_s : list xr; en_exps_s : list xr; en_coeffs_p : list xr; en_exps_p : list xr;
                          en_measures : list xr; en_success : bool; en_errors : list xr }.

(** One round of the loop: atomdb_db.py:26-115 (the file is written after each round).  [dens] is the function
    obtained from AtomDB (lines 51-60), which is not part of the package; the printed values (line 64 and
    lines 85-104) have no effect. *)
Definition atomdb_fit fl ugbs (dens : list xr -> list xr) (element : string) (z nc nd : Z) : res entry :=
  do pts <- clenshaw_init (VInt z) (VInt nc) (VInt nd) ENone (VBool true);
  do d <- get_ugbs_exponents fl ugbs (Some element);
  do es <- dlookup (str "S") d;
  do ep <- dlookup (str "P") d;
  let ns := length es in
  let np := length ep in
  do c <- share z (ns + np);
  let c0 := repeat c (ns + np) in
  let e0 := map (fun x => xmul x (Fin 2)) (es ++ ep) in
  let f := map clip (dens pts) in
  do m <- atomic_init (VArr (A1 pts)) VNone (VInt (Z.of_nat ns)) (VInt (Z.of_nat np)) true;
  do fp <- fpi_init (mkGridArg (Some (A1 pts)) (Some (gr_integrate (radial_grid pts)))) f (GAtom m) (Fin (/ 10 ^ 18)) (Some (Fin (IZR z))) true;
  do r <- fpi_run fp (VArr (A1 c0)) (VArr (A1 e0)) true true 10000 (mkThr (Fin (/ 10 ^ 6)) (Fin (/ 10 ^ 6)) (Fin (/ 10 ^ 14)));
  match rev (r_perf r) with
  | [] => Raise IndexError
  | row :: _ =>
      do errs <- relative_errors pts f row;
      Ok (mkEntry (firstn ns (r_coeffs r)) (firstn ns (r_exps r)) (skipn ns (r_coeffs r)) (skipn ns (r_exps r)) row (r_success r) errs)
  end.

(** The elements of the loop: atomdb_db.py:23-24. *)
Definition atomdb_atoms : list (string * Z) :=
  [("H", 1); ("C", 6); ("N", 7); ("O", 8); ("F", 9); ("P", 15); ("S", 16); ("Cl", 17)]%string%Z.

(** The cells of atomic_density.ipynb that compute: the grid, the density and its printed integral, the model,
    the fitting object, the values of the first model, the run, the printed sum of the coefficients and the
    values of the last model.  The plots are not modelled. *)
Definition notebook_fit fl files (element : string) (z nc nd : Z) (extra : list xr) (ns np : nat) (c0 e0 : list xr) (total : xr) (maxiter : Z)
           (fuel : nat) : option (res (xr * list xr * fpi_result * list xr)) :=
  doo pts <- Some (clenshaw_init (VInt z) (VInt nc) (VInt nd) (EList extra) (VBool true));
  doo data <- slater_atoms fl files (Some element) false false fuel;
  doo f <- Some (atomic_density (atom_of data) (A1 pts) MTotal);
  doo i <- Some (gr_integrate (radial_grid pts) f);
  doo m <- Some (atomic_init (VArr (A1 pts)) VNone (VInt (Z.of_nat ns)) (VInt (Z.of_nat np)) true);
  doo fp <- Some (fpi_init (mkGridArg (Some (A1 pts)) (Some (gr_integrate (radial_grid pts)))) f (GAtom m) (Fin 0) (Some total) true);
  doo g0 <- Some (g_evaluate (GAtom m) (A1 c0) (A1 e0) false);
  doo r <- Some (fpi_run fp (VArr (A1 c0)) (VArr (A1 e0)) true true maxiter default_thr);
  doo g1 <- Some (g_evaluate (GAtom m) (A1 (r_coeffs r)) (A1 (r_exps r)) false);
  Some (Ok (i, fst g0, r, fst g1)).
(** With the numbers of the notebook. *)
Definition notebook_c0 : list R := [2/10; 5/10; 2/10; 3/10; 4/10; 6/10; 7/10; 9/10].
Definition notebook_e0 : list R := [1/1000; 1/10; 10; 100; 1000; 1/100; 1/10; 1].
Definition notebook fl files (fuel : nat) :=
  notebook_fit fl files "be" 4 400 500 (map Fin [25; 50; 75]) 5 3 (map Fin notebook_c0) (map Fin notebook_e0) (Fin 4) 1000 fuel.

(** The row of measures of the model values [g] against the density [f]: integral of the model, L1 and
    largest distance, integral of the squared difference (the column with index 3) and the divergence, which is NaN
    exactly when the density is zero at a point where the model is not masked. *)
Definition row_of (mask : R) (W f g : list R) (row : list xr) : Prop :=
  exists mx x, row = [Fin (quad W g); Fin (quad W (map2 (fun x y => Rabs (x - y)) f g)); Fin mx; Fin (quad W (map2 sq_fn f g)); x] /\
    is_max (map2 (fun x y => Rabs (x - y)) f g) mx /\
    ((exists i, bare_zero mask f g i) -> x = NaN) /\ ((forall i, ~ bare_zero mask f g i) -> exists y, x = Fin y).
(** The relative errors of such a row: the last is NaN as soon as the density is zero somewhere. *)
Definition errors_of (W f g : list R) (row errs : list xr) : Prop :=
  exists M mx x y, is_max f M /\ nth 2 row NaN = Fin mx /\ nth 4 row NaN = x /\
    errs = [Fin (quad W (map2 (fun x y => Rabs (x - y)) f g) / quad W f); Fin (mx / M);
            Fin (quad W (map2 sq_fn f g) / quad W (map (fun y => y * y) f)); y] /\
    (In 0 f -> y = NaN) /\ (positive f -> y = xdiv x (Fin (quad W (map (fun y => y * ln y) f)))).
