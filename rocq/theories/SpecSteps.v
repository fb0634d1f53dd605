(** The four steps of README (C97). *)
From Coq Require Import Reals List ZArith Bool.
From Verif Require Import XR SpecDens SpecFit SpecGrid ModelDens ModelGrid ModelFit.
Import ListNotations.
Local Open Scope R_scope.

(** Steps 2 and 3 of README.md:162-179 on the radial grid with the points [pts]: an atomic model
    centered at the origin on the points of the grid, and the object that fits it to [f]. *)
Definition fpi_steps (pts f : list xr) (num_s num_p : Z) (norm sph : bool) (mask : xr) : res fpi :=
  do m <- atomic_init (VArr (A1 pts)) VNone (VInt num_s) (VInt num_p) norm;
  fpi_init (mkGridArg (Some (A1 pts)) (Some (gr_integrate (radial_grid pts)))) f (GAtom m) mask None sph.

(** Step 1 of README.md:153-159: [UniformRadialGrid(num_pts=100, min_radii=0., max_radii=50.)]. *)
Definition readme_grid : res (list xr) := uniform_init (VInt 100) (VFloat (Fin 0)) (VFloat (Fin 50)).

(** The guesses of step 4, README.md:186-187. *)
Definition readme_c0 : list R := [1; 1; 1; 1].
Definition readme_e0 : list R := [1/1000; 1/10; 1; 5; 100].

(** [f] has something to fit: [r^2 f] has a positive trapezoid integral. *)
Definition substantial (pts f : list R) : Prop := 0 < trap pts (map2 (fun r y => r ^ 2 * y) pts f).
