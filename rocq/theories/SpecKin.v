(** Kinetic energy of radial orbitals, independent of the code. *)
From Coq Require Import Reals List.
From Verif Require Import XR SpecDens SpecSlater.
Import ListNotations.
Local Open Scope R_scope.

(** Kinetic energy element of two radial Slater functions with angular momentum [l]:
    half the integral of r^2 R' S' + l (l + 1) R S. *)
Definition kin (l : nat) (z : R) (n : nat) (z' : R) (n' : nat) : R :=
  / 2 * (overlap z n z' n' *
    (((INR n - 1) * (INR n' - 1) + INR l * (INR l + 1)) * (z + z') ^ 2 / (INR (n + n') * (INR (n + n') - 1))
     - ((INR n - 1) * z' + (INR n' - 1) * z) * (z + z') / INR (n + n') + z * z')).
Definition orb_kin (s : subshell) : R :=
  rsum (map (fun '(c, z, n) =>
    rsum (map (fun '(c', z', n') => c * c' * kin (s_l s) z n z' n') (s_exp s))) (s_exp s)).
