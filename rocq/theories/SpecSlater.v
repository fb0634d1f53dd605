(** Radial Slater functions and atomic densities on real numbers, independent of the code. *)
From Coq Require Import Reals List.
From Verif Require Import XR SpecDens.
Import ListNotations.
Local Open Scope R_scope.

(** Normalized radial Slater function r^(n-1) e^(-z r), n >= 1. *)
Definition sto (z : R) (n : nat) (r : R) : R :=
  (2 * z) ^ n * sqrt (2 * z / INR (fact (2 * n))) * r ^ (n - 1) * exp (- z * r).

(** One subshell: occupation, energy, angular momentum l and its expansion (c, z, n). *)
Record subshell := mkSub { s_occ : R; s_en : R; s_l : nat; s_exp : list (R * R * nat) }.

(** Radial orbital. *)
Definition phi (s : subshell) (r : R) : R :=
  rsum (map (fun '(c, z, n) => c * sto z n r) (s_exp s)).

(** Density of a list of subshells, each weighted by [w]. *)
Definition rho_w (w : subshell -> R) (L : list subshell) (r : R) : R :=
  rsum (map (fun s => w s * phi s r ^ 2) L) / (4 * PI).
Definition rho : list subshell -> R -> R := rho_w s_occ.

(** Positive-definite kinetic energy density given the derivatives of the orbitals. *)
Definition tau (dphi : subshell -> R -> R) (L : list subshell) (r : R) : R :=
  / (8 * PI) * rsum (map (fun s =>
    s_occ s * (dphi s r ^ 2 + INR (s_l s) * (INR (s_l s) + 1) * phi s r ^ 2 / r ^ 2)) L).

(** Valid expansion: positive exponents, n >= 1. *)
Definition valid (s : subshell) : Prop :=
  forall c z n, In (c, z, n) (s_exp s) -> 0 < z /\ (1 <= n)%nat.

(** Overlap of two radial functions and the norm of an orbital. *)
Definition overlap (z : R) (n : nat) (z' : R) (n' : nat) : R :=
  (2 * z) ^ n * sqrt (2 * z / INR (fact (2 * n))) *
  ((2 * z') ^ n' * sqrt (2 * z' / INR (fact (2 * n')))) *
  (INR (fact (n + n')) / (z + z') ^ (n + n' + 1)).
Definition orb_norm (s : subshell) : R :=
  rsum (map (fun '(c, z, n) =>
    rsum (map (fun '(c', z', n') => c * c' * overlap z n z' n') (s_exp s))) (s_exp s)).

(** Numbers of exponents, quantum numbers and coefficients that fit together; a single exponent
    or a single quantum number stands for all. *)
Definition fitting (m n k : nat) : Prop :=
  (m = k \/ m = 1%nat) /\ (n = k \/ n = 1%nat) /\ (m = k \/ n = k).
