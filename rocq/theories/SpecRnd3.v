(** What the properties about rounded Slater densities say, without reference to the model. *)
From Coq Require Import Reals List.
From Verif Require Import XR SpecDens SpecSlater SpecRnd.
Import ListNotations.
Local Open Scope R_scope.

(** ** The library *)
(** Powers with natural exponents: accurate up to [k] roundings where they do not underflow. *)
Definition ipow_error (u lo : R) (k : nat) (fpow : R -> nat -> R) : Prop :=
  forall x n, 0 <= x -> 0 <= fpow x n /\ (x ^ n = 0 \/ lo <= x ^ n -> within u k (fpow x n) (x ^ n)).
(** Factorials. *)
Definition fact_error (u : R) (k : nat) (ffact : nat -> R) : Prop :=
  forall n, within u k (ffact n) (INR (fact n)).
(** Exponentials of numbers that are not positive are at most 1. *)
Definition exp_at_most_1 (fexp : R -> R) : Prop := forall x, x <= 0 -> fexp x <= 1.

(** ** Exact values *)
(** The factor of the exponential in a radial Slater function. *)
Definition amp (z : R) (n : nat) (r : R) : R := (2 * z) ^ n * sqrt (2 * z / INR (fact (2 * n))) * r ^ (n - 1).
(** Derivative of a radial Slater function. *)
Definition dsto (z : R) (n : nat) (r : R) : R := ((INR n - 1) / r - z) * sto z n r.
Definition dphi (s : subshell) (r : R) : R := rsum (map (fun '(c, z, n) => c * dsto z n r) (s_exp s)).
(** Derivative of the density. *)
Definition drho (L : list subshell) (r : R) : R :=
  rsum (map (fun s => s_occ s * (2 * (phi s r * dphi s r))) L) / (4 * PI).
(** The weight of an orbital in the total, the valence and the core density; [h] is the energy of
    the last orbital. *)
Inductive part := Total | Valence | Core.
Definition homo (L : list subshell) : R := last (map s_en L) 0.
Definition share (h : R) (s : subshell) : R := exp (- (s_en s - h) ^ 2).
Definition weight (m : part) (h : R) (s : subshell) : R :=
  match m with Total => s_occ s | Valence => s_occ s * share h s | Core => s_occ s * (1 - share h s) end.

(** No part of the prefactor of a Slater function underflows. *)
Definition sto_safe (lo z : R) (n : nat) (r : R) : Prop :=
  lo <= (2 * z) ^ n /\ 2 * lo <= 2 * z / INR (fact (2 * n)) /\
  2 * lo <= (2 * z) ^ n * sqrt (2 * z / INR (fact (2 * n))) /\
  (r ^ (n - 1) = 0 \/ (lo <= r ^ (n - 1) /\ 2 * lo <= amp z n r)).

(** Everything an atom at the distance [r] needs for the bounds: the exponents are not negative and
    their doubles are numbers of the format; [to s] adds each product of the orbital [s] once. *)
Definition atom_ok (fmt : R -> Prop) (lo : R) (to : subshell -> order) (r : R) (L : list subshell) : Prop :=
  Forall (fun s => orders (length (s_exp s)) (to s) /\
    Forall (fun '(c, e, n) => 0 <= e /\ (1 <= n)%nat /\ fmt (2 * e) /\ sto_safe lo e n r) (s_exp s)) L.

(** ** Bounds of errors *)
Section Bounds.
(** Unit roundoff, underflow, error of the exponential, roundings of powers and factorials. *)
Context (u eta v z : R) (kp kf : nat).
Notation q := (/ (1 - u)).

(** [k] roundings of a number that is [b] up to [d]. *)
Definition grow (k : nat) (b d : R) : R := q ^ k * (Rabs b + d) - Rabs b.
(** A rounded product of two numbers that are [a] up to [da] and [b] up to [db]. *)
Definition prod_bound (a da b db : R) : R := q * ((Rabs a + da) * (Rabs b + db)) - Rabs a * Rabs b + eta.
(** An exponential at [- t], the argument having the error [d]. *)
Definition exp_bound (t d : R) : R := exp (- t) * ((1 + v) * exp d - 1) + z.
(** A sum of products of numbers with errors, [(a, da, b, db)], added in the order [t]. *)
Definition dot_bound (t : order) (l : list (R * R * R * R)) : R :=
  q ^ (height t + 1) * rsum (map (fun '(a, da, b, db) => (Rabs a + da) * (Rabs b + db)) l)
  - rsum (map (fun '(a, da, b, db) => Rabs a * Rabs b) l)
  + q ^ height t * (eta * INR (length l + additions t)).

Definition sto_bound (e : R) (n : nat) (r : R) : R :=
  grow (2 * kp + kf + 5) (sto e n r) (amp e n r * exp_bound (e * r) (u * (e * r) + eta)) + eta.
Definition dsto_bound (e : R) (n : nat) (r : R) : R :=
  prod_bound ((INR n - 1) / r - e) (grow 1 ((INR n - 1) / r - e) (u * ((INR n - 1) / r) + eta) + eta)
    (sto e n r) (sto_bound e n r).
(** Orbitals; [t] is the order of the sum. *)
Definition phi_bound (t : order) (s : subshell) (r : R) : R :=
  dot_bound t (map (fun '(c, e, n) => (sto e n r, sto_bound e n r, c, 0)) (s_exp s)).
Definition dphi_bound (t : order) (s : subshell) (r : R) : R :=
  dot_bound t (map (fun '(c, e, n) => (dsto e n r, dsto_bound e n r, c, 0)) (s_exp s)).
(** Weights. *)
Definition share_bound (h : R) (s : subshell) : R :=
  let t := (s_en s - h) ^ 2 in exp_bound t (((1 + u) ^ 3 - 1) * t + eta).
Definition weight_bound (m : part) (h : R) (s : subshell) : R :=
  match m with
  | Total => 0
  | Valence => prod_bound (s_occ s) 0 (share h s) (share_bound h s)
  | Core => prod_bound (s_occ s) 0 (1 - share h s) (grow 1 (1 - share h s) (share_bound h s) + eta)
  end.
(** The division by 4 pi. *)
Definition over_4pi (a d : R) : R := grow 3 a d / (4 * PI) + eta.

(** The density: [to s] is the order of the sum of the orbital [s], [t] that of the density. *)
Definition rho_bound (m : part) (to : subshell -> order) (t : order) (L : list subshell) (r : R) : R :=
  over_4pi (rsum (map (fun s => weight m (homo L) s * phi s r ^ 2) L))
    (dot_bound t (map (fun s =>
       (phi s r ^ 2, prod_bound (phi s r) (phi_bound (to s) s r) (phi s r) (phi_bound (to s) s r),
        weight m (homo L) s, weight_bound m (homo L) s)) L)).
(** Its derivative. *)
Definition drho_bound (to : subshell -> order) (t : order) (L : list subshell) (r : R) : R :=
  over_4pi (rsum (map (fun s => s_occ s * (2 * (phi s r * dphi s r))) L))
    (dot_bound t (map (fun s =>
       let d := prod_bound (phi s r) (phi_bound (to s) s r) (dphi s r) (dphi_bound (to s) s r) in
       (2 * (phi s r * dphi s r), grow 1 (2 * (phi s r * dphi s r)) (2 * d) + eta, s_occ s, 0)) L)).
(** The kinetic energy: squares of the derivatives and of the orbitals over the distance. *)
Definition tau_term (s : subshell) (r : R) : R := dphi s r ^ 2 + INR (s_l s) * (INR (s_l s) + 1) * phi s r ^ 2 / r ^ 2.
Definition tau_term_bound (to : subshell -> order) (s : subshell) (r : R) : R :=
  let a := INR (s_l s) * (INR (s_l s) + 1) in
  let d1 := prod_bound (dphi s r) (dphi_bound (to s) s r) (dphi s r) (dphi_bound (to s) s r) in
  let d2 := prod_bound (phi s r) (phi_bound (to s) s r) (phi s r) (phi_bound (to s) s r) in
  let d3 := prod_bound a 0 (phi s r ^ 2) d2 in
  let d4 := grow 2 (a * phi s r ^ 2) d3 / r ^ 2 + eta in
  grow 1 (tau_term s r) (d1 + d4) + eta.
Definition tau_bound (to : subshell -> order) (t : order) (L : list subshell) (r : R) : R :=
  let S := rsum (map (fun s => s_occ s * tau_term s r) L) in
  over_4pi (S / 2) (grow 1 (S / 2)
    (dot_bound t (map (fun s => (tau_term s r, tau_term_bound to s r, s_occ s, 0)) L) / 2) + eta).
End Bounds.
