(** What the grid properties say, without reference to the model. *)
From Coq Require Import Reals List ZArith Lia Lra Sorted.
From Coquelicot Require Import Coquelicot.
From Coq Require Import List.
Import ListNotations.
Local Open Scope R_scope.

(** Trapezoid rule. *)
Fixpoint trap (x y : list R) : R :=
  match x, y with
  | x0 :: ((x1 :: _) as x'), y0 :: ((y1 :: _) as y') => (x1 - x0) * (y0 + y1) / 2 + trap x' y'
  | _, _ => 0
  end.

(** Ascending, strictly ascending lists. *)
Definition ascending (l : list R) : Prop := Sorted Rle l.
Definition strictly_ascending (l : list R) : Prop := Sorted Rlt l.

(** Equally spaced points. *)
Definition equispaced (a b : R) (n : nat) : list R :=
  map (fun i => a + INR i * ((b - a) / INR (n - 1))) (seq 0 n).

(** Lipschitz on an interval. *)
Definition lipschitz (f : R -> R) (a b L : R) : Prop :=
  forall x y : R, a <= x <= b -> a <= y <= b -> Rabs (f x - f y) <= L * Rabs (x - y).

(** Determinant of a 3x3 matrix given by rows. *)
Definition det3 (m : (R*R*R)*(R*R*R)*(R*R*R)) : R :=
  let '((a, b, c), (d, e, f), (g, h, i)) := m in
  a * (e * i - f * h) - b * (d * i - f * g) + c * (d * h - e * g).

(** Coordinates of a vector. *)
Definition crd (u : R*R*R) (k : nat) : R :=
  let '(a, b, c) := u in match k with 0%nat => a | 1%nat => b | _ => c end.

(** Lattice point. *)
Definition lattice_point (o : R*R*R) (m : (R*R*R)*(R*R*R)*(R*R*R)) (i j l : nat) : R*R*R :=
  let '(u, v, w) := m in
  let c k := crd o k + INR i * crd u k + INR j * crd v k + INR l * crd w k in
  (c 0%nat, c 1%nat, c 2%nat).

(** [x] lies in the parallelepiped at [o] spanned by [n0*u, n1*v, n2*w] ... *)
Definition in_box (o : R*R*R) (m : (R*R*R)*(R*R*R)*(R*R*R)) (n0 n1 n2 : R) (x : R*R*R) : Prop :=
  let '(u, v, w) := m in
  exists s t r, 0 <= s <= n0 /\ 0 <= t <= n1 /\ 0 <= r <= n2 /\
    forall k, (k < 3)%nat -> crd x k = crd o k + s * crd u k + t * crd v k + r * crd w k.

(** Orthogonal matrices: orthonormal columns (and rows). *)
Definition mcol (m : (R*R*R)*(R*R*R)*(R*R*R)) (k : nat) : R*R*R :=
  let '(u, v, w) := m in (crd u k, crd v k, crd w k).
Definition dot3 (u v : R*R*R) : R :=
  crd u 0 * crd v 0 + crd u 1 * crd v 1 + crd u 2 * crd v 2.
Definition orthogonal (m : (R*R*R)*(R*R*R)*(R*R*R)) : Prop :=
  forall i j, (i < 3)%nat -> (j < 3)%nat ->
    dot3 (mcol m i) (mcol m j) = if Nat.eqb i j then 1 else 0.

(** Matrix times column vector, and what [eigh] promises: orthonormal eigenvectors in the
    columns, eigenvalues ascending. *)
Definition mulv (m : (R*R*R)*(R*R*R)*(R*R*R)) (x : R*R*R) : R*R*R :=
  let '(u, v, w) := m in (dot3 u x, dot3 v x, dot3 w x).
Definition eigh_ok (t v : (R*R*R)*(R*R*R)*(R*R*R)) : Prop :=
  orthogonal v /\
  exists l0 l1 l2, l0 <= l1 <= l2 /\
    mulv t (mcol v 0) = (l0 * crd (mcol v 0) 0, l0 * crd (mcol v 0) 1, l0 * crd (mcol v 0) 2) /\
    mulv t (mcol v 1) = (l1 * crd (mcol v 1) 0, l1 * crd (mcol v 1) 1, l1 * crd (mcol v 1) 2) /\
    mulv t (mcol v 2) = (l2 * crd (mcol v 2) 0, l2 * crd (mcol v 2) 1, l2 * crd (mcol v 2) 2).

(** Center of nuclear charge, one coordinate. *)
Fixpoint charge (zs : list R) : R := match zs with [] => 0 | z :: t => z + charge t end.
Fixpoint moment (k : nat) (zs : list R) (xs : list (R*R*R)) : R :=
  match zs, xs with z :: t, x :: u => z * crd x k + moment k t u | _, _ => 0 end.
Definition center_of_charge (k : nat) (zs : list R) (xs : list (R*R*R)) : R :=
  moment k zs xs / charge zs.

(** [lo] and [hi] are the smallest and largest [k]-th coordinate. *)
Definition is_range (k : nat) (xs : list (R*R*R)) (lo hi : R) : Prop :=
  (forall x, In x xs -> lo <= crd x k <= hi) /\
  (exists x, In x xs /\ crd x k = lo) /\ (exists x, In x xs /\ crd x k = hi).
