(** Specification of Gaussian density models on the reals, independent of the model code.

    A model is seen from one grid point as a list of basis functions, each given by its
    type ([false] = s, [true] = p) and the distance of the point to its center; the k-th
    basis function uses the k-th coefficient and the k-th exponent. *)
From Coq Require Import Reals List ZArith.
From Verif Require Import XR.
Import ListNotations.
Local Open Scope R_scope.

(** Documented basis functions: [exp(-a r^2)] and [r^2 exp(-a r^2)], scaled to integrate
    to one over three dimensional space when [norm] is set
    (class documentation model.py:35-48; normalization constants model.py:246, 296). *)
Definition norm_const (p : bool) (a : R) : R :=
  if p then 2 / 3 * (Rpower a (5/2) / Rpower PI (3/2)) else Rpower (a / PI) (3/2).
Definition basis_fn (norm p : bool) (a r : R) : R :=
  (if norm then norm_const p a else 1) * (if p then r ^ 2 else 1) * exp (- a * r ^ 2).

(** Linear combination at one point (documentation model.py:158-167). *)
Fixpoint gsum (norm : bool) (lay : list (bool * R)) (cs es : list R) : R :=
  match lay, cs, es with
  | (p, r) :: l, c :: cs', a :: es' => c * basis_fn norm p a r + gsum norm l cs' es'
  | _, _, _ => 0
  end.

(** Sum and dot product of real vectors. *)
Definition rsum (l : list R) : R := fold_right Rplus 0 l.
Definition rdot (u v : list R) : R := rsum (map2 Rmult u v).

(** Types of [ns] s-type functions followed by [np] p-type functions (model.py:172-178). *)
Definition types (ns np : nat) : list bool := repeat false ns ++ repeat true np.

(** Layout of an atomic model seen at distance [r]; of a molecular model whose j-th center
    has types [fst] and distance [snd] (model.py:313-324). *)
Definition lay_atom (ns np : nat) (r : R) : list (bool * R) := map (fun t => (t, r)) (types ns np).
Definition lay_mol (ctrs : list (nat * nat * R)) : list (bool * R) :=
  concat (map (fun c => lay_atom (fst (fst c)) (snd (fst c)) (snd c)) ctrs).

(** Replace the k-th entry of a vector. *)
Fixpoint upd {A} (l : list A) (k : nat) (x : A) : list A :=
  match l, k with
  | [], _ => []
  | _ :: t, O => x :: t
  | y :: t, S k' => y :: upd t k' x
  end.

(** Euclidean distance of two coordinate vectors, and on the line. *)
Fixpoint sqdist (x y : list R) : R :=
  match x, y with a :: x', b :: y' => (a - b) ^ 2 + sqdist x' y' | _, _ => 0 end.
Definition dist (x y : list R) : R := sqrt (sqdist x y).

(** ** Well-formed geometries: points, optional center, and the distances they induce. *)

(** 1-D or 2-D real points with a matching center or the default center (the origin). *)
Inductive geom : ndarray -> pyval -> list R -> Prop :=
| geom_nd d rows c :
    Forall (fun x => length x = d) rows -> length c = d ->
    geom (A2 d (map (map Fin) rows)) (VArr (A1 (map Fin c))) (map (fun x => dist x c) rows)
| geom_nd_default d rows :
    Forall (fun x => length x = d) rows ->
    geom (A2 d (map (map Fin) rows)) VNone (map (fun x => dist x (repeat 0 d)) rows)
| geom_1d p c0 :
    geom (A1 (map Fin p)) (VArr (A1 [Fin c0])) (map (fun x => Rabs (x - c0)) p)
| geom_1d_default p :
    geom (A1 (map Fin p)) VNone (map Rabs p).

(** The same for several centers: points, coordinates (with column count) and, for every
    center, the distances of all points. *)
Inductive mgeom : ndarray -> nat -> list (list R) -> list (list R) -> Prop :=
| mgeom_nd d rows cs :
    Forall (fun x => length x = d) rows -> Forall (fun c => length c = d) cs ->
    mgeom (A2 d (map (map Fin) rows)) d cs
          (map (fun c => map (fun x => dist x c) rows) cs)
| mgeom_1d p cs :
    Forall (fun c => length c = 1%nat) cs ->
    mgeom (A1 (map Fin p)) 1 cs
          (map (fun c => map (fun x => Rabs (x - hd 0 c)) p) cs).

(** Sum over the centers of the atomic densities of their parameter blocks
    (documentation model.py:313-324, 424-432).  [rs] are the distances of the point to the
    centers. *)
Fixpoint mol_sum (norm : bool) (basis : list (nat * nat)) (rs : list R) (cs es : list R) : R :=
  match basis, rs with
  | (ns, np) :: b, r :: rs' =>
      gsum norm (lay_atom ns np r) (firstn (ns + np) cs) (firstn (ns + np) es) +
      mol_sum norm b rs' (skipn (ns + np) cs) (skipn (ns + np) es)
  | _, _ => 0
  end.

(** Number of basis functions of a molecular basis. *)
Definition basis_size (basis : list (nat * nat)) : nat :=
  list_sum (map (fun b => (fst b + snd b)%nat) basis).

(** Python argument rows of the integer array [basis]. *)
Definition basis_rows (basis : list (nat * nat)) : list (pyval * pyval) :=
  map (fun b => (VNpInt (Z.of_nat (fst b)), VNpInt (Z.of_nat (snd b)))) basis.

(** One center of a molecule together with its parameter block. *)
Record mblock := mkBlock { b_ctr : list R; b_basis : nat * nat; b_c : list R; b_e : list R }.
Definition block_ok (norm : bool) (d : nat) (b : mblock) : Prop :=
  length (b_ctr b) = d /\ (0 < fst (b_basis b) + snd (b_basis b))%nat /\
  length (b_c b) = (fst (b_basis b) + snd (b_basis b))%nat /\
  length (b_e b) = (fst (b_basis b) + snd (b_basis b))%nat /\
  (norm = true -> Forall (fun a => 0 < a) (b_e b)).

(** [x + v] and [u + s v]. *)
Definition translate (v x : list R) : list R := map2 Rplus x v.
Definition lincomb (s : R) (u v : list R) : list R := map2 (fun x y => x + s * y) u v.

(** An argument that Python accepts as an integer of value [n]. *)
Definition int_arg (v : pyval) (n : Z) : Prop :=
  v = VInt n \/ (v = VBool true /\ n = 1%Z) \/ (v = VBool false /\ n = 0%Z).
(** The same for the integers of NumPy. *)
Definition integral_arg (v : pyval) (n : Z) : Prop := int_arg v n \/ v = VNpInt n.
(** Admissible numbers of s-type and p-type functions. *)
Definition counts_ok (num_s num_p : pyval) (ns np : Z) : Prop :=
  integral_arg num_s ns /\ integral_arg num_p np /\ (0 <= ns)%Z /\ (0 <= np)%Z /\ (ns + np <> 0)%Z.
(** Admissible center for d-dimensional points. *)
Definition center_ok_nd (d : nat) (center : pyval) : Prop :=
  center = VNone \/ exists c, center = VArr (A1 c) /\ length c = d.

(** Number of basis functions on the centers before center [j]. *)
Definition before (sizes : list nat) (j : nat) : nat := list_sum (firstn j sizes).

(** Distances of point [i] to all centers, from the per-center distance lists. *)
Definition dists_at (rss : list (list R)) (i : nat) : list R := map (fun rs => nth i rs 0) rss.

(** Forget the derivative part of a result. *)
Definition res_fst {A B} (r : res (A * B)) : res A :=
  match r with Ok (a, _) => Ok a | Raise e => Raise e end.

(** Any sequence of basis-size changes applied one after the other. *)
Fixpoint apply_all {M A} (step : M -> A -> res M) (m : M) (h : list A) : res M :=
  match h with
  | [] => Ok m
  | x :: h' => do m' <- step m x; apply_all step m' h'
  end.
