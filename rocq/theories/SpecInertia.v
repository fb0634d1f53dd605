(** Numbers given to UniformRadialGrid, and grids turned into the axes of inertia of a molecule (C21, C25, C26). *)
From Coq Require Import Reals List ZArith Bool.
From Verif Require Import XR SpecDens SpecGrid ModelGrid.
Import ListNotations.
Local Open Scope R_scope.

(** What Python takes for a number: integers, truth values as 0 and 1, floats. *)
Inductive number_arg : pyval -> xr -> Prop :=
| number_int z : number_arg (VInt z) (Fin (IZR z))
| number_true : number_arg (VBool true) (Fin 1)
| number_false : number_arg (VBool false) (Fin 0)
| number_float x : number_arg (VFloat x) x.

(** Position relative to the center of charge, rows of a matrix. *)
Definition offset (zs : list R) (xs : list (R*R*R)) (x : R*R*R) : R*R*R :=
  (crd x 0 - center_of_charge 0 zs xs, crd x 1 - center_of_charge 1 zs xs, crd x 2 - center_of_charge 2 zs xs).
Definition mrow (m : (R*R*R)*(R*R*R)*(R*R*R)) (k : nat) : R*R*R :=
  let '(u, v, w) := m in match k with 0%nat => u | 1%nat => v | _ => w end.

(** Moment of inertia about the center of charge, the charges taken as masses: the entry with indices [j], [k]. *)
Fixpoint inertia_sum (j k : nat) (ds : list (R * (R*R*R))) : R :=
  match ds with
  | [] => 0
  | (z, d) :: t => z * ((if Nat.eqb j k then dot3 d d else 0) - crd d j * crd d k) + inertia_sum j k t
  end.
Definition inertia (zs : list R) (xs : list (R*R*R)) (j k : nat) : R :=
  inertia_sum j k (combine zs (map (offset zs xs) xs)).

(** [lo] and [hi] are the least and largest projection of the atoms on [u]. *)
Definition proj_range (zs : list R) (xs : list (R*R*R)) (u : R*R*R) (lo hi : R) : Prop :=
  (forall x, In x xs -> lo <= dot3 (offset zs xs x) u <= hi) /\
  (exists x, In x xs /\ dot3 (offset zs xs x) u = lo) /\ (exists x, In x xs /\ dot3 (offset zs xs x) u = hi).
Definition choose (n0 n1 n2 k : nat) : nat := match k with 0%nat => n0 | 1%nat => n1 | _ => n2 end.
