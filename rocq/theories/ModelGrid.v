(** Model of /repo/bfit/grid.py. *)
From Coq Require Import Reals List ZArith Bool.
From Verif Require Import XR.
Import ListNotations.
Local Open Scope R_scope.

(** ** Radial grids *)

(** _BaseRadialGrid.__init__: grid.py:33-45.  The object is its array of points. *)
Definition radial_init (points : pyval) : res (list xr) :=
  match points with VArr (A1 l) => Ok l | _ => Raise TypeError end.

(** [np.trapz(y, x)]: sum of [diff(x) * (y[1:] + y[:-1]) / 2]. *)
Fixpoint xtrapz (x y : list xr) : xr :=
  match x, y with
  | x0 :: ((x1 :: _) as x'), y0 :: ((y1 :: _) as y') =>
      xadd (xdiv (xmul (xsub x1 x0) (xadd y1 y0)) (Fin 2)) (xtrapz x' y')
  | _, _ => Fin 0
  end.

(** integrate: grid.py:56-77.  [arr] is an array (anything else raises AttributeError). *)
Definition radial_integrate (points : list xr) (arr : ndarray) : res xr :=
  match arr with
  | A1 y => if Nat.eqb (length y) (length points) then Ok (xtrapz points y) else Raise ValueError
  | A2 _ _ => Raise ValueError
  end.

(** [isinstance(x, (int, float))] and its value: grid.py:106-110. *)
Definition as_number (v : pyval) : option xr :=
  match v with
  | VInt z => Some (Fin (IZR z))
  | VBool b => Some (Fin (if b then 1 else 0))
  | VFloat x => Some x
  | _ => None
  end.

(** [np.linspace(a, b, num)] for num > 0: the points [i*step + a], [step = (b-a)/(num-1)],
    the last one replaced by [b]; a single point is [0*(b-a) + a].  grid.py:118. *)
Definition linspace (a b : xr) (num : nat) : list xr :=
  match num with
  | O => []
  | S O => [xadd (xmul (Fin 0) (xsub b a)) a]
  | S d =>
      let step := xdiv (xsub b a) (Fin (INR d)) in
      map (fun i => xadd (xmul (Fin (INR i)) step) a) (seq 0 d) ++ [b]
  end.

(** UniformRadialGrid.__init__: grid.py:88-119 (the dtype argument is not modelled). *)
Definition uniform_init (num_pts min_radii max_radii : pyval) : res (list xr) :=
  match as_int num_pts with
  | None => Raise TypeError
  | Some n =>
      if (n <=? 0)%Z then Raise TypeError else
      match as_number min_radii with
      | None => Raise TypeError
      | Some a =>
          match as_number max_radii with
          | None => Raise TypeError
          | Some b =>
              if xleb b a then Raise ValueError
              else radial_init (VArr (A1 (linspace a b (Z.to_nat n))))
          end
      end
  end.

(** [_get_points(num, mode="core")]: grid.py:231-237, [arange] from 0 or 1. *)
Definition core_points (Z0 : Z) (num : nat) (include_origin : bool) : list R :=
  map (fun p => (1 - cos (5/10 * PI * INR p / INR num)) / (2 * IZR Z0))
      (seq (if include_origin then 0 else 1) num).

(** [_get_points(num, mode="diffuse")]: grid.py:238-241. *)
Definition diffuse_points (num : nat) : list R :=
  map (fun p => 25 * (1 - cos (5/10 * PI * INR p / INR num))) (seq 1 num).

(** [np.sort]: ascending, NaN last (here by insertion; equal values are indistinguishable). *)
Definition sort_leb (a b : xr) : bool := xisnan b || xleb a b.
Fixpoint insert (x : xr) (l : list xr) : list xr :=
  match l with
  | [] => [x]
  | y :: t => if sort_leb x y then x :: l else y :: insert x t
  end.
Definition xsort (l : list xr) : list xr := fold_right insert [] l.

(** The argument extra_pts: absent or empty, a list, a non-empty string, another true value
    that cannot be iterated, a one-dimensional array.  grid.py:181-187. *)
Inductive extra_arg := ENone | EList (l : list xr) | EStr | ENotIter | EArr (l : list xr).
(** [if extra_pts:] for an array: the empty one is false, one entry counts as its value, two or
    more entries raise ValueError.  grid.py:181. *)
Definition arr_true (l : list xr) : res bool :=
  match l with [] => Ok false | [x] => Ok (negb (xeqb x (Fin 0))) | _ => Raise ValueError end.

(** ClenshawRadialGrid.__init__: grid.py:140-189. *)
Definition clenshaw_init (atomic_number num_core num_diffuse : pyval) (extra : extra_arg)
           (include_origin : pyval) : res (list xr) :=
  match as_int atomic_number with
  | None => Raise TypeError
  | Some z =>
  if (z <=? 0)%Z then Raise TypeError else
  match as_int num_core with
  | None => Raise TypeError
  | Some nc =>
  if (nc <? 0)%Z then Raise TypeError else
  match as_int num_diffuse with
  | None => Raise TypeError
  | Some nd =>
  if (nd <? 0)%Z then Raise TypeError else
  match include_origin with
  | VBool inc =>
      let core := map Fin (core_points z (Z.to_nat nc) inc) in
      let diff := map Fin (diffuse_points (Z.to_nat nd)) in
      match extra with
      | ENone => radial_init (VArr (A1 (xsort (core ++ diff))))
      | EList l => radial_init (VArr (A1 (xsort (core ++ diff ++ l))))
      | EStr | ENotIter => Raise TypeError
      | EArr l => do b <- arr_true l;
                  radial_init (VArr (A1 (xsort (core ++ diff ++ if b then l else []))))
      end
  | _ => Raise TypeError
  end end end end.

(** ** Cubic grids *)

(** Three-dimensional vectors and matrices (rows); finite entries only. *)
Definition vec := (R * R * R)%type.
Definition mat := (vec * vec * vec)%type.
Definition vadd (u v : vec) : vec :=
  let '(a, b, c) := u in let '(d, e, f) := v in (a + d, b + e, c + f).
Definition vscal (s : R) (u : vec) : vec := let '(a, b, c) := u in (s * a, s * b, s * c).
Definition vsub (u v : vec) : vec := vadd u (vscal (-1) v).
Definition vdot (u v : vec) : R :=
  let '(a, b, c) := u in let '(d, e, f) := v in a * d + b * e + c * f.
(** [np.cross]. *)
Definition vcross (u v : vec) : vec :=
  let '(a, b, c) := u in let '(d, e, f) := v in (b * f - c * e, c * d - a * f, a * e - b * d).
Definition row (m : mat) (i : nat) : vec :=
  let '(a, b, c) := m in match i with 0%nat => a | 1%nat => b | _ => c end.
(** Row vector times matrix, [np.dot(u, m)]. *)
Definition vmul (u : vec) (m : mat) : vec :=
  let '(a, b, c) := u in
  vadd (vadd (vscal a (row m 0)) (vscal b (row m 1))) (vscal c (row m 2)).
Definition mscal (s : R) (m : mat) : mat :=
  (vscal s (row m 0), vscal s (row m 1), vscal s (row m 2)).
Definition madd (m n : mat) : mat :=
  (vadd (row m 0) (row n 0), vadd (row m 1) (row n 1), vadd (row m 2) (row n 2)).

(** State of a CubicGrid: grid.py:266-283. *)
Record cubic := mkCubic { cg_origin : vec; cg_axes : mat; cg_points : list vec; cg_weights : list R }.

(** [np.meshgrid(arange(n0), arange(n1), arange(n2))], default indexing "xy": the three
    output arrays have shape (n1, n0, n2) and hold the index along their own axis.
    [np.swapaxes(_, 1, 2)] exchanges the first two of these axes. grid.py:272-277. *)
Definition meshgrid_xy (which j i k : nat) : nat :=
  match which with 0%nat => i | 1%nat => j | _ => k end.
Definition swapaxes (a : nat -> nat -> nat -> nat -> nat) (which i j k : nat) : nat :=
  a which j i k.
(** [reshape(3, -1)] then transpose: one row of three indices per point, C order (last index
    runs fastest) over the shape (n0, n1, n2). grid.py:278-279. *)
Definition flat_coords (a : nat -> nat -> nat -> nat -> nat) (n0 n1 n2 : nat)
  : list (nat * nat * nat) :=
  flat_map (fun i => flat_map (fun j => map (fun k =>
      (a 0%nat i j k, a 1%nat i j k, a 2%nat i j k)) (seq 0 n2)) (seq 0 n1)) (seq 0 n0).
Definition coords (n0 n1 n2 : nat) : list (nat * nat * nat) :=
  flat_coords (swapaxes meshgrid_xy) n0 n1 n2.

(** [coords.T.dot(axes) + origin], one row: grid.py:279. *)
Definition cubic_point (origin : vec) (axes : mat) (c : nat * nat * nat) : vec :=
  let '(i, j, k) := c in vadd (vmul (INR i, INR j, INR k) axes) origin.

(** _calculate_volume, three entries in shape: grid.py:355-370. *)
Definition cubic_volume (axes : mat) (n0 n1 n2 : Z) : R :=
  Rabs (vdot (vcross (vscal (IZR n0) (row axes 0)) (vscal (IZR n1) (row axes 1)))
             (vscal (IZR n2) (row axes 2))).

(** CubicGrid.__init__ with _choose_weight_scheme: grid.py:252-283, 372-377.  A negative
    number of points makes [np.zeros] raise ValueError; [arange] of a negative number is
    empty.  Shapes with two entries are not modelled (indexing shape[2] would fail). *)
Definition cubic_init (origin : vec) (axes : mat) (n0 n1 n2 : Z) : res cubic :=
  let prod := (n0 * n1 * n2)%Z in
  if (prod <? 0)%Z then Raise ValueError else
  Ok (mkCubic origin axes
        (map (cubic_point origin axes) (coords (Z.to_nat n0) (Z.to_nat n1) (Z.to_nat n2)))
        (repeat (cubic_volume axes n0 n1 n2 / (1 * IZR prod)) (Z.to_nat prod))).

(** integrate: grid.py:388-413. *)
Definition cubic_integrate (g : cubic) (arr : ndarray) : res xr :=
  match arr with
  | A1 y => if Nat.eqb (length y) (length (cg_points g))
            then Ok (xsum (map2 xmul (map Fin (cg_weights g)) y)) else Raise ValueError
  | A2 _ _ => Raise ValueError
  end.

(** from_molecule.  Real arithmetic; meaningful when the total charge and the spacing are not
    zero (the theorems assume it) and there is at least one atom. *)

(** [np.sum(atcorenums)] and [np.dot(atcorenums, atcoords) / totz]: grid.py:319-320. *)
Definition totz (zs : list R) : R := fold_right Rplus 0 zs.
Definition wsum (zs : list R) (xs : list vec) : vec :=
  fold_right vadd (0, 0, 0) (map2 vscal zs xs).
Definition com (zs : list R) (xs : list vec) : vec := vscal (/ totz zs) (wsum zs xs).

(** Inertia tensor: grid.py:323-330. *)
Definition outer (u v : vec) : mat :=
  let '(a, b, c) := u in (vscal a v, vscal b v, vscal c v).
Definition diag (a b c : R) : mat := ((a, 0, 0), (0, b, 0), (0, 0, c)).
Definition atom_tensor (center : vec) (z : R) (x : vec) : mat :=
  let xyz := vsub x center in
  let r := sqrt (vdot xyz xyz) ^ 2 in
  mscal z (madd (diag r r r) (mscal (-1) (outer xyz xyz))).
Definition itensor (zs : list R) (xs : list vec) : mat :=
  fold_left (fun t zx => madd t (atom_tensor (com zs xs) (fst zx) (snd zx)))
            (combine zs xs) (diag 0 0 0).

(** [np.amax(_, axis=0)], [np.amin(_, axis=0)] of a non-empty list of points: grid.py:343-344. *)
Definition vmax (u v : vec) : vec :=
  let '(a, b, c) := u in let '(d, e, f) := v in (Rmax a d, Rmax b e, Rmax c f).
Definition vmin (u v : vec) : vec :=
  let '(a, b, c) := u in let '(d, e, f) := v in (Rmin a d, Rmin b e, Rmin c f).
Definition amax (x0 : vec) (xs : list vec) : vec := fold_left vmax xs x0.
Definition amin (x0 : vec) (xs : list vec) : vec := fold_left vmin xs x0.

(** [np.ceil] followed by conversion to int: grid.py:348-349. *)
Definition rceil (x : R) : Z := (- Int_part (- x))%Z.

(** Number of points along one axis: grid.py:346-349. *)
Definition npoints (mx mn extension spacing : R) : Z :=
  rceil ((mx - mn + 2 * extension) / spacing).

(** from_molecule: grid.py:291-353.  [eigh] is the array of eigenvectors returned by
    [np.linalg.eigh] (columns), used when rotate=True.  Empty molecules raise ValueError
    ([np.amax] of an empty array). *)
Definition from_molecule (eigh : mat -> mat) (zs : list R) (xs : list vec)
           (spacing extension : R) (rotate : bool) : res cubic :=
  let center := com zs xs in
  let v := eigh (itensor zs xs) in
  let newc := if rotate then map (fun x => vmul (vsub x center) v) xs else xs in
  let axes := if rotate then mscal spacing v else diag spacing spacing spacing in
  match newc with
  | [] => Raise ValueError
  | x0 :: rest =>
      let '(m0, m1, m2) := amax x0 rest in
      let '(l0, l1, l2) := amin x0 rest in
      let n0 := npoints m0 l0 extension spacing in
      let n1 := npoints m1 l1 extension spacing in
      let n2 := npoints m2 l2 extension spacing in
      let origin := vsub center (vmul (5/10 * IZR n0, 5/10 * IZR n1, 5/10 * IZR n2) axes) in
      cubic_init origin axes n0 n1 n2
  end.
