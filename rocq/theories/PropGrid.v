(** Properties C20-C27: grids (/repo/bfit/grid.py). *)
From Coquelicot Require Import Coquelicot.
From Coq Require Import Reals List ZArith Bool Lra Lia Sorted Permutation.
From Verif Require Import XR SpecDens Lists SpecMeas SpecGrid ModelGrid ProofGrid ProofCubic ProofErr2 ProofErr4 SpecInertia ProofInertia.
Import ListNotations.
Local Open Scope R_scope.

(** ** C20 *)
Theorem C20_trapezoid : forall x y, length y = length x ->
  radial_integrate (map Fin x) (A1 (map Fin y)) = Ok (Fin (trap x y)).
Proof. exact integrate_ok. Qed.
Print Assumptions C20_trapezoid.

Example C20_trapezoid_example : radial_integrate (map Fin [0; 1; 3]) (A1 (map Fin [2; 4; 1])) = Ok (Fin 8).
Proof. rewrite C20_trapezoid by reflexivity. do 2 f_equal. unfold trap. lra. Qed.

Theorem C20_linear : forall s x u v, length u = length x -> length v = length x ->
  trap x (lincomb s u v) = trap x u + s * trap x v.
Proof. exact trap_lin. Qed.
Print Assumptions C20_linear.

Example C20_linear_example : trap [0; 1; 3] (lincomb 2 [2; 4; 1] [0; 1; 5]) = 8 + 2 * (1 / 2 + 6).
Proof. rewrite C20_linear by reflexivity. unfold trap. lra. Qed.

Theorem C20_monotone : forall x u v, ascending x -> length u = length x -> length v = length x ->
  Forall2 Rle u v -> trap x u <= trap x v.
Proof. exact trap_mono. Qed.
Print Assumptions C20_monotone.

Example C20_monotone_example : trap [0; 1; 3] [1; 2; 0] <= trap [0; 1; 3] [2; 4; 1].
Proof. apply C20_monotone; try reflexivity; repeat constructor; lra. Qed.

Theorem C20_nonneg : forall x y, ascending x -> Forall (fun v => 0 <= v) y -> 0 <= trap x y.
Proof. exact trap_nonneg. Qed.
Print Assumptions C20_nonneg.

Example C20_nonneg_example : 0 <= trap [0; 1; 1; 3] [2; 0; 4; 1].
Proof. apply C20_nonneg; repeat constructor; lra. Qed.

Theorem C20_affine_exact : forall a b x0 x,
  trap (x0 :: x) (map (fun r => a * r + b) (x0 :: x)) =
  RInt (fun r : R => a * r + b) x0 (last (x0 :: x) 0).
Proof. exact trap_affine. Qed.
Print Assumptions C20_affine_exact.

Example C20_affine_exact_example : trap [1; 2; 4] [1; 3; 7] = RInt (fun r : R => 2 * r + -1) 1 4.
Proof. assert (E := C20_affine_exact 2 (-1) 1 [2; 4]). simpl last in E. rewrite <- E. unfold trap, map. lra. Qed.

Theorem C20_additive : forall x1 m x2 y1 v y2, length y1 = length x1 -> length y2 = length x2 ->
  trap (x1 ++ m :: x2) (y1 ++ v :: y2) = trap (x1 ++ [m]) (y1 ++ [v]) + trap (m :: x2) (v :: y2).
Proof. exact trap_split. Qed.
Print Assumptions C20_additive.

Example C20_additive_example : trap ([0; 1] ++ 3 :: [4]) ([2; 4] ++ 1 :: [7]) = 8 + 4.
Proof. rewrite C20_additive by reflexivity. unfold app, trap. lra. Qed.

(** It is a quadrature: fixed weights, non-negative on ascending grids. *)
Theorem C20_quadrature : forall x, exists w, length w = length x /\
  (ascending x -> Forall (fun v => 0 <= v) w) /\
  forall y, length y = length x -> trap x y = rdot w y.
Proof. exact trap_quadrature. Qed.
Print Assumptions C20_quadrature.

(** The weights of the points 0, 1, 3. *)
Example C20_quadrature_example : forall a b c, trap [0; 1; 3] [a; b; c] = rdot [1 / 2; 3 / 2; 1] [a; b; c] /\ Forall (fun v => 0 <= v) [1 / 2; 3 / 2; 1].
Proof. intros. split; [unfold trap, rdot, rsum; simpl; lra | repeat constructor; lra]. Qed.

Theorem C20_accepts : forall pts arr,
  (exists v, radial_integrate pts arr = Ok v) <-> (exists y, arr = A1 y /\ length y = length pts).
Proof. exact integrate_err_iff. Qed.
Print Assumptions C20_accepts.

Example C20_accepts_example : (exists v, radial_integrate [Fin 0; NaN] (A1 [Fin 1; PInf]) = Ok v) /\
  ~ (exists v, radial_integrate [Fin 0; Fin 1] (A1 [Fin 1]) = Ok v).
Proof. split; [apply C20_accepts; eexists; split; reflexivity|]. rewrite C20_accepts. intros (y & E & L). injection E as <-. discriminate L. Qed.

Theorem C20_raises : forall pts arr e, radial_integrate pts arr = Raise e -> e = ValueError.
Proof. exact integrate_raises. Qed.
Print Assumptions C20_raises.

Example C20_raises_example : radial_integrate [Fin 0; Fin 1] (A1 [Fin 1]) = Raise ValueError /\ radial_integrate [Fin 0] (A2 1 [[Fin 1]]) = Raise ValueError.
Proof. split; reflexivity. Qed.

Example C20_example :
  radial_integrate (map Fin [0; 1; 3]) (A1 (map Fin [2; 4; 1])) = Ok (Fin 8) /\
  ascending [0; 1; 3] /\ Forall2 Rle [1; 2; 0] [2; 4; 1] /\
  trap ([0] ++ 1 :: [3]) ([2] ++ 4 :: [1]) = 3 + 5 /\
  (exists v, radial_integrate [Fin 0; NaN] (A1 [Fin 1; PInf]) = Ok v) /\
  radial_integrate [Fin 0; Fin 1] (A1 [Fin 1]) = Raise ValueError.
Proof.
  split; [|split; [|split; [|split; [|split]]]].
  - rewrite integrate_ok by reflexivity. f_equal. f_equal. unfold trap. lra.
  - repeat constructor; lra.
  - repeat constructor; lra.
  - unfold app, trap. lra.
  - apply integrate_err_iff. eexists. split; reflexivity.
  - reflexivity.
Qed.

(** ** C21 *)
Theorem C21_uniform_points : forall num n v w a b, int_arg num n -> (0 < n)%Z ->
  number_arg v (Fin a) -> number_arg w (Fin b) -> a < b ->
  uniform_init num v w = Ok (map Fin (equispaced a b (Z.to_nat n))).
Proof. exact uniform_ok'. Qed.
Print Assumptions C21_uniform_points.

Example C21_uniform_points_example : uniform_init (VInt 3) (VBool true) (VFloat (Fin 2)) = Ok (map Fin [1; 3 / 2; 2]).
Proof.
  rewrite (C21_uniform_points _ 3 _ _ 1 2); [|left; reflexivity|lia|constructor|constructor|lra].
  unfold equispaced. simpl. repeat (f_equal; try lra).
Qed.

(** What the points are: count, ends, order, range. *)
Theorem C21_equispaced : forall a b n, a < b ->
  length (equispaced a b n) = n /\
  strictly_ascending (equispaced a b n) /\
  (forall r, In r (equispaced a b n) -> a <= r <= b) /\
  (forall i, (S i < n)%nat -> nth (S i) (equispaced a b n) 0 - nth i (equispaced a b n) 0
                              = (b - a) / INR (n - 1)) /\
  ((0 < n)%nat -> nth 0 (equispaced a b n) 0 = a) /\
  ((2 <= n)%nat -> nth (n - 1) (equispaced a b n) 0 = b).
Proof. exact equispaced_spec. Qed.
Print Assumptions C21_equispaced.

Example C21_equispaced_example : strictly_ascending (equispaced (-1) 2 4) /\ nth 2 (equispaced (-1) 2 4) 0 = 1 /\ nth 3 (equispaced (-1) 2 4) 0 = 2.
Proof.
  destruct (C21_equispaced (-1) 2 4) as (_ & A & _ & _ & _ & E); [lra|]. split; [exact A|]. split; [|apply E; lia].
  unfold equispaced. simpl. lra.
Qed.

(** Which arguments are accepted (not-a-number ends pass the test [max <= min]). *)
Theorem C21_accepts : forall num v w,
  (exists pts, uniform_init num v w = Ok pts) <->
  exists n a b, int_arg num n /\ (0 < n)%Z /\ number_arg v a /\ number_arg w b /\
                xleb b a = false.
Proof. exact uniform_accepts'. Qed.
Print Assumptions C21_accepts.

(** A grid that ends at not-a-number is accepted. *)
Example C21_accepts_example : exists pts, uniform_init (VInt 4) (VInt 0) (VFloat NaN) = Ok pts.
Proof. apply C21_accepts. exists 4%Z, (Fin 0), NaN. repeat split; try (left; reflexivity); try constructor; lia. Qed.

(** ValueError exactly for numbers in the wrong order, TypeError for every other refusal. *)
Theorem C21_rejects : forall num v w x, uniform_init num v w = Raise x ->
  ((exists n a b, int_arg num n /\ (0 < n)%Z /\ number_arg v a /\ number_arg w b /\ xleb b a = true) /\ x = ValueError) \/
  (~ (exists n a b, int_arg num n /\ (0 < n)%Z /\ number_arg v a /\ number_arg w b) /\ x = TypeError).
Proof. exact uniform_rejects'. Qed.
Print Assumptions C21_rejects.

Example C21_rejects_example : uniform_init (VInt 5) (VInt 3) (VFloat (Fin 3)) = Raise ValueError /\ uniform_init (VInt 0) (VInt 1) (VInt 2) = Raise TypeError.
Proof. split; [|reflexivity]. unfold uniform_init. simpl. rewrite rleb_true by lra. reflexivity. Qed.

(** Any radial grid: the points are a one-dimensional array and are kept as they are. *)
Theorem C21_base : forall v l,
  (radial_init v = Ok l <-> v = VArr (A1 l)) /\ ((forall m, v <> VArr (A1 m)) -> radial_init v = Raise TypeError).
Proof. exact radial_init_iff. Qed.
Print Assumptions C21_base.

Example C21_base_example : radial_init (VArr (A1 [Fin 2; Fin 1])) = Ok [Fin 2; Fin 1] /\
  (forall m, VArr (A2 1 [[Fin 2]]) <> VArr (A1 m)) /\ radial_init (VArr (A2 1 [[Fin 2]])) = Raise TypeError /\ radial_init VNone = Raise TypeError.
Proof. repeat split; discriminate. Qed.

Example C21_number_example : number_arg (VBool true) (Fin 1) /\ number_arg (VFloat (Fin 3)) (Fin 3) /\ int_arg (VInt 5) 5 /\
  uniform_init (VInt 5) (VBool true) (VFloat (Fin 3)) = Ok (map Fin (equispaced 1 3 5)) /\
  uniform_init (VInt 5) (VFloat (Fin 1)) (VBool true) = Raise ValueError.
Proof.
  split; [constructor|]. split; [constructor|]. split; [left; reflexivity|]. split.
  - apply (C21_uniform_points _ 5); [left; reflexivity|lia|constructor|constructor|lra].
  - unfold uniform_init. cbn. unfold rleb; destruct (Rle_dec 1 1); [reflexivity|lra].
Qed.

Example C21_example : uniform_init (VInt 5) (VInt 1) (VFloat (Fin 3)) =
    Ok (map Fin (equispaced 1 3 5)) /\ equispaced 1 3 5 = [1; 3/2; 2; 5/2; 3] /\
  uniform_init (VInt 5) (VInt 3) (VFloat (Fin 3)) = Raise ValueError /\
  uniform_init (VInt 0) (VInt 1) (VInt 2) = Raise TypeError.
Proof.
  split; [|split; [|split]].
  - apply (uniform_ok 5 _ _ 1 3); [lia|reflexivity|reflexivity|lra].
  - unfold equispaced. simpl. repeat (f_equal; try lra).
  - unfold uniform_init. simpl. rewrite rleb_true by lra. reflexivity.
  - reflexivity.
Qed.

(** ** C22 *)
Theorem C22_points : forall z nc nd inc extra, (0 < z)%Z -> (0 <= nc)%Z -> (0 <= nd)%Z ->
  exists pts,
    clenshaw_init (VInt z) (VInt nc) (VInt nd) (EList (map Fin extra)) (VBool inc) = Ok (map Fin pts) /\
    ascending pts /\
    exists core diff, Permutation pts (core ++ diff ++ extra) /\
      length core = Z.to_nat nc /\ length diff = Z.to_nat nd /\
      (forall r, In r core -> 0 <= r <= / (2 * IZR z)) /\
      (forall r, In r diff -> 0 < r <= 25) /\
      (In 0 core <-> inc = true /\ (0 < nc)%Z).
Proof. exact clenshaw_points. Qed.
Print Assumptions C22_points.

Example C22_points_example : exists pts, clenshaw_init (VInt 6) (VInt 3) (VInt 2) (EList (map Fin [30; 50])) (VBool true) = Ok (map Fin pts) /\
  ascending pts /\ length pts = 7%nat.
Proof.
  destruct (C22_points 6 3 2 true [30; 50]) as (pts & E & A & core & diff & P & Lc & Ld & _); [lia..|].
  exists pts. split; [exact E|]. split; [exact A|]. rewrite (Permutation_length P), !app_length, Lc, Ld. reflexivity.
Qed.

(** No extra points is the same as an empty list. *)
Theorem C22_no_extra : forall z nc nd inc,
  clenshaw_init z nc nd ENone inc = clenshaw_init z nc nd (EList []) inc.
Proof. exact clenshaw_none. Qed.
Print Assumptions C22_no_extra.

Example C22_no_extra_example : clenshaw_init (VInt 6) (VInt 3) (VInt 2) ENone (VBool false) = clenshaw_init (VInt 6) (VInt 3) (VInt 2) (EList []) (VBool false) /\
  exists pts, clenshaw_init (VInt 6) (VInt 3) (VInt 2) ENone (VBool false) = Ok (map Fin pts).
Proof.
  split; [apply C22_no_extra|]. rewrite C22_no_extra. destruct (C22_points 6 3 2 false []) as (pts & E & _); [lia..|]. exists pts. exact E.
Qed.

(** The origin is a point exactly when asked for, or given. *)
Theorem C22_origin : forall z nc nd inc extra pts, (0 < z)%Z -> (0 <= nc)%Z -> (0 <= nd)%Z ->
  clenshaw_init (VInt z) (VInt nc) (VInt nd) (EList (map Fin extra)) (VBool inc) = Ok (map Fin pts) ->
  (In 0 pts <-> (inc = true /\ (0 < nc)%Z) \/ In 0 extra).
Proof. exact clenshaw_origin. Qed.
Print Assumptions C22_origin.

Example C22_origin_example : exists pts, clenshaw_init (VInt 6) (VInt 3) (VInt 2) (EList (map Fin [30])) (VBool true) = Ok (map Fin pts) /\ In 0 pts /\
  exists pts', clenshaw_init (VInt 6) (VInt 3) (VInt 2) (EList (map Fin [30])) (VBool false) = Ok (map Fin pts') /\ ~ In 0 pts'.
Proof.
  destruct (C22_points 6 3 2 true [30]) as (pts & E & _); [lia..|]. destruct (C22_points 6 3 2 false [30]) as (pts' & E' & _); [lia..|].
  exists pts. split; [exact E|]. split; [apply (C22_origin 6 3 2 true [30] pts); try lia; exact E|].
  exists pts'. split; [exact E'|]. intro I. apply (C22_origin 6 3 2 false [30] pts') in I; try lia; [|exact E'].
  destruct I as [[F _]|[F|[]]]; [discriminate F | lra].
Qed.

Theorem C22_accepts : forall z nc nd extra inc,
  (exists pts, clenshaw_init z nc nd extra inc = Ok pts) <->
  (exists z' c d b, int_arg z z' /\ (0 < z')%Z /\ int_arg nc c /\ (0 <= c)%Z /\
                    int_arg nd d /\ (0 <= d)%Z /\ inc = VBool b) /\
  extra <> EStr /\ extra <> ENotIter /\ (forall l, extra = EArr l -> (length l <= 1)%nat).
Proof. exact clenshaw_accepts. Qed.
Print Assumptions C22_accepts.

Example C22_accepts_example : (exists pts, clenshaw_init (VInt 6) (VInt 3) (VInt 2) (EArr [Fin 7]) (VBool true) = Ok pts) /\
  ~ (exists pts, clenshaw_init (VInt 6) (VInt 3) (VInt 2) EStr (VBool true) = Ok pts).
Proof.
  split.
  - apply C22_accepts. split; [exists 6%Z, 3%Z, 2%Z, true; repeat split; try (left; reflexivity); lia|].
    repeat split; try discriminate. intros l E. injection E as <-. simpl. lia.
  - intros E. apply C22_accepts in E. destruct E as (_ & E & _). now apply E.
Qed.

Theorem C22_rejects : forall z nc nd extra inc x, clenshaw_init z nc nd extra inc = Raise x ->
  x = TypeError \/ (x = ValueError /\ exists l, extra = EArr l /\ (2 <= length l)%nat).
Proof. exact clenshaw_rejects. Qed.
Print Assumptions C22_rejects.

(** Extra points in an array: two or more raise ValueError instead of being added, a single
    point is added unless it is zero. *)
Theorem C22_extra_array_refuted : forall z nc nd inc, (0 < z)%Z -> (0 <= nc)%Z -> (0 <= nd)%Z ->
  (forall x y l, clenshaw_init (VInt z) (VInt nc) (VInt nd) (EArr (x :: y :: l)) (VBool inc) = Raise ValueError) /\
  (forall x, x <> Fin 0 -> clenshaw_init (VInt z) (VInt nc) (VInt nd) (EArr [x]) (VBool inc) =
                           clenshaw_init (VInt z) (VInt nc) (VInt nd) (EList [x]) (VBool inc)) /\
  clenshaw_init (VInt z) (VInt nc) (VInt nd) (EArr [Fin 0]) (VBool inc) =
  clenshaw_init (VInt z) (VInt nc) (VInt nd) (EList []) (VBool inc).
Proof. exact clenshaw_array. Qed.
Print Assumptions C22_extra_array_refuted.

Example C22_extra_array_example :
  clenshaw_init (VInt 6) (VInt 3) (VInt 2) (EArr [Fin 30; Fin 50]) (VBool true) = Raise ValueError.
Proof. reflexivity. Qed.

Example C22_rejects_example : clenshaw_init (VInt 0) (VInt 3) (VInt 3) ENone (VBool true) = Raise TypeError /\
  clenshaw_init (VInt 2) (VInt 3) (VInt 3) EStr (VBool true) = Raise TypeError.
Proof. split; reflexivity. Qed.

(** Radial points are non-negative when the extra points are ... *)
Theorem C22_nonneg : forall z nc nd inc extra pts, (0 < z)%Z -> (0 <= nc)%Z -> (0 <= nd)%Z ->
  clenshaw_init (VInt z) (VInt nc) (VInt nd) (EList (map Fin extra)) (VBool inc) = Ok (map Fin pts) ->
  Forall (fun r => 0 <= r) extra -> Forall (fun r => 0 <= r) pts.
Proof. exact clenshaw_nonneg. Qed.
Print Assumptions C22_nonneg.

Example C22_nonneg_example : exists pts, clenshaw_init (VInt 6) (VInt 3) (VInt 2) (EList (map Fin [30; 0])) (VBool true) = Ok (map Fin pts) /\ Forall (fun r => 0 <= r) pts.
Proof.
  destruct (C22_points 6 3 2 true [30; 0]) as (pts & E & _); [lia..|]. exists pts. split; [exact E|].
  apply (C22_nonneg 6 3 2 true [30; 0]); try lia; [exact E | repeat constructor; lra].
Qed.

(** ... but a negative extra point is accepted and kept. *)
Theorem C22_nonneg_refuted : exists pts,
  clenshaw_init (VInt 6) (VInt 3) (VInt 2) (EList [Fin (-1)]) (VBool true) = Ok (map Fin pts) /\
  In (-1) pts.
Proof. exact clenshaw_negative. Qed.
Print Assumptions C22_nonneg_refuted.

Example C22_example : (0 < 6)%Z /\ exists pts,
  clenshaw_init (VInt 6) (VInt 3) (VInt 2) (EList (map Fin [30; 50])) (VBool true) = Ok (map Fin pts)
  /\ length pts = 7%nat /\ Forall (fun r => 0 <= r) [30; 50] /\
  clenshaw_init (VInt 6) (VInt 3) (VInt 2) EStr (VBool true) = Raise TypeError.
Proof.
  split; [lia|]. eexists. split; [apply clenshaw_ok; lia|]. split; [|split].
  - rewrite (Permutation_length (rsort_perm _)), !app_length, core_length, diffuse_length. reflexivity.
  - repeat constructor; lra.
  - reflexivity.
Qed.

(** ** C23 *)
Theorem C23_lattice : forall o axes (n0 n1 n2 : nat), exists g,
  cubic_init o axes (Z.of_nat n0) (Z.of_nat n1) (Z.of_nat n2) = Ok g /\
  length (cg_points g) = (n0 * n1 * n2)%nat /\
  forall i j k d, (i < n0)%nat -> (j < n1)%nat -> (k < n2)%nat ->
    nth ((i * n1 + j) * n2 + k) (cg_points g) d = lattice_point o axes i j k.
Proof. exact cubic_enum. Qed.
Print Assumptions C23_lattice.

Example C23_example :
  lattice_point (1, 2, 3) ((1, 0, 0), (1, 2, 0), (0, 0, 5)) 1 2 3 = (4, 6, 18) /\
  (exists g, cubic_init (1, 2, 3) ((1, 0, 0), (1, 2, 0), (0, 0, 5)) 2 3 4 = Ok g /\
     nth 23 (cg_points g) (0, 0, 0) = (4, 6, 18)).
Proof.
  assert (E : lattice_point (1, 2, 3) ((1, 0, 0), (1, 2, 0), (0, 0, 5)) 1 2 3 = (4, 6, 18)).
  { unfold lattice_point, crd. simpl INR. f_equal; [f_equal|]; lra. }
  split; [exact E|].
  destruct (cubic_enum (1, 2, 3) ((1, 0, 0), (1, 2, 0), (0, 0, 5)) 2 3 4) as [g [H [_ Hn]]].
  exists g. split; [exact H|]. rewrite <- E. apply (Hn 1 2 3)%nat; lia.
Qed.

(** ** C24 *)
Theorem C24_weights_and_integral : forall o axes (n0 n1 n2 : nat) g,
  cubic_init o axes (Z.of_nat n0) (Z.of_nat n1) (Z.of_nat n2) = Ok g ->
  cg_weights g = repeat (Rabs (det3 axes)) (n0 * n1 * n2) /\
  forall y, length y = (n0 * n1 * n2)%nat ->
    cubic_integrate g (A1 (map Fin y)) = Ok (Fin (Rabs (det3 axes) * rsum y)).
Proof. exact cubic_integral. Qed.
Print Assumptions C24_weights_and_integral.

Example C24_weights_example : exists g, cubic_init (0, 0, 0) ((2, 0, 0), (1, 3, 0), (0, 1, 1)) 1 1 2 = Ok g /\ cg_weights g = [6; 6].
Proof.
  destruct (C23_lattice (0, 0, 0) ((2, 0, 0), (1, 3, 0), (0, 1, 1)) 1 1 2) as [g [H _]]. exists g. split; [exact H|].
  destruct (C24_weights_and_integral _ _ 1 1 2 g H) as [W _]. rewrite W. unfold det3. simpl. rewrite Rabs_right by lra. repeat (f_equal; try lra).
Qed.

(** The integral of 1 is the volume; the integral is linear and monotone. *)
Theorem C24_functional : forall c (y z : list R) s, 0 <= c -> length y = length z ->
  c * rsum (repeat 1 (length y)) = c * INR (length y) /\
  c * rsum (lincomb s y z) = c * rsum y + s * (c * rsum z) /\
  (Forall2 Rle y z -> c * rsum y <= c * rsum z).
Proof. exact cell_functional. Qed.
Print Assumptions C24_functional.

Example C24_functional_example : 6 * rsum (lincomb 2 [5; 7] [1; -1]) = 6 * rsum [5; 7] + 2 * (6 * rsum [1; -1]) /\ 6 * rsum [1; -1] <= 6 * rsum [5; 7].
Proof.
  split; [apply (C24_functional 6 [5; 7] [1; -1] 2); [lra | reflexivity]|].
  apply (C24_functional 6 [1; -1] [5; 7] 2); [lra | reflexivity | repeat constructor; lra].
Qed.

Theorem C24_accepts : forall g arr,
  (exists v, cubic_integrate g arr = Ok v) <->
  (exists y, arr = A1 y /\ length y = length (cg_points g)).
Proof. exact cubic_integrate_iff. Qed.
Print Assumptions C24_accepts.

Example C24_accepts_example : exists g, cubic_init (0, 0, 0) ((2, 0, 0), (1, 3, 0), (0, 1, 1)) 1 1 2 = Ok g /\ (exists v, cubic_integrate g (A1 [Fin 5; NaN]) = Ok v).
Proof.
  destruct (C23_lattice (0, 0, 0) ((2, 0, 0), (1, 3, 0), (0, 1, 1)) 1 1 2) as [g [H [L _]]]. exists g. split; [exact H|].
  apply C24_accepts. eexists. split; [reflexivity | rewrite L; reflexivity].
Qed.

Theorem C24_raises : forall g arr e, cubic_integrate g arr = Raise e -> e = ValueError.
Proof. exact cubic_integrate_raises. Qed.
Print Assumptions C24_raises.

Example C24_raises_example : exists g, cubic_init (0, 0, 0) ((2, 0, 0), (1, 3, 0), (0, 1, 1)) 1 1 2 = Ok g /\ cubic_integrate g (A1 [Fin 5]) = Raise ValueError.
Proof.
  destruct (C23_lattice (0, 0, 0) ((2, 0, 0), (1, 3, 0), (0, 1, 1)) 1 1 2) as [g [H [L _]]]. exists g. split; [exact H|].
  destruct (cubic_integrate g (A1 [Fin 5])) as [v|e] eqn:E; [|f_equal; apply (C24_raises _ _ _ E)].
  exfalso. assert (A : exists v, cubic_integrate g (A1 [Fin 5]) = Ok v) by (exists v; exact E). apply C24_accepts in A.
  destruct A as (y & Y & Ly). injection Y as <-. rewrite L in Ly. discriminate Ly.
Qed.

Example C24_example : exists g,
  cubic_init (0, 0, 0) ((2, 0, 0), (1, 3, 0), (0, 1, 1)) 1 1 2 = Ok g /\
  cubic_integrate g (A1 (map Fin [5; 7])) = Ok (Fin 72).
Proof.
  destruct (cubic_enum (0, 0, 0) ((2, 0, 0), (1, 3, 0), (0, 1, 1)) 1 1 2) as [g [H _]].
  exists g. split; [exact H|]. destruct (cubic_integral _ _ 1 1 2 g H) as [_ Hi].
  rewrite Hi by reflexivity. f_equal. f_equal. unfold det3, rsum. simpl.
  rewrite Rabs_right; lra.
Qed.

(** ** C25 *)
(** The box of cells contains every atom with a margin of the extension minus the distance
    between the center of charge and the middle of the molecule. *)
Theorem C25_cover_partial : forall eigh zs xs h ext,
  0 < h -> 0 <= ext -> length zs = length xs -> xs <> [] ->
  exists n0 n1 n2 g,
    from_molecule eigh zs xs h ext false = Ok g /\
    length (cg_points g) = (n0 * n1 * n2)%nat /\
    (forall p, In p (cg_points g) <->
       exists i, (forall k, (k < 3)%nat -> (i k < sel n0 n1 n2 k)%nat) /\
                 forall k, (k < 3)%nat -> crd p k = crd (cg_origin g) k + INR (i k) * h) /\
    forall k lo hi, (k < 3)%nat -> is_range k xs lo hi ->
      let margin := ext - Rabs (center_of_charge k zs xs - (lo + hi) / 2) in
      forall x, In x xs ->
        crd (cg_origin g) k + margin <= crd x k <=
        crd (cg_origin g) k + INR (sel n0 n1 n2 k) * h - margin.
Proof. exact from_mol_cover. Qed.
Print Assumptions C25_cover_partial.

(** Two equal charges: the box has the full margin. *)
Example C25_cover_example : forall eigh, exists g, from_molecule eigh [3; 3] [(-1, 0, 0); (1, 0, 0)] (1 / 2) 2 false = Ok g /\
  crd (cg_origin g) 0 + 2 <= -1.
Proof.
  intro eigh. destruct (C25_cover_partial eigh [3; 3] [(-1, 0, 0); (1, 0, 0)] (1 / 2) 2) as (n0 & n1 & n2 & g & E & _ & _ & C); [lra | lra | reflexivity | discriminate|].
  exists g. split; [exact E|]. assert (R : is_range 0 [(-1, 0, 0); (1, 0, 0)] (-1) 1).
  { split; [|split]; [intros x [<-|[<-|[]]]; simpl; lra | exists (-1, 0, 0) | exists (1, 0, 0)]; simpl; auto. }
  assert (B := C 0%nat (-1) 1 ltac:(lia) R (-1, 0, 0) (or_introl eq_refl)). cbv zeta in B.
  replace (center_of_charge 0 [3; 3] [(-1, 0, 0); (1, 0, 0)]) with 0 in B by (unfold center_of_charge; simpl; lra).
  replace (0 - (-1 + 1) / 2) with 0 in B by lra. rewrite Rabs_R0 in B. simpl (crd (-1, 0, 0) 0) in B. lra.
Qed.

(** An atom left outside by three spacings: charges 1 and 9 at distance 10, extension 1. *)
Theorem C25_cover_refuted : forall eigh, exists g,
  from_molecule eigh [1; 9] [(0, 0, 0); (10, 0, 0)] 1 1 false = Ok g /\ cg_points g <> [] /\
  forall p, In p (cg_points g) -> 3 <= crd p 0.
Proof. exact from_mol_off. Qed.
Print Assumptions C25_cover_refuted.

(** The requested upper end is never reached by a grid point when the molecule is centered. *)
Theorem C25_upper_end_refuted : forall eigh zs xs h ext k lo hi,
  0 < h -> 0 <= ext -> length zs = length xs -> xs <> [] -> (k < 3)%nat ->
  is_range k xs lo hi -> center_of_charge k zs xs = (lo + hi) / 2 ->
  exists g, from_molecule eigh zs xs h ext false = Ok g /\
    forall p, In p (cg_points g) -> crd p k < hi + ext.
Proof. exact from_mol_upper. Qed.
Print Assumptions C25_upper_end_refuted.

(** Without atoms there is no largest coordinate: refused with and without turning. *)
Theorem C25_no_atoms : forall eigh zs h ext rotate, from_molecule eigh zs [] h ext rotate = Raise ValueError.
Proof. exact no_atoms. Qed.
Print Assumptions C25_no_atoms.

Example C25_no_atoms_example : forall eigh, from_molecule eigh [] [] 1 5 true = Raise ValueError.
Proof. intro eigh. apply C25_no_atoms. Qed.

Example C25_example :
  is_range 0 [(-1, 0, 0); (1, 0, 0)] (-1) 1 /\
  center_of_charge 0 [3; 3] [(-1, 0, 0); (1, 0, 0)] = (-1 + 1) / 2.
Proof.
  split.
  - split; [|split].
    + intros x [<-|[<-|[]]]; simpl; lra.
    + exists (-1, 0, 0). simpl. auto.
    + exists (1, 0, 0). simpl. auto.
  - unfold center_of_charge. simpl. lra.
Qed.

(** ** C26 *)
Theorem C26_volume_element : forall eigh zs xs h ext g, 0 < h ->
  orthogonal (eigh (itensor zs xs)) ->
  from_molecule eigh zs xs h ext true = Ok g ->
  forall w, In w (cg_weights g) -> w = h ^ 3.
Proof. exact rotate_weights. Qed.
Print Assumptions C26_volume_element.

(** The eigenvectors are the columns, the grid uses the rows: a molecule of length 20 along y
    gets a grid of width 4 along y. *)
Theorem C26_cover_refuted : exists zs xs v,
  eigh_ok (itensor zs xs) v /\
  forall eigh, eigh (itensor zs xs) = v -> exists g,
    from_molecule eigh zs xs 1 1 true = Ok g /\ cg_points g <> [] /\ In (0, 10, 0) xs /\
    forall p, In p (cg_points g) -> -2 <= crd p 1 <= 2.
Proof. exact cover_rotate_refuted. Qed.
Print Assumptions C26_cover_refuted.

(** The matrix given to the eigenvalue routine is the moment of inertia about the center of charge. *)
Theorem C26_inertia : forall zs xs j k, length zs = length xs -> (j < 3)%nat -> (k < 3)%nat ->
  crd (mrow (itensor zs xs) j) k = inertia zs xs j k.
Proof. exact itensor_entry. Qed.
Print Assumptions C26_inertia.

(** Charges 1 and 3 at distance 4. *)
Example C26_inertia_example : crd (mrow (itensor [1; 3] [(0, 0, 0); (4, 0, 0)]) 1) 1 = 12.
Proof. rewrite C26_inertia by (reflexivity || lia). unfold inertia, offset, center_of_charge. simpl. unfold dot3. simpl. field. Qed.

(** What does hold: the box is laid out along the rows of the eigenvector matrix and centered at
    the center of charge; its sides are the widths of the molecule along the columns plus twice
    the extension, rounded up to whole spacings.  It contains the ball of radius [ext] around the
    center of charge, and every atom with the margin of C25 when rows and columns agree. *)
Theorem C26_cover_partial : forall eigh zs xs h ext, 0 < h -> 0 <= ext -> length zs = length xs -> xs <> [] ->
  let v := eigh (itensor zs xs) in orthogonal v ->
  exists n0 n1 n2 g, from_molecule eigh zs xs h ext true = Ok g /\ length (cg_points g) = (n0 * n1 * n2)%nat /\
    (forall p, In p (cg_points g) <-> exists i0 i1 i2, (i0 < n0 /\ i1 < n1 /\ i2 < n2)%nat /\
       forall k, (k < 3)%nat ->
         dot3 (offset zs xs p) (mrow v k) = (INR (choose i0 i1 i2 k) - INR (choose n0 n1 n2 k) / 2) * h) /\
    (forall k lo hi, (k < 3)%nat -> proj_range zs xs (mcol v k) lo hi ->
       hi - lo + 2 * ext <= INR (choose n0 n1 n2 k) * h < hi - lo + 2 * ext + h) /\
    (forall x, in_box (cg_origin g) (cg_axes g) (INR n0) (INR n1) (INR n2) x <->
       forall k, (k < 3)%nat -> Rabs (dot3 (offset zs xs x) (mrow v k)) <= INR (choose n0 n1 n2 k) * h / 2) /\
    (forall x, dot3 (offset zs xs x) (offset zs xs x) <= ext ^ 2 ->
       in_box (cg_origin g) (cg_axes g) (INR n0) (INR n1) (INR n2) x) /\
    ((forall k, (k < 3)%nat -> mrow v k = mcol v k) -> forall k lo hi, (k < 3)%nat -> proj_range zs xs (mcol v k) lo hi ->
       forall x, In x xs ->
         Rabs (dot3 (offset zs xs x) (mrow v k)) + (ext - Rabs ((lo + hi) / 2)) <= INR (choose n0 n1 n2 k) * h / 2).
Proof. exact rotated_cover. Qed.
Print Assumptions C26_cover_partial.

Lemma axes_orthogonal : orthogonal ((1, 0, 0), (0, 1, 0), (0, 0, 1)).
Proof. intros [|[|[|i]]] [|[|[|j]]] Hi Hj; try lia; unfold dot3, mcol, crd; cbn [Nat.eqb]; lra. Qed.
(** The rotated grid of two charges with spacing 1/2. *)
Example C26_volume_example : exists g, from_molecule (fun _ => ((1, 0, 0), (0, 1, 0), (0, 0, 1))) [1; 3] [(0, 0, 0); (4, 0, 0)] (1 / 2) 1 true = Ok g /\
  forall w, In w (cg_weights g) -> w = 1 / 8.
Proof.
  destruct (C26_cover_partial (fun _ => ((1, 0, 0), (0, 1, 0), (0, 0, 1))) [1; 3] [(0, 0, 0); (4, 0, 0)] (1 / 2) 1) as (n0 & n1 & n2 & g & E & _);
    [lra | lra | reflexivity | discriminate | exact axes_orthogonal|].
  exists g. split; [exact E|]. intros w I. rewrite (C26_volume_element _ [1; 3] [(0, 0, 0); (4, 0, 0)] (1 / 2) 1 g ltac:(lra) axes_orthogonal E w I). lra.
Qed.

(** Charges 1 and 3 at distance 4: the moment of inertia across the bond is 12; the axes do not turn. *)
Example C26_cover_example : let zs := [1; 3] in let xs := [(0, 0, 0); (4, 0, 0)] in let v := ((1, 0, 0), (0, 1, 0), (0, 0, 1)) in
  orthogonal v /\ (forall k, (k < 3)%nat -> mrow v k = mcol v k) /\ inertia zs xs 1 1 = 12 /\ inertia zs xs 0 0 = 0 /\
  proj_range zs xs (mcol v 0) (-3) 1.
Proof.
  cbv zeta. split; [|split; [|split; [|split]]].
  - intros [|[|[|i]]] [|[|[|j]]] Hi Hj; try lia; unfold dot3, mcol, crd; cbn [Nat.eqb]; lra.
  - intros [|[|[|k]]] Hk; try lia; reflexivity.
  - unfold inertia, offset, center_of_charge. simpl. unfold dot3. simpl. field.
  - unfold inertia, offset, center_of_charge. simpl. unfold dot3. simpl. field.
  - unfold proj_range, offset, center_of_charge. split; [|split].
    + intros x [<-|[<-|[]]]; unfold dot3; simpl; lra.
    + exists (0, 0, 0). split; [now left|]. unfold dot3; simpl; lra.
    + exists (4, 0, 0). split; [right; now left|]. unfold dot3; simpl; lra.
Qed.

Example C26_example : orthogonal ((0, 0, 1), (1, 0, 0), (0, 1, 0)) /\
  itensor cross_z cross_mol = ((250, 0, 0), (0, 52, 0), (0, 0, 202)).
Proof. split; [exact (proj1 cross_eigh)|exact cross_itensor]. Qed.

(** ** C27 *)
Theorem C27_error : forall f L a b n, (2 <= n)%nat -> a < b -> lipschitz f a b L ->
  ex_RInt f a b /\
  Rabs (trap (equispaced a b n) (map f (equispaced a b n)) - RInt f a b)
    <= L * (b - a) ^ 2 / (2 * INR (n - 1)).
Proof. exact uniform_error. Qed.
Print Assumptions C27_error.

(** The same for any ascending grid with spacing at most [h]. *)
Theorem C27_error_any_grid : forall f L h x x0, 0 <= L ->
  strictly_ascending (x0 :: x) ->
  (forall i, (S i < length (x0 :: x))%nat -> nth (S i) (x0 :: x) 0 - nth i (x0 :: x) 0 <= h) ->
  lipschitz f x0 (last (x0 :: x) 0) L ->
  x0 <= last (x0 :: x) 0 /\
  ex_RInt f x0 (last (x0 :: x) 0) /\
  Rabs (trap (x0 :: x) (map f (x0 :: x)) - RInt f x0 (last (x0 :: x) 0))
    <= L * h * (last (x0 :: x) 0 - x0) / 2.
Proof. exact trap_error. Qed.
Print Assumptions C27_error_any_grid.

(** Grid object and integration together: convergence as the number of points grows. *)
Theorem C27_converges : forall f L a b, a < b -> lipschitz f a b L ->
  exists I, is_RInt f a b I /\
  forall eps, 0 < eps -> exists N : Z, forall n, (N <= n)%Z ->
    exists pts v, uniform_init (VInt n) (VFloat (Fin a)) (VFloat (Fin b)) = Ok (map Fin pts) /\
      radial_integrate (map Fin pts) (A1 (map Fin (map f pts))) = Ok (Fin v) /\
      Rabs (v - I) < eps.
Proof. exact uniform_converges. Qed.
Print Assumptions C27_converges.

Lemma slope_example : lipschitz (fun x => 3 * Rabs x) (-1) 2 3.
Proof.
  intros x y _ _.
  replace (3 * Rabs x - 3 * Rabs y) with (3 * (Rabs x - Rabs y)) by ring.
  rewrite Rabs_mult, (Rabs_right 3) by lra. apply Rmult_le_compat_l; [lra|].
  apply Rabs_triang_inv2.
Qed.
Example C27_error_example : Rabs (trap (equispaced (-1) 2 4) (map (fun x => 3 * Rabs x) (equispaced (-1) 2 4)) - RInt (fun x => 3 * Rabs x) (-1) 2) <= 9 / 2.
Proof.
  destruct (C27_error (fun x => 3 * Rabs x) 3 (-1) 2 4) as [_ E]; [lia | lra | exact slope_example|].
  eapply Rle_trans; [exact E|]. simpl. lra.
Qed.
Example C27_error_any_grid_example : Rabs (trap [-1; 0; 2] (map (fun x => 3 * Rabs x) [-1; 0; 2]) - RInt (fun x => 3 * Rabs x) (-1) 2) <= 3 * 2 * 3 / 2.
Proof.
  destruct (C27_error_any_grid (fun x => 3 * Rabs x) 3 2 [0; 2] (-1)) as (_ & _ & E).
  - lra.
  - repeat constructor; lra.
  - intros [|[|i]] L; simpl in L |- *; try lia; lra.
  - exact slope_example.
  - simpl last in E. eapply Rle_trans; [exact E | lra].
Qed.
Example C27_converges_example : exists I, is_RInt (fun x => 3 * Rabs x) (-1) 2 I /\
  exists N : Z, forall n, (N <= n)%Z -> exists pts v, uniform_init (VInt n) (VFloat (Fin (-1))) (VFloat (Fin 2)) = Ok (map Fin pts) /\
    radial_integrate (map Fin pts) (A1 (map Fin (map (fun x => 3 * Rabs x) pts))) = Ok (Fin v) /\ Rabs (v - I) < 1 / 100.
Proof.
  destruct (C27_converges (fun x => 3 * Rabs x) 3 (-1) 2) as (I & HI & C); [lra | exact slope_example|].
  exists I. split; [exact HI|]. apply C. lra.
Qed.


