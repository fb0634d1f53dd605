(** Properties C01-C11: Gaussian density models (/repo/bfit/model.py). *)
From Coquelicot Require Import Coquelicot.
From Coq Require Import Reals List ZArith Bool Permutation Lra Lia.
From Verif Require Import XR ModelDens SpecDens Lists ProofDens ProofDeriv ProofMol ProofInit
  ProofModelMisc GaussInt ProofNorm ProofErr4.
Import ListNotations.
Local Open Scope R_scope.

Theorem C01_atomic_value : forall pts ctr rs ns np norm c e deriv,
  geom pts ctr rs -> (0 < ns + np)%nat ->
  length c = (ns + np)%nat -> length e = (ns + np)%nat ->
  (norm = true -> Forall (fun a => 0 < a) e) ->
  exists m dg,
    atomic_init (VArr pts) ctr (VInt (Z.of_nat ns)) (VInt (Z.of_nat np)) norm = Ok m /\
    atomic_evaluate m (A1 (map Fin c)) (A1 (map Fin e)) deriv =
      Ok (map Fin (map (fun r => gsum norm (lay_atom ns np r) c e) rs), dg).
Proof. exact atomic_value. Qed.
Print Assumptions C01_atomic_value.

Example C01_atomic_value_example : exists m dg,
  atomic_init (VArr (A2 2 (map (map Fin) [[0; 0]; [3; 4]]))) (VArr (A1 (map Fin [1; 0]))) (VInt 1) (VInt 1) true = Ok m /\
  atomic_evaluate m (A1 (map Fin [2; -1])) (A1 (map Fin [1/2; 3])) false =
    Ok (map Fin (map (fun r => gsum true (lay_atom 1 1 r) [2; -1] [1/2; 3]) [dist [0; 0] [1; 0]; dist [3; 4] [1; 0]]), dg).
Proof.
  apply (C01_atomic_value _ _ [dist [0; 0] [1; 0]; dist [3; 4] [1; 0]] 1 1 true [2; -1] [1/2; 3] false); try reflexivity; [| lia | repeat constructor; lra].
  apply (geom_nd 2 [[0; 0]; [3; 4]] [1; 0]); repeat constructor.
Qed.

(** Two points in the plane seen from (1,0), one s- and one p-type normalized function. *)
Example C01_example :
  exists pts ctr rs (c e : list R), geom pts ctr rs /\ length c = (1 + 1)%nat /\ length e = (1 + 1)%nat /\
    Forall (fun a => 0 < a) e /\ rs = [dist [0; 0] [1; 0]; dist [3; 4] [1; 0]].
Proof.
  exists (A2 2 (map (map Fin) [[0; 0]; [3; 4]])), (VArr (A1 (map Fin [1; 0]))),
    [dist [0; 0] [1; 0]; dist [3; 4] [1; 0]], [2; -1], [1/2; 3].
  split; [apply (geom_nd 2 [[0; 0]; [3; 4]] [1; 0]); repeat constructor|].
  repeat split; repeat constructor; lra.
Qed.

Theorem C02_atomic_gradient : forall pts ctr rs ns np norm c e,
  geom pts ctr rs -> (0 < ns + np)%nat ->
  length c = (ns + np)%nat -> length e = (ns + np)%nat ->
  (norm = true -> Forall (fun a => 0 < a) e) ->
  exists m dg,
    atomic_init (VArr pts) ctr (VInt (Z.of_nat ns)) (VInt (Z.of_nat np)) norm = Ok m /\
    atomic_evaluate m (A1 (map Fin c)) (A1 (map Fin e)) true =
      Ok (map Fin (map (fun r => gsum norm (lay_atom ns np r) c e) rs),
          Some (map (map Fin) dg)) /\
    length dg = length rs /\
    forall i, (i < length rs)%nat ->
      length (nth i dg []) = (2 * (ns + np))%nat /\
      forall k, (k < ns + np)%nat ->
        is_derive (fun t : R => gsum norm (lay_atom ns np (nth i rs 0)) (upd c k t) e)
                  (nth k c 0) (nth k (nth i dg []) 0) /\
        is_derive (fun t : R => gsum norm (lay_atom ns np (nth i rs 0)) c (upd e k t))
                  (nth k e 0) (nth (ns + np + k) (nth i dg []) 0).
Proof. exact atomic_grad. Qed.
Print Assumptions C02_atomic_gradient.

Example C02_gradient_example : exists m dg,
  atomic_init (VArr (A1 (map Fin [0; 1; -2]))) VNone (VInt 2) (VInt 1) false = Ok m /\
  atomic_evaluate m (A1 (map Fin [1; -2; 3])) (A1 (map Fin [1; 5; 7])) true =
    Ok (map Fin (map (fun r => gsum false (lay_atom 2 1 r) [1; -2; 3] [1; 5; 7]) (map Rabs [0; 1; -2])), Some (map (map Fin) dg)) /\
  is_derive (fun t : R => gsum false (lay_atom 2 1 (Rabs (-2))) [1; -2; 3] [1; t; 7]) 5 (nth 4 (nth 2 dg []) 0).
Proof.
  destruct (C02_atomic_gradient _ _ _ 2 1 false [1; -2; 3] [1; 5; 7] (geom_1d_default [0; 1; -2])) as (m & dg & I & E & _ & D);
    [lia | reflexivity | reflexivity | discriminate|].
  exists m, dg. split; [exact I|]. split; [exact E|]. apply (proj2 (D 2%nat ltac:(simpl; lia)) 1%nat). lia.
Qed.

(** A 1-D grid with the default center, mixed basis (2 s, 1 p), not normalized. *)
Example C02_example :
  geom (A1 (map Fin [0; 1; -2])) VNone (map Rabs [0; 1; -2]) /\
  length [1; -2; 3] = (2 + 1)%nat /\ length [1; 5; 7] = (2 + 1)%nat.
Proof. split; [apply geom_1d_default|split; reflexivity]. Qed.

Theorem C03_atomic_flag : forall m c e,
  res_fst (atomic_evaluate m c e true) = res_fst (atomic_evaluate m c e false).
Proof. exact atomic_flag. Qed.
Print Assumptions C03_atomic_flag.

Theorem C03_molecular_flag : forall m c e,
  res_fst (mol_evaluate m c e true) = res_fst (mol_evaluate m c e false).
Proof. exact mol_flag. Qed.
Print Assumptions C03_molecular_flag.

(** Accepted parameters, and parameters that both calls reject. *)
Example C03_example :
  exists m g dg, atomic_init (VArr (A1 (map Fin [0; 1]))) VNone (VInt 1) (VInt 1) true = Ok m /\
    atomic_evaluate m (A1 [Fin 1; Fin 2]) (A1 [Fin 3; NaN]) true = Ok (g, Some dg) /\
    atomic_evaluate m (A1 [Fin 1]) (A1 [Fin 3; NaN]) true = Raise ValueError.
Proof. do 3 eexists. split; [reflexivity|]. split; reflexivity. Qed.

Theorem C04_molecular_value : forall pts d coords rss basis norm c e deriv,
  mgeom pts d coords rss -> length coords = length basis ->
  Forall (fun b => (0 < fst b + snd b)%nat) basis ->
  length c = basis_size basis -> length e = basis_size basis ->
  (norm = true -> Forall (fun a => 0 < a) e) ->
  exists m dg,
    mol_init pts (VArr (A2 d (map (map Fin) coords))) (B2 (basis_rows basis)) norm = Ok m /\
    mol_evaluate m (A1 (map Fin c)) (A1 (map Fin e)) deriv =
      Ok (map Fin (map (fun i => mol_sum norm basis (dists_at rss i) c e) (seq 0 (nlen pts))), dg).
Proof. exact mol_value. Qed.
Print Assumptions C04_molecular_value.

Theorem C05_molecular_gradient : forall pts d coords rss basis norm c e,
  mgeom pts d coords rss -> length coords = length basis ->
  Forall (fun b => (0 < fst b + snd b)%nat) basis ->
  length c = basis_size basis -> length e = basis_size basis ->
  (norm = true -> Forall (fun a => 0 < a) e) ->
  exists m dg,
    mol_init pts (VArr (A2 d (map (map Fin) coords))) (B2 (basis_rows basis)) norm = Ok m /\
    mol_evaluate m (A1 (map Fin c)) (A1 (map Fin e)) true =
      Ok (map Fin (map (fun i => mol_sum norm basis (dists_at rss i) c e) (seq 0 (nlen pts))),
          Some (map (map Fin) dg)) /\
    length dg = nlen pts /\
    forall i, (i < nlen pts)%nat ->
      length (nth i dg []) = (2 * basis_size basis)%nat /\
      forall k, (k < basis_size basis)%nat ->
        is_derive (fun t : R => mol_sum norm basis (dists_at rss i) (upd c k t) e)
                  (nth k c 0) (nth k (nth i dg []) 0) /\
        is_derive (fun t : R => mol_sum norm basis (dists_at rss i) c (upd e k t))
                  (nth k e 0) (nth (basis_size basis + k) (nth i dg []) 0).
Proof. exact mol_grad. Qed.
Print Assumptions C05_molecular_gradient.

(** Two centers in the plane with bases (1 s) and (1 s, 2 p). *)
Example C04_C05_example :
  let basis := [(1, 0); (1, 2)]%nat in
  mgeom (A2 2 (map (map Fin) [[0; 0]; [3; 4]; [1; 1]])) 2 [[0; 1]; [2; 2]]
        (map (fun c => map (fun x => dist x c) [[0; 0]; [3; 4]; [1; 1]]) [[0; 1]; [2; 2]]) /\
  length [[0; 1]; [2; 2]] = length basis /\
  Forall (fun b => (0 < fst b + snd b)%nat) basis /\
  length [1; 2; 3; 4] = basis_size basis /\ Forall (fun a => 0 < a) [1; 2; 3; 4].
Proof.
  split; [apply mgeom_nd; repeat constructor|].
  repeat split; repeat constructor; simpl; try lia; lra.
Qed.

(** For non-negative indices the owner is found; indices past the end are rejected. *)
Theorem C06_owner_partial : forall pts d coords rss basis norm m (index : Z),
  mgeom pts d coords rss -> length coords = length basis ->
  Forall (fun b => (0 < fst b + snd b)%nat) basis ->
  mol_init pts (VArr (A2 d (map (map Fin) coords))) (B2 (basis_rows basis)) norm = Ok m ->
  let sizes := map (fun b => (fst b + snd b)%nat) basis in
  ((Z.of_nat (basis_size basis) <= index)%Z -> assign_basis_to_center m index = Raise ValueError) /\
  ((0 <= index < Z.of_nat (basis_size basis))%Z ->
   exists j, assign_basis_to_center m index = Ok j /\ (j < length basis)%nat /\
     (Z.of_nat (before sizes j) <= index < Z.of_nat (before sizes (S j)))%Z /\
     forall j', (j' < length basis)%nat ->
       (Z.of_nat (before sizes j') <= index < Z.of_nat (before sizes (S j')))%Z -> j' = j).
Proof. exact assign_owner. Qed.
Print Assumptions C06_owner_partial.

(** Negative indices are never rejected: center 0 is returned. *)
Theorem C06_negative_index_refuted : forall pts d coords rss basis norm m (index : Z),
  mgeom pts d coords rss -> length coords = length basis -> basis <> [] ->
  Forall (fun b => (0 < fst b + snd b)%nat) basis ->
  mol_init pts (VArr (A2 d (map (map Fin) coords))) (B2 (basis_rows basis)) norm = Ok m ->
  (index < 0)%Z -> assign_basis_to_center m index = Ok 0%nat.
Proof. exact assign_negative. Qed.
Print Assumptions C06_negative_index_refuted.

(** Without centers no index has an owner. *)
Theorem C06_no_centers : forall pts d norm m (index : Z),
  mol_init pts (VArr (A2 d [])) (B2 []) norm = Ok m ->
  assign_basis_to_center m index = Raise (if (index <? 0)%Z then IndexError else ValueError).
Proof. exact assign_empty. Qed.
Print Assumptions C06_no_centers.

Example C06_no_centers_example : exists m, mol_init (A2 3 [[Fin 0; Fin 1; Fin 2]]) (VArr (A2 3 [])) (B2 []) true = Ok m /\
  assign_basis_to_center m (-1) = Raise IndexError /\ assign_basis_to_center m 0 = Raise ValueError.
Proof. eexists; split; [reflexivity|]. repeat split. Qed.

(** A molecule with bases of size 1 and 3: index 2 belongs to center 1, index 4 is rejected,
    index -7 is attributed to center 0. *)
Example C06_example :
  exists m, mol_init (A1 (map Fin [0; 1])) (VArr (A2 1 (map (map Fin) [[0]; [2]])))
              (B2 (basis_rows [(1, 0); (1, 2)]%nat)) true = Ok m /\
    assign_basis_to_center m 2 = Ok 1%nat /\
    assign_basis_to_center m 4 = Raise ValueError /\
    assign_basis_to_center m (-7) = Ok 0%nat.
Proof. eexists; split; [reflexivity|]. repeat split. Qed.

Theorem C07_basis_function_integral : forall (p : bool) a, 0 < a ->
  is_RInt_gen (fun r => 4 * PI * r ^ 2 * basis_fn true p a r)
              (at_point 0) (Rbar_locally p_infty) 1.
Proof. exact basis_integral. Qed.
Print Assumptions C07_basis_function_integral.

Theorem C07_model_integral : forall ns np c e,
  (0 < ns + np)%nat -> length c = (ns + np)%nat -> length e = (ns + np)%nat ->
  Forall (fun a => 0 < a) e ->
  exists g : R -> R,
    (forall rs, Forall (fun r => 0 <= r) rs -> exists m,
       atomic_init (VArr (A1 (map Fin rs))) VNone (VInt (Z.of_nat ns)) (VInt (Z.of_nat np)) true
         = Ok m /\
       atomic_evaluate m (A1 (map Fin c)) (A1 (map Fin e)) false = Ok (map Fin (map g rs), None)) /\
    is_RInt_gen (fun r => 4 * PI * r ^ 2 * g r) (at_point 0) (Rbar_locally p_infty) (rsum c).
Proof. exact api_integral. Qed.
Print Assumptions C07_model_integral.

Example C07_model_integral_example : exists g : R -> R,
  (forall rs, Forall (fun r => 0 <= r) rs -> exists m,
     atomic_init (VArr (A1 (map Fin rs))) VNone (VInt 1) (VInt 1) true = Ok m /\
     atomic_evaluate m (A1 (map Fin [2; 4])) (A1 (map Fin [5; 1/2])) false = Ok (map Fin (map g rs), None)) /\
  is_RInt_gen (fun r => 4 * PI * r ^ 2 * g r) (at_point 0) (Rbar_locally p_infty) 6.
Proof.
  destruct (C07_model_integral 1 1 [2; 4] [5; 1/2]) as (g & A & I); [lia | reflexivity | reflexivity | repeat constructor; lra|].
  exists g. split; [exact A|]. replace 6 with (rsum [2; 4]) by (unfold rsum; simpl; lra). exact I.
Qed.

(** Carbon-like: coefficients 2 and 4 on one s- and one p-type function. *)
Example C07_example : length [2; 4] = (1 + 1)%nat /\ Forall (fun a => 0 < a) [5; 1/2].
Proof. split; [reflexivity|]. repeat constructor; lra. Qed.

(** On N x D points construction succeeds exactly on well-formed arguments, raises
    TypeError/ValueError as documented, and evaluate returns one value per point.
    Missing: 1-D points, where the center is not checked (see C08_center_1d_refuted). *)
Theorem C08_atomic_accepts_partial : forall d rows center num_s num_p norm,
  (exists m, atomic_init (VArr (A2 d rows)) center num_s num_p norm = Ok m) <->
  (exists ns np, counts_ok num_s num_p ns np) /\ center_ok_nd d center.
Proof. exact init_nd_accepts. Qed.
Print Assumptions C08_atomic_accepts_partial.

Theorem C08_atomic_exceptions : forall points center num_s num_p norm x,
  atomic_init points center num_s num_p norm = Raise x ->
  (x = TypeError <->
     (forall a, points <> VArr a) \/
     ~ (exists ns, integral_arg num_s ns /\ 0 <= ns)%Z \/ ~ (exists np, integral_arg num_p np /\ 0 <= np)%Z) /\
  (x = TypeError \/ x = ValueError).
Proof. exact init_exceptions. Qed.
Print Assumptions C08_atomic_exceptions.

Example C08_exceptions_example : atomic_init VNone VNone (VInt 1) (VInt 0) true = Raise TypeError /\
  atomic_init (VArr (A1 [Fin 1])) VNone (VInt 0) (VInt 0) true = Raise ValueError.
Proof. split; reflexivity. Qed.

Theorem C08_evaluate_accepts : forall m coeffs expons deriv,
  (exists out, atomic_evaluate m coeffs expons deriv = Ok out) <->
  exists c e, coeffs = A1 c /\ expons = A1 e /\ length c = length e /\
              Z.of_nat (length c) = a_nbasis m.
Proof. exact evaluate_accepts. Qed.
Print Assumptions C08_evaluate_accepts.

Theorem C08_evaluate_rejects : forall m coeffs expons deriv x,
  atomic_evaluate m coeffs expons deriv = Raise x -> x = ValueError.
Proof. exact evaluate_rejects. Qed.
Print Assumptions C08_evaluate_rejects.

Example C08_rejects_example : exists m, atomic_init (VArr (A1 [Fin 1])) VNone (VInt 1) (VInt 1) true = Ok m /\
  atomic_evaluate m (A1 [Fin 1]) (A1 [Fin 1]) false = Raise ValueError /\ (exists out, atomic_evaluate m (A1 [NaN; Fin 1]) (A1 [Fin 1; PInf]) true = Ok out).
Proof. eexists. split; [reflexivity|]. split; [reflexivity|]. apply C08_evaluate_accepts. do 2 eexists. repeat split. Qed.

Theorem C08_one_value_per_point_partial : forall d rows center num_s num_p norm m c e deriv g dg,
  atomic_init (VArr (A2 d rows)) center num_s num_p norm = Ok m ->
  atomic_evaluate m c e deriv = Ok (g, dg) -> length g = length rows.
Proof. exact init_nd_points. Qed.
Print Assumptions C08_one_value_per_point_partial.

Theorem C08_molecular_accepts_partial : forall d rows d' cs bs norm,
  Forall (fun c => length c = d') cs ->
  ((exists m, mol_init (A2 d rows) (VArr (A2 d' cs)) (B2 bs) norm = Ok m) <->
   length cs = length bs /\ d' = d /\
   Forall (fun sp => exists ns np, counts_ok (fst sp) (snd sp) ns np) bs).
Proof. exact mol_init_accepts. Qed.
Print Assumptions C08_molecular_accepts_partial.

Theorem C08_molecular_rejects : forall pts coords basis norm,
  (forall d cs, coords <> VArr (A2 d cs)) \/ (forall bs, basis <> B2 bs) ->
  mol_init pts coords basis norm = Raise ValueError.
Proof. exact mol_init_rejects. Qed.
Print Assumptions C08_molecular_rejects.

Example C08_molecular_rejects_example : mol_init (A1 [Fin 1]) (VArr (A1 [Fin 0])) (B2 [(VInt 1, VInt 0)]) true = Raise ValueError.
Proof. apply C08_molecular_rejects. left. discriminate. Qed.

(** Two-dimensional arrays that do not fit together. *)
Theorem C08_molecular_mismatch : forall pts d cs bs norm,
  length cs <> length bs \/ (exists d' rows, pts = A2 d' rows /\ d' <> d) ->
  mol_init pts (VArr (A2 d cs)) (B2 bs) norm = Raise ValueError.
Proof. exact mol_init_mismatch. Qed.
Print Assumptions C08_molecular_mismatch.

(** Two coordinates for one basis, points in the plane for a center in space. *)
Example C08_mismatch_example :
  mol_init (A1 [Fin 0]) (VArr (A2 1 [[Fin 0]; [Fin 1]])) (B2 [(VInt 1, VInt 0)]) true = Raise ValueError /\
  mol_init (A2 2 [[Fin 0; Fin 1]]) (VArr (A2 3 [[Fin 0; Fin 1; Fin 2]])) (B2 [(VInt 1, VInt 0)]) true = Raise ValueError.
Proof.
  split; apply mol_init_mismatch; [left; cbn; lia|right]. exists 2%nat, [[Fin 0; Fin 1]]. split; [reflexivity|lia].
Qed.

(** 1-D points: a two-element center is accepted and each point gets its own center. *)
Theorem C08_center_1d_refuted :
  exists m, atomic_init (VArr (A1 [Fin 1; Fin 2])) (VArr (A1 [Fin 5; Fin 7])) (VInt 1) (VInt 0) false
              = Ok m /\ a_radii m = [Fin 4; Fin 5].
Proof. exact init_1d_center_unchecked. Qed.
Print Assumptions C08_center_1d_refuted.

(** A single point with a two-element center yields two values. *)
Theorem C08_one_value_per_point_refuted :
  exists m g, atomic_init (VArr (A1 [Fin 1])) (VArr (A1 [Fin 5; Fin 7])) (VInt 1) (VInt 0) false
              = Ok m /\
    atomic_evaluate m (A1 [Fin 1]) (A1 [Fin 1]) false = Ok (g, None) /\ length g = 2%nat.
Proof. exact init_1d_wrong_count. Qed.
Print Assumptions C08_one_value_per_point_refuted.

(** Points in the plane: a center of two numbers is accepted, one of three is not; negative and
    non-integer counts are type errors. *)
Example C08_example :
  (exists m g, atomic_init (VArr (A2 2 [[Fin 1; Fin 2]; [Fin 0; Fin 0]])) (VArr (A1 [Fin 1; NaN])) (VInt 1) (VInt 2) true = Ok m /\
     atomic_evaluate m (A1 [Fin 1; Fin 2; Fin 3]) (A1 [Fin 1; Fin 2; Fin 3]) false = Ok (g, None) /\ length g = 2%nat) /\
  atomic_init (VArr (A2 2 [[Fin 1; Fin 2]])) (VArr (A1 [Fin 1; Fin 2; Fin 3])) (VInt 1) (VInt 0) true = Raise ValueError /\
  atomic_init (VArr (A2 2 [[Fin 1; Fin 2]])) VNone (VInt (-1)) (VInt 2) true = Raise TypeError /\
  (exists m, mol_init (A2 2 [[Fin 1; Fin 2]]) (VArr (A2 2 [[Fin 0; Fin 0]; [Fin 1; Fin 1]]))
     (B2 [(VInt 1, VInt 0); (VInt 0, VInt 3)]) true = Ok m).
Proof. split; [do 2 eexists; repeat split|]. split; [reflexivity|]. split; [reflexivity|]. eexists. reflexivity. Qed.

(** Negative counts that the constructor rejects are accepted by change_numb_s_and_numb_p. *)
Theorem C09_change_refuted :
  exists m m', atomic_init (VArr (A1 [Fin 1])) VNone (VInt 1) (VInt 0) false = Ok m /\
    change_numb m (VInt (-1)) (VInt 1) = Ok m' /\ a_ns m' = (-1)%Z /\ a_nbasis m' = 0%Z.
Proof. exact change_negative. Qed.
Print Assumptions C09_change_refuted.

(** Counts that are NumPy integers are accepted by the constructor, but not afterwards. *)
Theorem C09_numpy_refuted : forall points center num_s num_p norm m s p ns np,
  atomic_init points center num_s num_p norm = Ok m -> counts_ok s p ns np -> s = VNpInt ns \/ p = VNpInt np ->
  (exists m', atomic_init points center s p norm = Ok m' /\ a_ns m' = ns /\ a_np m' = np) /\
  change_numb m s p = Raise TypeError.
Proof. exact numpy_counts. Qed.
Print Assumptions C09_numpy_refuted.

Example C09_numpy_example :
  (exists m, atomic_init (VArr (A1 [Fin 1])) VNone (VInt 1) (VInt 0) true = Ok m) /\
  counts_ok (VNpInt 2) (VInt 1) 2 1.
Proof. split; [eexists; reflexivity|]. unfold counts_ok, integral_arg, int_arg. repeat split; auto; lia. Qed.

(** Missing: the caller must supply admissible counts, as Python integers; then every history of changes gives
    the same object as constructing with the last counts. *)
Theorem C09_change_history_partial : forall points center num_s num_p norm m h last_s last_p,
  atomic_init points center num_s num_p norm = Ok m ->
  Forall (fun sp => exists ns np, int_arg (fst sp) ns /\ int_arg (snd sp) np /\ (0 <= ns)%Z /\ (0 <= np)%Z /\ (ns + np <> 0)%Z)
         (h ++ [(last_s, last_p)]) ->
  apply_all (fun m sp => change_numb m (fst sp) (snd sp)) m (h ++ [(last_s, last_p)]) =
  atomic_init points center last_s last_p norm.
Proof. exact change_history. Qed.
Print Assumptions C09_change_history_partial.

(** Which counts change_numb_s_and_numb_p accepts, and what it leaves alone. *)
Theorem C09_change_iff : forall m s p m', change_numb m s p = Ok m' <->
  int_arg s (a_ns m') /\ int_arg p (a_np m') /\
  a_points m' = a_points m /\ a_coord m' = a_coord m /\ a_radii m' = a_radii m /\ a_norm m' = a_norm m.
Proof. exact change_iff. Qed.
Print Assumptions C09_change_iff.

Theorem C09_change_raises : forall m s p e, change_numb m s p = Raise e <->
  e = TypeError /\ ~ (exists ns np, int_arg s ns /\ int_arg p np).
Proof. exact change_raises. Qed.
Print Assumptions C09_change_raises.

(** True counts as one, a float is refused. *)
Example C09_change_example :
  exists m m', atomic_init (VArr (A1 [Fin 1])) VNone (VInt 1) (VInt 0) true = Ok m /\
    change_numb m (VBool true) (VInt 3) = Ok m' /\ a_nbasis m' = 4%Z /\
    change_numb m (VInt 2) (VFloat (Fin 3)) = Raise TypeError.
Proof. eexists; eexists; split; [reflexivity|]. split; [reflexivity|]. split; reflexivity. Qed.

Example C09_example :
  exists m m', atomic_init (VArr (A1 [Fin 1])) VNone (VInt 1) (VInt 0) true = Ok m /\
    apply_all (fun m sp => change_numb m (fst sp) (snd sp)) m
      ([(VInt 2, VInt 1); (VInt 0, VInt 3)] ++ [(VInt 4, VInt 2)]) = Ok m' /\ a_nbasis m' = 6%Z.
Proof. eexists; eexists; split; [reflexivity|]. split; reflexivity. Qed.

Theorem C10_atomic_linear : forall pts ctr rs ns np norm s u v e,
  geom pts ctr rs -> (0 < ns + np)%nat ->
  length u = (ns + np)%nat -> length v = (ns + np)%nat -> length e = (ns + np)%nat ->
  (norm = true -> Forall (fun a => 0 < a) e) ->
  exists m gu gv,
    atomic_init (VArr pts) ctr (VInt (Z.of_nat ns)) (VInt (Z.of_nat np)) norm = Ok m /\
    atomic_evaluate m (A1 (map Fin u)) (A1 (map Fin e)) false = Ok (map Fin gu, None) /\
    atomic_evaluate m (A1 (map Fin v)) (A1 (map Fin e)) false = Ok (map Fin gv, None) /\
    atomic_evaluate m (A1 (map Fin (lincomb s u v))) (A1 (map Fin e)) false =
      Ok (map Fin (lincomb s gu gv), None).
Proof. exact atomic_linear. Qed.
Print Assumptions C10_atomic_linear.

Example C10_linear_example : exists m gu gv,
  atomic_init (VArr (A1 (map Fin [0; 1; -2]))) VNone (VInt 1) (VInt 1) true = Ok m /\
  atomic_evaluate m (A1 (map Fin [1; 2])) (A1 (map Fin [3; 4])) false = Ok (map Fin gu, None) /\
  atomic_evaluate m (A1 (map Fin [5; -1])) (A1 (map Fin [3; 4])) false = Ok (map Fin gv, None) /\
  atomic_evaluate m (A1 (map Fin (lincomb 2 [1; 2] [5; -1]))) (A1 (map Fin [3; 4])) false = Ok (map Fin (lincomb 2 gu gv), None).
Proof. apply (C10_atomic_linear _ _ _ 1 1 true 2 [1; 2] [5; -1] [3; 4] (geom_1d_default [0; 1; -2])); try reflexivity; [lia | repeat constructor; lra]. Qed.

Theorem C10_atomic_nonneg : forall pts ctr rs ns np norm c e,
  geom pts ctr rs -> (0 < ns + np)%nat ->
  length c = (ns + np)%nat -> length e = (ns + np)%nat ->
  (norm = true -> Forall (fun a => 0 < a) e) -> Forall (fun x => 0 <= x) c ->
  exists m g,
    atomic_init (VArr pts) ctr (VInt (Z.of_nat ns)) (VInt (Z.of_nat np)) norm = Ok m /\
    atomic_evaluate m (A1 (map Fin c)) (A1 (map Fin e)) false = Ok (map Fin g, None) /\
    Forall (fun x => 0 <= x) g /\
    ((exists k, (k < ns)%nat /\ 0 < nth k c 0) -> Forall (fun x => 0 < x) g).
Proof. exact atomic_nonneg. Qed.
Print Assumptions C10_atomic_nonneg.

Example C10_nonneg_example : exists m g,
  atomic_init (VArr (A1 (map Fin [0; 1; -2]))) VNone (VInt 1) (VInt 1) true = Ok m /\
  atomic_evaluate m (A1 (map Fin [1; 0])) (A1 (map Fin [3; 4])) false = Ok (map Fin g, None) /\ Forall (fun x => 0 < x) g.
Proof.
  destruct (C10_atomic_nonneg _ _ _ 1 1 true [1; 0] [3; 4] (geom_1d_default [0; 1; -2])) as (m & g & I & E & _ & P);
    [lia | reflexivity | reflexivity | intros _; repeat constructor; lra | repeat constructor; lra|].
  exists m, g. split; [exact I|]. split; [exact E|]. apply P. exists 0%nat. split; [lia | simpl; lra].
Qed.

Theorem C10_molecular_linear_nonneg : forall pts d coords rss basis norm s u v e,
  mgeom pts d coords rss -> length coords = length basis ->
  Forall (fun b => (0 < fst b + snd b)%nat) basis ->
  length u = basis_size basis -> length v = basis_size basis -> length e = basis_size basis ->
  (norm = true -> Forall (fun a => 0 < a) e) ->
  exists m gu gv,
    mol_init pts (VArr (A2 d (map (map Fin) coords))) (B2 (basis_rows basis)) norm = Ok m /\
    mol_evaluate m (A1 (map Fin u)) (A1 (map Fin e)) false = Ok (map Fin gu, None) /\
    mol_evaluate m (A1 (map Fin v)) (A1 (map Fin e)) false = Ok (map Fin gv, None) /\
    mol_evaluate m (A1 (map Fin (lincomb s u v))) (A1 (map Fin e)) false =
      Ok (map Fin (lincomb s gu gv), None) /\
    (Forall (fun x => 0 <= x) u -> Forall (fun x => 0 <= x) gu).
Proof. exact mol_linear. Qed.
Print Assumptions C10_molecular_linear_nonneg.

(** The molecule of C04_C05_example with two sets of coefficients; a 1-D grid for the atom. *)
Example C10_example :
  geom (A1 (map Fin [0; 1; -2])) VNone (map Rabs [0; 1; -2]) /\
  mgeom (A2 2 (map (map Fin) [[0; 0]; [3; 4]; [1; 1]])) 2 [[0; 1]; [2; 2]]
        (map (fun c => map (fun x => dist x c) [[0; 0]; [3; 4]; [1; 1]]) [[0; 1]; [2; 2]]) /\
  length [1; 2; 3; 4] = basis_size [(1, 0); (1, 2)]%nat /\ length [5; -1; 0; 2] = basis_size [(1, 0); (1, 2)]%nat /\
  lincomb 2 [1; 2; 3; 4] [5; -1; 0; 2] <> [1; 2; 3; 4].
Proof.
  split; [apply geom_1d_default|]. split; [apply mgeom_nd; repeat constructor|]. split; [reflexivity|]. split; [reflexivity|].
  unfold lincomb. intros H. injection H as H _. revert H. lra.
Qed.

Theorem C11_translation : forall d rows ctr v ns np norm,
  Forall (fun x => length x = d) rows -> length ctr = d -> length v = d -> (0 < ns + np)%nat ->
  exists m m',
    atomic_init (VArr (A2 d (map (map Fin) rows))) (VArr (A1 (map Fin ctr)))
                (VInt (Z.of_nat ns)) (VInt (Z.of_nat np)) norm = Ok m /\
    atomic_init (VArr (A2 d (map (map Fin) (map (translate v) rows))))
                (VArr (A1 (map Fin (translate v ctr))))
                (VInt (Z.of_nat ns)) (VInt (Z.of_nat np)) norm = Ok m' /\
    forall c e deriv, atomic_evaluate m c e deriv = atomic_evaluate m' c e deriv.
Proof. exact atomic_translate. Qed.
Print Assumptions C11_translation.

Example C11_translation_example : exists m m',
  atomic_init (VArr (A2 2 (map (map Fin) [[0; 1]; [2; 3]]))) (VArr (A1 (map Fin [1; 1]))) (VInt 1) (VInt 2) true = Ok m /\
  atomic_init (VArr (A2 2 (map (map Fin) (map (translate [5; -7]) [[0; 1]; [2; 3]])))) (VArr (A1 (map Fin (translate [5; -7] [1; 1])))) (VInt 1) (VInt 2) true = Ok m' /\
  forall c e deriv, atomic_evaluate m c e deriv = atomic_evaluate m' c e deriv.
Proof. apply (C11_translation 2 [[0; 1]; [2; 3]] [1; 1] [5; -7] 1 2 true); try reflexivity; [repeat constructor | lia]. Qed.

Theorem C11_single_center : forall pts d ctr rs ns np norm c e deriv,
  mgeom pts d [ctr] [rs] -> (0 < ns + np)%nat ->
  length c = (ns + np)%nat -> length e = (ns + np)%nat ->
  (norm = true -> Forall (fun a => 0 < a) e) ->
  exists m a,
    mol_init pts (VArr (A2 d [map Fin ctr])) (B2 (basis_rows [(ns, np)])) norm = Ok m /\
    atomic_init (VArr pts) (VArr (A1 (map Fin ctr))) (VInt (Z.of_nat ns)) (VInt (Z.of_nat np)) norm
      = Ok a /\
    mol_evaluate m (A1 (map Fin c)) (A1 (map Fin e)) deriv =
    atomic_evaluate a (A1 (map Fin c)) (A1 (map Fin e)) deriv.
Proof. exact mol_single. Qed.
Print Assumptions C11_single_center.

Example C11_single_center_example : exists m a,
  mol_init (A2 2 (map (map Fin) [[0; 1]; [2; 3]])) (VArr (A2 2 [map Fin [1; 1]])) (B2 (basis_rows [(1, 1)]%nat)) false = Ok m /\
  atomic_init (VArr (A2 2 (map (map Fin) [[0; 1]; [2; 3]]))) (VArr (A1 (map Fin [1; 1]))) (VInt 1) (VInt 1) false = Ok a /\
  mol_evaluate m (A1 (map Fin [2; 3])) (A1 (map Fin [4; 5])) true = atomic_evaluate a (A1 (map Fin [2; 3])) (A1 (map Fin [4; 5])) true.
Proof.
  apply (C11_single_center _ 2 [1; 1] (map (fun x => dist x [1; 1]) [[0; 1]; [2; 3]]) 1 1 false [2; 3] [4; 5] true); try reflexivity; [| lia | discriminate].
  apply (mgeom_nd 2 [[0; 1]; [2; 3]] [[1; 1]]); repeat constructor.
Qed.

Theorem C11_permutation : forall norm d rows bs bs' deriv,
  Forall (fun x => length x = d) rows -> Forall (block_ok norm d) bs -> Permutation bs bs' ->
  exists m m' g dg dg',
    mol_init (A2 d (map (map Fin) rows)) (VArr (A2 d (map (map Fin) (map b_ctr bs))))
             (B2 (basis_rows (map b_basis bs))) norm = Ok m /\
    mol_init (A2 d (map (map Fin) rows)) (VArr (A2 d (map (map Fin) (map b_ctr bs'))))
             (B2 (basis_rows (map b_basis bs'))) norm = Ok m' /\
    mol_evaluate m (A1 (map Fin (concat (map b_c bs)))) (A1 (map Fin (concat (map b_e bs)))) deriv =
      Ok (g, dg) /\
    mol_evaluate m' (A1 (map Fin (concat (map b_c bs')))) (A1 (map Fin (concat (map b_e bs')))) deriv =
      Ok (g, dg').
Proof. exact mol_permute. Qed.
Print Assumptions C11_permutation.

(** Two different blocks, exchanged. *)
Example C11_example :
  let a := mkBlock [0; 1] (1, 0)%nat [2] [3] in
  let b := mkBlock [5; 1] (1, 1)%nat [2; 7] [1; 4] in
  Forall (block_ok true 2) [a; b] /\ Permutation [a; b] [b; a] /\ a <> b.
Proof.
  split; [|split; [apply perm_swap|]].
  - repeat constructor; simpl; try lra; lia.
  - intros H. discriminate H.
Qed.
