(** Properties C28-C34 and C73-C75: atomic densities (/repo/bfit/density.py). *)
From Coquelicot Require Import Coquelicot.
From Coq Require Import Reals List ZArith Lia Lra Bool.
From Verif Require Import XR SpecDens Lists ModelSlater SpecSlater ProofSlater.
Import ListNotations.
Local Open Scope R_scope.

(** Sample data: two subshells, a contraction of two functions and one of a single function. *)
Definition ex_subs : list subshell :=
  [mkSub 2 (-11) 0 [(9/10, 5, 1%nat); (1/10, 3, 2%nat)]; mkSub 4 (-2/5) 1 [(1, 2, 2%nat)]].
Definition ex_atom : atom :=
  mkAtom [(1%nat, LS); (2%nat, LP)] [2; 4] [-11; -2/5]
    (fun l => match l with LS => Some [5; 3] | LP => Some [2] | _ => None end)
    (fun l => match l with LS => Some [1%nat; 2%nat] | LP => Some [2%nat] | _ => None end)
    (fun o => match o with (1%nat, LS) => Some [9/10; 1/10] | (2%nat, LP) => Some [1] | _ => None end).

Lemma ex_describes : describes ex_atom ex_subs.
Proof.
  split; [reflexivity|]. split; [reflexivity|].
  constructor; [repeat split|]. constructor; [repeat split|]. constructor.
Qed.
Lemma ex_valid : Forall valid ex_subs.
Proof.
  constructor; [|constructor; [|constructor]]; intros c z n H; cbn in H.
  - destruct H as [H|[H|[]]]; inversion H; subst; split; (lra || lia).
  - destruct H as [H|[]]; inversion H; subst; split; (lra || lia).
Qed.
Lemma ex_occ : Forall (fun t => 0 <= s_occ t) ex_subs.
Proof. constructor; [cbn; lra|]. constructor; [cbn; lra|]. constructor. Qed.

(** ** C28 *)
Theorem C28_normalized : forall z n, 0 < z -> (1 <= n)%nat ->
  exists g : R -> R,
    (forall pts, slater_matrix false [z] [n] (A1 (map Fin pts)) = Ok (map (fun r => [Fin (g r)]) pts)) /\
    is_RInt_gen (fun r : R => g r ^ 2 * r ^ 2) (at_point 0) (Rbar_locally p_infty) 1.
Proof. exact sto_norm_api. Qed.
Print Assumptions C28_normalized.

(** Arrays of exponents: entry (i, j) is the normalized function j at point i. *)
Theorem C28_values : forall zs ns pts, length zs = length ns ->
  Forall (fun z => 0 < z) zs -> Forall (fun n => (1 <= n)%nat) ns ->
  slater_matrix false zs ns (A1 (map Fin pts)) =
  Ok (map (map Fin) (map (fun r => map2 (fun z n => sto z n r) zs ns) pts)).
Proof. exact (slater_rows false). Qed.
Print Assumptions C28_values.

Theorem C28_errors : forall deriv zs ns points e,
  slater_matrix deriv zs ns points = Raise e -> e = ValueError.
Proof. exact slater_errors. Qed.
Print Assumptions C28_errors.

Example C28_example :
  slater_matrix false [2] [1%nat] (A1 [Fin 0]) = Ok [[Fin (4 * sqrt 2)]] /\
  (0 < 2 /\ (1 <= 1)%nat) /\ slater_matrix false [2] [1%nat] (A2 2 [[Fin 0; Fin 1]]) = Raise ValueError.
Proof.
  split; [|split; [split; [lra|lia]|reflexivity]].
  change [Fin 0] with (map Fin [0]). rewrite C28_values; [|reflexivity|constructor; [lra|constructor]|constructor; [lia|constructor]].
  cbn [map map2]. do 3 f_equal. f_equal. unfold sto. cbn [fact Nat.mul Nat.add Nat.sub pow].
  rewrite Rmult_0_r, exp_0. replace (2 * 2 / _) with 2 by (simpl; lra). ring.
Qed.

(** ** C29 *)
Theorem C29_derivative : forall zs ns, length zs = length ns ->
  Forall (fun z => 0 < z) zs -> Forall (fun n => (1 <= n)%nat) ns ->
  exists g d : nat -> R -> R,
    (forall pts, slater_matrix false zs ns (A1 (map Fin pts)) =
       Ok (map (fun r => map (fun j => Fin (g j r)) (seq 0 (length zs))) pts)) /\
    (forall pts, slater_matrix true zs ns (A1 (map Fin pts)) =
       Ok (map (fun r => map (fun j => Fin (d j r)) (seq 0 (length zs))) pts)) /\
    forall j r, (j < length zs)%nat ->
      (/ 10 ^ 10 <= Rabs r -> is_derive (g j) r (d j r)) /\
      (Rabs r < / 10 ^ 10 -> d j r = 0).
Proof. exact slater_derive_api. Qed.
Print Assumptions C29_derivative.

Example C29_example :
  length [2; 3] = length [1%nat; 2%nat] /\ Forall (fun z => 0 < z) [2; 3] /\
  Forall (fun n => (1 <= n)%nat) [1%nat; 2%nat] /\
  (exists v, slater_matrix true [2; 3] [1%nat; 2%nat] (A1 (map Fin [0; 1])) = Ok [[Fin 0; Fin 0]; v]).
Proof.
  split; [reflexivity|]. split; [repeat (constructor; [lra|]); constructor|].
  split; [repeat (constructor; [lia|]); constructor|].
  rewrite (slater_rows true); [|reflexivity|repeat (constructor; [lra|]); constructor|repeat (constructor; [lia|]); constructor].
  cbn [map map2]. unfold csto at 1 2. rewrite Rabs_R0.
  destruct (Rlt_dec 0 (/ 10 ^ 10)) as [H|H]; [eexists; reflexivity|].
  exfalso. apply H. apply Rinv_0_lt_compat. apply pow_lt. lra.
Qed.

(** ** C30 *)
Theorem C30_core_valence : forall a L s pts,
  describes a (L ++ [s]) -> Forall valid (L ++ [s]) -> Forall (fun t => 0 <= s_occ t) (L ++ [s]) ->
  exists tot core val,
    atomic_density a (A1 (map Fin pts)) MTotal = Ok (map Fin tot) /\
    atomic_density a (A1 (map Fin pts)) MCore = Ok (map Fin core) /\
    atomic_density a (A1 (map Fin pts)) MValence = Ok (map Fin val) /\
    length tot = length pts /\ length core = length pts /\ length val = length pts /\
    forall i, (i < length pts)%nat ->
      nth i tot 0 = nth i core 0 + nth i val 0 /\
      0 <= nth i core 0 <= nth i tot 0 /\ 0 <= nth i val 0 <= nth i tot 0.
Proof. exact core_valence. Qed.
Print Assumptions C30_core_valence.

Theorem C30_total : forall a L pts, describes a L -> Forall valid L ->
  atomic_density a (A1 (map Fin pts)) MTotal = Ok (map Fin (map (rho L) pts)).
Proof. exact density_total. Qed.
Print Assumptions C30_total.

Theorem C30_unknown_mode : forall a points, atomic_density a points MOther = Raise ValueError.
Proof. exact mode_error. Qed.
Print Assumptions C30_unknown_mode.

Theorem C30_shape : forall a d l mode, at_orbitals a <> [] -> mode <> MOther ->
  length (at_occ a) = length (at_energy a) -> at_occ a <> [] ->
  (forall o, In o (at_orbitals a) -> at_exps a (snd o) <> None /\ at_nums a (snd o) <> None) ->
  atomic_density a (A2 d l) mode = Raise ValueError.
Proof. exact shape_error. Qed.
Print Assumptions C30_shape.

Example C30_example : exists L s, ex_subs = L ++ [s] /\ L <> [] /\ describes ex_atom (L ++ [s]) /\
  Forall valid (L ++ [s]) /\ Forall (fun t => 0 <= s_occ t) (L ++ [s]) /\
  atomic_density ex_atom (A2 1 [[Fin 1]]) MCore = Raise ValueError.
Proof.
  exists [mkSub 2 (-11) 0 [(9/10, 5, 1%nat); (1/10, 3, 2%nat)]], (mkSub 4 (-2/5) 1 [(1, 2, 2%nat)]).
  split; [reflexivity|]. split; [discriminate|]. split; [exact ex_describes|].
  split; [exact ex_valid|]. split; [exact ex_occ|].
  apply C30_shape; try discriminate; [reflexivity|].
  intros o [<-|[<-|[]]]; split; discriminate.
Qed.

(** ** C31 *)
(** Proved when the last listed subshell has the highest energy. *)
Theorem C31_reference_partial : forall a L s mode pts,
  describes a (L ++ [s]) -> Forall valid (L ++ [s]) -> (mode = MValence \/ mode = MCore) ->
  (forall t, In t L -> s_en t <= s_en s) ->
  exists h, (exists t, In t (L ++ [s]) /\ s_en t = h) /\ (forall t, In t (L ++ [s]) -> s_en t <= h) /\
  atomic_density a (A1 (map Fin pts)) mode =
    Ok (map Fin (map (rho_w (fun t => s_occ t *
        (match mode with MValence => exp (- (s_en t - h) ^ 2)
                       | _ => 1 - exp (- (s_en t - h) ^ 2) end)) (L ++ [s])) pts)).
Proof. exact homo_partial. Qed.
Print Assumptions C31_reference_partial.

(** Two subshells with the energies of 5S and 4D of silver, listed in that order as in
    /repo/bfit/data/neutral/ag.slater. *)
Definition ag_subs : list subshell :=
  [mkSub 1 (-22/100) 0 [(1, 1, 3%nat)]; mkSub 10 (-54/100) 2 [(1, 1, 3%nat)]].
Definition ag_atom : atom :=
  mkAtom [(5%nat, LS); (4%nat, LD)] [1; 10] [-22/100; -54/100]
    (fun _ => Some [1]) (fun _ => Some [3%nat]) (fun _ => Some [1]).

Theorem C31_reference_refuted : exists a L pts v,
  describes a L /\ Forall valid L /\ Forall (fun t => 0 < s_occ t) L /\
  atomic_density a (A1 (map Fin pts)) MValence = Ok (map Fin v) /\
  forall h, (exists t, In t L /\ s_en t = h) -> (forall t, In t L -> s_en t <= h) ->
    v <> map (rho_w (fun t => s_occ t * exp (- (s_en t - h) ^ 2)) L) pts.
Proof.
  exists ag_atom, ag_subs, [1].
  assert (D : describes ag_atom ag_subs).
  { split; [reflexivity|]. split; [reflexivity|].
    constructor; [repeat split|]. constructor; [repeat split|]. constructor. }
  assert (V : Forall valid ag_subs).
  { constructor; [|constructor; [|constructor]]; intros c z n H; cbn in H;
      destruct H as [H|[]]; inversion H; subst; split; (lra || lia). }
  eexists. split; [exact D|]. split; [exact V|].
  split; [constructor; [cbn; lra|constructor; [cbn; lra|constructor]]|].
  split.
  { apply (density_mode ag_atom [mkSub 1 (-22/100) 0 [(1, 1, 3%nat)]]
             (mkSub 10 (-54/100) 2 [(1, 1, 3%nat)]) MValence [1] D V). discriminate. }
  intros h [t0 [Ht0 Eh]] Hmax E.
  assert (Hh : h = -22/100).
  { pose proof (Hmax _ (or_introl eq_refl)) as H1. cbn in H1.
    destruct Ht0 as [<-|[<-|[]]]; cbn in Eh; lra. }
  clear Hmax Eh Ht0. subst h. cbn [map] in E. apply (f_equal (hd 0)) in E. cbn [hd] in E.
  unfold rho_w in E. pose proof PI_RGT_0 as Hpi.
  assert (C : forall x y, x / (4 * PI) = y / (4 * PI) -> x = y).
  { intros x y H. replace x with (x / (4 * PI) * (4 * PI)) by (field; lra). rewrite H. field. lra. }
  apply C in E.
  cbn [map app mode_weight s_occ s_en ag_subs] in E. rewrite !rsum_cons in E.
  assert (F : forall o e l, phi (mkSub o e l [(1, 1, 3%nat)]) 1 = sto 1 3 1).
  { intros. unfold phi. cbn [map s_exp]. rewrite rsum_cons. unfold rsum. simpl fold_right. ring. }
  rewrite !F in E. unfold rsum in E. cbn [fold_right] in E.
  set (w := exp (- (-22/100 - -54/100) ^ 2)) in E.
  replace (exp (- (-54/100 - -22/100) ^ 2)) with w in E by (unfold w; f_equal; field).
  replace (exp (- (-54/100 - -54/100) ^ 2)) with 1 in E
    by (replace (- (-54/100 - -54/100) ^ 2) with 0 by field; rewrite exp_0; reflexivity).
  replace (exp (- (-22/100 - -22/100) ^ 2)) with 1 in E
    by (replace (- (-22/100 - -22/100) ^ 2) with 0 by field; rewrite exp_0; reflexivity).
  assert (Hw : w < 1).
  { unfold w. rewrite <- exp_0. apply exp_increasing. lra. }
  assert (Hs : 0 < sto 1 3 1 ^ 2).
  { apply pow2_gt_0. unfold sto. intros H0.
    assert (0 < (2 * 1) ^ 3 * sqrt (2 * 1 / INR (fact (2 * 3))) * 1 ^ (3 - 1) * exp (- (1) * 1)).
    { apply Rmult_lt_0_compat; [|apply exp_pos]. apply Rmult_lt_0_compat; [|apply pow_lt; lra].
      apply Rmult_lt_0_compat; [apply pow_lt; lra|].
      apply sqrt_lt_R0. apply Rdiv_lt_0_compat; [lra|apply fact_pos]. }
    lra. }
  nra.
Qed.
Print Assumptions C31_reference_refuted.

Example C31_example : exists L s, ex_subs = L ++ [s] /\ (forall t, In t L -> s_en t <= s_en s).
Proof.
  exists [mkSub 2 (-11) 0 [(9/10, 5, 1%nat); (1/10, 3, 2%nat)]], (mkSub 4 (-2/5) 1 [(1, 2, 2%nat)]).
  split; [reflexivity|]. intros t [<-|[]]. cbn. lra.
Qed.

(** ** C32 *)
Theorem C32_derivative : forall a L pts, describes a L -> Forall valid L ->
  exists dens d,
    atomic_density a (A1 (map Fin pts)) MTotal = Ok (map Fin dens) /\
    derivative_density a (A1 (map Fin pts)) = Ok (map Fin d) /\
    dens = map (rho L) pts /\ length d = length pts /\
    forall i, (i < length pts)%nat ->
      (/ 10 ^ 10 <= Rabs (nth i pts 0) -> is_derive (rho L) (nth i pts 0) (nth i d 0)) /\
      (Rabs (nth i pts 0) < / 10 ^ 10 -> nth i d 0 = 0).
Proof. exact deriv_density_api. Qed.
Print Assumptions C32_derivative.

Example C32_example : describes ex_atom ex_subs /\ Forall valid ex_subs /\
  / 10 ^ 10 <= Rabs (nth 1 [0; 1/2] 0) /\ Rabs (nth 0 [0; 1/2] 0) < / 10 ^ 10.
Proof.
  split; [exact ex_describes|]. split; [exact ex_valid|].
  assert (0 < / 10 ^ 10) by (apply Rinv_0_lt_compat; apply pow_lt; lra).
  assert (/ 10 ^ 10 < 1 / 2) by (apply Rmult_lt_reg_l with (10 ^ 10); [apply pow_lt; lra|]; rewrite Rinv_r by (apply pow_nonzero; lra); lra).
  cbn [nth]. rewrite Rabs_R0, Rabs_right by lra. lra.
Qed.

(** ** C33 *)
Theorem C33_kinetic : forall a L pts, describes a L -> Forall valid L ->
  Forall (fun t => 0 <= s_occ t) L ->
  exists (dphi : subshell -> R -> R) t,
    kinetic_energy a (A1 (map Fin pts)) = Ok (map Fin t) /\ length t = length pts /\
    forall i, (i < length pts)%nat ->
      0 <= nth i t 0 /\
      (/ 10 ^ 10 <= Rabs (nth i pts 0) ->
        nth i t 0 = tau dphi L (nth i pts 0) /\
        forall s, In s L -> is_derive (phi s) (nth i pts 0) (dphi s (nth i pts 0))).
Proof. exact kinetic_api. Qed.
Print Assumptions C33_kinetic.

Example C33_example : describes ex_atom ex_subs /\ Forall valid ex_subs /\
  Forall (fun t => 0 <= s_occ t) ex_subs /\ (exists s, In s ex_subs /\ s_l s = 1%nat).
Proof.
  split; [exact ex_describes|]. split; [exact ex_valid|]. split; [exact ex_occ|].
  eexists. split; [right; left; reflexivity|reflexivity].
Qed.

(** ** C34 *)
Theorem C34_integral : forall a L, describes a L -> Forall valid L ->
  exists g : R -> R,
    (forall pts, atomic_density a (A1 (map Fin pts)) MTotal = Ok (map Fin (map g pts))) /\
    is_RInt_gen (fun r : R => 4 * PI * r ^ 2 * g r) (at_point 0) (Rbar_locally p_infty)
                (rsum (map (fun s => s_occ s * orb_norm s) L)) /\
    (Forall (fun s => orb_norm s = 1) L ->
     is_RInt_gen (fun r : R => 4 * PI * r ^ 2 * g r) (at_point 0) (Rbar_locally p_infty)
                (rsum (map s_occ L))).
Proof. exact density_integral_api. Qed.
Print Assumptions C34_integral.

(** The closed form [orb_norm] is the squared norm of the radial orbital. *)
Theorem C34_orbital_norm : forall s, valid s ->
  is_RInt_gen (fun r : R => phi s r ^ 2 * r ^ 2) (at_point 0) (Rbar_locally p_infty) (orb_norm s).
Proof. exact phi_norm_api. Qed.
Print Assumptions C34_orbital_norm.

Example C34_example : describes ex_atom ex_subs /\ Forall valid ex_subs /\
  orb_norm (nth 1 ex_subs (mkSub 0 0 0 [])) = 1.
Proof.
  split; [exact ex_describes|]. split; [exact ex_valid|].
  cbn [nth ex_subs]. unfold orb_norm. cbn [s_exp map]. unfold rsum. cbn [fold_right].
  unfold overlap. cbn [Nat.mul Nat.add].
  replace (INR (fact 4)) with 24 by (simpl; ring).
  set (q := sqrt (2 * 2 / 24)).
  assert (Hq : q * q = 2 * 2 / 24) by (apply sqrt_sqrt; lra).
  replace (1 * 1 * ((2 * 2) ^ 2 * q * ((2 * 2) ^ 2 * q) * (24 / (2 + 2) ^ 5)) + 0 + 0)
    with ((q * q) * (256 * 24 / 4 ^ 5)) by (field; lra).
  rewrite Hq. field.
Qed.

(** ** C73 *)
Theorem C73_weizsaecker : forall a L pts, describes a L -> Forall valid L ->
  Forall (fun t => 0 <= s_occ t) L ->
  exists dens d t,
    atomic_density a (A1 (map Fin pts)) MTotal = Ok (map Fin dens) /\
    derivative_density a (A1 (map Fin pts)) = Ok (map Fin d) /\
    kinetic_energy a (A1 (map Fin pts)) = Ok (map Fin t) /\
    forall i, (i < length pts)%nat -> nth i d 0 ^ 2 <= 8 * nth i dens 0 * nth i t 0.
Proof. exact weizsaecker. Qed.
Print Assumptions C73_weizsaecker.

Example C73_example : describes ex_atom ex_subs /\ Forall valid ex_subs /\
  Forall (fun t => 0 <= s_occ t) ex_subs.
Proof. exact (conj ex_describes (conj ex_valid ex_occ)). Qed.

(** ** C74 *)
Theorem C74_decay : forall a L s mode,
  describes a (L ++ [s]) -> Forall valid (L ++ [s]) -> mode <> MOther ->
  exists g : R -> R, is_lim g p_infty (Finite 0) /\
    forall pts, atomic_density a (A1 (map Fin pts)) mode = Ok (map Fin (map g pts)).
Proof. exact density_decay. Qed.
Print Assumptions C74_decay.

Example C74_example : exists L s, describes ex_atom (L ++ [s]) /\ Forall valid (L ++ [s]) /\ MCore <> MOther.
Proof.
  exists [mkSub 2 (-11) 0 [(9/10, 5, 1%nat); (1/10, 3, 2%nat)]], (mkSub 4 (-2/5) 1 [(1, 2, 2%nat)]).
  split; [exact ex_describes|]. split; [exact ex_valid|discriminate].
Qed.

(** ** C75 *)
(** A 1s density has slope -2 z rho(0) at the origin (cusp); the code returns 0 there. *)
Definition h_subs (z : R) : list subshell := [mkSub 1 (-1/2) 0 [(1, z, 1%nat)]].
Definition h_atom (z : R) : atom :=
  mkAtom [(1%nat, LS)] [1] [-1/2] (fun _ => Some [z]) (fun _ => Some [1%nat]) (fun _ => Some [1]).

Theorem C75_origin_refuted : forall z, 0 < z -> exists a L,
  describes a L /\ Forall valid L /\ Forall (fun s => orb_norm s = 1) L /\
  derivative_density a (A1 [Fin 0]) = Ok [Fin 0] /\
  is_derive (rho L) 0 (- 2 * z * rho L 0) /\ 0 < rho L 0.
Proof.
  intros z Hz. exists (h_atom z), (h_subs z). pose proof PI_RGT_0 as Hpi.
  assert (D : describes (h_atom z) (h_subs z)).
  { split; [reflexivity|]. split; [reflexivity|]. constructor; [repeat split|constructor]. }
  assert (V : Forall valid (h_subs z)).
  { constructor; [|constructor]. intros c y n H. cbn in H. destruct H as [H|[]]. inversion H; subst.
    split; [lra|lia]. }
  assert (F : forall r, rho (h_subs z) r = 4 * z ^ 2 * z / (4 * PI) * exp (- 2 * z * r)).
  { intros r. unfold rho, rho_w, h_subs. cbn [map s_occ]. unfold phi. cbn [map s_exp]. unfold rsum.
    cbn [fold_right]. unfold sto. cbn [Nat.mul Nat.add Nat.sub].
    replace (INR (fact 2)) with 2 by (simpl; ring).
    replace (2 * z / 2) with z by field. rewrite pow_1. cbn [pow].
    replace (- 2 * z * r) with (- z * r + - z * r) by ring. rewrite exp_plus.
    pose proof (sqrt_sqrt z ltac:(lra)) as Hs. set (q := sqrt z) in *. set (e := exp (- z * r)).
    replace (z * (z * 1) * z) with (z * z * z) by ring.
    transitivity (4 * (z * z) * (q * q) * (e * e) / (4 * PI)); [field; lra|]. rewrite Hs. field. lra. }
  split; [exact D|]. split; [exact V|]. split; [|split; [|split]].
  - constructor; [|constructor]. unfold orb_norm. cbn [s_exp map]. unfold rsum. cbn [fold_right].
    unfold overlap. cbn [Nat.mul Nat.add]. replace (INR (fact 2)) with 2 by (simpl; ring).
    replace (2 * z / 2) with z by field. rewrite !pow_1.
    pose proof (sqrt_sqrt z ltac:(lra)) as Hs. set (q := sqrt z) in *.
    replace (1 * 1 * (2 * z * q * (2 * z * q) * (2 / (z + z) ^ 3)) + 0 + 0) with (q * q * (4 * z ^ 2 * 2 / (8 * z ^ 3)))
      by (field; lra).
    rewrite Hs. field. lra.
  - destruct (C32_derivative (h_atom z) (h_subs z) [0] D V) as (dens & d & _ & Hd & _ & Hl & Hi).
    destruct d as [|x [|? ?]]; try discriminate Hl.
    assert (x = 0) as ->.
    { apply (proj2 (Hi 0%nat ltac:(cbn; lia))). cbn [nth]. rewrite Rabs_R0.
      apply Rinv_0_lt_compat. apply pow_lt. lra. }
    exact Hd.
  - apply (is_derive_ext (fun r : R => 4 * z ^ 2 * z / (4 * PI) * exp (- 2 * z * r))).
    { intros r. symmetry. apply F. }
    rewrite F. auto_derive; [exact I|]. unfold Rdiv. simpl. set (e := exp _). ring.
  - rewrite F. rewrite Rmult_0_r, exp_0, Rmult_1_r. apply Rdiv_lt_0_compat; [|lra].
    apply Rmult_lt_0_compat; [|exact Hz]. apply Rmult_lt_0_compat; [lra|apply pow_lt; exact Hz].
Qed.
Print Assumptions C75_origin_refuted.

(** Hydrogen. *)
Example C75_example : 0 < 1 /\ describes (h_atom 1) (h_subs 1).
Proof. split; [lra|]. split; [reflexivity|split; [reflexivity|constructor; [repeat split|constructor]]]. Qed.

(** ** C79 *)
Theorem C79_accepts : forall a pts,
  let ok := length (at_occ a) = length (at_orbitals a) /\ forall o, In o (at_orbitals a) -> exists zs ns c,
    at_exps a (snd o) = Some zs /\ at_nums a (snd o) = Some ns /\ at_coeff a o = Some c /\ fitting (length zs) (length ns) (length c) in
  ((exists v, atomic_density a (A1 pts) MTotal = Ok v) <-> ok) /\
  ((exists v, derivative_density a (A1 pts) = Ok v) <-> ok) /\ ((exists v, kinetic_energy a (A1 pts) = Ok v) <-> ok).
Proof. exact all_accept. Qed.
Print Assumptions C79_accepts.

Theorem C79_accepts_mode : forall a mode pts, mode = MValence \/ mode = MCore ->
  ((exists v, atomic_density a (A1 pts) mode = Ok v) <->
   (fitting (length (at_occ a)) (length (at_energy a)) (length (at_orbitals a)) /\ at_energy a <> [] /\
    (length (at_occ a) <= length (at_energy a))%nat) /\
   forall o, In o (at_orbitals a) -> exists zs ns c,
    at_exps a (snd o) = Some zs /\ at_nums a (snd o) = Some ns /\ at_coeff a o = Some c /\ fitting (length zs) (length ns) (length c)).
Proof. exact mode_accepts. Qed.
Print Assumptions C79_accepts_mode.

Theorem C79_errors : forall a points mode e, atomic_density a points mode = Raise e ->
  e = ValueError \/ (e = IndexError /\ mode <> MTotal /\ (at_energy a = [] \/ (length (at_energy a) < length (at_occ a))%nat)) \/
  (e = KeyError /\ exists o, In o (at_orbitals a) /\ (at_exps a (snd o) = None \/ at_nums a (snd o) = None \/ at_coeff a o = None)).
Proof. exact density_errors. Qed.
Print Assumptions C79_errors.

(** Accepted data; one coefficient too many; a missing subshell. *)
Example C79_example :
  (exists v, atomic_density ex_atom (A1 [Fin 1; NaN]) MCore = Ok v) /\
  atomic_density (mkAtom [(1%nat, LS)] [1] [0] (fun _ => Some [1]) (fun _ => Some [1%nat]) (fun _ => Some [1; 2])) (A1 [Fin 1]) MTotal = Raise ValueError /\
  atomic_density (mkAtom [(1%nat, LS)] [1] [0] (fun _ => None) (fun _ => Some [1%nat]) (fun _ => Some [1])) (A1 [Fin 1]) MTotal = Raise KeyError.
Proof.
  split; [|split; reflexivity]. apply C79_accepts_mode; [auto|]. split.
  - split; [cbv [fitting]; cbn; auto|]. split; [discriminate|cbn; lia].
  - intros o [<-|[<-|[]]]; do 3 eexists; (do 3 (split; [reflexivity|])); cbv [fitting]; cbn; auto.
Qed.
