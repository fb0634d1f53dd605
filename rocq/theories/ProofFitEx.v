(** Sample fits for the examples beside the fit theorems: two normalized s-type functions on the
    radial grid [1/2, 1], density 1, coefficients to sum to 1. *)
From Coquelicot Require Import Coquelicot.
From Coq Require Import String.
From Coq Require Import Reals List ZArith Lia Lra Bool.
From Verif Require Import XR PyStr SpecDens SpecMeas SpecGrid ModelDens ModelMeas ModelGrid ModelFit Lists ProofDens
  ProofMeas SpecFit ProofFitView ProofFit ProofEM ProofFPI ProofFPI2 ProofFPI3 ProofFPI4 ProofScipy ProofScipy2 ProofScipy3.
Import ListNotations.
Local Open Scope R_scope.

Definition two_atom : atomic := mkAtomic (A1 [Fin (1/2); Fin 1]) [Fin 0] [Fin (1/2); Fin 1] 2 0 true.
Definition two_grid : grid := radial_grid [Fin (1/2); Fin 1].
Definition two_me : measure := MKL (Fin nan_mask) (Fin 100000).
Definition two_fit : fit := mkFit two_grid [Fin 1; Fin 1] (GAtom two_atom) two_me false (Fin 1) (Fin nan_mask).
Definition two_fpi : fpi := mkFpi two_fit (Fin (1/2)).
Definition two_scipy (slsqp : bool) : scipy := mkScipy two_fit slsqp [Fin 1; Fin 1].
Definition two_lays : list (list (bool * R)) := map (lay_atom 2 0) (map Rabs [1/2; 1]).
Definition two_W : list R := [1/4; 1/4].

Lemma two_int y : length y = 2%nat -> gr_integrate two_grid (map Fin y) = Ok (Fin (rdot two_W y)).
Proof.
  destruct y as [|u [|v [|? ?]]]; try discriminate. intros _.
  cbn. rewrite reqb_false by lra. cbn. do 2 f_equal. unfold rdot, rsum. cbn. field.
Qed.

Lemma two_integrator : integrator (arg_of two_grid) false two_W.
Proof. apply int_plain. intros y Hy. now apply two_int. Qed.

Lemma two_base : base_init (arg_of two_grid) (map Fin [1; 1]) (GAtom two_atom) two_me (Some (Fin 1)) false (Fin nan_mask) = Ok two_fit.
Proof.
  unfold base_init, arg_of. cbn [map existsb xltb ga_points ga_integrate].
  rewrite !rltb_false by lra. reflexivity.
Qed.

Lemma two_init : fpi_init (arg_of two_grid) (map Fin [1; 1]) (GAtom two_atom) (Fin nan_mask) (Some (Fin 1)) false = Ok two_fpi.
Proof.
  destruct (fpi_accepts (arg_of two_grid) (map Fin [1; 1]) (GAtom two_atom) (Fin nan_mask) (Some (Fin 1)) false
    two_fit (Fin (1/2)) two_base) as [_ H].
  - unfold fit_integrate, integrate_with. cbn [ft_spherical ft_grid two_fit]. rewrite two_int by reflexivity.
    unfold rdot, rsum. cbn. do 2 f_equal. field.
  - cbn in H. rewrite reqb_false in H by lra. replace (1/2/1) with (1/2) in H by field.
    apply H; [|discriminate]. intros E. injection E. lra.
Qed.

Lemma two_atom_init : atomic_init (VArr (A1 (map Fin [1/2; 1]))) VNone (VInt 2) (VInt 0) true = Ok two_atom.
Proof.
  cbn. unfold two_atom. replace (Rabs (1/2 + - 0)) with (1/2) by (rewrite Rabs_right; lra).
  replace (Rabs (1 + - 0)) with 1 by (rewrite Rabs_right; lra). reflexivity.
Qed.

Lemma two_views : views (GAtom two_atom) true two_lays.
Proof. apply (views_atom (A1 (map Fin [1/2; 1])) VNone _ 2 0 true); [apply geom_1d_default|lia|exact two_atom_init]. Qed.

Lemma two_setting : fpi_setting two_fpi two_W [1; 1] true two_lays nan_mask 1.
Proof.
  constructor; auto; [|apply mask_nonneg].
  exists (arg_of two_grid), false, (Some (Fin 1)), (GAtom two_atom). split; [|split; [|split]].
  - exact two_integrator.
  - exact two_views.
  - exact two_init.
  - reflexivity.
Qed.

Lemma two_fit_setting : fit_setting two_fit two_W [1; 1] true two_lays nan_mask 1.
Proof.
  constructor; auto; [|discriminate|apply mask_nonneg].
  exists (arg_of two_grid), false, (Some (Fin 1)), (GAtom two_atom), two_me. split; [|split; [|split]].
  - exact two_integrator.
  - exact two_views.
  - exact two_base.
  - reflexivity.
Qed.

Lemma two_scipy_init (b : bool) : scipy_init (arg_of two_grid) (map Fin [1; 1]) (GAtom two_atom) (MInst two_me)
    (if b then "SLSQP" else "trust-constr")%string None (Some (Fin 1)) false (Fin nan_mask) = Ok (two_scipy b).
Proof.
  unfold scipy_init. change (ga_points (arg_of two_grid)) with (Some (A1 [Fin (1/2); Fin 1])).
  change (g_points (GAtom two_atom)) with (A1 [Fin (1/2); Fin 1]). cbv iota.
  assert (P : points_differ (A1 [Fin (1/2); Fin 1]) (A1 [Fin (1/2); Fin 1]) = Ok false).
  { apply (points_same_1d [1/2; 1] [1/2; 1] eq_refl). intros i _. rewrite Rminus_eq_0, Rabs_R0. apply mask_nonneg. }
  rewrite P. cbn [bind].
  rewrite two_base. destruct b; reflexivity.
Qed.

Lemma two_scipy_setting (b : bool) : scipy_setting (two_scipy b) two_me two_W [1; 1] [1; 1] true two_lays 1.
Proof.
  constructor; auto; [|discriminate].
  exists (arg_of two_grid), false, (Some (Fin 1)), (GAtom two_atom), None,
    (if b then "SLSQP" else "trust-constr")%string, nan_mask.
  split; [|split; [|split; [|split]]].
  - exact two_integrator.
  - exact two_views.
  - apply two_scipy_init.
  - reflexivity.
  - reflexivity.
Qed.

Lemma two_supported : supported two_W [1; 1] two_lays (nfun two_lays).
Proof.
  intros k Hk. cbn in Hk. exists 1%nat. cbn [length nth two_W]. split; [lia|]. split; [lra|]. split; [lra|].
  destruct k as [|[|k]]; [| |lia]; cbn; rewrite Rabs_R1; lra.
Qed.
Lemma two_nonneg : nonneg two_W.
Proof. repeat constructor; lra. Qed.
Lemma two_positive : positive [1; 1] /\ positive [1/3; 2/3].
Proof. split; repeat constructor; lra. Qed.
Lemma two_pos_e a : 0 < a -> positive [a; a].
Proof. repeat constructor; auto. Qed.
Lemma two_sized a b c d : sized two_lays [a; b] [c; d].
Proof. split; reflexivity. Qed.

Definition two_r (i : nat) : R := match i with O => 1/2 | _ => 1 end.
Lemma two_lay i : (i < 2)%nat -> nth i two_lays [] = lay_atom 2 0 (two_r i).
Proof. intros Hi. destruct i as [|[|i]]; [| |lia]; cbn [two_lays map nth two_r]; rewrite Rabs_right by lra; reflexivity. Qed.

Lemma two_gsum a i : (i < 2)%nat ->
  gsum true (nth i two_lays []) [1/3; 2/3] [a; a] = basis_fn true false a (two_r i).
Proof.
  intros Hi. rewrite two_lay by auto.
  change (gsum true (lay_atom 2 0 (two_r i)) [1/3; 2/3] [a; a]) with
    (1/3 * basis_fn true false a (two_r i) + (2/3 * basis_fn true false a (two_r i) + 0)). field.
Qed.
Lemma two_value a i : (i < 2)%nat ->
  nth i (values true two_lays [1/3; 2/3] [a; a]) 0 = basis_fn true false a (two_r i).
Proof.
  intros Hi. rewrite <- two_gsum by auto. destruct i as [|[|i]]; [| |lia]; reflexivity.
Qed.

Lemma kept_more f g g' : 0 <= g -> g <= g' -> kept nan_mask f g -> kept nan_mask f g'.
Proof. intros H H1 [A B]. rewrite (Rabs_right g) in B by lra. split; [lra|]. rewrite (Rabs_right g') by lra. lra. Qed.

Lemma two_large a i : a = PI \/ a = 12/5 -> (i < 2)%nat -> exp (- (4)) <= basis_fn true false a (two_r i).
Proof.
  intros Ha Hi. assert (Hr : two_r i ^ 2 <= 1) by (destruct i as [|[|i]]; cbn [two_r]; lra).
  assert (Hr0 : 0 <= two_r i ^ 2) by apply pow2_ge_0.
  pose proof PI_RGT_0. pose proof PI_4. unfold basis_fn. rewrite Rmult_1_r.
  assert (EX : forall x y, x <= y -> exp x <= exp y).
  { intros x y Hxy. destruct (Rle_lt_or_eq_dec _ _ Hxy); [left; now apply exp_increasing|subst; lra]. }
  destruct Ha as [-> | ->].
  - replace (norm_const false PI) with 1.
    + rewrite Rmult_1_l. apply EX. nra.
    + unfold norm_const. replace (PI / PI) with 1 by (field; lra). unfold Rpower. rewrite ln_1, Rmult_0_r, exp_0. auto.
  - apply Rle_trans with (exp (- (8/5)) * exp (- (12/5))); [rewrite <- exp_plus; apply EX; lra|].
    apply Rmult_le_compat; try (left; apply exp_pos); [|apply EX; nra].
    assert (Q : 3/5 <= 12/5/PI) by (apply (proj1 (Rle_div_r (3/5) (12/5) PI ltac:(lra))); lra).
    apply Rle_trans with ((3/5) ^ 2).
    + rewrite exp_Ropp. apply Rle_trans with (/ (9/5) ^ 2); [apply Rinv_le_contravar; [lra|]|lra].
      replace (8/5) with (4/5 + 4/5) by lra. rewrite exp_plus. pose proof (exp_ineq1_le (4/5)). nra.
    + unfold norm_const.
      apply Rle_trans with (Rpower (3/5) (3/2)); [|apply Rle_Rpower_l; lra].
      replace ((3/5) ^ 2) with (Rpower (3/5) (INR 2)) by (rewrite Rpower_pow; lra).
      unfold Rpower. apply EX. cbn [INR].
      assert (ln (3/5) < 0) by (rewrite <- ln_1; apply ln_increasing; lra). lra.
Qed.

Lemma two_kept a i : a = PI \/ a = 12/5 -> (i < 2)%nat -> kept nan_mask 1 (basis_fn true false a (two_r i)).
Proof.
  intros Ha Hi. apply (kept_more 1 (exp (- (4)))); [left; apply exp_pos|now apply two_large|].
  apply kept_exp; lra.
Qed.

Lemma two_above a : a = PI \/ a = 12/5 -> all_above nan_mask [1; 1] (values true two_lays [1/3; 2/3] [a; a]).
Proof.
  intros Ha i Hi. cbn in Hi. rewrite two_value by auto.
  replace (nth i [1; 1] 0) with 1 by (destruct i as [|[|i]]; auto; lia). now apply two_kept.
Qed.

Lemma two_term a i k F : a = PI \/ a = 12/5 -> (i < 2)%nat -> (k < 2)%nat ->
  nth i two_W 0 * (kl_ratio nan_mask (nth i [1; 1] 0) (gsum true (nth i two_lays []) [1/3; 2/3] [a; a]) *
    basis_fn true (kind (nth i two_lays []) k) (nth k [a; a] 0) (away (nth i two_lays []) k) * F) = 1/4 * F.
Proof.
  intros Ha Hi Hk. rewrite two_gsum by auto.
  replace (nth i [1; 1] 0) with 1 by (destruct i as [|[|i]]; auto; lia).
  rewrite kl_ratio_kept by now apply two_kept. rewrite two_lay by auto.
  replace (basis_fn true (kind (lay_atom 2 0 (two_r i)) k) (nth k [a; a] 0) (away (lay_atom 2 0 (two_r i)) k))
    with (basis_fn true false a (two_r i)) by (destruct k as [|[|k]]; [| |lia]; reflexivity).
  pose proof (two_large a i Ha Hi). pose proof (exp_pos (- (4))).
  replace (nth i two_W 0) with (1/4) by (destruct i as [|[|i]]; auto; lia). field. lra.
Qed.

Lemma two_avg1 a k : a = PI \/ a = 12/5 -> (k < 2)%nat ->
  avg1 nan_mask two_W [1; 1] true two_lays [1/3; 2/3] [a; a] k = 1/2.
Proof.
  intros Ha Hk. unfold avg1. cbv zeta.
  transitivity (sumn 2 (fun _ => 1/4 * 1)); [|unfold sumn, rsum; cbn; field].
  apply sumn_ext. intros i Hi. rewrite <- (two_term a i k 1 Ha Hi Hk). rewrite Rmult_1_r. reflexivity.
Qed.
Lemma two_avg2 a k : a = PI \/ a = 12/5 -> (k < 2)%nat ->
  avg2 nan_mask two_W [1; 1] true two_lays [1/3; 2/3] [a; a] k = 5/16.
Proof.
  intros Ha Hk. unfold avg2. cbv zeta.
  transitivity (sumn 2 (fun i => 1/4 * away (nth i two_lays []) k ^ 2)).
  - apply sumn_ext. intros i Hi. apply (two_term a i k _ Ha Hi Hk).
  - unfold sumn, rsum. cbn [seq map fold_right]. rewrite !two_lay by lia.
    destruct k as [|[|k]]; [| |lia].
    + change (away (lay_atom 2 0 (two_r 0)) 0) with (1/2). change (away (lay_atom 2 0 (two_r 1)) 0) with 1. field.
    + change (away (lay_atom 2 0 (two_r 0)) 1) with (1/2). change (away (lay_atom 2 0 (two_r 1)) 1) with 1. field.
Qed.

(** One update moves the exponents from pi to 12/5, where they stay. *)
Lemma two_update a uc : a = PI \/ a = 12/5 ->
  update_params two_fpi (map Fin [1/3; 2/3]) (map Fin [a; a]) uc true =
  Ok (map Fin [1/3; 2/3], map Fin [12/5; 12/5]).
Proof.
  intros Ha. assert (Hp : 0 < a) by (destruct Ha as [-> | ->]; [apply PI_RGT_0|lra]).
  destruct (update_formula two_fpi _ _ _ _ _ _ [1/3; 2/3] [a; a] uc true two_setting) as (c' & e' & E & [L1 L2] & Hc & He).
  - apply two_sized.
  - repeat constructor; lra.
  - intros _. now apply two_pos_e.
  - apply orb_true_r.
  - intros _ k Hk. rewrite two_avg2; auto. lra.
  - rewrite E. destruct c' as [|x [|x' [|? ?]]]; try discriminate. destruct e' as [|y [|y' [|? ?]]]; try discriminate.
    pose proof (Hc 0%nat ltac:(cbn; lia)) as Hc0. pose proof (Hc 1%nat ltac:(cbn; lia)) as Hc1.
    pose proof (He 0%nat ltac:(cbn; lia)) as He0. pose proof (He 1%nat ltac:(cbn; lia)) as He1.
    rewrite !two_avg1 in Hc0, Hc1, He0, He1 by (auto; lia). rewrite !two_avg2 in He0, He1 by (auto; lia).
    cbn [nth] in *. unfold quad, rsum in *. cbn in Hc0, Hc1. unfold half_power in *. cbn in He0, He1.
    cbn [map]. clear E Hc He L1 L2. subst y y'. replace x with (1/3) by (rewrite Hc0; destruct uc; field).
    replace x' with (2/3) by (rewrite Hc1; destruct uc; field). do 2 f_equal; f_equal; try (f_equal; field); f_equal; f_equal; field.
Qed.

Lemma two_iterate n uc : iterate two_fpi uc true (S n) (map Fin [1/3; 2/3]) (map Fin [PI; PI]) =
  Ok (map Fin [1/3; 2/3], map Fin [12/5; 12/5]).
Proof.
  induction n as [|n IH].
  - cbn [iterate bind fst snd]. now apply two_update; left.
  - cbn [iterate] in *. rewrite IH. cbn [bind fst snd]. now apply two_update; right.
Qed.

Lemma two_iterate_above j cj ej uc :
  iterate two_fpi uc true j (map Fin [1/3; 2/3]) (map Fin [PI; PI]) = Ok (map Fin cj, map Fin ej) ->
  all_above nan_mask [1; 1] (values true two_lays cj ej).
Proof.
  destruct j as [|j]; [cbn [iterate]|rewrite two_iterate]; intros H; inversion H as [[H1 H2]];
    apply (map_Fin_inj [_; _]) in H1; apply (map_Fin_inj [_; _]) in H2; subst; apply two_above; auto.
Qed.

Lemma two_smooth a : a = PI \/ a = 12/5 -> all_smooth two_me [1; 1] (values true two_lays [1/3; 2/3] [a; a]).
Proof.
  intros Ha i Hi. split; [apply mask_nonneg|]. split; [|now apply two_above].
  cbn in Hi. destruct i as [|[|i]]; [| |lia]; cbn; lra.
Qed.

Lemma two_val_nonneg a : a = PI \/ a = 12/5 -> nonneg (values true two_lays [1/3; 2/3] [a; a]).
Proof.
  intros Ha. pose proof (two_large a 0 Ha ltac:(lia)). pose proof (two_large a 1 Ha ltac:(lia)). pose proof (exp_pos (- (4))).
  pose proof (two_value a 0 ltac:(lia)) as E0. pose proof (two_value a 1 ltac:(lia)) as E1.
  unfold values in *. cbn [two_lays map nth] in *. constructor; [rewrite E0; lra|]. constructor; [rewrite E1; lra|constructor].
Qed.
