(** A fit with a grid point on the nucleus that never stops (C89). *)
From Coquelicot Require Import Coquelicot.
From Coq Require Import Reals List ZArith Lia Lra Bool.
From Verif Require Import XR SpecDens SpecMeas SpecGrid ModelDens ModelMeas ModelGrid ModelFit Lists ProofDens
  ProofDeriv ProofMeas SpecFit SpecStop SpecConv ProofFitView ProofFit ProofEM ProofFPI ProofFPI2 ProofFPI3 ProofFPI4 ProofFPI5
  ProofScipy ProofFitEx ProofConv ProofConv2.
Import ListNotations.
Local Open Scope R_scope.

(** ** The problem: two normalized s-type functions on the radial grid 0, 1; density 1 *)
Definition core_atom : atomic := mkAtomic (A1 [Fin 0; Fin 1]) [Fin 0] [Fin 0; Fin 1] 2 0 true.
Definition core_grid : grid := radial_grid [Fin 0; Fin 1].
Definition core_fit : fit := mkFit core_grid [Fin 1; Fin 1] (GAtom core_atom) two_me false (Fin 2) (Fin nan_mask).
Definition core_fpi : fpi := mkFpi core_fit (Fin (1/2)).
Definition core_lays : list (list (bool * R)) := map (lay_atom 2 0) (map Rabs [0; 1]).
Definition core_W : list R := [1/2; 1/2].

Lemma core_int y : length y = 2%nat -> gr_integrate core_grid (map Fin y) = Ok (Fin (rdot core_W y)).
Proof.
  destruct y as [|u [|v [|? ?]]]; try discriminate. intros _.
  cbn. rewrite reqb_false by lra. cbn. do 2 f_equal. unfold rdot, rsum. cbn. field.
Qed.

Lemma core_base : base_init (arg_of core_grid) (map Fin [1; 1]) (GAtom core_atom) two_me (Some (Fin 2)) false (Fin nan_mask) = Ok core_fit.
Proof.
  unfold base_init, arg_of. cbn [map existsb xltb ga_points ga_integrate].
  rewrite !rltb_false by lra. reflexivity.
Qed.

Lemma core_init : fpi_init (arg_of core_grid) (map Fin [1; 1]) (GAtom core_atom) (Fin nan_mask) (Some (Fin 2)) false = Ok core_fpi.
Proof.
  destruct (fpi_accepts (arg_of core_grid) (map Fin [1; 1]) (GAtom core_atom) (Fin nan_mask) (Some (Fin 2)) false
    core_fit (Fin 1) core_base) as [_ H].
  - unfold fit_integrate, integrate_with. cbn [ft_spherical ft_grid core_fit]. rewrite core_int by reflexivity.
    unfold rdot, rsum. cbn. do 2 f_equal. field.
  - cbn in H. rewrite reqb_false in H by lra.
    apply H; [|discriminate]. intros E. injection E. lra.
Qed.

Lemma core_atom_init : atomic_init (VArr (A1 (map Fin [0; 1]))) VNone (VInt 2) (VInt 0) true = Ok core_atom.
Proof.
  cbn. unfold core_atom. replace (Rabs (0 + - 0)) with 0 by (rewrite Rabs_right; lra).
  replace (Rabs (1 + - 0)) with 1 by (rewrite Rabs_right; lra). reflexivity.
Qed.

Lemma core_setting : fpi_setting core_fpi core_W [1; 1] true core_lays nan_mask 2.
Proof.
  constructor; auto; [|apply mask_nonneg].
  exists (arg_of core_grid), false, (Some (Fin 2)), (GAtom core_atom). split; [|split; [|split]].
  - apply int_plain. intros y Hy. now apply core_int.
  - apply (views_atom (A1 (map Fin [0; 1])) VNone _ 2 0 true); [apply geom_1d_default|lia|exact core_atom_init].
  - exact core_init.
  - reflexivity.
Qed.

Lemma core_supported : supported core_W [1; 1] core_lays (nfun core_lays).
Proof.
  intros k Hk. cbn in Hk. exists 1%nat. cbn [length nth core_W]. split; [lia|]. split; [lra|]. split; [lra|].
  destruct k as [|[|k]]; [| |lia]; cbn; rewrite Rabs_R1; lra.
Qed.

(** ** Values at the two points *)
Definition top (a : R) : R := Rpower (a / PI) (3/2).
Definition side (a : R) : R := top a * exp (- a).
Definition core_b (i : nat) (a : R) : R := match i with O => top a | _ => side a end.

Lemma core_basis i k a : (i < 2)%nat -> (k < 2)%nat ->
  basis_fn true (kind (nth i core_lays []) k) a (away (nth i core_lays []) k) = core_b i a.
Proof.
  intros Hi Hk. assert (E : kind (nth i core_lays []) k = false /\ away (nth i core_lays []) k = INR i).
  { destruct i as [|[|i]]; [| |lia]; (destruct k as [|[|k]]; [| |lia]); cbn; rewrite ?Rabs_R0, ?Rabs_R1; auto. }
  destruct E as [-> ->]. unfold basis_fn, norm_const, core_b, side, top.
  destruct i as [|[|i]]; [| |lia]; cbn [INR].
  - replace (- a * 0 ^ 2) with 0 by ring. rewrite exp_0. ring.
  - replace (- a * 1 ^ 2) with (- a) by ring. ring.
Qed.
Lemma core_gsum i a b : (i < 2)%nat -> gsum true (nth i core_lays []) [1; 1] [a; b] = core_b i a + core_b i b.
Proof.
  intros Hi. pose proof (core_basis i 0 a Hi ltac:(lia)) as E0. pose proof (core_basis i 1 b Hi ltac:(lia)) as E1.
  rewrite <- E0, <- E1. destruct i as [|[|i]]; [| |lia]; cbn [core_lays map nth].
  - change (gsum true (lay_atom 2 0 (Rabs 0)) [1; 1] [a; b]) with
      (1 * basis_fn true false a (Rabs 0) + (1 * basis_fn true false b (Rabs 0) + 0)).
    change (kind (lay_atom 2 0 (Rabs 0)) 0) with false. change (kind (lay_atom 2 0 (Rabs 0)) 1) with false.
    change (away (lay_atom 2 0 (Rabs 0)) 0) with (Rabs 0). change (away (lay_atom 2 0 (Rabs 0)) 1) with (Rabs 0). ring.
  - change (gsum true (lay_atom 2 0 (Rabs 1)) [1; 1] [a; b]) with
      (1 * basis_fn true false a (Rabs 1) + (1 * basis_fn true false b (Rabs 1) + 0)).
    change (kind (lay_atom 2 0 (Rabs 1)) 0) with false. change (kind (lay_atom 2 0 (Rabs 1)) 1) with false.
    change (away (lay_atom 2 0 (Rabs 1)) 0) with (Rabs 1). change (away (lay_atom 2 0 (Rabs 1)) 1) with (Rabs 1). ring.
Qed.

Lemma exp_mono x y : x <= y -> exp x <= exp y.
Proof. intros [H| ->]; [left; now apply exp_increasing|lra]. Qed.

Lemma top_pos a : 0 < top a.
Proof. apply Rpower_pos. Qed.
Lemma side_pos a : 0 < side a.
Proof. apply Rmult_lt_0_compat; [apply top_pos|apply exp_pos]. Qed.
Lemma core_b_pos i a : 0 < core_b i a.
Proof. destruct i; [apply top_pos|apply side_pos]. Qed.

Lemma side_large b : 3/2 <= b <= 3 -> exp (- (4)) <= side b.
Proof.
  intros Hb. unfold side, top, Rpower. rewrite <- exp_plus. apply exp_mono.
  pose proof PI_RGT_0. pose proof PI_4.
  assert (P : 0 < PI / b) by (apply Rdiv_lt_0_compat; lra).
  pose proof (ln_le_sub _ P) as L. rewrite ln_div in L by lra. rewrite ln_div by lra.
  assert (Q : PI / b <= 4 / b) by (apply Rmult_le_compat_r; [left; apply Rinv_0_lt_compat; lra|auto]).
  assert (Q2 : 3/2 * (4 / b) <= 11/2 - b).
  { apply Rmult_le_reg_r with b; [lra|]. replace (3/2 * (4 / b) * b) with 6 by (field; lra). nra. }
  lra.
Qed.
Lemma core_b_large i b : 3/2 <= b <= 3 -> exp (- (4)) <= core_b i b.
Proof.
  intros Hb. pose proof (side_large b Hb). destruct i; cbn [core_b]; auto. unfold side in H.
  pose proof (top_pos b). assert (exp (- b) <= 1) by (rewrite <- exp_0; apply exp_mono; lra). nra.
Qed.

Lemma core_kept i a b : 3/2 <= b <= 3 -> kept nan_mask 1 (core_b i a + core_b i b).
Proof.
  intros Hb. apply (kept_more 1 (exp (- (4)))); [left; apply exp_pos| |apply kept_exp; lra].
  pose proof (core_b_large i b Hb). pose proof (core_b_pos i a). lra.
Qed.

Lemma core_above a b : 3/2 <= b <= 3 -> all_above nan_mask [1; 1] (values true core_lays [1; 1] [a; b]).
Proof.
  intros Hb i Hi. cbn [length] in Hi. rewrite nth_values, core_gsum by (auto; cbn; lia).
  replace (nth i [1; 1] 0) with 1 by (destruct i as [|[|i]]; auto; lia). now apply core_kept.
Qed.

(** ** One update *)
Definition next (x a b : R) : R := 3/2 * (1 + top x / (top a + top b) * ((side a + side b) / side x)).

Lemma core_avg1 a b k : 3/2 <= b <= 3 -> (k < 2)%nat ->
  avg1 nan_mask core_W [1; 1] true core_lays [1; 1] [a; b] k =
  1/2 * (top (nth k [a; b] 0) / (top a + top b) + side (nth k [a; b] 0) / (side a + side b)).
Proof.
  intros Hb Hk. unfold avg1. cbv zeta. unfold sumn, rsum. cbn [length core_W seq map fold_right nth].
  rewrite !core_basis, !core_gsum by lia.
  rewrite !kl_ratio_kept by now apply core_kept. cbn [core_b]. unfold Rdiv. ring.
Qed.
Lemma core_avg2 a b k : 3/2 <= b <= 3 -> (k < 2)%nat ->
  avg2 nan_mask core_W [1; 1] true core_lays [1; 1] [a; b] k =
  1/2 * (side (nth k [a; b] 0) / (side a + side b)).
Proof.
  intros Hb Hk. unfold avg2. cbv zeta. unfold sumn, rsum. cbn [length core_W seq map fold_right nth].
  assert (A0 : away (nth 0 core_lays []) k = 0) by (destruct k as [|[|k]]; [| |lia]; cbn; apply Rabs_R0).
  assert (A1 : away (nth 1 core_lays []) k = 1) by (destruct k as [|[|k]]; [| |lia]; cbn; apply Rabs_R1).
  rewrite !core_basis, !core_gsum by lia. cbn [nth] in A0, A1. cbn [core_lays map nth] in *. rewrite A0, A1.
  rewrite !kl_ratio_kept by now apply core_kept. cbn [core_b]. unfold Rdiv. ring.
Qed.

Lemma core_update a b : 0 < a -> 3/2 <= b <= 3 ->
  update_params core_fpi (map Fin [1; 1]) (map Fin [a; b]) false true = Ok (map Fin [1; 1], map Fin [next a a b; next b a b]).
Proof.
  intros Ha Hb. pose proof (side_pos a). pose proof (side_pos b). pose proof (top_pos a). pose proof (top_pos b).
  destruct (update_formula core_fpi _ _ _ _ _ _ [1; 1] [a; b] false true core_setting) as (c' & e' & E & [L1 L2] & Hc & He).
  - split; reflexivity.
  - repeat constructor; lra.
  - intros _. repeat constructor; lra.
  - reflexivity.
  - intros _ k Hk. rewrite core_avg2 by auto. apply Rgt_not_eq. apply Rmult_lt_0_compat; [lra|].
    apply Rdiv_lt_0_compat; [apply side_pos|lra].
  - rewrite E. destruct c' as [|x [|x' [|? ?]]]; try discriminate. destruct e' as [|y [|y' [|? ?]]]; try discriminate.
    pose proof (Hc 0%nat ltac:(cbn; lia)) as Hc0. pose proof (Hc 1%nat ltac:(cbn; lia)) as Hc1.
    pose proof (He 0%nat ltac:(cbn; lia)) as He0. pose proof (He 1%nat ltac:(cbn; lia)) as He1.
    rewrite core_avg1, core_avg2 in He0, He1 by (auto; lia). cbn [nth] in *.
    change (half_power (kind (hd [] core_lays) 0)) with (3/2) in He0. change (half_power (kind (hd [] core_lays) 1)) with (3/2) in He1.
    subst x x' y y'. cbn [map]. unfold next. do 2 f_equal. f_equal; [f_equal; field; lra|f_equal; f_equal; field; lra].
Qed.

(** ** Growth of the larger exponent *)
Lemma exp_cube a : 3000 <= a -> 2000 * a ^ 3 <= exp (a - 3).
Proof.
  intros Ha. replace (a - 3) with (5 * ((a - 3) / 5)) by field.
  pose proof (exp_ineq1_le ((a - 3) / 5)) as E. set (t := exp ((a - 3) / 5)) in *.
  assert (E5 : exp (5 * ((a - 3) / 5)) = t ^ 5).
  { unfold t. replace (5 * ((a - 3) / 5)) with ((a-3)/5 + ((a-3)/5 + ((a-3)/5 + ((a-3)/5 + (a-3)/5)))) by field.
    rewrite !exp_plus. ring. }
  rewrite E5. assert (T : a / 5 <= t) by lra.
  apply Rle_trans with ((a / 5) ^ 5); [|apply pow_incr; lra].
  replace ((a / 5) ^ 5) with (a ^ 3 * (a ^ 2 / 3125)) by field. rewrite Rmult_comm. apply Rmult_le_compat_l; [apply pow_le; lra|].
  assert (9000000 <= a ^ 2) by nra. lra.
Qed.

Lemma top_ratio x y : 0 < x -> 0 < y -> top x = Rpower (x / y) (3/2) * top y.
Proof.
  intros Hx Hy. pose proof PI_RGT_0. unfold top. rewrite Rpower_mult_distr by (apply Rdiv_lt_0_compat; auto).
  replace (x / PI) with (x / y * (y / PI)) at 1 by (field; lra). reflexivity.
Qed.
Lemma power_between x : 1 <= x -> x <= Rpower x (3/2) <= x ^ 2.
Proof.
  intros Hx. split.
  - rewrite <- (Rpower_1 x) at 1 by lra. apply Rle_Rpower; lra.
  - replace (x ^ 2) with (Rpower x (INR 2)) by (rewrite Rpower_pow; lra). apply Rle_Rpower; cbn [INR]; lra.
Qed.
Lemma power_small x : 0 < x <= 1 -> x ^ 2 <= Rpower x (3/2).
Proof.
  intros Hx. replace (x ^ 2) with (Rpower x (INR 2)) by (rewrite Rpower_pow; lra). unfold Rpower. apply exp_mono. cbn [INR].
  assert (ln x <= 0). { rewrite <- ln_1. destruct (proj2 Hx) as [H| ->]; [left; apply ln_increasing; lra|lra]. } lra.
Qed.

Lemma core_ratio a b : 3000 <= a -> 3/2 <= b <= 3 ->
  top b <= top a /\ top a <= a ^ 2 * top b /\ 2000 * a * side a <= side b.
Proof.
  intros Ha Hb. pose proof (top_pos b). pose proof (exp_pos (- b)).
  assert (AB : 1 <= a / b <= a).
  { split; apply Rmult_le_reg_r with b; try lra; replace (a / b * b) with a by (field; lra); nra. }
  rewrite (top_ratio a b) by lra. destruct (power_between (a / b) (proj1 AB)) as [P1 P2].
  set (q := Rpower (a / b) (3/2)) in *.
  assert (Q2 : q <= a ^ 2). { eapply Rle_trans; [exact P2|]. apply pow_incr. lra. }
  split; [nra|]. split; [now apply Rmult_le_compat_r; [lra|]|].
  unfold side. rewrite (top_ratio a b) by lra. fold q.
  assert (EX : exp (- a) = exp (- b) * exp (- (a - b))) by (rewrite <- exp_plus; f_equal; ring). rewrite EX.
  assert (K : 2000 * a * (q * exp (- (a - b))) <= 1).
  { rewrite exp_Ropp. pose proof (exp_cube a Ha) as EC. assert (EM : exp (a - 3) <= exp (a - b)) by (apply exp_mono; lra).
    pose proof (exp_pos (a - b)). apply Rmult_le_reg_r with (exp (a - b)); auto.
    replace (2000 * a * (q * / exp (a - b)) * exp (a - b)) with (2000 * (a * q)) by (field; lra).
    rewrite Rmult_1_l. apply Rle_trans with (2000 * a ^ 3); [|lra]. simpl. nra. }
  replace (2000 * a * (q * top b * (exp (- b) * exp (- (a - b))))) with
    (top b * exp (- b) * (2000 * a * (q * exp (- (a - b))))) by ring.
  rewrite <- (Rmult_1_r (top b * exp (- b))) at 2. apply Rmult_le_compat_l; auto. left. now apply Rmult_lt_0_compat.
Qed.

Lemma core_next a b : 3000 <= a -> 3/2 <= b <= 3 -> 1000 * a <= next a a b /\ 3/2 <= next b a b <= 3.
Proof.
  intros Ha Hb. destruct (core_ratio a b Ha Hb) as (R1 & R2 & R3).
  pose proof (side_pos a) as Sa. pose proof (side_pos b) as Sb. pose proof (top_pos a) as Ta. pose proof (top_pos b) as Tb.
  unfold next. split; [|split].
  - assert (H1 : 1/2 <= top a / (top a + top b)).
    { apply Rmult_le_reg_r with (top a + top b); [lra|]. replace (top a / (top a + top b) * (top a + top b)) with (top a) by (field; lra). lra. }
    assert (H2 : 2000 * a <= (side a + side b) / side a).
    { apply Rmult_le_reg_r with (side a); auto. replace ((side a + side b) / side a * side a) with (side a + side b) by (field; lra). lra. }
    assert (1/2 * (2000 * a) <= top a / (top a + top b) * ((side a + side b) / side a)) by (apply Rmult_le_compat; lra). lra.
  - assert (0 <= top b / (top a + top b) * ((side a + side b) / side b)); [|lra].
    apply Rmult_le_pos; left; apply Rdiv_lt_0_compat; lra.
  - assert (H1 : top b / (top a + top b) <= 1/2).
    { apply Rmult_le_reg_r with (top a + top b); [lra|]. replace (top b / (top a + top b) * (top a + top b)) with (top b) by (field; lra). lra. }
    assert (S2 : side a <= side b) by nra.
    assert (H2 : (side a + side b) / side b <= 2).
    { apply Rmult_le_reg_r with (side b); auto. replace ((side a + side b) / side b * side b) with (side a + side b) by (field; lra). lra. }
    assert (top b / (top a + top b) * ((side a + side b) / side b) <= 1/2 * 2); [|lra].
    apply Rmult_le_compat; auto; left; apply Rdiv_lt_0_compat; lra.
Qed.

(** The divergence falls by more than 1/3. *)
Lemma core_kl a b : kl_sum core_W [1; 1] (values true core_lays [1; 1] [a; b]) =
  - (ln (top a + top b) + ln (side a + side b)) / 2.
Proof.
  pose proof (side_pos a). pose proof (side_pos b). pose proof (top_pos a). pose proof (top_pos b).
  rewrite kl_sum_sumn by reflexivity. unfold sumn. cbn [length core_W seq map]. rewrite !nth_values, !core_gsum by (cbn; lia).
  unfold rsum, kl_fn. cbn [fold_right nth core_b]. rewrite !ln_div, ln_1 by lra. unfold core_W. cbn [nth]. field.
Qed.

Lemma core_drop a b a' b' : 3000 <= a -> 3/2 <= b <= 3 -> 1000 * a <= a' -> 3/2 <= b' <= 3 ->
  1/3 < kl_sum core_W [1; 1] (values true core_lays [1; 1] [a; b]) - kl_sum core_W [1; 1] (values true core_lays [1; 1] [a'; b']).
Proof.
  intros Ha Hb Ha' Hb'. rewrite !core_kl. destruct (core_ratio a b Ha Hb) as (R1 & R2 & R3).
  pose proof (side_pos a) as Sa. pose proof (side_pos b) as Sb. pose proof (top_pos a) as Ta. pose proof (top_pos b) as Tb.
  pose proof (side_pos a') as Sa'. pose proof (side_pos b') as Sb'. pose proof (top_pos a') as Ta'. pose proof (top_pos b') as Tb'.
  assert (S2 : side a <= side b) by nra.
  assert (T : 500 * (top a + top b) <= top a' + top b').
  { assert (AA : 1000 <= a' / a).
    { apply Rmult_le_reg_r with a; [lra|]. replace (a' / a * a) with a' by (field; lra). lra. }
    rewrite (top_ratio a' a) by lra. destruct (power_between (a' / a) ltac:(lra)) as [P _]. nra. }
  assert (S : side a + side b <= 72 * (side a' + side b')).
  { assert (K : side b <= 36 * side b'); [|lra].
    unfold side. rewrite (top_ratio b' b) by lra.
    assert (BB : 1/2 <= b' / b).
    { apply Rmult_le_reg_r with b; [lra|]. replace (b' / b * b) with b' by (field; lra). lra. }
    assert (Q : 1/4 <= Rpower (b' / b) (3/2)).
    { destruct (Rle_lt_dec 1 (b' / b)) as [G|G].
      - destruct (power_between _ G). lra.
      - pose proof (power_small (b' / b) ltac:(lra)). nra. }
    assert (X : exp (- b) <= 9 * exp (- b')).
    { apply Rle_trans with (exp 2 * exp (- b')); [rewrite <- exp_plus; apply exp_mono; lra|].
      apply Rmult_le_compat_r; [left; apply exp_pos|]. replace 2 with (1 + 1) by ring. rewrite exp_plus.
      pose proof exp_le_3. pose proof (exp_pos 1). nra. }
    pose proof (exp_pos (- b')). pose proof (exp_pos (- b)).
    apply Rle_trans with (top b * (9 * exp (- b'))); [apply Rmult_le_compat_l; lra|].
    replace (36 * (Rpower (b' / b) (3/2) * top b * exp (- b'))) with (Rpower (b' / b) (3/2) * 36 * (top b * exp (- b'))) by ring.
    replace (top b * (9 * exp (- b'))) with (9 * (top b * exp (- b'))) by ring.
    apply Rmult_le_compat_r; [left; now apply Rmult_lt_0_compat|lra]. }
  set (m := top a + top b) in *. set (s := side a + side b) in *. set (m' := top a' + top b') in *. set (s' := side a' + side b') in *.
  assert (Hm : 0 < m) by (unfold m; lra). assert (Hs : 0 < s) by (unfold s; lra).
  assert (Hm' : 0 < m') by (unfold m'; lra). assert (Hs' : 0 < s') by (unfold s'; lra).
  assert (P : 0 < m * s / (m' * s')) by (apply Rdiv_lt_0_compat; now apply Rmult_lt_0_compat).
  pose proof (ln_le_sub _ P) as L. rewrite ln_div, !ln_mult in L by (auto; now apply Rmult_lt_0_compat).
  assert (Q : m * s / (m' * s') <= 72 / 500).
  { apply Rmult_le_reg_r with (m' * s'); [now apply Rmult_lt_0_compat|].
    replace (m * s / (m' * s') * (m' * s')) with (m * s) by (field; lra).
    replace (72 / 500 * (m' * s')) with (m' / 500 * (72 * s')) by field. apply Rmult_le_compat; lra. }
  lra.
Qed.

(** ** All updates *)
Lemma core_iterates n : exists a b, iterate core_fpi false true n (map Fin [1; 1]) (map Fin [3000; 2]) = Ok (map Fin [1; 1], map Fin [a; b]) /\
  3000 * 1000 ^ n <= a /\ 3/2 <= b <= 3.
Proof.
  induction n as [|n (a & b & I & Ha & Hb)]; [exists 3000, 2; split; [reflexivity|]; simpl; lra|].
  assert (H1 : 1 <= 1000 ^ n) by (apply pow_R1_Rle; lra).
  assert (A : 3000 <= a) by nra. destruct (core_next a b A Hb) as [N1 N2].
  exists (next a a b), (next b a b). cbn [iterate]. rewrite I. cbn [bind fst snd]. rewrite core_update by (auto; lra).
  split; [reflexivity|]. split; [simpl; nra|auto].
Qed.

Lemma core_step n : exists a b a' b',
  iterate core_fpi false true n (map Fin [1; 1]) (map Fin [3000; 2]) = Ok (map Fin [1; 1], map Fin [a; b]) /\
  iterate core_fpi false true (S n) (map Fin [1; 1]) (map Fin [3000; 2]) = Ok (map Fin [1; 1], map Fin [a'; b']) /\
  3000 <= a /\ 3/2 <= b <= 3 /\ 1000 * a <= a' /\ 3/2 <= b' <= 3.
Proof.
  destruct (core_iterates n) as (a & b & I & Ha & Hb).
  assert (H1 : 1 <= 1000 ^ n) by (apply pow_R1_Rle; lra).
  assert (A : 3000 <= a) by nra. destruct (core_next a b A Hb) as [N1 N2].
  exists a, b, (next a a b), (next b a b). cbn [iterate]. rewrite I. cbn [bind fst snd]. rewrite core_update by (auto; lra).
  auto 10.
Qed.

Lemma change_fin u v d : length u = length v -> u <> [] -> change (map Fin u) (map Fin v) d ->
  exists x, d = Fin x /\ is_max (map2 (fun x y => Rabs (x - y)) u v) x.
Proof.
  intros L Hn (l & A & M). rewrite abs_diff_fin in A by auto. injection A as <-.
  destruct (np_max_fin (map2 (fun x y => Rabs (x - y)) u v)) as (x & E & Hx).
  - destruct u, v; try discriminate; congruence.
  - rewrite E in M. injection M as <-. eauto.
Qed.

Lemma core_unfinished n dc de dd : moved core_fpi false true (map Fin [1; 1]) (map Fin [3000; 2]) n dc de dd -> unfinished default_thr dc de dd.
Proof.
  assert (E6 : 0 < 1 / 10 ^ 6 < 1/3).
  { split; [apply Rdiv_lt_0_compat; [lra|apply pow_lt; lra]|]. unfold Rdiv. rewrite !Rmult_1_l. apply Rinv_lt_contravar; lra. }
  intros M. destruct n as [|n]; cbn [moved] in M.
  - destruct M as (-> & -> & ->). split; [left|]; reflexivity.
  - destruct M as (cp & ep & cn & en & I1 & I2 & C1 & C2 & M).
    destruct (core_step n) as (a & b & a' & b' & J1 & J2 & Ha & Hb & Ha' & Hb').
    rewrite I1 in J1. injection J1 as -> ->. rewrite I2 in J2. injection J2 as -> ->.
    destruct (change_fin [a'; b'] [a; b] de eq_refl ltac:(discriminate) C2) as (x & -> & _ & Mx). cbn [map2] in Mx.
    specialize (Mx (Rabs (a' - a)) (or_introl eq_refl)). rewrite Rabs_right in Mx by lra.
    split.
    + right. cbn. unfold rltb. destruct (Rlt_dec _ _) as [|G]; auto. exfalso. apply G. lra.
    + destruct n as [|n]; [rewrite M; reflexivity|]. destruct M as (u & v & Vu & Vv & ->).
      assert (P2 : forall x y : R, 0 < x -> 0 < y -> positive [x; y]) by (intros; constructor; [auto|constructor; [auto|constructor]]).
      pose proof (value_fin _ _ _ _ _ _ _ [1; 1] [3000; 2] false true (S n) [1; 1] [a; b] u core_setting (P2 1 1 ltac:(lra) ltac:(lra))
        (conj eq_refl eq_refl) (P2 a b ltac:(lra) ltac:(lra)) (core_above a b Hb) I1 Vu) as ->.
      pose proof (value_fin _ _ _ _ _ _ _ [1; 1] [3000; 2] false true (S (S n)) [1; 1] [a'; b'] v core_setting (P2 1 1 ltac:(lra) ltac:(lra))
        (conj eq_refl eq_refl) (P2 a' b' ltac:(lra) ltac:(lra)) (core_above a' b' Hb') I2 Vv) as ->.
      pose proof (core_drop a b a' b' Ha Hb Ha' Hb') as D.
      cbn [default_thr th_d xsub xneg xadd xabs xltb]. unfold rltb. destruct (Rlt_dec _ _) as [|G]; auto. exfalso. apply G.
      rewrite Rabs_left1 by lra. lra.
Qed.

Lemma core_endless maxiter : (0 < maxiter)%Z -> exists r a b,
  fpi_run core_fpi (VArr (A1 (map Fin [1; 1]))) (VArr (A1 (map Fin [3000; 2]))) false true maxiter default_thr = Ok r /\
  Z.of_nat (length (r_fun r)) = maxiter /\ r_success r = false /\ r_exps r = map Fin [a; b] /\ 3000 * 1000 ^ Z.to_nat maxiter <= a.
Proof.
  intros Hm.
  destruct (run_positive core_fpi core_W [1; 1] true core_lays nan_mask 2 [1; 1] [3000; 2] false true maxiter default_thr) as (r & c' & e' & Hr & _);
    [apply core_setting|lra|repeat constructor; lra|repeat constructor; lra|apply core_supported|reflexivity|split; reflexivity|repeat constructor; lra|repeat constructor; lra|].
  destruct (run_consistent _ _ _ _ _ _ _ _ Hr) as (c & e & E1 & E2 & Hle & _ & I & _). injection E1 as <-. injection E2 as <-.
  destruct (run_stops _ _ _ _ _ _ _ _ Hr) as (_ & dc & de & dd & M & St & Fl).
  pose proof (core_unfinished _ _ _ _ M) as U.
  assert (N : Z.of_nat (length (r_fun r)) = maxiter).
  { destruct (Z.lt_ge_cases (Z.of_nat (length (r_fun r))) maxiter) as [L|L]; [exfalso; exact (St L U)|lia]. }
  destruct (core_iterates (length (r_fun r))) as (a & b & J & Ha & _).
  assert (X := eq_trans (eq_sym I) J). injection X as _ I2.
  exists r, a, b. split; auto. split; auto. split; [apply Fl; right; split; [auto|apply U]|].
  split; [exact I2|]. rewrite <- N, Nat2Z.id. exact Ha.
Qed.
