(** Misleading success flags (C48) and the fixed point of unnormalised models (C46). *)
From Coq Require Import Reals List ZArith Lia Lra Bool.
From Verif Require Import XR SpecDens SpecMeas SpecGrid ModelDens ModelMeas ModelGrid ModelFit Lists ProofDens
  ProofMeas ProofGrid SpecFit ProofFitView ProofFit ProofEM ProofFPI ProofFPI2.
Import ListNotations.
Local Open Scope R_scope.

(** A negative iteration limit: success without doing anything. *)
Lemma run_negative fp c e oc oe maxiter th :
  Z.of_nat (length c) = g_nbasis (ft_model (fp_fit fp)) ->
  Z.of_nat (length e) = g_nbasis (ft_model (fp_fit fp)) -> (maxiter < 0)%Z ->
  fpi_run fp (VArr (A1 c)) (VArr (A1 e)) oc oe maxiter th = Ok (mkFpiRes c e [] true []).
Proof.
  intros Hc He Hm. unfold fpi_run. rewrite Hc, He, Z.eqb_refl. cbn [negb].
  replace (Z.to_nat maxiter) with 0%nat by lia. cbn [fpi_loop bind st_niter st_dd].
  replace (maxiter =? 0)%Z with false by (symmetry; apply Z.eqb_neq; lia). reflexivity.
Qed.

(** A limit of one iteration is never a success, even when the parameters do not move. *)
Lemma run_one fp c0 e0 oc oe th r :
  xltb (th_d th) PInf = true ->
  fpi_run fp c0 e0 oc oe 1 th = Ok r -> r_success r = false \/ r_fun r = [].
Proof.
  intros Hd H. destruct (run_inv _ _ _ _ _ _ _ _ H) as (c & e & s & n & _ & _ & _ & _ & Ht & Hn & Hg & ->).
  cbn [r_success r_fun]. destruct Ht as [T1 T2 T3 T4 T5 T6 Tz T7].
  destruct n as [|[|n]]; [|left|lia].
  - right. now destruct (st_fun s).
  - unfold failed_flag. rewrite T1.
    assert (E : st_dd s = PInf) by exact T7. rewrite E, Hd. reflexivity.
Qed.

(** ** A run from finite positive parameters that ends in NaN with success *)
Definition nan_atom : atomic := mkAtomic (A1 [Fin 0; Fin 1]) [Fin 0] [Fin 0; Fin 1] 1 0 true.
Definition nan_grid : grid := radial_grid [Fin 0; Fin 1].
Definition nan_mask : R := 1 / 10 ^ 12.
Definition nan_fit : fit :=
  mkFit nan_grid [Fin 1; Fin 0] (GAtom nan_atom) (MKL (Fin nan_mask) (Fin 100000)) false (Fin (1/2)) (Fin nan_mask).
Definition nan_fpi : fpi := mkFpi nan_fit (Fin 1).
Definition nan_lays : list (list (bool * R)) := map (lay_atom 1 0) (map Rabs [0; 1]).

Lemma above_mask x : x <= 4 -> nan_mask < exp (- x).
Proof.
  intros Hx. apply Rlt_le_trans with (/ 3 ^ 4).
  - unfold nan_mask, Rdiv. rewrite Rmult_1_l. apply Rinv_lt_contravar; [apply Rmult_lt_0_compat; apply pow_lt; lra|].
    cbn. lra.
  - rewrite exp_Ropp. apply Rinv_le_contravar; [apply exp_pos|].
    apply Rle_trans with (exp 4); [destruct (Rle_lt_or_eq_dec _ _ Hx); [left; now apply exp_increasing|subst; lra]|].
    replace 4 with (1 + 1 + 1 + 1) at 1 by lra. rewrite !exp_plus. pose proof exp_le_3 as H3. pose proof (exp_pos 1) as H0.
    replace (3 ^ 4) with (3 * 3 * 3 * 3) by ring.
    repeat apply Rmult_le_compat; try lra; repeat apply Rmult_le_pos; lra.
Qed.

Lemma kept_exp f x : 0 <= f <= 1 -> x <= 4 -> kept nan_mask f (exp (- x)).
Proof.
  intros Hf Hx. pose proof (above_mask x Hx) as H. split; auto.
  rewrite (Rabs_right (exp _)) by (left; apply exp_pos). rewrite Rabs_right by lra.
  apply Rle_lt_trans with nan_mask; auto.
  assert (H2 : 0 < 2 ^ 1022) by (apply pow_lt; lra). assert (H3 := Rinv_0_lt_compat _ H2).
  apply Rle_trans with (1 * / 2 ^ 1022); [apply Rmult_le_compat_r; lra|].
  unfold nan_mask, Rdiv. rewrite !Rmult_1_l. apply Rinv_le_contravar; [apply pow_lt; lra|].
  apply Rle_trans with (2 ^ 40); [simpl; lra|]. apply Rle_pow; [lra|]. lia.
Qed.

Lemma nan_int y : length y = 2%nat -> gr_integrate nan_grid (map Fin y) = Ok (Fin (rdot [1/2; 1/2] y)).
Proof.
  destruct y as [|u [|v [|? ?]]]; try discriminate. intros _.
  cbn. rewrite reqb_false by lra. cbn. do 2 f_equal. unfold rdot, rsum. cbn. field.
Qed.

Lemma nan_init : fpi_init (arg_of nan_grid) (map Fin [1; 0]) (GAtom nan_atom) (Fin nan_mask) None false = Ok nan_fpi.
Proof.
  unfold fpi_init, base_init, arg_of. cbn [map existsb xltb ga_points ga_integrate].
  rewrite !rltb_false by lra. cbn [orb nan_grid radial_grid gr_points gr_integrate ndim Nat.eqb negb andb].
  pose proof (nan_int [1; 0] eq_refl) as I. unfold nan_grid, radial_grid in I. cbn [gr_integrate map] in I.
  unfold fit_integrate, integrate_with. cbn [gr_integrate ft_spherical ft_grid].
  rewrite I. cbn [bind ft_spherical ft_grid gr_integrate].
  rewrite I. replace (rdot [1/2; 1/2] [1; 0]) with (1/2) by (unfold rdot, rsum; cbn; field).
  cbn [bind ft_integral xdiv]. rewrite reqb_false by lra. replace (1/2/(1/2)) with 1 by field.
  cbn [xeqb xisnan]. rewrite reqb_false by lra. reflexivity.
Qed.

Lemma nan_atom_init : atomic_init (VArr (A1 (map Fin [0; 1]))) VNone (VInt 1) (VInt 0) true = Ok nan_atom.
Proof.
  cbn. unfold nan_atom. replace (Rabs (0 + - 0)) with 0 by (rewrite Rplus_opp_r, Rabs_R0; auto).
  replace (Rabs (1 + - 0)) with 1 by (rewrite Rabs_right; lra). reflexivity.
Qed.

Lemma nan_setting : fpi_setting nan_fpi [1/2; 1/2] [1; 0] true nan_lays nan_mask (1/2).
Proof.
  constructor; auto; [|unfold nan_mask; apply Rlt_le, Rdiv_lt_0_compat; try apply pow_lt; lra|lra].
  exists (arg_of nan_grid), false, None, (GAtom nan_atom). split; [|split; [|split]].
  - apply int_plain. intros y Hy. now apply nan_int.
  - apply (views_atom (A1 (map Fin [0; 1])) VNone _ 1 0 true); [apply geom_1d_default|lia|exact nan_atom_init].
  - exact nan_init.
  - unfold target, rdot, rsum. cbn. field.
Qed.

(** Model values with an infinite exponent or NaN parameters. *)
Lemma nan_eval_inf x : exists d1 d2,
  g_evaluate (GAtom nan_atom) (A1 [Fin x]) (A1 [PInf]) true = Ok ([NaN; NaN], Some [NaN :: d1; NaN :: d2]) /\
  g_evaluate (GAtom nan_atom) (A1 [Fin x]) (A1 [PInf]) false = Ok ([NaN; NaN], None).
Proof.
  assert (HPI := PI_RGT_0).
  cbn. rewrite !(reqb_true (0 * 0) 0), !(reqb_false (1 * 1) 0), !(rltb_true 0 (1 * 1)), !(rltb_false PI 0) by lra.
  cbn. unfold xpow. rewrite !(reqb_false (15/10) 0), !(rltb_true 0 (15/10)) by lra.
  cbn. rewrite !(reqb_true 0 0) by lra. cbn. eexists _, _. split; reflexivity.
Qed.

Lemma nan_eval_nan : exists d1 d2,
  g_evaluate (GAtom nan_atom) (A1 [NaN]) (A1 [NaN]) true = Ok ([NaN; NaN], Some [NaN :: d1; NaN :: d2]) /\
  g_evaluate (GAtom nan_atom) (A1 [NaN]) (A1 [NaN]) false = Ok ([NaN; NaN], None).
Proof. cbn. eexists _, _. split; reflexivity. Qed.

Lemma nan_good c e : g_evaluate (GAtom nan_atom) (A1 c) (A1 e) false = Ok ([NaN; NaN], None) ->
  goodness nan_fit c e = Ok [NaN; NaN; NaN; NaN; Fin 0].
Proof.
  intros H. unfold goodness. cbn [nan_fit ft_model]. rewrite H. cbn [bind fst ft_density].
  unfold abs_diff. cbn. unfold ma_div. cbn. rewrite !rltb_true by lra. cbn.
  rewrite !reqb_false by lra. rewrite ln_1.
  cbn [xadd]. replace ((1 + - 0) * (0 * 0 + 1 * 0) / 2 + 0) with 0 by field. reflexivity.
Qed.

Lemma nan_update x : update_params nan_fpi [Fin x] [PInf] true true = Ok ([NaN], [NaN]).
Proof.
  destruct (nan_eval_inf x) as (d1 & d2 & H & _). unfold update_params. cbn [andb negb nan_fpi fp_fit nan_fit ft_model].
  cbv zeta. rewrite H. cbn [bind snd fst ft_measure ft_density]. cbn. reflexivity.
Qed.

Lemma nan_first : update_params nan_fpi [Fin 1] [Fin PI] true true = Ok ([Fin (1/2)], [PInf]).
Proof.
  assert (HPI := PI_RGT_0).
  destruct (setting_facts _ _ _ _ _ _ _ nan_setting) as [m [Hft Hme Hlm Hnz Hne Hv]].
  assert (Hm : 0 <= nan_mask) by apply nan_setting.
  assert (HN : rdot [1/2; 1/2] [1; 0] / (1/2) = 1) by (unfold rdot, rsum; cbn; field).
  rewrite HN in Hlm.
  pose proof (update_gen nan_fpi [1/2;1/2] [1;0] m nan_mask true nan_lays 1 1 [1] [PI] true true Hft Hme Hlm ltac:(lra) Hm Hv
    eq_refl Hne eq_refl eq_refl) as U.
  cbn [map] in U. rewrite U.
  2:{ constructor; [lra|constructor]. } 2:{ intros _. constructor; [lra|constructor]. } 2:reflexivity.
  clear U.
  assert (B0 : forall r, basis_fn true false PI r = exp (- PI * r ^ 2)).
  { intros r. unfold basis_fn, norm_const. replace (PI / PI) with 1 by (field; lra).
    unfold Rpower. rewrite ln_1, Rmult_0_r, exp_0. ring. }
  assert (R0 : Rabs 0 = 0) by apply Rabs_R0. assert (R1 : Rabs 1 = 1) by apply Rabs_R1.
  assert (G0 : gsum true (nth 0 nan_lays []) [1] [PI] = 1).
  { cbn. rewrite B0, R0. replace (- PI * 0 ^ 2) with 0 by ring. rewrite exp_0. ring. }
  assert (G1 : gsum true (nth 1 nan_lays []) [1] [PI] = exp (- PI)).
  { cbn. rewrite B0, R1. replace (- PI * 1 ^ 2) with (- PI) by ring. ring. }
  assert (K0 : kl_ratio nan_mask 1 1 = 1).
  { pose proof (kept_exp 1 0 ltac:(lra) ltac:(lra)) as K. rewrite Ropp_0, exp_0 in K.
    rewrite kl_ratio_kept by auto. field. }
  assert (K1 : kl_ratio nan_mask 0 (exp (- PI)) = 0).
  { rewrite kl_ratio_kept by (apply kept_exp; [lra|exact PI_4]). pose proof (exp_pos (- PI)). field. lra. }
  assert (A : avg1 nan_mask [1/2; 1/2] [1; 0] true nan_lays [1] [PI] 0 = 1/2).
  { unfold avg1, sumn, rsum. cbn [length seq map fold_right]. cbv zeta. rewrite G0, G1. cbn [nth].
    rewrite K0, K1. change (away (nth 0 nan_lays []) 0) with (Rabs 0). change (kind (nth 0 nan_lays []) 0) with false.
    rewrite B0, R0. replace (- PI * 0 ^ 2) with 0 by ring. rewrite exp_0. field. }
  assert (B : avg2 nan_mask [1/2; 1/2] [1; 0] true nan_lays [1] [PI] 0 = 0).
  { unfold avg2, sumn, rsum. cbn [length seq map fold_right]. cbv zeta. rewrite G0, G1. cbn [nth].
    rewrite K0, K1. change (away (nth 0 nan_lays []) 0) with (Rabs 0). rewrite R0. ring. }
  unfold upd_c. cbn [length seq map]. rewrite A, B. cbn [nth]. unfold xdiv.
  rewrite (reqb_true 0 0) by auto. cbn. rewrite reqb_false, rltb_true by lra.
  replace (1 * (1/2) / 1) with (1/2) by field. reflexivity.
Qed.

Lemma nan_step1 : fpi_step nan_fpi true true (mkState [Fin 1] [Fin PI] PInf PInf PInf [] [] 0) =
  Ok (mkState [Fin (1/2)] [PInf] (Fin (Rabs (1/2 + - 1))) PInf PInf [Fin 0] [[NaN; NaN; NaN; NaN; Fin 0]] 1).
Proof.
  unfold fpi_step. cbn [andb st_cs st_es]. rewrite nan_first. cbn [bind].
  destruct (nan_eval_inf (1/2)) as (d1 & d2 & _ & HI). change (fp_fit nan_fpi) with nan_fit.
  rewrite (nan_good [Fin (1/2)] [PInf] HI). reflexivity.
Qed.

Lemma nan_step2 dc de dd p : fpi_step nan_fpi true true (mkState [Fin (1/2)] [PInf] dc de dd [Fin 0] [p] 1) =
  Ok (mkState [NaN] [NaN] NaN NaN (Fin 0) [Fin 0; Fin 0] [p; [NaN; NaN; NaN; NaN; Fin 0]] 2).
Proof.
  unfold fpi_step. cbn [andb st_cs st_es]. rewrite nan_update. cbn [bind].
  destruct nan_eval_nan as (d1 & d2 & _ & HI). change (fp_fit nan_fpi) with nan_fit.
  rewrite (nan_good [NaN] [NaN] HI). cbn. rewrite Rplus_opp_r, Rabs_R0. reflexivity.
Qed.

Lemma nan_run :
  fpi_run nan_fpi (VArr (A1 (map Fin [1]))) (VArr (A1 (map Fin [PI]))) true true 500 default_thr =
  Ok (mkFpiRes [NaN] [NaN] [Fin 0; Fin 0] true [[NaN; NaN; NaN; NaN; Fin 0]; [NaN; NaN; NaN; NaN; Fin 0]]).
Proof.
  assert (E6 : 0 < 1 / 10 ^ 6) by (apply Rdiv_lt_0_compat; [lra|apply pow_lt; lra]).
  unfold fpi_run. cbn [map].
  replace (fpi_loop nan_fpi true true default_thr 500 (Z.to_nat 500) (mkState [Fin 1] [Fin PI] PInf PInf PInf [] [] 0))
    with (Ok (mkState [NaN] [NaN] NaN NaN (Fin 0) [Fin 0; Fin 0] [[NaN; NaN; NaN; NaN; Fin 0]; [NaN; NaN; NaN; NaN; Fin 0]] 2)).
  - cbn. reflexivity.
  - assert (En : exists n, Z.to_nat 500 = S (S (S n))) by (exists (Z.to_nat 497); lia).
    destruct En as [n ->]. symmetry. cbn [fpi_loop].
    change (go_on default_thr 500 (mkState [Fin 1] [Fin PI] PInf PInf PInf [] [] 0)) with true. cbv iota.
    rewrite nan_step1. cbn [bind].
    match goal with |- context [go_on default_thr 500 ?s] =>
      assert (G : go_on default_thr 500 s = true) by reflexivity; rewrite G end.
    rewrite nan_step2. cbn [bind]. reflexivity.
Qed.

(** ** An unnormalised model: a fixed point where the divergence still has a slope *)
Definition flat_atom : atomic := mkAtomic (A1 [Fin 1; Fin 2]) [Fin 0] [Fin 1; Fin 2] 1 0 false.
Definition flat_grid : grid := radial_grid [Fin 1; Fin 2].
Definition flat_fpi : fpi := mkFpi
  (mkFit flat_grid [Fin 1; Fin 1] (GAtom flat_atom) (MKL (Fin nan_mask) (Fin 100000)) false (Fin 1) (Fin nan_mask)) (Fin 1).
Definition flat_lays : list (list (bool * R)) := map (lay_atom 1 0) (map Rabs [1; 2]).

Lemma flat_int y : length y = 2%nat -> gr_integrate flat_grid (map Fin y) = Ok (Fin (rdot [1/2; 1/2] y)).
Proof.
  destruct y as [|u [|v [|? ?]]]; try discriminate. intros _.
  cbn. rewrite reqb_false by lra. cbn. do 2 f_equal. unfold rdot, rsum. cbn. field.
Qed.

Lemma flat_init : fpi_init (arg_of flat_grid) (map Fin [1; 1]) (GAtom flat_atom) (Fin nan_mask) None false = Ok flat_fpi.
Proof.
  unfold fpi_init, base_init, arg_of. cbn [map existsb xltb ga_points ga_integrate].
  rewrite !rltb_false by lra. cbn [orb flat_grid radial_grid gr_points gr_integrate ndim Nat.eqb negb andb].
  pose proof (flat_int [1; 1] eq_refl) as I. unfold flat_grid, radial_grid in I. cbn [gr_integrate map] in I.
  unfold fit_integrate, integrate_with. cbn [gr_integrate ft_spherical ft_grid].
  rewrite I. cbn [bind ft_spherical ft_grid gr_integrate].
  rewrite I. replace (rdot [1/2; 1/2] [1; 1]) with 1 by (unfold rdot, rsum; cbn; field).
  cbn [bind ft_integral xdiv]. rewrite reqb_false by lra. replace (1/1) with 1 by field.
  cbn [xeqb xisnan]. rewrite reqb_false by lra. reflexivity.
Qed.

Lemma flat_atom_init : atomic_init (VArr (A1 (map Fin [1; 2]))) VNone (VInt 1) (VInt 0) false = Ok flat_atom.
Proof.
  cbn. unfold flat_atom. replace (Rabs (1 + - 0)) with 1 by (rewrite Rabs_right; lra).
  replace (Rabs (2 + - 0)) with 2 by (rewrite Rabs_right; lra). reflexivity.
Qed.

Lemma mask_nonneg : 0 <= nan_mask.
Proof. unfold nan_mask; apply Rlt_le, Rdiv_lt_0_compat; try apply pow_lt; lra. Qed.

Lemma flat_setting : fpi_setting flat_fpi [1/2; 1/2] [1; 1] false flat_lays nan_mask 1.
Proof.
  constructor; auto; [|apply mask_nonneg].
  exists (arg_of flat_grid), false, None, (GAtom flat_atom). split; [|split; [|split]].
  - apply int_plain. intros y Hy. now apply flat_int.
  - apply (views_atom (A1 (map Fin [1; 2])) VNone _ 1 0 false); [apply geom_1d_default|lia|exact flat_atom_init].
  - exact flat_init.
  - unfold target, rdot, rsum. cbn. field.
Qed.

Lemma flat_supported : supported [1/2; 1/2] [1; 1] flat_lays (nfun flat_lays).
Proof.
  intros k Hk. cbn in Hk. exists 0%nat. cbn [length nth]. split; [lia|]. split; [lra|]. split; [lra|].
  destruct k; [|lia]. cbn. rewrite Rabs_R1. lra.
Qed.

Lemma flat_value i : (i < 2)%nat -> nth i (values false flat_lays [1] [3/5]) 0 = exp (- (3/5 * (INR i + 1) ^ 2)).
Proof.
  intros Hi.
  assert (E : forall r, gsum false (lay_atom 1 0 r) [1] [3/5] = exp (- (3/5 * r ^ 2))).
  { intros r. change (gsum false (lay_atom 1 0 r) [1] [3/5]) with (1 * (1 * 1 * exp (- (3/5) * r ^ 2)) + 0).
    replace (- (3/5) * r ^ 2) with (- (3/5 * r ^ 2)) by ring. ring. }
  destruct i as [|[|i]]; [| |lia]; cbn [values flat_lays map nth]; rewrite E, Rabs_right by lra; do 3 f_equal; cbn; ring.
Qed.

Lemma flat_above : all_above nan_mask [1; 1] (values false flat_lays [1] [3/5]).
Proof.
  intros i Hi. cbn in Hi. rewrite flat_value by auto.
  replace (nth i [1; 1] 0) with 1 by (destruct i as [|[|i]]; auto; lia).
  apply kept_exp; [lra|]. destruct i as [|[|i]]; [| |lia]; cbn; lra.
Qed.

Lemma flat_update : update_params flat_fpi (map Fin [1]) (map Fin [3/5]) true true = Ok (map Fin [1], map Fin [3/5]).
Proof.
  destruct (update_formula flat_fpi _ _ _ _ _ _ [1] [3/5] true true flat_setting) as (c' & e' & E & [L1 L2] & Hc & He).
  - split; reflexivity.
  - constructor; [lra|constructor].
  - discriminate.
  - reflexivity.
  - intros _ k Hk. apply Rgt_not_eq.
    destruct (setting_facts _ _ _ _ _ _ _ flat_setting) as [m [Hft Hme Hlm Hnz Hne Hv]].
    eapply avg2_pos; eauto; try apply mask_nonneg; try apply flat_supported;
      repeat (constructor; [lra|]); constructor.
  - rewrite E. destruct c' as [|x [|? ?]]; try discriminate. destruct e' as [|y [|? ?]]; try discriminate.
    specialize (Hc 0%nat ltac:(cbn; lia)). specialize (He 0%nat ltac:(cbn; lia)). cbn [nth] in Hc, He.
    assert (T : forall i F, (i < 2)%nat -> nth i [1/2; 1/2] 0 * (kl_ratio nan_mask (nth i [1; 1] 0)
        (gsum false (nth i flat_lays []) [1] [3/5]) *
        basis_fn false (kind (nth i flat_lays []) 0) (nth 0 [3/5] 0) (away (nth i flat_lays []) 0) * F) = 1/2 * F).
    { intros i F Hi.
      assert (G : gsum false (nth i flat_lays []) [1] [3/5] = nth i (values false flat_lays [1] [3/5]) 0)
        by (destruct i as [|[|i]]; auto; lia).
      rewrite G, kl_ratio_kept by (apply flat_above; cbn; lia). rewrite flat_value by auto.
      replace (basis_fn false (kind (nth i flat_lays []) 0) (nth 0 [3/5] 0) (away (nth i flat_lays []) 0))
        with (exp (- (3/5 * (INR i + 1) ^ 2))).
      - pose proof (exp_pos (- (3/5 * (INR i + 1) ^ 2))).
        replace (nth i [1; 1] 0) with 1 by (destruct i as [|[|i]]; auto; lia).
        replace (nth i [1/2; 1/2] 0) with (1/2) by (destruct i as [|[|i]]; auto; lia). field. lra.
      - rewrite <- flat_value by auto. destruct i as [|[|i]]; [| |lia]; cbn; ring. }
    assert (A : avg1 nan_mask [1/2; 1/2] [1; 1] false flat_lays [1] [3/5] 0 = 1).
    { unfold avg1. cbv zeta.
      transitivity (sumn 2 (fun _ => 1/2 * 1)); [|unfold sumn, rsum; cbn; field].
      apply sumn_ext. intros i Hi. rewrite <- (T i 1 Hi). rewrite Rmult_1_r. reflexivity. }
    assert (B : avg2 nan_mask [1/2; 1/2] [1; 1] false flat_lays [1] [3/5] 0 = 5/2).
    { unfold avg2. cbv zeta.
      transitivity (sumn 2 (fun i => 1/2 * away (nth i flat_lays []) 0 ^ 2)).
      - apply sumn_ext. intros i Hi. apply (T i _ Hi).
      - unfold sumn, rsum. cbn [seq map fold_right].
        change (away (nth 0 flat_lays []) 0) with (Rabs 1). change (away (nth 1 flat_lays []) 0) with (Rabs 2).
        rewrite !Rabs_right by lra. field. }
    rewrite A in Hc, He. rewrite B in He. cbn in Hc, He.
    unfold quad, rsum in Hc. cbn in Hc. unfold half_power in He. cbn in He.
    cbn [map]. repeat f_equal; subst; field.
Qed.
