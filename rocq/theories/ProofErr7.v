(** Greedy objects on radial grids. *)
From Coquelicot Require Import Coquelicot.
From Coq Require Import String.
From Coq Require Import Reals List ZArith Bool Lia Lra Sorted.
From Verif Require Import XR PyStr SpecDens SpecMeas SpecGrid SpecFit SpecGreedy ModelDens ModelMeas ModelGrid ModelFit ModelGreedy Lists ProofDens ProofFit ProofFPI ProofGrid ProofScipy ProofScipy3 ProofGreedy5 ProofGreedy6 ProofGreedy7 ProofGreedyEx2.
Import ListNotations.
Local Open Scope R_scope.

Lemma trap_weights_pos x : forall d, 0 < d -> strictly_ascending x -> Forall (fun w => 0 < w) (trap_weights x d).
Proof.
  induction x as [|x0 x IH]; intros d Hd Hx; [constructor|].
  destruct x as [|x1 x]; [constructor; [simpl; lra|constructor]|].
  inversion_clear Hx as [|? ? Hs H1]. inversion_clear H1 as [|? ? Hle].
  change (Forall (fun w => 0 < w) ((d + (x1 - x0)) / 2 :: trap_weights (x1 :: x) (x1 - x0))).
  constructor; [lra|]. apply IH; [lra|exact Hs].
Qed.

Lemma StronglySorted_nth l : StronglySorted Rlt l -> forall i j, (i < j)%nat -> (j < length l)%nat -> nth i l 0 < nth j l 0.
Proof.
  induction 1 as [|a l H IH F]; intros i j Hi Hj; [cbn in Hj; lia|]. destruct j as [|j]; [lia|]. cbn in Hj. destruct i as [|i]; cbn [nth].
  - apply (proj1 (Forall_forall _ _) F), nth_In. lia.
  - apply IH; lia.
Qed.

Section Radial.
Context (rs f : list R) (A : strictly_ascending rs) (Nn : nonneg rs) (L2 : (2 <= length rs)%nat) (L : length rs = length f) (P : positive f).
Let w := trap_weights rs 0.
Let I := fun y => radial_integrate (map Fin rs) (A1 y).
Let ga := mkGridArg (Some (A1 (map Fin rs))) (Some I).

Lemma w_pos : Forall (fun v => 0 < v) w.
Proof.
  unfold w. clear -A L2. destruct rs as [|x0 [|x1 x]]; try (cbn in L2; lia). inversion_clear A as [|? ? Hs H1]. inversion_clear H1 as [|? ? Hle].
  change (Forall (fun v => 0 < v) ((0 + (x1 - x0)) / 2 :: trap_weights (x1 :: x) (x1 - x0))). constructor; [lra|]. apply trap_weights_pos; [lra|exact Hs].
Qed.
Lemma w_len : length w = length rs.
Proof. apply trap_weights_length. Qed.
Lemma w_spec : forall y, length y = length w -> I (map Fin y) = Ok (Fin (rdot w y)).
Proof.
  intros y Hy. rewrite w_len in Hy. unfold I. rewrite integrate_ok by lia. f_equal. f_equal. unfold w. rewrite trap_weights_ok; auto; [lra|].
  intros C. rewrite C in L2. cbn in L2. lia.
Qed.
Lemma w_nonneg : nonneg w.
Proof. eapply Forall_impl; [|exact w_pos]. cbn. intros; lra. Qed.
Lemma second : 0 < nth 1 rs 0.
Proof.
  clear -A L2 Nn. destruct rs as [|x0 [|x1 x]]; try (cbn in L2; lia). inversion_clear A as [|? ? Hs H1]. inversion_clear H1 as [|? ? Hle]. inversion_clear Nn. cbn. lra.
Qed.
Lemma off : off_origin w rs.
Proof.
  exists 1%nat. rewrite w_len. split; [lia|]. split; [|pose proof second; lra]. apply (proj1 (Forall_forall _ _) w_pos), nth_In. rewrite w_len. lia.
Qed.
Lemma mass (sph : bool) : 0 < rdot (fit_weights sph w rs) f.
Proof.
  pose proof w_len as Hw. pose proof PI_RGT_0 as HP.
  assert (W : nonneg (fit_weights sph w rs) /\ 0 < nth 1 (fit_weights sph w rs) 0 /\ length (fit_weights sph w rs) = length f).
  { pose proof w_pos as HW. pose proof second as HS. destruct sph; cbn [fit_weights].
    - split; [|split].
      + clearbody w. clear -HW HP. generalize rs. induction HW as [|v l Hv Hl IH]; intros [|r q]; cbn [map2]; try constructor; [|apply IH]. apply Rmult_le_pos; [lra|]. pose proof (pow2_ge_0 r). nra.
      + rewrite (nth_map2 _ _ _ 1 0 0 0) by lia. apply Rmult_lt_0_compat; [apply (proj1 (Forall_forall _ _) HW), nth_In; lia|]. pose proof (pow_lt _ 2 HS). nra.
      + rewrite map2_length. lia.
    - split; [apply w_nonneg|]. split; [apply (proj1 (Forall_forall _ _) HW), nth_In; lia|lia]. }
  destruct W as (W0 & W1 & WL). revert WL W0 W1. generalize (fit_weights sph w rs). clear -P L2 L.
  intros u Hl Hu H1. destruct u as [|a [|b u]]; cbn in Hl; try lia. destruct f as [|p [|q g]]; try discriminate. 
  cbn [nth] in H1. inversion_clear Hu as [|? ? Ha Hu']. inversion_clear Hu' as [|? ? Hb Hu]. inversion_clear P as [|? ? Hp P']. inversion_clear P' as [|? ? Hq Hg].
  unfold rdot. cbn [map2]. rewrite !rsum_cons. enough (0 <= rsum (map2 Rmult u g)) by nra.
  clear -Hu Hg. revert g Hg. induction Hu as [|v l Hv Hl IH]; intros g Hg; [cbn; lra|]. destruct Hg as [|z g Hz Hg]; [cbn; lra|]. cbn [map2]. rewrite rsum_cons. specialize (IH g Hg). nra.
Qed.

Lemma kl_radial_init gt lt li gi mask sph : 0 <= mask ->
  exists gk, greedy_kl_init ga (map Fin f) "pick-one" gt lt li gi (Fin mask) None sph = Ok (gk, PickOne) /\
    kl_setting gk sph w f rs mask (rdot (fit_weights sph w rs) f).
Proof.
  intros Hm. pose proof (mass sph) as M. set (N := rdot (fit_weights sph w rs) f) in *.
  assert (E : exists gk, greedy_kl_init ga (map Fin f) "pick-one" gt lt li gi (Fin mask) None sph = Ok (gk, PickOne)).
  { unfold greedy_kl_init. cbn [ga ga_points]. rewrite atom1_init. cbn [bind]. fold (one_model rs true).
    assert (INT : integrator ga sph (fit_weights sph w rs)).
    { destruct sph; cbn [fit_weights]; [apply int_sph; [now rewrite w_len|apply w_spec]|apply int_plain; apply w_spec]. }
    assert (LW : length f = length (fit_weights sph w rs)) by (rewrite fit_weights_length; rewrite w_len; auto).
    assert (B : exists ft, base_init ga (map Fin f) (one_model rs true) (MKL (Fin mask) (Fin 100000)) None sph (Fin mask) = Ok ft).
    { unfold base_init. rewrite no_negative by (apply Forall_forall; intros z Iz; apply Rlt_le; exact (proj1 (Forall_forall _ _) P z Iz)).
      cbn [ga ga_points ga_integrate ndim Nat.eqb negb andb].
      assert (Q : integrate_with sph (mkGrid (A1 (map Fin rs)) I) (map Fin f) = Ok (Fin N)).
      { eapply integrate_with_fin; eauto. }
      rewrite Q. cbn [bind]. eauto. }
    destruct B as (ft & B). pose proof (base_fitok _ _ _ _ _ _ _ _ _ INT LW B) as (FO & _ & T).
    fold ga. destruct (fpi_accepts ga (map Fin f) (one_model rs true) (Fin mask) None sph ft (Fin N) B) as [_ H].
    { apply (fo_int _ _ _ _ _ FO). auto. }
    rewrite T in H. cbv zeta in H. fold N in H. rewrite xdiv_fin in H by lra. rewrite H; [cbn [bind]; eexists; reflexivity| |discriminate].
    intros C. injection C as C. apply (Rmult_eq_compat_r N) in C. unfold Rdiv in C. rewrite Rmult_assoc, Rinv_l in C by lra. lra. }
  destruct E as (gk & E). exists gk. split; [exact E|]. constructor; auto; [|rewrite w_len; auto].
  exists I, None, "pick-one"%string, PickOne, gt, lt, li, gi. split; [apply w_spec|]. split; [exact E|reflexivity].
Qed.

Lemma kl_radial gt lt li gi mask sph : 0 <= mask ->
  exists gk, greedy_kl_init ga (map Fin f) "pick-one" gt lt li gi (Fin mask) None sph = Ok (gk, PickOne) /\
  forall rand ch F d mx extra fuel err, rand_pos (kl_strategy gk rand) -> 0 < F -> d <> NaN ->
  (forall g p, extra = Some g -> exists x, g p = Ok x) -> (5 * (mx - 1) <= Z.of_nat fuel)%Z ->
  let out := greedy_run (kl_strategy gk rand) ch (mkObject (1, 0)%nat err) (VFloat (Fin F)) d mx extra fuel in
  (exists r ob' c e x, out = Some (Ok (r, ob')) /\ gr_coeffs r = map Fin c /\ gr_exps r = map Fin e /\
     length c = total (gr_cfg r) /\ length e = total (gr_cfg r) /\ positive c /\ positive e /\ gr_fun r = Fin x) \/
  (out = Some (Raise TypeError) /\
   exists k p x, fits_pos k p /\ sy_obj (kl_strategy gk rand) k p = Ok (Fin x) /\ 10 ^ 10 <= x).
Proof.
  intros Hm. destruct (kl_radial_init gt lt li gi mask sph Hm) as (gk & E & S). exists gk. split; [exact E|].
  exact (kl_run gk sph w f rs mask _ S w_nonneg P off).
Qed.

Lemma radii_two : two_radii rs.
Proof.
  exists 0%nat, 1%nat. split; [lia|]. split; [lia|]. clear -A L2 Nn. destruct rs as [|x0 [|x1 x]]; try (cbn in L2; lia). inversion_clear A as [|? ? Hs H1]. inversion_clear H1 as [|? ? Hle].
  inversion_clear Nn. cbn [nth]. nra.
Qed.
Lemma falls : strictly_ascending (rev f) -> falling f rs.
Proof.
  intros D i j Hi Hj H. 
  assert (Q : (i < j)%nat).
  { destruct (Nat.lt_ge_cases i j) as [C|C]; auto. exfalso.
    assert (nth j rs 0 <= nth i rs 0).
    { destruct (Nat.eq_dec i j) as [->|Ne]; [lra|]. apply Rlt_le. pose proof (Sorted_StronglySorted Rlt_trans A) as A'.
      apply (StronglySorted_nth _ A' j i); lia. }
    assert (0 <= nth j rs 0) by (apply (proj1 (Forall_forall _ _) Nn), nth_In; lia). assert (0 <= nth i rs 0) by (apply (proj1 (Forall_forall _ _) Nn), nth_In; lia). nra. }
  apply (Sorted_StronglySorted Rlt_trans) in D.
  pose proof (StronglySorted_nth _ D (length f - S j) (length f - S i)) as H1. rewrite rev_length in H1. specialize (H1 ltac:(lia) ltac:(lia)).
  rewrite !rev_nth in H1 by lia. replace (length f - S (length f - S j))%nat with j in H1 by lia. replace (length f - S (length f - S i))%nat with i in H1 by lia. exact H1.
Qed.
Lemma ls_radial_init lt gt norm n0 wc li gi sph : exists gl,
  greedy_ls_init ga (map Fin f) "pick-one" lt gt "slsqp" norm n0 wc li gi sph = Ok (gl, PickOne) /\ ls_setting gl norm sph w f rs.
Proof.
  assert (E : exists gl, greedy_ls_init ga (map Fin f) "pick-one" lt gt "slsqp" norm n0 wc li gi sph = Ok (gl, PickOne)).
  { unfold greedy_ls_init. cbn [ga ga_points]. rewrite atom1_init. cbn [bind]. unfold scipy_init. cbn [ga ga_points].
    change (g_points (GAtom _)) with (A1 (map Fin rs)).
    assert (PD : points_differ (A1 (map Fin rs)) (A1 (map Fin rs)) = Ok false).
    { apply (points_same_1d rs rs eq_refl). intros i _. rewrite Rminus_eq_0, Rabs_R0. enough (0 < / 10 ^ 12) by lra. apply Rinv_0_lt_compat, pow_lt. lra. }
    rewrite PD. cbn [bind nlen]. rewrite !map_length, L, Nat.eqb_refl. cbn [negb].
    change (str_in (lower "slsqp") ["slsqp"; "trust-constr"]%string) with true. cbn [negb].
    unfold base_init. rewrite no_negative by (apply Forall_forall; intros z Iz; apply Rlt_le; exact (proj1 (Forall_forall _ _) P z Iz)).
    cbn [ga ga_points ga_integrate ndim Nat.eqb negb andb]. destruct n0 as [n0|]; [cbn [bind]; eexists; reflexivity|].
    assert (INT : integrator ga sph (fit_weights sph w rs)).
    { destruct sph; cbn [fit_weights]; [apply int_sph; [now rewrite w_len|apply w_spec]|apply int_plain; apply w_spec]. }
    assert (LW : length f = length (fit_weights sph w rs)) by (rewrite fit_weights_length; rewrite w_len; auto).
    rewrite (integrate_with_fin ga sph _ _ I f INT eq_refl LW). cbn [bind]. eexists. reflexivity. }
  destruct E as (gl & E). exists gl. split; [exact E|]. constructor; auto; [|rewrite w_len; auto].
  exists I, n0, "pick-one"%string, PickOne, lt, gt, "slsqp"%string, wc, li, gi. split; [apply w_spec|exact E].
Qed.
Lemma ls_radial lt gt norm n0 wc li gi sph : strictly_ascending (rev f) ->
  exists gl, greedy_ls_init ga (map Fin f) "pick-one" lt gt "slsqp" norm n0 wc li gi sph = Ok (gl, PickOne) /\
  forall nnls minimize rand ch F d mx extra fuel err, nnls_returns nnls -> minimize_returns minimize ->
  rand_pos (ls_strategy gl nnls minimize rand) -> 0 < F -> d <> NaN ->
  (forall g p, extra = Some g -> exists x, g p = Ok x) -> (5 * (mx - 1) <= Z.of_nat fuel)%Z ->
  let out := greedy_run (ls_strategy gl nnls minimize rand) ch (mkObject (1, 0)%nat err) (VFloat (Fin F)) d mx extra fuel in
  (exists r ob' c e x, out = Some (Ok (r, ob')) /\ gr_coeffs r = map Fin c /\ gr_exps r = map Fin e /\
     length c = total (gr_cfg r) /\ length e = total (gr_cfg r) /\ positive c /\ positive e /\ gr_fun r = Fin x) \/
  (out = Some (Raise TypeError) /\
   exists k p x, fits_pos k p /\ sy_obj (ls_strategy gl nnls minimize rand) k p = Ok (Fin x) /\ 10 ^ 10 <= x).
Proof.
  intros D. destruct (ls_radial_init lt gt norm n0 wc li gi sph) as (gl & E & S). exists gl. split; [exact E|].
  exact (ls_run gl norm sph w f rs S P radii_two (falls D)).
Qed.
End Radial.
