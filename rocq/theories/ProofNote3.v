(** GreedyKLFPI on grids with repeated points, and the run of the notebook greedy_atomic_density.ipynb (C109). *)
From Coquelicot Require Import Coquelicot.
From Coq Require Import String Reals List ZArith Bool Lia Lra Sorted Permutation.
From Verif Require Import XR PyStr SpecDens SpecMeas SpecGrid SpecFit SpecGreedy ModelDens ModelMeas ModelGrid ModelFit ModelGreedy Lists ProofDens ProofInit ProofFitView ProofFit ProofFPI ProofGrid ProofScipy ProofScipy3
  ProofGreedy5 ProofGreedy6 ProofGreedy7 ProofGreedyEx2 ProofGreedy10 SpecPts ProofMore.
Import ListNotations.
Local Open Scope R_scope.

(** ** The object, for any quadrature with nonnegative weights *)
Lemma kl_init_ok (I : list xr -> res xr) w f rs gt lt li gi mask sph :
  (forall y, length y = length w -> I (map Fin y) = Ok (Fin (rdot w y))) -> length w = length f -> length rs = length f -> nonneg w -> positive f -> off_origin w rs -> 0 <= mask ->
  exists gk, greedy_kl_init (mkGridArg (Some (A1 (map Fin rs))) (Some I)) (map Fin f) "pick-one" gt lt li gi (Fin mask) None sph = Ok (gk, PickOne) /\
    kl_setting gk sph w f rs mask (rdot (fit_weights sph w rs) f).
Proof.
  intros Sp Lw Lr Nw P Off Hm. set (ga := mkGridArg (Some (A1 (map Fin rs))) (Some I)).
  assert (Lrw : length rs = length w) by lia. set (N := rdot (fit_weights sph w rs) f).
  assert (M : 0 < N).
  { destruct (moment_pos (fit_weights sph w rs) f rs) as [H _]; auto; try (rewrite fit_weights_length; auto; lia); [now apply fit_weights_nonneg|now apply off_weights]. }
  assert (E : exists gk, greedy_kl_init ga (map Fin f) "pick-one" gt lt li gi (Fin mask) None sph = Ok (gk, PickOne)).
  { unfold greedy_kl_init. cbn [ga ga_points]. rewrite atom1_init. cbn [bind]. fold (one_model rs true).
    assert (INT : integrator ga sph (fit_weights sph w rs)) by (destruct sph; cbn [fit_weights]; [apply int_sph; auto|apply int_plain; auto]).
    assert (LW : length f = length (fit_weights sph w rs)) by (rewrite fit_weights_length; auto).
    assert (B : exists ft, base_init ga (map Fin f) (one_model rs true) (MKL (Fin mask) (Fin 100000)) None sph (Fin mask) = Ok ft).
    { unfold base_init. rewrite no_negative by (apply Forall_forall; intros z Iz; apply Rlt_le; exact (proj1 (Forall_forall _ _) P z Iz)).
      cbn [ga ga_points ga_integrate ndim Nat.eqb negb andb].
      assert (Q : integrate_with sph (mkGrid (A1 (map Fin rs)) I) (map Fin f) = Ok (Fin N)) by (eapply integrate_with_fin; eauto).
      rewrite Q. cbn [bind]. eauto. }
    destruct B as (ft & B). pose proof (base_fitok _ _ _ _ _ _ _ _ _ INT LW B) as (FO & _ & T).
    fold ga. destruct (fpi_accepts ga (map Fin f) (one_model rs true) (Fin mask) None sph ft (Fin N) B) as [_ H].
    { apply (fo_int _ _ _ _ _ FO). auto. }
    rewrite T in H. cbv zeta in H. fold N in H. rewrite xdiv_fin in H by lra. rewrite H; [cbn [bind]; eexists; reflexivity| |discriminate].
    intros C. injection C as C. apply (Rmult_eq_compat_r N) in C. unfold Rdiv in C. rewrite Rmult_assoc, Rinv_l in C by lra. lra. }
  destruct E as (gk & E). exists gk. split; [exact E|]. constructor; auto.
  exists I, None, "pick-one"%string, PickOne, gt, lt, li, gi. split; [exact Sp|]. split; [exact E|reflexivity].
Qed.

(** ** The trapezoidal rule on ascending points *)
Lemma asc_hd x0 x : ascending (x0 :: x) -> forall v, In v (x0 :: x) -> x0 <= v.
Proof. intros A v I. apply Sorted_StronglySorted in A; [|intros a b c; lra]. inversion_clear A as [|? ? _ F]. destruct I as [->|I]; [lra|exact (proj1 (Forall_forall _ _) F v I)]. Qed.
Lemma off_asc rs : forall d, 0 <= d -> ascending rs -> (exists a b, In a rs /\ In b rs /\ 0 <= a < b) -> nonneg rs -> off_origin (trap_weights rs d) rs.
Proof.
  induction rs as [|x0 rs IH]; intros d Hd A (a & b & Ia & Ib & Hab) N; [destruct Ia|].
  destruct rs as [|x1 rs]. { destruct Ia as [->|[]]. destruct Ib as [->|[]]. lra. }
  inversion_clear A as [|? ? As H1]. inversion_clear H1 as [|? ? Hle]. inversion_clear N as [|? ? N0 N']. cbv beta in N0.
  change (trap_weights (x0 :: x1 :: rs) d) with ((d + (x1 - x0)) / 2 :: trap_weights (x1 :: rs) (x1 - x0)).
  destruct (Rle_lt_or_eq_dec _ _ Hle) as [L|Eq].
  - exists 1%nat. cbn [length nth]. rewrite trap_weights_length. cbn [length]. split; [lia|]. inversion_clear N' as [|? ? N1 N'']. cbv beta in N1. split; [|lra].
    destruct rs as [|x2 rs]; cbn [trap_weights nth]; [lra|]. inversion_clear As as [|? ? As' H2]. inversion_clear H2. lra.
  - subst x1. destruct (IH (x0 - x0) ltac:(lra) As) as (i & Hi & W & Nz); auto.
    + exists a, b. split; [destruct Ia as [->|Ia]; [now left|exact Ia]|]. split; [destruct Ib as [->|Ib]; [now left|exact Ib]|exact Hab].
    + exists (S i). cbn [length nth]. split; [lia|]. auto.
Qed.
Lemma trap_below x : forall y M B, ascending x -> length y = length x -> 0 <= M -> Forall (fun v => v <= M) y -> (forall v, In v x -> v <= B) -> x <> [] ->
  trap x y <= M * (B - hd 0 x).
Proof.
  induction x as [|x0 x IH]; intros y M B A L HM F HB Ne; [congruence|]. destruct y as [|y0 y]; [discriminate|].
  destruct x as [|x1 x]. { destruct y; [|discriminate]. cbn [trap hd]. pose proof (HB x0 (or_introl eq_refl)). nra. }
  destruct y as [|y1 y]; [discriminate|]. rewrite trap_step. cbn [hd]. inversion_clear A as [|? ? As H1]. inversion_clear H1 as [|? ? Hle].
  inversion_clear F as [|? ? F0 F']. pose proof (IH (y1 :: y) M B As ltac:(cbn in *; lia) HM F' (fun v I => HB v (or_intror I)) ltac:(discriminate)) as K. cbn [hd] in K.
  inversion_clear F' as [|? ? F1 _]. nra.
Qed.

(** ** GreedyKLFPI on a radial grid *)
Lemma fit_trap (sph : bool) rs y : rs <> [] -> length y = length rs ->
  rdot (fit_weights sph (trap_weights rs 0) rs) y = trap rs (if sph then map2 (fun r y => 4 * PI * r ^ 2 * y) rs y else y).
Proof.
  intros Ne L. destruct sph; cbn [fit_weights].
  - pose proof (trap_weights_ok rs 0 (map2 (fun r y => 4 * PI * r ^ 2 * y) rs y) ltac:(rewrite map2_length; lia) Ne) as Q. rewrite Rmult_0_l in Q. unfold Rdiv in Q. rewrite Rmult_0_l, Rplus_0_l in Q. rewrite <- Q.
    assert (Lw := trap_weights_length rs 0). clear Q Ne. revert Lw. generalize (trap_weights rs 0). intros w Lw. revert rs y L Lw. unfold rdot.
    induction w as [|a w IH]; intros [|b p] [|q y] L Lw; try discriminate; [reflexivity|]. cbn [map2]. rewrite !rsum_cons, IH by (cbn in *; lia). ring.
  - rewrite trap_weights_ok by auto. lra.
Qed.
Lemma kl_radial_returns rs f (sph : bool) gt lt li gi mask :
  ascending rs -> nonneg rs -> (exists a b, In a rs /\ In b rs /\ a < b) -> length f = length rs -> positive f -> 0 <= mask ->
  let J := trap rs (if sph then map2 (fun r y => 4 * PI * r ^ 2 * y) rs f else f) in
  exists gk, greedy_kl_init (mkGridArg (Some (A1 (map Fin rs))) (Some (gr_integrate (radial_grid (map Fin rs))))) (map Fin f) "pick-one" gt lt li gi (Fin mask) None sph = Ok (gk, PickOne) /\
  (1022 * J < 10 ^ 10 ->
   forall rand ch F d mx extra fuel err, rand_pos (kl_strategy gk rand) -> 0 < F -> d <> NaN -> (forall g p, extra = Some g -> exists x, g p = Ok x) -> (5 * (mx - 1) <= Z.of_nat fuel)%Z ->
   exists r ob' c e x, greedy_run (kl_strategy gk rand) ch (mkObject (1, 0)%nat err) (VFloat (Fin F)) d mx extra fuel = Some (Ok (r, ob')) /\
     gr_coeffs r = map Fin c /\ gr_exps r = map Fin e /\ length c = total (gr_cfg r) /\ length e = total (gr_cfg r) /\ positive c /\ positive e /\ (0 < fst (gr_cfg r))%nat /\
     gr_fun r = Fin x /\ x <= 1022 * J).
Proof.
  intros A N (a & b & Ia & Ib & Hab) L P Hm J. set (w := trap_weights rs 0).
  assert (Ne : rs <> []) by (intros ->; destruct Ia).
  assert (Lw : length w = length rs) by apply trap_weights_length.
  assert (Nw : nonneg w) by (apply trap_weights_nonneg; [lra|exact A]).
  assert (Off : off_origin w rs). { apply off_asc; auto; [lra|]. exists a, b. pose proof (proj1 (Forall_forall _ _) N a Ia) as Q. cbv beta in Q. auto. }
  assert (Sp : forall y, length y = length w -> gr_integrate (radial_grid (map Fin rs)) (map Fin y) = Ok (Fin (rdot w y))).
  { intros y Hy. cbn [radial_grid gr_integrate]. rewrite integrate_ok by lia. do 2 f_equal. unfold w. rewrite trap_weights_ok by (auto; lia). lra. }
  destruct (kl_init_ok _ w f rs gt lt li gi mask sph Sp ltac:(lia) ltac:(lia) Nw P Off Hm) as (gk & E & S). exists gk. split; [exact E|].
  intros HJ. assert (EJ : rdot (fit_weights sph w rs) f = J) by (apply fit_trap; auto).
  intros rand ch F d mx extra fuel err R HF Hd HX Hfu. rewrite <- EJ in *. exact (kl_returns gk sph w f rs mask _ S Nw P Off rand ch F d mx extra fuel err R HF Hd HX Hfu HJ).
Qed.
