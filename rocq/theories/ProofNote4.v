(** The notebook greedy_atomic_density.ipynb (C109). *)
From Coquelicot Require Import Coquelicot.
From Coq Require Import String Ascii Reals List ZArith Bool Lia Lra Permutation.
From Verif Require Import XR PyStr PyText ModelParse SpecParse SpecDens SpecSlater ModelSlater SpecMeas SpecGrid SpecFit SpecZero SpecGreedy ModelDens ModelMeas ModelGrid ModelFit ModelGreedy ModelLoad SpecScript SpecScript4
  Lists ProofDens ProofInit ProofFitView ProofFit ProofGrid ProofSlater SpecShipped SpecLoad SpecKin DataTar SpecTar ProofElec SpecPts ProofMore ProofGreedy1 ProofGreedy3 ProofGreedy5 ProofNote1 ProofNote2 ProofNote3.
Import ListNotations.
Local Open Scope R_scope.

(** The points lie between 0 and 75. *)
Lemma note_points : exists pts, clenshaw_init (VInt 4) (VInt 400) (VInt 500) (EList (map Fin [25; 50; 75])) (VBool true) = Ok (map Fin pts) /\ ascending pts /\
  (forall r, In r pts -> 0 <= r <= 75) /\ In 25 pts /\ In 75 pts /\ length pts = 903%nat.
Proof.
  destruct (clenshaw_formula 4 400 500 true [25; 50; 75] ltac:(lia) ltac:(lia) ltac:(lia)) as (pts & E & A & P). exists pts. split; [exact E|]. split; [exact A|].
  assert (Pr := Permutation_sym P). split; [|split; [|split]].
  - intros r I. apply (Permutation_in r P) in I. rewrite !in_app_iff in I. destruct I as [I|[I|I]].
    + apply in_map_iff in I. destruct I as (k & <- & _). unfold core_point. pose proof (COS_bound (PI * INR k / (2 * 400))). replace (1 / (2 * 4)) with (/ 8) by field. lra.
    + apply in_map_iff in I. destruct I as (k & <- & _). unfold diffuse_point. pose proof (COS_bound (PI * INR k / (2 * 500))). lra.
    + cbn [In] in I. destruct I as [<-|[<-|[<-|[]]]]; lra.
  - apply (Permutation_in 25 Pr). rewrite !in_app_iff. right. right. now left.
  - apply (Permutation_in 75 Pr). rewrite !in_app_iff. right. right. cbn [In]. auto.
  - rewrite (Permutation_length P), !app_length, !map_length, !seq_length. reflexivity.
Qed.
Lemma note_integral pts f : length f = length pts ->
  gr_integrate (radial_grid (map Fin pts)) (map2 xmul (map (fun x => xmul (xmul x (Fin 4)) (Fin PI)) (map Fin f)) (map (fun r => xpow r 2) (map Fin pts))) =
  Ok (Fin (trap pts (map2 (fun r y => 4 * PI * r ^ 2 * y) pts f))).
Proof.
  intros L. replace (map2 xmul _ _) with (map Fin (map2 (fun r y => 4 * PI * r ^ 2 * y) pts f)).
  - apply integrate_ok. rewrite map2_length. lia.
  - revert f L. induction pts as [|a p IH]; intros [|b f] L; try discriminate; [reflexivity|]. cbn [map map2]. f_equal; [|apply IH; cbn in L; lia]. pose proof (xpow_nat a 2) as Q. replace (INR 2) with 2 in Q by (cbn; ring). rewrite Q. cbn [xmul]. f_equal. ring.
Qed.
Lemma note_runs fl rest rand fuel gfuel : reads_decimals fl -> (forall i n, exists l, rand i n = map Fin l /\ length l = n /\ positive l) -> (100 <= fuel)%nat -> (15 <= gfuel)%nat ->
  exists e1 e2 pts data gk r ob c e x,
    clenshaw_init (VInt 4) (VInt 400) (VInt 500) (EList (map Fin [25; 50; 75])) (VBool true) = Ok (map Fin pts) /\
    slater_atoms fl (archive_files rest) (Some "be"%string) false false fuel = Some (Ok data) /\ describes (atom_of data) (be_subs e1 e2) /\
    let f := map (rho (be_subs e1 e2)) pts in let J := trap pts (map2 (fun r y => 4 * PI * r ^ 2 * y) pts f) in
    positive f /\ 0 < J <= 172800 /\
    greedy_kl_init (mkGridArg (Some (A1 (map Fin pts))) (Some (gr_integrate (radial_grid (map Fin pts))))) (map Fin f) "pick-one" (mkThr (Fin (/ 10 ^ 4)) (Fin (/ 10 ^ 5)) (Fin (/ 10 ^ 10)))
      (mkThr (Fin (/ 10 ^ 2)) (Fin (/ 10 ^ 3)) (Fin (/ 10 ^ 8))) 2500 5000 (Fin (/ 10 ^ 12)) None true = Ok (gk, PickOne) /\
    greedy_run (kl_strategy gk rand) PickOne new_object (VFloat (Fin 50)) (Fin (/ 10 ^ 8)) 4 None gfuel = Some (Ok (r, ob)) /\
    gr_coeffs r = map Fin c /\ gr_exps r = map Fin e /\ length c = total (gr_cfg r) /\ length e = total (gr_cfg r) /\ positive c /\ positive e /\
    (0 < fst (gr_cfg r))%nat /\ (total (gr_cfg r) <= 4)%nat /\ gr_fun r = Fin x /\ x <= 1022 * J /\
    greedy_notebook fl (archive_files rest) rand fuel gfuel =
      (if Nat.eqb (snd (gr_cfg r)) 0 then Some (Ok (Fin J, r, map Fin (values true (map (lay_atom (fst (gr_cfg r)) 0) (map Rabs pts)) c e))) else Some (Raise ValueError)).
Proof.
  intros Hf HR Hl Hg. destruct (be_loads fl rest fuel Hf Hl) as (data & e1 & e2 & Sl & De & V). destruct note_points as (pts & E & A & B & I25 & I75 & Lp).
  set (f := map (rho (be_subs e1 e2)) pts). set (J := trap pts (map2 (fun r y => 4 * PI * r ^ 2 * y) pts f)).
  assert (Lf : length f = length pts) by apply map_length.
  assert (Pf : positive f). { unfold positive, f. rewrite Forall_map. apply Forall_forall. intros r I. apply be_pos. apply B. exact I. }
  assert (Np : nonneg pts) by (apply Forall_forall; intros r I; apply B; exact I).
  assert (Ne : pts <> []) by (intros ->; destruct I25).
  assert (J1 : J <= 172800).
  { replace 172800 with (2304 * (75 - 0)) by ring. apply Rle_trans with (2304 * (75 - hd 0 pts)).
    - apply trap_below; auto; [rewrite map2_length; lia|lra| |intros v I; apply B; exact I].
      unfold f. clear -B. assert (G : forall q, (forall r, In r q -> 0 <= r <= 75) -> Forall (fun v => v <= 2304) (map2 (fun r y => 4 * PI * r ^ 2 * y) q (map (rho (be_subs e1 e2)) q))).
      { induction q as [|r q IH]; intros H; cbn [map map2]; constructor; [apply be_bound; apply H; now left|apply IH; intros; apply H; now right]. }
      apply G. exact B.
    - apply Rmult_le_compat_l; [lra|]. destruct pts as [|p q]; [congruence|]. cbn [hd]. pose proof (B p (or_introl eq_refl)). lra. }
  assert (J0 : 0 < J).
  { unfold J. replace (trap pts (map2 (fun r y => 4 * PI * r ^ 2 * y) pts f)) with (rdot (fit_weights true (trap_weights pts 0) pts) f) by (rewrite fit_trap; auto).
    assert (Lw := trap_weights_length pts 0).
    apply (moment_pos (fit_weights true (trap_weights pts 0) pts) f pts); auto; try (rewrite fit_weights_length; lia).
    - apply fit_weights_nonneg; [lia|]. apply trap_weights_nonneg; [lra|exact A].
    - apply off_weights; [lia|]. apply off_asc; auto; [lra|]. exists 25, 75. split; [exact I25|]. split; [exact I75|lra]. }
  destruct (kl_radial_returns pts f true (mkThr (Fin (/ 10 ^ 4)) (Fin (/ 10 ^ 5)) (Fin (/ 10 ^ 10))) (mkThr (Fin (/ 10 ^ 2)) (Fin (/ 10 ^ 3)) (Fin (/ 10 ^ 8))) 2500 5000 (/ 10 ^ 12) A Np) as (gk & Ek & Run); auto.
  { exists 25, 75. split; [exact I25|]. split; [exact I75|lra]. }
  { apply Rlt_le, Rinv_0_lt_compat, pow_lt. lra. }
  cbv zeta in Run. fold J in Run.
  assert (HX : forall g p, @None (list xr -> res (list xr)) = Some g -> exists x, g p = Ok x) by (intros; discriminate).
  destruct (Run ltac:(lra) rand PickOne 50 (Fin (/ 10 ^ 8)) 4%Z None gfuel [] HR ltac:(lra) ltac:(discriminate) HX ltac:(lia)) as (r & ob & c & e & x & Er & G1 & G2 & A3 & A4 & A5 & A6 & A7 & A8 & A9).
  pose proof (run_size _ _ _ _ _ _ _ _ _ _ Er) as Sz. cbn [ob_cfg increase] in Sz.
  assert (S4 : (total (gr_cfg r) <= 4)%nat) by (change (total (1, 0)%nat) with 1%nat in Sz; lia).
  exists e1, e2, pts, data, gk, r, ob, c, e, x. split; [exact E|]. split; [exact Sl|]. split; [exact De|]. cbv zeta. fold f J. split; [exact Pf|]. split; [auto|]. split; [exact Ek|]. split; [exact Er|].
  do 10 (split; [assumption|]).
  unfold greedy_notebook. rewrite E. cbn [bindo]. rewrite Sl. cbn [bindo]. rewrite (density_total _ _ pts De V). cbn [bindo]. fold f. rewrite (note_integral pts f Lf). cbn [bindo]. fold J.
  rewrite Ek. cbn [bindo fst snd]. change new_object with (mkObject (1, 0)%nat []). rewrite Er. cbn [bindo fst snd].
  destruct (atomic_init_ok (A1 (map Fin pts)) VNone (map Rabs pts) (fst (gr_cfg r)) 0 true (geom_1d_default pts) ltac:(lia)) as (m & Em & _ & Q1 & Q2 & Q3 & Q4).
  change (VInt (Z.of_nat 0)) with (VInt 0) in Em. rewrite Em. cbn [bindo]. rewrite G1, G2.
  pose proof (atom_facts m (map Rabs pts) (fst (gr_cfg r)) 0 true Q1 Q2 Q3 Q4 ltac:(lia)) as VF.
  destruct (Nat.eqb_spec (snd (gr_cfg r)) 0) as [Z0|Z0].
  - rewrite (vf_eval _ _ _ _ VF c e false); [|unfold total in *; lia..|auto]. reflexivity.
  - cbn [g_evaluate atomic_evaluate]. rewrite !map_length, A3, A4, Nat.eqb_refl. cbn [negb].
    assert (Nb : a_nbasis m = Z.of_nat (fst (gr_cfg r))) by (pose proof (vf_nb _ _ _ _ VF) as Q; cbn [g_nbasis] in Q; rewrite Q; lia).
    rewrite Nb. destruct (Z.eqb_spec (Z.of_nat (total (gr_cfg r))) (Z.of_nat (fst (gr_cfg r)))) as [C|C]; [unfold total in C; lia|]. reflexivity.
Qed.
