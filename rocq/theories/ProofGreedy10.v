(** GreedyKLFPI: the objective stays below 1022 times the integral of the density, so that runs return. *)
From Coquelicot Require Import Coquelicot.
From Coq Require Import String Reals List ZArith Lia Lra Bool.
From Verif Require Import XR SpecDens SpecMeas SpecFit SpecGrid ModelDens ModelMeas ModelGrid ModelFit ModelGreedy SpecGreedy Lists
  ProofFitView ProofMeas ProofFit ProofEM ProofFPI ProofFPI2 ProofFPI3 ProofFPI4 ProofGreedy1 ProofGreedy2 ProofGreedy3 ProofGreedy5 ProofGreedy6.
Import ListNotations.
Local Open Scope R_scope.

Lemma ln_two : ln 2 <= 1.
Proof.
  rewrite <- (ln_exp 1). apply ln_le; [lra|]. generalize (exp_ineq1_le 1). lra.
Qed.
Lemma ln_pow_two n : ln (2 ^ n) <= INR n.
Proof.
  rewrite ln_pow by lra. assert (0 <= INR n) by apply pos_INR. pose proof ln_two. nra.
Qed.
(** Only quotients below 2^1022 are not masked. *)
Lemma kept_small mask f g : 0 <= mask -> 0 < f -> kept mask f g -> kl_fn f g <= 1022 * f.
Proof.
  intros Hm Hf [H1 H2]. unfold kl_fn. assert (Hg : 0 < g) by lra.
  rewrite Rabs_pos_eq in H2 by lra. rewrite Rabs_pos_eq in H2 by lra. assert (T : 0 < 2 ^ 1022) by (apply pow_lt; lra).
  assert (B : f / g <= 2 ^ 1022).
  { apply Rmult_le_reg_r with g; [exact Hg|]. unfold Rdiv. rewrite Rmult_assoc, Rinv_l, Rmult_1_r by lra.
    apply Rmult_le_reg_r with (/ 2 ^ 1022); [now apply Rinv_0_lt_compat|]. rewrite (Rmult_comm (2 ^ 1022) g), Rmult_assoc, Rinv_r by lra. lra. }
  assert (L : ln (f / g) <= 1022).
  { apply Rle_trans with (ln (2 ^ 1022)); [apply ln_le; [now apply Rdiv_lt_0_compat|exact B]|].
    apply Rle_trans with (INR 1022); [apply ln_pow_two|]. rewrite INR_IZR_INZ. simpl. lra. }
  rewrite (Rmult_comm 1022 f). apply Rmult_le_compat_l; lra.
Qed.

Lemma rdot_below W v f B : length v = length W -> length f = length W -> nonneg W ->
  (forall i, (i < length W)%nat -> nth i v 0 <= B * nth i f 0) -> rdot W v <= B * rdot W f.
Proof.
  unfold rdot, rsum. revert v f. induction W as [|w W IH]; intros [|x v] [|y f] L1 L2 N H; try discriminate; [cbn; lra|].
  cbn [map2 fold_right]. inversion_clear N. specialize (IH v f ltac:(cbn in L1; lia) ltac:(cbn in L2; lia) H1 (fun i Hi => H (S i) ltac:(cbn; lia))).
  pose proof (H 0%nat ltac:(cbn; lia)) as H2. cbn [nth] in H2. nra.
Qed.

Section KL.
Context (gk : greedy_kl) (sph : bool) (w f rs : list R) (mask N : R).
Hypothesis HS : kl_setting gk sph w f rs mask N.
Hypothesis Hw : nonneg w.
Hypothesis Pf : positive f.
Hypothesis Ho : off_origin w rs.
Let W := fit_weights sph w rs.
Let L1 : length w = length f := ks_lenw _ _ _ _ _ _ _ HS.
Let L2 : length rs = length f := ks_lenr _ _ _ _ _ _ _ HS.

Lemma kl_obj_below k p : (0 < total k)%nat -> fits_pos k p -> exists x, obj_at (fp_fit (kl_fpi gk)) k p = Ok (Fin x) /\ x <= 1022 * rdot W f.
Proof.
  intros Hk Hp. pose proof (kl_facts _ _ _ _ _ _ _ HS) as K. destruct (kf_at _ _ _ _ _ _ _ K k Hk) as (m & E & ST). fold W in ST.
  unfold obj_at. rewrite E. cbn [bind]. unfold eval_obj. destruct (halves_pos _ _ Hp) as (c & e & _ & -> & -> & Lc & Le & Pc & Pe).
  destruct (setting_facts _ _ _ _ _ _ _ ST) as [m' [Hft Hme Hlm Hnz Hne Hv]]. cbn [fp_fit] in Hft, Hme.
  destruct ST as [_ S1 S2 S3 S4].
  assert (NF : nfun (lays_of k rs) = total k) by (apply nfun_lays; eapply off_ne; [|exact Ho]; lia).
  rewrite (fo_model _ _ _ _ _ Hft), (fo_dens _ _ _ _ _ Hft), Hme.
  rewrite (vf_eval _ _ _ _ Hv) by (auto; lia). cbn [bind fst].
  assert (HL : length (values true (lays_of k rs) c e) = length W) by (unfold values; rewrite map_length; auto).
  destruct (kl_value mask (Fin 100000) f (values true (lays_of k rs) c e) false S3 ltac:(lia) Pf
    (values_nonneg _ _ _ _ _ _ Hv (eq_trans Lc (eq_sym NF)) (eq_trans Le (eq_sym NF)) (positive_nonneg _ Pc))) as (v & q & -> & V1 & _ & V). cbn [bind fst].
  rewrite (fo_int _ _ _ _ _ Hft) by lia. eexists. split; [reflexivity|].
  apply rdot_below; [lia|lia|apply fit_weights_nonneg; auto; lia|].
  intros i Hi. assert (Hf : 0 < nth i f 0) by (apply (proj1 (Forall_forall _ _) Pf), nth_In; lia). destruct (V i ltac:(lia)) as [V2 V3].
  assert (D : kept mask (nth i f 0) (nth i (values true (lays_of k rs) c e) 0) \/ ~ kept mask (nth i f 0) (nth i (values true (lays_of k rs) c e) 0)).
  { unfold kept. destruct (Rlt_dec mask (nth i (values true (lays_of k rs) c e) 0)) as [A|A]; [|right; intros [B _]; contradiction].
    destruct (Rlt_dec (Rabs (nth i f 0) * / 2 ^ 1022) (Rabs (nth i (values true (lays_of k rs) c e) 0))) as [B|B]; [now left|right; intros [_ C]; contradiction]. }
  destruct D as [D|D].
  - rewrite (proj1 (V2 D)). now apply (kept_small mask).
  - rewrite (proj1 (V3 D)). lra.
Qed.

Lemma kl_returns rand ch F d mx extra fuel err :
  rand_pos (kl_strategy gk rand) -> 0 < F -> d <> NaN ->
  (forall g p, extra = Some g -> exists x, g p = Ok x) ->
  (5 * (mx - 1) <= Z.of_nat fuel)%Z -> 1022 * rdot W f < 10 ^ 10 ->
  exists r ob' c e x, greedy_run (kl_strategy gk rand) ch (mkObject (1, 0)%nat err) (VFloat (Fin F)) d mx extra fuel = Some (Ok (r, ob')) /\
    gr_coeffs r = map Fin c /\ gr_exps r = map Fin e /\
    length c = total (gr_cfg r) /\ length e = total (gr_cfg r) /\ positive c /\ positive e /\ (0 < fst (gr_cfg r))%nat /\ gr_fun r = Fin x /\ x <= 1022 * rdot W f.
Proof.
  intros HR HF Hd HX Hfu HB. set (out := greedy_run _ _ _ _ _ _ _ _).
  assert (TK : forall k : cfg, (0 < fst k)%nat -> (0 < total k)%nat) by (unfold total; lia).
  assert (FD : forall g, (exists F, g = Fin F /\ 0 < F) -> exists F, xmul g (Fin 2) = Fin F /\ 0 < F).
  { intros g (G & -> & HG). exists (G * 2). split; [reflexivity|lra]. }
  assert (XF : xleb (Fin F) (Fin 0) = false) by (cbn; apply rleb_false; lra).
  pose proof (run_total (kl_strategy gk rand) ch (mkObject (1, 0)%nat err) d mx extra (Fin F) pos_state (fun g => exists F, g = Fin F /\ 0 < F)) as RT.
  specialize (RT (let 'ex_intro p (conj A B) := kl_start_pos gk sph w f rs mask N HS Hw Pf Ho in ex_intro _ p (conj A (conj B (le_n 1))))).
  specialize (RT (fun s => guesses_pos _ ch s HR) (cands_some _ ch)).
  specialize (RT (fun t k p b H => let 'ex_intro q (conj A B) := kl_opt_pos gk sph w f rs mask N HS Hw Pf Ho t k p b (TK k (proj2 H)) (proj1 H) in ex_intro _ q (conj A (conj B (proj2 H))))).
  specialize (RT (fun k p H => kl_obj_pos gk sph w f rs mask N HS Pf Ho k p (TK k (proj2 H)) (proj1 H)) (fun k p H => kl_good_pos gk sph w f rs mask N HS Pf Ho k p (TK k (proj2 H)) (proj1 H))).
  specialize (RT HX (ex_intro _ F (conj eq_refl HF)) FD Hd XF fuel Hfu). fold out in RT.
  destruct RT as [(r & ob' & E & [K K'] & x & Ex)|[E (k & p & x & [K K'] & B & C)]].
  - assert (X : gr_coeffs r = fst (split_s (gr_cfg r) (last (gr_params r) [])) ++ fst (split_p (gr_cfg r) (last (gr_params r) [])) /\
      gr_exps r = snd (split_s (gr_cfg r) (last (gr_params r) [])) ++ snd (split_p (gr_cfg r) (last (gr_params r) [])) /\
      sy_obj (kl_strategy gk rand) (gr_cfg r) (last (gr_params r) []) = Ok (gr_fun r)).
    { unfold out in E. pose proof E as E0. apply run_inv in E0. destruct E0 as (f1 & s0 & s & _ & _ & _ & _ & E0). apply end_inv in E0. destruct E0 as (ex & v & ? & ? & -> & _). cbn. auto. }
    destruct X as (X1 & X2 & X3). destruct (kl_obj_below _ _ (TK _ K') K) as (y & Ey & By). cbn [kl_strategy sy_obj] in X3. rewrite Ey, Ex in X3. injection X3 as <-.
    destruct (four_pos _ _ K) as (cs & cp & es & ep & S1 & S2 & M1 & M2 & M3 & M4 & P1 & P2 & P3 & P4).
    rewrite S1, S2 in X1, X2. cbn [fst snd] in X1, X2. rewrite <- map_app in X1, X2.
    exists r, ob', (cs ++ cp), (es ++ ep), y. unfold total. rewrite !app_length. do 3 (split; [now auto|]). split; [lia|]. split; [lia|].
    split; [apply Forall_app; auto|]. split; [apply Forall_app; auto|]. auto.
  - exfalso. destruct (kl_obj_below _ _ (TK _ K') K) as (y & Ey & By). cbn [kl_strategy sy_obj] in B. rewrite Ey in B. injection B as <-. lra.
Qed.
End KL.

(** C61: a run of a new object. *)
Lemma run_fresh sy ch factor d mx extra fuel r ob' :
  greedy_run sy ch new_object factor d mx extra fuel = Some (Ok (r, ob')) ->
  (Z.of_nat (total (gr_cfg r)) <= Z.max 1 (mx - 1 + Z.of_nat (increase ch)))%Z /\
  List.length (gr_perf r) = List.length (gr_params r) /\
  exists p g ps gs, gr_params r = p :: ps /\ gr_perf r = g :: gs /\ sy_start sy (1, 0)%nat = Ok p /\ sy_good sy (1, 0)%nat p = Ok g.
Proof.
  intros H. split; [assert (S := run_size _ _ _ _ _ _ _ _ _ _ H); unfold total in S at 2; cbn [new_object ob_cfg fst snd] in S; lia|].
  apply run_inv in H. destruct H as (f & s0 & s & -> & _ & S & L & E).
  destruct (loop_inv sy ch extra f d mx (hist sy new_object) (fun a b X _ Z => hist_step _ _ _ _ _ _ _ X Z) fuel s0 s)
    as [(h & en & H1 & H2 & H3 & _ & _ & _ & _ & (e0 & h' & Q1 & Q2 & Q3)) _]; auto.
  { eapply hist_start; eauto. }
  apply end_inv in E. destruct E as (ex & v & _ & V & -> & _). cbn [gr_params gr_perf].
  rewrite H1, H2. cbn [new_object ob_err app]. rewrite !map_length. split; [reflexivity|].
  rewrite Q1 in *. cbn [map]. exists (en_par e0), (en_err e0), (map en_par h'), (map en_err h').
  apply Forall_inv in H3. destruct H3 as [_ G]. rewrite Q2 in G. auto.
Qed.
