(** Where accepted fits come from, and GreedyKLFPI results as self-consistent updates (C86). *)
From Coquelicot Require Import Coquelicot.
From Coq Require Import String Reals List ZArith Lia Lra Bool.
From Verif Require Import XR SpecDens SpecMeas SpecFit ModelDens ModelMeas ModelGrid ModelFit ModelGreedy SpecGreedy SpecSettings Lists
  ProofDens ProofInit ProofDeriv ProofMeas ProofSlater ProofNorm ProofFitView ProofFit ProofEM ProofFPI ProofFPI2 ProofFPI3 ProofGreedy1 ProofGreedy2 ProofGreedy3 ProofGreedy4 ProofGreedy5 ProofGreedy6.
Import ListNotations.
Local Open Scope R_scope.

(** ** Origin of the accepted fits *)
Lemma run_origin sy ch ob factor d mx extra fuel r ob' :
  greedy_run sy ch ob factor d mx extra fuel = Some (Ok (r, ob')) ->
  exists p0 ps, gr_params r = p0 :: ps /\ sy_start sy (ob_cfg ob) = Ok p0 /\ Forall (refined sy) ps.
Proof.
  intros H. apply ProofGreedy3.run_inv in H. destruct H as (f & s0 & s & -> & _ & S & L & E).
  apply start_inv in S. destruct S as (p0 & g & v & S & _ & _ & ->).
  destruct (loop_inv sy ch extra f d mx (fun s => exists ps, gs_iter s = p0 :: ps /\ Forall (refined sy) ps)) with (2 := ex_intro _ [] (conj eq_refl (Forall_nil _)) : (fun s => exists ps, gs_iter s = p0 :: ps /\ Forall (refined sy) ps) (mkG (ob_cfg ob) (ob_err ob ++ [g]) 0 p0 1 PInf v [p0] 0 f)) (3 := L) as [(ps & I & P) _].
  { intros a b (ps & I & P) _ B. apply body_cases in B.
    destruct B as (i & t & t' & v0 & lp & op & v1 & (Hi & E1 & E2) & O1 & O2 & [->|[(L' & g' & G & ->)|(L1 & L2 & ->)]]); cbn [gs_iter].
    - exists ps. auto.
    - exists (ps ++ [op]). split; [rewrite I; reflexivity|]. apply Forall_app. split; auto. constructor; [|constructor].
      exists (gs_t a + i)%nat, t, (meant_for (gs_cfg a) (increase ch) (length (s_choices sy ch a)) i), (nth i (cands_of sy ch a) []), lp. auto.
    - exists ps. auto. }
  apply end_inv in E. destruct E as (ex & w & _ & _ & -> & _). exists p0, ps. auto.
Qed.

(** ** The result of a strategy that keeps [Q] *)
Section Last.
Context (sy : strategy) (ch : choice) (ob : object) (d : xr) (mx : Z) (extra : option (list xr -> res (list xr)))
        (f0 : xr) (Q : cfg -> list xr -> Prop) (Fok : xr -> Prop).
Hypothesis Q_start : forall p, sy_start sy (ob_cfg ob) = Ok p -> Q (ob_cfg ob) p.
Hypothesis Q_guess : forall s, Q (gs_cfg s) (gs_params s) -> Fok (gs_factor s) ->
  (forall p, In p (s_choices sy ch s) -> Q (fst (gs_cfg s) + increase ch, snd (gs_cfg s))%nat p) /\
  (forall p, In p (p_choices sy ch s) -> Q (fst (gs_cfg s), snd (gs_cfg s) + increase ch)%nat p).
Hypothesis Q_opt : forall t k p b q, Q k p -> sy_opt sy t k p b = Ok q -> Q k q.
Hypothesis Q_nan : forall k p, Q k p -> sy_obj sy k p <> Ok NaN.
Hypothesis F_ok : Fok f0.
Hypothesis F_double : forall f, Fok f -> Fok (xmul f (Fin 2)).

Definition from_opt (k : cfg) (p : list xr) : Prop := exists t lp, Q k lp /\ sy_opt sy t k lp false = Ok p.
Definition last_ok (s : gstate) : Prop :=
  (gs_cfg s = ob_cfg ob /\ sy_start sy (ob_cfg ob) = Ok (gs_params s) /\ gs_iter s = [gs_params s]) \/
  from_opt (gs_cfg s) (gs_params s).

Lemma last_run fuel r ob' : greedy_run sy ch ob (VFloat f0) d mx extra fuel = Some (Ok (r, ob')) ->
  let p := last (gr_params r) [] in
  Q (gr_cfg r) p /\
  gr_coeffs r = fst (split_s (gr_cfg r) p) ++ fst (split_p (gr_cfg r) p) /\
  gr_exps r = snd (split_s (gr_cfg r) p) ++ snd (split_p (gr_cfg r) p) /\
  ((gr_cfg r = ob_cfg ob /\ sy_start sy (ob_cfg ob) = Ok p /\ gr_params r = [p]) \/ from_opt (gr_cfg r) p).
Proof.
  intros H. cbv zeta. apply ProofGreedy3.run_inv in H. destruct H as (f & s0 & s & Ef & _ & S & L & E). inversion Ef; subst f.
  destruct (loop_inv sy ch extra f0 d mx (fun s => kept_ok Q Fok s /\ last_ok s)) with (fuel := fuel) (s := s0) (s' := s) as [[(A & _ & _ & L2) LO] _]; auto.
  { intros a b [K LO] _ B. split; [exact (kept_step sy ch extra f0 Q Fok Q_guess Q_opt Q_nan F_ok F_double a b K B)|].
    destruct K as (A & F & N & LL). apply body_cases in B.
    destruct B as (i & t & t' & v0 & lp & op & v1 & (Hi & E1 & E2) & O1 & O2 & [->|[(L' & g' & G & ->)|(L1 & L2 & ->)]]).
    - exact LO.
    - right. exists t, lp. split; [|exact O1]. exact (Q_opt _ _ _ _ _ (cand_ok sy ch Q Fok Q_guess a i A F Hi) E1).
    - exfalso. pose proof (Q_opt _ _ _ _ _ (cand_ok sy ch Q Fok Q_guess a i A F Hi) E1) as Q1. pose proof (Q_opt _ _ _ _ _ Q1 O1) as Q2.
      destruct (xorder _ _ L1 L2) as [Z|Z]; [congruence|]. subst v1. exact (Q_nan _ _ Q2 O2). }
  { apply start_inv in S. destruct S as (p & g & v & S & _ & V & ->). pose proof (Q_start _ S) as QS. split.
    - split; [exact QS|]. split; auto. split; [|reflexivity]. cbn [gs_best]. intros ->. exact (Q_nan _ _ QS V).
    - left. cbn [gs_cfg gs_params gs_iter]. auto. }
  apply end_inv in E. destruct E as (ex & v & _ & _ & -> & _). cbn [gr_cfg gr_params gr_coeffs gr_exps].
  rewrite L2. do 3 (split; [now auto|]). unfold last_ok in LO. destruct LO as [(? & ? & ->)|?]; [left; cbn [last]; auto|right; auto].
Qed.
End Last.

(** ** A run that may iterate does *)
Lemma run_updates f c e oc oe maxiter th r :
  fpi_run f (VArr (A1 c)) (VArr (A1 e)) oc oe maxiter th = Ok r -> (1 <= maxiter)%Z -> some_limit th ->
  exists n cp ep, iterate f oc oe n c e = Ok (cp, ep) /\ update_params f cp ep oc oe = Ok (r_coeffs r, r_exps r).
Proof.
  intros H Hm (Hd & Hce). destruct (ProofFPI2.run_inv _ _ _ _ _ _ _ _ H) as (c' & e' & s & n & Hc & He & H1 & H2 & Ht & Hn & Hg & ->).
  injection Hc as <-. injection He as <-. cbn [r_coeffs r_exps]. destruct Ht as [T1 T2 T3 T4 T5 T6 Tz T7].
  destruct n as [|n].
  - exfalso. destruct (Tz eq_refl) as [Z1 Z2]. cbn in T7. unfold go_on in Hg. rewrite Z1, Z2, T7, T1, Hd in Hg. cbn [Z.of_nat] in Hg.
    replace (0 <? maxiter)%Z with true in Hg by (symmetry; apply Z.ltb_lt; lia).
    rewrite !andb_true_r in Hg. apply orb_false_iff in Hg. destruct Hg, Hce; congruence.
  - cbn [iterate] in T4. destruct (iterate f oc oe n c e) as [[cp ep]|] eqn:E; [|discriminate]. cbn [bind fst snd] in T4. eauto.
Qed.

Lemma kind_lays k rs j : rs <> [] -> (j < total k)%nat -> kind (hd [] (lays_of k rs)) j = Nat.leb (fst k) j.
Proof.
  destruct rs as [|r rs]; [congruence|]. intros _ Hj. unfold kind, lays_of. cbn [map hd]. unfold lay_atom.
  match goal with |- context [nth j (map ?g ?l) ?dd] => rewrite (nth_indep (map g l) dd (g true)) by (rewrite map_length, types_length; exact Hj); rewrite (map_nth g) end.
  cbn [fst]. unfold types. destruct (Nat.leb_spec (fst k) j).
  - rewrite app_nth2; rewrite repeat_length; auto. clear. generalize (snd k) (j - fst k)%nat. intros n. induction n; intros [|m]; cbn; auto.
  - rewrite app_nth1 by (now rewrite repeat_length). clear - H. revert j H. generalize (fst k). intros n. induction n; intros [|m] H; cbn; auto; try lia. apply IHn. lia.
Qed.

Lemma app_inj_len {A} (a b c d : list A) : length a = length c -> a ++ b = c ++ d -> a = c /\ b = d.
Proof.
  revert c. induction a as [|x a IH]; intros [|y c] H E; cbn in *; try lia; auto. inversion E as [[E1 E2]].
  destruct (IH c ltac:(lia) E2) as [-> ->]. auto.
Qed.
Lemma fits_pos_parts k p : fits_pos k p -> exists c e, p = map Fin c ++ map Fin e /\ fst (split_s k p) ++ fst (split_p k p) = map Fin c /\ snd (split_s k p) ++ snd (split_p k p) = map Fin e /\ length c = total k /\ length e = total k /\ positive c /\ positive e.
Proof.
  intros H. destruct (four k p (fits_pos_fits _ _ H)) as (cs & cp & es & ep & E & M1 & M2 & M3 & M4 & -> & ->).
  destruct H as (c & e & Ep & Lc & Le & Pc & Pe). exists c, e. split; auto. rewrite Ep in E. apply app_inj_len in E.
  - destruct E as [-> ->]. cbn [fst snd]. auto 10.
  - rewrite map_length, app_length. unfold total in *. lia.
Qed.

Section KL.
Context (gk : greedy_kl) (sph : bool) (w f rs : list R) (mask N : R).
Hypothesis HS : kl_setting gk sph w f rs mask N.
Hypothesis Hw : nonneg w.
Hypothesis Pf : positive f.
Hypothesis Ho : off_origin w rs.
Let W := fit_weights sph w rs.
Let L1 : length w = length f := ks_lenw _ _ _ _ _ _ _ HS.
Let L2 : length rs = length f := ks_lenr _ _ _ _ _ _ _ HS.
Let HN : 0 < N := ks_N _ _ _ _ _ _ _ HS.

(** A global optimization ends with an update. *)
Lemma kl_opt_update t k p q : (0 < total k)%nat -> fits_pos k p -> kl_opt gk t k p false = Ok q ->
  (1 <= kl_gmaxiter gk)%Z -> some_limit (kl_global gk) ->
  exists c e, q = map Fin c ++ map Fin e /\ length c = total k /\ length e = total k /\ updated_from mask W f N k rs c e.
Proof.
  intros Hk Hp H Hm Hl. pose proof (kl_facts _ _ _ _ _ _ _ HS) as K. destruct (kf_at _ _ _ _ _ _ _ K k Hk) as (m & E & ST). fold W in ST.
  unfold kl_opt in H. rewrite E in H. cbn [bind] in H. set (fp := mkFpi _ _) in *.
  assert (HW' : nonneg W) by (apply fit_weights_nonneg; auto; lia).
  assert (NE : rs <> []) by (eapply off_ne; [|exact Ho]; lia).
  assert (NF : nfun (lays_of k rs) = total k) by (now apply nfun_lays).
  assert (LW : length W = length w) by (apply fit_weights_length; lia).
  assert (SU : supported W f (lays_of k rs) (nfun (lays_of k rs))).
  { rewrite NF. apply lays_supported; auto; try lia. apply off_weights; auto; lia. }
  destruct (halves_pos _ _ Hp) as (c & e & _ & E1 & E2 & Lc & Le & Pc & Pe). rewrite E1, E2 in H.
  destruct (fpi_run fp _ _ _ _ _ _) as [r|] eqn:R; [|discriminate]. cbn [bind] in H. inversion H; subst q. clear H.
  destruct (run_updates _ _ _ _ _ _ _ _ R Hm Hl) as (n & cp & ep & I & U).
  destruct (iterate_positive _ _ _ _ _ _ _ c e true true n ST HN HW' SU) as (c0 & e0 & I' & [S1 S2] & P1 & P2); auto.
  { split; lia. }
  rewrite I' in I. inversion I; subst cp ep.
  assert (A2 : forall j, (j < nfun (lays_of k rs))%nat -> avg2 mask W f true (lays_of k rs) c0 e0 j <> 0).
  { intros j Hj. apply Rgt_not_eq. destruct (setting_facts _ _ _ _ _ _ _ ST) as [m' [_ _ _ _ _ Hv]]. destruct ST as [_ Q1 Q2 Q3 _].
    eapply avg2_pos; eauto. now apply positive_nonneg. }
  destruct (update_formula _ _ _ _ _ _ _ c0 e0 true true ST) as (c1 & e1 & U1 & [T1 T2] & F1 & F2); auto.
  { split; auto. } { now apply positive_nonneg. }
  rewrite U1 in U. inversion U as [[V1 V2]]. exists c1, e1. split; [congruence|]. split; [lia|]. split; [lia|].
  exists c0, e0. split; [lia|]. split; [lia|]. split; auto. split; auto. split; [|split].
  - intros j Hj. apply F1. lia.
  - intros j Hj. rewrite F2 by lia. now rewrite kind_lays.
  - intros AB. destruct (coeffs_sum _ _ _ _ _ _ _ c0 e0 true _ _ ST ltac:(split; auto) ltac:(now apply positive_nonneg) ltac:(auto) AB U1) as (c2 & X & _ & Z).
    apply map_Fin_inj in X. now subst c2.
Qed.

Lemma kl_result rand ch F d mx extra fuel err r ob' :
  rand_pos (kl_strategy gk rand) -> 0 < F -> (1 <= kl_gmaxiter gk)%Z -> some_limit (kl_global gk) ->
  greedy_run (kl_strategy gk rand) ch (mkObject (1, 0)%nat err) (VFloat (Fin F)) d mx extra fuel = Some (Ok (r, ob')) ->
  exists c e, gr_coeffs r = map Fin c /\ gr_exps r = map Fin e /\
    length c = total (gr_cfg r) /\ length e = total (gr_cfg r) /\ positive c /\ positive e /\
    ((gr_cfg r = (1, 0)%nat /\ c = [N] /\ gr_params r = [map Fin c ++ map Fin e]) \/
     updated_from mask W f N (gr_cfg r) rs c e).
Proof.
  intros HR HF Hm Hl H.
  assert (TK : forall k : cfg, (0 < fst k)%nat -> (0 < total k)%nat) by (unfold total; lia).
  assert (FD : forall g, (exists F, g = Fin F /\ 0 < F) -> exists F, xmul g (Fin 2) = Fin F /\ 0 < F).
  { intros g (G & -> & HG). exists (G * 2). split; [reflexivity|lra]. }
  destruct (moment_pos w f rs) as (_ & _ & M4); try lia; auto.
  destruct (last_run (kl_strategy gk rand) ch (mkObject (1, 0)%nat err) d mx extra (Fin F) pos_state (fun g => exists F, g = Fin F /\ 0 < F)) with (fuel := fuel) (r := r) (ob' := ob')
    as ([QP QK] & C1 & C2 & O); auto.
  { intros p Hp. destruct (kl_start_pos gk sph w f rs mask N HS Hw Pf Ho) as (p' & A & B). cbn [kl_strategy sy_start ob_cfg] in Hp. 
    assert (p = p') by congruence. subst p'. split; [exact B|cbn; lia]. }
  { intros s. exact (guesses_pos _ ch s HR). }
  { intros t k p b q [X1 X2] X3. destruct (kl_opt_pos gk sph w f rs mask N HS Hw Pf Ho t k p b (TK k X2) X1) as (q' & A & B).
    cbn [kl_strategy sy_opt] in X3. assert (q = q') by congruence. subst q'. split; auto. }
  { intros k p [X1 X2] X3. destruct (kl_obj_pos gk sph w f rs mask N HS Pf Ho k p (TK k X2) X1) as (x & A). cbn [kl_strategy sy_obj] in X3. congruence. }
  { exists F. auto. }
  set (p := last (gr_params r) []) in *.
  destruct (fits_pos_parts _ _ QP) as (c & e & Ep & D1 & D2 & Lc & Le & Pc & Pe). rewrite <- C1 in D1. rewrite <- C2 in D2.
  exists c, e. do 6 (split; [now auto|]). destruct O as [(K & S & G)|(t & lp & [X1 X2] & O)].
  - left. cbn [ob_cfg] in K. split; auto. cbn [kl_strategy sy_start ob_cfg] in S.
    rewrite (kl_denom gk sph w f rs mask N _ HS) in S by lra. 
    split; [|now rewrite G, Ep]. rewrite K in Lc, Le. cbn in Lc, Le.
    destruct c as [|a [|]]; cbn in Lc; try lia. destruct e as [|b [|]]; cbn in Le; try lia. rewrite Ep in S. cbn in S. inversion S. reflexivity.
  - right. cbn [kl_strategy sy_opt] in O. destruct (kl_opt_update _ _ _ _ (TK _ X2) X1 O Hm Hl) as (c' & e' & Eq & Lc' & Le' & U).
    rewrite Ep in Eq. assert (T : map Fin c = map Fin c' /\ map Fin e = map Fin e').
    { apply app_inj_len; auto. rewrite !map_length. lia. }
    destruct T as [T1 T2]. apply map_Fin_inj in T1. apply map_Fin_inj in T2. now subst c' e'.
Qed.

Lemma kl_result_integral rand ch F d mx extra fuel err r ob' :
  rand_pos (kl_strategy gk rand) -> 0 < F -> (1 <= kl_gmaxiter gk)%Z -> some_limit (kl_global gk) ->
  greedy_run (kl_strategy gk rand) ch (mkObject (1, 0)%nat err) (VFloat (Fin F)) d mx extra fuel = Some (Ok (r, ob')) ->
  exists c e, gr_coeffs r = map Fin c /\ gr_exps r = map Fin e /\
    length c = total (gr_cfg r) /\ length e = total (gr_cfg r) /\ positive c /\ positive e /\
    is_RInt_gen (fun x => 4 * PI * x ^ 2 * fitted (gr_cfg r) c e x) (at_point 0) (Rbar_locally p_infty) (rsum c) /\
    ((gr_cfg r = (1, 0)%nat /\ rsum c = N /\ gr_params r = [map Fin c ++ map Fin e]) \/
     updated_from mask W f N (gr_cfg r) rs c e).
Proof.
  intros HR HF Hm Hl H. destruct (kl_result rand ch F d mx extra fuel err r ob' HR HF Hm Hl H) as (c & e & E1 & E2 & L & L' & P & P' & O).
  exists c, e. do 6 (split; [assumption|]). split; [now apply atom_integral|].
  destruct O as [(K & -> & G)|U]; [left|right; exact U]. split; auto. split; auto. unfold rsum. cbn. ring.
Qed.
End KL.
