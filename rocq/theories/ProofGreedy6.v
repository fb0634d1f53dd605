(** Runs that cannot fail, and GreedyKLFPI from start to end (C77). *)
From Coquelicot Require Import Coquelicot.
From Coq Require Import String Reals List ZArith Lia Lra Bool.
From Verif Require Import XR SpecDens SpecMeas SpecFit ModelDens ModelMeas ModelGrid ModelFit ModelGreedy SpecGreedy Lists
  ProofDens ProofInit ProofDeriv ProofMeas ProofSlater ProofFitView ProofFit ProofEM ProofFPI ProofFPI2 ProofFPI3 ProofGreedy1 ProofGreedy2 ProofGreedy3 ProofGreedy4 ProofGreedy5.
Import ListNotations.
Local Open Scope R_scope.

(** ** Total strategies *)
Section Total.
Context (sy : strategy) (ch : choice) (ob : object) (d : xr) (mx : Z) (extra : option (list xr -> res (list xr)))
        (f0 : xr) (Q : cfg -> list xr -> Prop) (Fok : xr -> Prop).
Hypothesis T_start : exists p, sy_start sy (ob_cfg ob) = Ok p /\ Q (ob_cfg ob) p.
Hypothesis Q_guess : forall s, Q (gs_cfg s) (gs_params s) -> Fok (gs_factor s) ->
  (forall p, In p (s_choices sy ch s) -> Q (fst (gs_cfg s) + increase ch, snd (gs_cfg s))%nat p) /\
  (forall p, In p (p_choices sy ch s) -> Q (fst (gs_cfg s), snd (gs_cfg s) + increase ch)%nat p).
Hypothesis Q_some : forall s, Q (gs_cfg s) (gs_params s) -> cands_of sy ch s <> [].
Hypothesis T_opt : forall t k p b, Q k p -> exists q, sy_opt sy t k p b = Ok q /\ Q k q.
Hypothesis T_obj : forall k p, Q k p -> exists x, sy_obj sy k p = Ok (Fin x).
Hypothesis T_good : forall k p, Q k p -> exists g, sy_good sy k p = Ok g.
Hypothesis T_extra : forall f p, extra = Some f -> exists x, f p = Ok x.
Hypothesis F_ok : Fok f0.
Hypothesis F_double : forall f, Fok f -> Fok (xmul f (Fin 2)).
Hypothesis D_ok : d <> NaN.
Hypothesis F_pos : xleb f0 (Fin 0) = false.

Definition huge : Prop := exists k p x, Q k p /\ sy_obj sy k p = Ok (Fin x) /\ 10 ^ 10 <= x.

Lemma T_keep t k p b q : Q k p -> sy_opt sy t k p b = Ok q -> Q k q.
Proof. intros H E. destruct (T_opt t k p b H) as (q' & E' & K). congruence. Qed.
Lemma T_nan k p : Q k p -> sy_obj sy k p <> Ok NaN.
Proof. intros H E. destruct (T_obj k p H) as (x & E'). congruence. Qed.

Lemma body_total s : kept_ok Q Fok s ->
  (exists s', greedy_body sy ch extra f0 s = Ok s') \/ (greedy_body sy ch extra f0 s = Raise TypeError /\ huge).
Proof.
  intros (A & F & N & L). unfold greedy_body.
  set (cs := s_choices sy ch s) in *. set (cp := p_choices sy ch s) in *.
  assert (X : exists tot, match extra with None => Ok (cs ++ cp) | Some f => do x <- f (gs_params s); Ok (cs ++ cp ++ [x]) end = Ok tot /\
     firstn (length cs + length cp) tot = cs ++ cp).
  { destruct extra as [f|].
    - destruct (T_extra f (gs_params s) eq_refl) as [x ->]. cbn [bind]. eexists. split; [reflexivity|apply firstn_total].
    - eexists. split; [reflexivity|]. rewrite <- (app_nil_r (cs ++ cp)) at 1. rewrite <- app_assoc. apply firstn_total. }
  destruct X as (tot & -> & X2). cbn [bind]. rewrite X2.
  assert (EV : forall i, (i < length (cs ++ cp))%nat -> exists lp w, evaluated sy (gs_t s) (gs_cfg s) (increase ch) (length cs) (cs ++ cp) i lp (Fin w) /\
     Q (meant_for (gs_cfg s) (increase ch) (length cs) i) lp).
  { intros i Hi. pose proof (cand_ok sy ch Q Fok Q_guess s i A F Hi) as C.
    destruct (T_opt (gs_t s + i) _ _ true C) as (lp & E1 & K). destruct (T_obj _ _ K) as (w & E2). exists lp, w. split; [split; auto|exact K]. }
  destruct (search_total sy (gs_t s) (gs_cfg s) (increase ch) (length cs) (cs ++ cp)) as [[[v0 bp] b] SB].
  { intros i Hi. destruct (EV i Hi) as (lp & w & E1 & _). eauto. }
  rewrite SB. cbn [bind].
  destruct (search_best _ _ _ _ _ _ _ _ _ SB) as [(-> & NB)|(i & lp & -> & (I & E1 & E2) & -> & _)].
  - right. split; auto. assert (P : (0 < length (cs ++ cp))%nat).
    { destruct (cs ++ cp) eqn:Z; [exfalso; exact (Q_some s A Z)|cbn; lia]. }
    destruct (EV 0%nat P) as (lp & w & E1 & K). exists (meant_for (gs_cfg s) (increase ch) (length cs) 0), lp, w. split; auto. split; [apply E1|].
    specialize (NB _ _ _ E1). cbn [xltb] in NB. apply Rnot_lt_le. intros C. apply rltb_iff in C. congruence.
  - left. change (if Nat.ltb i (length cs) then _ else _) with (meant_for (gs_cfg s) (increase ch) (length cs) i).
    assert (K : Q (meant_for (gs_cfg s) (increase ch) (length cs) i) lp).
    { eapply T_keep; [|exact E1]. apply (cand_ok sy ch Q Fok Q_guess s i A F I). }
    set (k' := meant_for _ _ _ i) in *.
    match goal with |- context [sy_opt sy ?t k' lp false] => destruct (T_opt t k' lp false K) as (op & -> & K2) end. cbn [bind].
    destruct (T_obj k' op K2) as (v & ->). cbn [bind]. destruct (_ || _); [eauto|].
    destruct (xleb (Fin v) (gs_best s)); [|eauto]. destruct (T_good k' op K2) as (g & ->). cbn [bind]. eauto.
Qed.

Lemma fb_step s s' : kept_ok Q Fok s -> finite_best s -> greedy_body sy ch extra f0 s = Ok s' -> finite_best s'.
Proof.
  intros (A & F & _) [FA FB] Y. apply body_cases in Y.
  destruct Y as (i & t & t' & v0 & lp & op & v & (I & E1 & _) & O1 & O2 & [->|[(_ & g & _ & ->)|(_ & _ & ->)]]); split; cbn [gs_best gs_prev]; auto.
  pose proof (T_keep _ _ _ _ _ (T_keep _ _ _ _ _ (cand_ok sy ch Q Fok Q_guess s i A F I) E1) O1) as K.
  destruct (T_obj _ _ K) as (x & Ex). exists x. congruence.
Qed.

Lemma loop_progress : forall fuel s, kept_ok Q Fok s -> finite_best s ->
  match greedy_loop sy ch extra f0 d mx fuel s with
  | Some (Raise e) => e = TypeError /\ huge
  | _ => True
  end.
Proof.
  induction fuel as [|fuel IH]; intros s K FB; cbn [greedy_loop]; destruct (greedy_go d mx s); auto.
  destruct (body_total s K) as [(s' & E)|[E H]]; rewrite E; auto. apply IH.
  - exact (kept_step sy ch extra f0 Q Fok Q_guess T_keep T_nan F_ok F_double s s' K E).
  - exact (fb_step s s' K FB E).
Qed.

Lemma run_total fuel : (5 * (mx - 1) <= Z.of_nat fuel)%Z ->
  (exists r ob', greedy_run sy ch ob (VFloat f0) d mx extra fuel = Some (Ok (r, ob')) /\
     Q (gr_cfg r) (last (gr_params r) []) /\ exists x, gr_fun r = Fin x) \/
  (greedy_run sy ch ob (VFloat f0) d mx extra fuel = Some (Raise TypeError) /\ huge).
Proof.
  intros Hf. unfold greedy_run. rewrite F_pos.
  destruct T_start as (p & E1 & K). destruct (T_good _ _ K) as (g & E2). destruct (T_obj _ _ K) as (v & E3).
  assert (S : greedy_start sy ob f0 = Ok (mkG (ob_cfg ob) (ob_err ob ++ [g]) 0 p 1 PInf (Fin v) [p] 0 f0))
    by (unfold greedy_start; rewrite E1; cbn [bind]; rewrite E2; cbn [bind]; rewrite E3; reflexivity).
  rewrite S. set (s0 := mkG _ _ _ _ _ _ _ _ _ _) in *.
  assert (K0 : kept_ok Q Fok s0). { split; [exact K|]. split; auto. split; [discriminate|reflexivity]. }
  assert (B0 : finite_best s0). { split; [exists v; reflexivity|left; reflexivity]. }
  pose proof (loop_progress fuel s0 K0 B0) as P.
  destruct (greedy_loop sy ch extra f0 d mx fuel s0) as [[s|e]|] eqn:G.
  - left. destruct (loop_inv sy ch extra f0 d mx (fun s => (kept_ok Q Fok s /\ finite_best s) /\ counters sy ch ob mx s)) with (fuel := fuel) (s := s0) (s' := s)
      as [[[KS [FA FB]] (_ & _ & CR & _)] GO]; auto.
    { intros a b [[X1 X2] X3] Y Z. split; [split|].
      - exact (kept_step sy ch extra f0 Q Fok Q_guess T_keep T_nan F_ok F_double a b X1 Z).
      - exact (fb_step a b X1 X2 Z).
      - eapply counters_step; eauto. }
    { split; [split; auto|]. eapply counters_start; eauto. }
    destruct KS as (KQ & _ & _ & KL). unfold greedy_end. rewrite KL. destruct (T_obj _ _ KQ) as (x & Ex).
    assert (EX : exists ex, (if Nat.eqb (gs_redum s) 5 then Ok (ExNoChoice (gs_cfg s))
        else final_exit (gs_n s) mx (gs_best s) (gs_prev s) d) = Ok ex).
    { destruct (Nat.eqb_spec (gs_redum s) 5) as [R|R]; [eauto|]. apply final_ok; auto.
      unfold greedy_go in GO. destruct (Nat.ltb_spec (gs_redum s) 5); [|lia]. rewrite andb_true_r in GO. exact GO. }
    destruct EX as (ex & ->). cbn [bind]. rewrite Ex. cbn [bind]. eexists _, _. split; [reflexivity|].
    cbn [gr_cfg gr_params gr_fun]. rewrite KL. split; auto. exists x. reflexivity.
  - right. destruct P as [-> H]. auto.
  - exfalso. eapply loop_fuel; [|exact G]. unfold left_over, s0. cbn [gs_n gs_redum]. lia.
Qed.
End Total.

(** ** Positive guesses *)
Definition pos_state (k : cfg) (p : list xr) : Prop := fits_pos k p /\ (0 < fst k)%nat.

Lemma fits_pos_fits k p : fits_pos k p -> fits k p.
Proof. intros (c & e & -> & L1 & L2 & _). unfold fits. rewrite app_length, !map_length. lia. Qed.

Lemma four_pos k p : fits_pos k p -> exists cs cp es ep,
  split_s k p = (map Fin cs, map Fin es) /\ split_p k p = (map Fin cp, map Fin ep) /\
  length cs = fst k /\ length cp = snd k /\ length es = fst k /\ length ep = snd k /\
  positive cs /\ positive cp /\ positive es /\ positive ep.
Proof.
  intros (c & e & -> & L1 & L2 & P1 & P2). unfold total in *.
  exists (firstn (fst k) c), (skipn (fst k) c), (firstn (fst k) e), (skipn (fst k) e).
  assert (LL : length (map Fin c) = (fst k + snd k)%nat) by (rewrite map_length; auto).
  assert (A : forall l, positive l -> positive (firstn (fst k) l) /\ positive (skipn (fst k) l)).
  { intros l Hl. rewrite <- (firstn_skipn (fst k) l) in Hl. apply Forall_app in Hl. exact Hl. }
  destruct (A c P1), (A e P2). rewrite !firstn_length, !skipn_length.
  split; [|split; [|repeat split; auto; lia]].
  - unfold split_s. rewrite firstn_app, LL. replace (fst k - (fst k + snd k))%nat with 0%nat by lia. rewrite firstn_O, app_nil_r.
    rewrite skipn_app, LL, Nat.sub_diag, skipn_O. rewrite (skipn_all2 (map Fin c)) by lia. cbn [app]. now rewrite !firstn_map.
  - unfold split_p. rewrite skipn_app, LL. replace (fst k - (fst k + snd k))%nat with 0%nat by lia. rewrite skipn_O.
    rewrite firstn_app, skipn_length, LL. replace (snd k - (fst k + snd k - fst k))%nat with 0%nat by lia. rewrite firstn_O, app_nil_r.
    rewrite firstn_all2 by (rewrite skipn_length, LL; lia). rewrite skipn_map. f_equal.
    rewrite skipn_app, LL. rewrite skipn_all2 by lia. cbn [app]. replace (2 * fst k + snd k - (fst k + snd k))%nat with (fst k) by lia. now rewrite skipn_map.
Qed.

Lemma from_list c' : (forall x : xr, In x c' -> exists r, x = Fin r /\ 0 < r) -> exists c, c' = map Fin c /\ positive c.
Proof.
  induction c' as [|x c' IH]; intros H; [exists []; split; [auto|constructor]|].
  destruct (H x (or_introl eq_refl)) as (r & -> & Hr). destruct IH as (c & -> & Hc); [intros; apply H; right; auto|].
  exists (r :: c). split; [reflexivity|constructor; auto].
Qed.
Lemma in_map_Fin_pos x c : positive c -> In x (map Fin c) -> exists r, x = Fin r /\ 0 < r.
Proof. intros H I. apply in_map_iff in I. destruct I as (r & <- & I). exists r. split; auto. eapply Forall_forall in H; eauto. Qed.

Lemma next_pos ch F c e x : 0 < F -> (0 < length e)%nat -> length c = length e -> positive c -> positive e ->
  In x (next_params ch (Fin F) (map Fin c) (map Fin e)) ->
  exists c' e', x = map Fin c' ++ map Fin e' /\ length c' = (length e + increase ch)%nat /\
    length e' = (length e + increase ch)%nat /\ positive c' /\ positive e'.
Proof.
  intros HF Hn Hl Pc Pe Hx. apply guesses_positive in Hx; auto; [|now rewrite map_length].
  destruct Hx as (c' & e' & -> & A & B & C & D & _).
  destruct (from_list c') as (c2 & -> & Pc2).
  { intros y Hy. destruct (C y Hy) as [->|Hc]; [exists 100; split; [auto|lra]|]. exact (in_map_Fin_pos y c Pc Hc). }
  rewrite map_length in A. exists c2, e'. repeat split; auto; lia.
Qed.

Lemma fits_pos_join c1 c2 e1 e2 k : (length c1 + length c2 = total k)%nat -> (length e1 + length e2 = total k)%nat ->
  positive c1 -> positive c2 -> positive e1 -> positive e2 ->
  fits_pos k (map Fin c1 ++ map Fin c2 ++ map Fin e1 ++ map Fin e2).
Proof.
  intros. exists (c1 ++ c2), (e1 ++ e2). rewrite !map_app, !app_length, !app_assoc. repeat split; auto; apply Forall_app; auto.
Qed.

Lemma guesses_pos sy ch s : rand_pos sy -> pos_state (gs_cfg s) (gs_params s) ->
  (exists F, gs_factor s = Fin F /\ 0 < F) ->
  (forall p, In p (s_choices sy ch s) -> pos_state (fst (gs_cfg s) + increase ch, snd (gs_cfg s))%nat p) /\
  (forall p, In p (p_choices sy ch s) -> pos_state (fst (gs_cfg s), snd (gs_cfg s) + increase ch)%nat p).
Proof.
  intros R [H Hk] (F & EF & HF). destruct (four_pos _ _ H) as (cs & cp & es & ep & S1 & S2 & L1 & L2 & L3 & L4 & P1 & P2 & P3 & P4).
  split; intros p Hp; (split; [|cbn [fst]; lia]).
  - unfold s_choices in Hp. rewrite S1, S2, EF in Hp. cbn [fst snd] in Hp. apply in_map_iff in Hp. destruct Hp as (x & <- & Hx).
    apply next_pos in Hx; auto; try lia. destruct Hx as (c' & e' & -> & M1 & M2 & N1 & N2).
    destruct (firstn_exact (map Fin c') (map Fin e') (fst (gs_cfg s) + increase ch)%nat) as [-> ->]; [rewrite map_length; lia|].
    apply fits_pos_join; auto; unfold total; cbn [fst snd]; lia.
  - unfold p_choices in Hp. rewrite S1, S2, EF in Hp. cbn [fst snd] in Hp. apply in_map_iff in Hp. destruct Hp as (x & <- & Hx).
    assert (Y : exists c' e', x = map Fin c' ++ map Fin e' /\ length c' = (snd (gs_cfg s) + increase ch)%nat /\
       length e' = (snd (gs_cfg s) + increase ch)%nat /\ positive c' /\ positive e').
    { destruct (Nat.eqb_spec (snd (gs_cfg s)) 0) as [Z|Z].
      - assert (G : exists l, x = map Fin l /\ length l = (2 * increase ch)%nat /\ positive l).
        { cbn [In] in Hx. destruct Hx as [Hx|[Hx|[Hx|[]]]]; subst x;
          match goal with |- context [sy_rand sy ?i ?n] => destruct (R i n) as (l & -> & Ll & Pl) end.
          - eauto.
          - exists (map (fun x => x * 9 + 1) l). rewrite !map_map, map_length. split; [reflexivity|]. split; auto.
            apply Forall_map. eapply Forall_impl; [|exact Pl]. cbn. intros; lra.
          - exists (map (fun x => x * 90 + 10) l). rewrite !map_map, map_length. split; [reflexivity|]. split; auto.
            apply Forall_map. eapply Forall_impl; [|exact Pl]. cbn. intros; lra. }
        destruct G as (l & -> & Ll & Pl). exists (firstn (increase ch) l), (skipn (increase ch) l).
        rewrite <- (firstn_skipn (increase ch) l) in Pl at 1. apply Forall_app in Pl. destruct Pl.
        rewrite <- map_app, firstn_skipn, firstn_length, skipn_length. repeat split; auto; lia.
      - apply next_pos in Hx; auto; try lia. destruct Hx as (c' & e' & -> & M1 & M2 & N1 & N2). exists c', e'. repeat split; auto; lia. }
    destruct Y as (c' & e' & -> & M1 & M2 & N1 & N2).
    destruct (firstn_exact (map Fin c') (map Fin e') (snd (gs_cfg s) + increase ch)%nat) as [-> ->]; [rewrite map_length; lia|].
    apply fits_pos_join; auto; unfold total; cbn [fst snd]; lia.
Qed.

Lemma next_some ch F c e : (0 < length e)%nat -> length c = length e -> next_params ch F c e <> [].
Proof.
  intros H1 H2 E. destruct ch; cbn [next_params] in E.
  - destruct (next_choices F c e (Fin 100) H1 H2) as [L _]. rewrite E in L. cbn in L. lia.
  - destruct (two_choices F c e (Fin 100) H1 H2) as [L _]. rewrite E in L. cbn [length] in L. lia.
  - destruct (lose_one F c e (Fin 100) H1 H2) as [L _]. rewrite E in L. cbn [length] in L. nia.
Qed.
Lemma cands_some sy ch s : pos_state (gs_cfg s) (gs_params s) -> cands_of sy ch s <> [].
Proof.
  intros [H Hk] E. destruct (four_pos _ _ H) as (cs & cp & es & ep & S1 & S2 & L1 & L2 & L3 & L4 & _).
  unfold cands_of in E. apply app_eq_nil in E. destruct E as [E _]. unfold s_choices in E. rewrite S1 in E. cbn [fst snd] in E.
  apply map_eq_nil in E. eapply next_some; [| |exact E]; rewrite !map_length; lia.
Qed.

(** ** GreedyKLFPI *)
Lemma halves_pos k p : fits_pos k p -> exists c e, p = map Fin c ++ map Fin e /\ half1 p = map Fin c /\ half2 p = map Fin e /\
  length c = total k /\ length e = total k /\ positive c /\ positive e.
Proof.
  intros (c & e & -> & L1 & L2 & P1 & P2). exists c, e. split; auto.
  unfold half1, half2. rewrite app_length, !map_length, L1, L2.
  replace ((total k + total k) / 2)%nat with (total k) by (apply Nat.div_unique_exact; lia).
  destruct (firstn_exact (map Fin c) (map Fin e) (total k)) as [-> ->]; [rewrite map_length; auto|]. auto 10.
Qed.

Lemma nfun_lays k rs : rs <> [] -> nfun (lays_of k rs) = total k.
Proof. destruct rs as [|r rs]; [congruence|]. intros _. unfold nfun, lays_of. cbn [map hd]. apply lay_atom_length. Qed.

Lemma lays_supported W f rs k : length f = length W -> length rs = length W -> positive f -> off_origin W rs ->
  supported W f (lays_of k rs) (total k).
Proof.
  intros Hf Hr Pf (i & Hi & Wi & Ri) j Hj. exists i. split; auto. split; auto. split; [apply positive_nth; auto; lia|].
  unfold lays_of. rewrite map_map.
  rewrite (nth_indep _ [] ((fun x => lay_atom (fst k) (snd k) (Rabs x)) 0)) by (rewrite map_length; lia).
  rewrite (map_nth (fun x => lay_atom (fst k) (snd k) (Rabs x))). unfold away, lay_atom.
  assert (TL : (j < length (types (fst k) (snd k)))%nat) by (rewrite types_length; exact Hj).
  match goal with |- context [nth j (map ?g ?l) ?dd] => rewrite (nth_indep (map g l) dd (g true)) by (rewrite map_length; exact TL); rewrite (map_nth g) end.
  cbn [snd]. now apply Rabs_no_R0.
Qed.

Lemma off_ne W rs : length rs = length W -> off_origin W rs -> rs <> [].
Proof. intros H (i & Hi & _) ->. cbn in *. lia. Qed.

Section KL.
Context (gk : greedy_kl) (sph : bool) (w f rs : list R) (mask N : R).
Hypothesis HS : kl_setting gk sph w f rs mask N.
Hypothesis Hw : nonneg w.
Hypothesis Pf : positive f.
Hypothesis Ho : off_origin w rs.
Let W := fit_weights sph w rs.
Let L1 : length w = length f := ks_lenw _ _ _ _ _ _ _ HS.
Let L2 : length rs = length f := ks_lenr _ _ _ _ _ _ _ HS.
Let HN : 0 < N := ks_N _ _ _ _ _ _ _ HS.

Lemma LW : length W = length w.
Proof. apply fit_weights_length. lia. Qed.

Lemma kl_opt_pos t k p b : (0 < total k)%nat -> fits_pos k p -> exists q, kl_opt gk t k p b = Ok q /\ fits_pos k q.
Proof.
  intros Hk Hp. pose proof (kl_facts _ _ _ _ _ _ _ HS) as K. destruct (kf_at _ _ _ _ _ _ _ K k Hk) as (m & E & ST). fold W in ST.
  unfold kl_opt. rewrite E. cbn [bind].
  assert (HW' : nonneg W) by (apply fit_weights_nonneg; auto; lia).
  assert (NF : nfun (lays_of k rs) = total k) by (apply nfun_lays; eapply off_ne; [|exact Ho]; lia).
  assert (SU : supported W f (lays_of k rs) (nfun (lays_of k rs))).
  { rewrite NF. pose proof LW. apply lays_supported; auto; try lia. apply off_weights; auto; lia. }
  destruct (halves_pos _ _ Hp) as (c & e & _ & -> & -> & Lc & Le & Pc & Pe).
  destruct (run_positive _ _ _ _ _ _ _ c e true true (if b then kl_lmaxiter gk else kl_gmaxiter gk) (if b then kl_local gk else kl_global gk)
    ST HN HW' Pf SU eq_refl) as (r & c' & e' & -> & R1 & R2 & [S1 S2] & Pc' & Pe'); auto.
  { split; rewrite NF; auto. }
  cbn [bind]. rewrite R1, R2. eexists. split; [reflexivity|]. exists c', e'. rewrite NF in S1, S2. auto 10.
Qed.

Lemma kl_good_pos k p : (0 < total k)%nat -> fits_pos k p -> exists g, good_at (fp_fit (kl_fpi gk)) k p = Ok g.
Proof.
  intros Hk Hp. pose proof (kl_facts _ _ _ _ _ _ _ HS) as K. destruct (kf_at _ _ _ _ _ _ _ K k Hk) as (m & E & ST). fold W in ST.
  unfold good_at. rewrite E. cbn [bind]. destruct (halves_pos _ _ Hp) as (c & e & _ & -> & -> & Lc & Le & Pc & Pe).
  destruct (setting_facts _ _ _ _ _ _ _ ST) as [m' [Hft Hme Hlm Hnz Hne Hv]]. cbn [fp_fit] in Hft.
  destruct ST as [_ S1 S2 S3 S4].
  assert (NF : nfun (lays_of k rs) = total k) by (apply nfun_lays; eapply off_ne; [|exact Ho]; lia).
  destruct (goodness_total _ W f m' mask true (lays_of k rs) (nfun (lays_of k rs)) c e Hft Hv S2 Hne) as (mx & v & -> & _); auto; try lia.
  { now apply positive_nonneg. } eauto.
Qed.

Lemma kl_obj_pos k p : (0 < total k)%nat -> fits_pos k p -> exists x, obj_at (fp_fit (kl_fpi gk)) k p = Ok (Fin x).
Proof.
  intros Hk Hp. pose proof (kl_facts _ _ _ _ _ _ _ HS) as K. destruct (kf_at _ _ _ _ _ _ _ K k Hk) as (m & E & ST). fold W in ST.
  unfold obj_at. rewrite E. cbn [bind]. unfold eval_obj. destruct (halves_pos _ _ Hp) as (c & e & _ & -> & -> & Lc & Le & Pc & Pe).
  destruct (setting_facts _ _ _ _ _ _ _ ST) as [m' [Hft Hme Hlm Hnz Hne Hv]]. cbn [fp_fit] in Hft, Hme.
  destruct ST as [_ S1 S2 S3 S4].
  assert (NF : nfun (lays_of k rs) = total k) by (apply nfun_lays; eapply off_ne; [|exact Ho]; lia).
  rewrite (fo_model _ _ _ _ _ Hft), (fo_dens _ _ _ _ _ Hft), Hme.
  rewrite (vf_eval _ _ _ _ Hv) by (auto; lia). cbn [bind fst].
  assert (HL : length (values true (lays_of k rs) c e) = length W) by (unfold values; rewrite map_length; auto).
  destruct (kl_value mask (Fin 100000) f (values true (lays_of k rs) c e) false S3 ltac:(lia) Pf
    (values_nonneg _ _ _ _ _ _ Hv (eq_trans Lc (eq_sym NF)) (eq_trans Le (eq_sym NF)) (positive_nonneg _ Pc))) as (v & q & -> & V1 & _). cbn [bind fst].
  rewrite (fo_int _ _ _ _ _ Hft) by lia. eauto.
Qed.

Lemma kl_start_pos : exists p, kl_start gk (1, 0)%nat = Ok p /\ fits_pos (1, 0)%nat p.
Proof.
  destruct (moment_pos w f rs) as (_ & _ & M4); try lia; auto.
  rewrite (kl_denom gk sph w f rs mask N _ HS) by lra. eexists. split; [reflexivity|].
  eexists [N], [_]. split; [reflexivity|]. do 2 (split; [reflexivity|]). pose proof PI_RGT_0.
  split; repeat constructor; auto. apply Rdiv_lt_0_compat; [lra|]. apply Rmult_lt_0_compat; [lra|auto].
Qed.

Lemma kl_run rand ch F d mx extra fuel err :
  rand_pos (kl_strategy gk rand) -> 0 < F -> d <> NaN ->
  (forall g p, extra = Some g -> exists x, g p = Ok x) ->
  (5 * (mx - 1) <= Z.of_nat fuel)%Z ->
  let out := greedy_run (kl_strategy gk rand) ch (mkObject (1, 0)%nat err) (VFloat (Fin F)) d mx extra fuel in
  (exists r ob' c e x, out = Some (Ok (r, ob')) /\ gr_coeffs r = map Fin c /\ gr_exps r = map Fin e /\
     length c = total (gr_cfg r) /\ length e = total (gr_cfg r) /\ positive c /\ positive e /\ gr_fun r = Fin x) \/
  (out = Some (Raise TypeError) /\
   exists k p x, fits_pos k p /\ sy_obj (kl_strategy gk rand) k p = Ok (Fin x) /\ 10 ^ 10 <= x).
Proof.
  intros HR HF Hd HX Hfu out.
  assert (TK : forall k : cfg, (0 < fst k)%nat -> (0 < total k)%nat) by (unfold total; lia).
  assert (FD : forall g, (exists F, g = Fin F /\ 0 < F) -> exists F, xmul g (Fin 2) = Fin F /\ 0 < F).
  { intros g (G & -> & HG). exists (G * 2). split; [reflexivity|lra]. }
  assert (XF : xleb (Fin F) (Fin 0) = false) by (cbn; apply rleb_false; lra).
  pose proof (run_total (kl_strategy gk rand) ch (mkObject (1, 0)%nat err) d mx extra (Fin F) pos_state (fun g => exists F, g = Fin F /\ 0 < F)) as RT.
  specialize (RT (let 'ex_intro p (conj A B) := kl_start_pos in ex_intro _ p (conj A (conj B (le_n 1))))).
  specialize (RT (fun s => guesses_pos _ ch s HR) (cands_some _ ch)).
  specialize (RT (fun t k p b H => let 'ex_intro q (conj A B) := kl_opt_pos t k p b (TK k (proj2 H)) (proj1 H) in ex_intro _ q (conj A (conj B (proj2 H))))).
  specialize (RT (fun k p H => kl_obj_pos k p (TK k (proj2 H)) (proj1 H)) (fun k p H => kl_good_pos k p (TK k (proj2 H)) (proj1 H))).
  specialize (RT HX (ex_intro _ F (conj eq_refl HF)) FD Hd XF fuel Hfu). fold out in RT.
  destruct RT as [(r & ob' & E & [K _] & x & Ex)|[E (k & p & x & [K _] & B & C)]].
  - left. assert (X : gr_coeffs r = fst (split_s (gr_cfg r) (last (gr_params r) [])) ++ fst (split_p (gr_cfg r) (last (gr_params r) [])) /\
      gr_exps r = snd (split_s (gr_cfg r) (last (gr_params r) [])) ++ snd (split_p (gr_cfg r) (last (gr_params r) []))).
    { unfold out in E. pose proof E as E0. apply run_inv in E0. destruct E0 as (f1 & s0 & s & _ & _ & _ & _ & E0). apply end_inv in E0. destruct E0 as (ex & v & _ & _ & -> & _). auto. }
    destruct X as [X1 X2]. destruct (four_pos _ _ K) as (cs & cp & es & ep & S1 & S2 & M1 & M2 & M3 & M4 & P1 & P2 & P3 & P4).
    rewrite S1, S2 in X1, X2. cbn [fst snd] in X1, X2. rewrite <- map_app in X1, X2.
    exists r, ob', (cs ++ cp), (es ++ ep), x. unfold total. rewrite !app_length. do 3 (split; [now auto|]). split; [lia|]. split; [lia|].
    split; [apply Forall_app; auto|]. split; [apply Forall_app; auto|exact Ex].
  - right. split; auto. exists k, p, x. auto.
Qed.
End KL.
