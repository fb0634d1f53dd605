(** GreedyLeastSquares from start to end (C78). *)
From Coquelicot Require Import Coquelicot.
From Coq Require Import String Reals List ZArith Lia Lra Bool.
From Verif Require Import XR PyStr SpecDens SpecMeas SpecFit ModelDens ModelMeas ModelGrid ModelFit ModelGreedy SpecGreedy Lists
  ProofDens ProofInit ProofDeriv ProofMeas ProofSlater ProofFitView ProofFit ProofEM ProofFPI ProofFPI2 ProofFPI3 ProofGreedy1 ProofGreedy2 ProofGreedy3 ProofGreedy4 ProofGreedy5 ProofGreedy6.
Import ListNotations.
Local Open Scope R_scope.

Record lfacts (gl : greedy_ls) (norm sph : bool) (w f rs : list R) : Prop := {
  lf_points : gr_points (ft_grid (sc_fit (ls_scipy gl))) = A1 (map Fin rs);
  lf_dens : ft_density (sc_fit (ls_scipy gl)) = map Fin f;
  lf_nonneg : nonneg f;
  lf_at : forall k, (0 < total k)%nat -> exists m,
    at_cfg (sc_fit (ls_scipy gl)) k = Ok (set_model (sc_fit (ls_scipy gl)) m) /\
    fitok (set_model (sc_fit (ls_scipy gl)) m) (fit_weights sph w rs) f m (1 / 10 ^ 18) /\
    ft_measure (set_model (sc_fit (ls_scipy gl)) m) = MSq /\
    vfacts m norm (lays_of k rs) (total k) }.

Lemma ls_facts gl norm sph w f rs : ls_setting gl norm sph w f rs -> lfacts gl norm sph w f rs.
Proof.
  intros [(I & n0 & chs & ch & lt & gt & method & wc & lm & gm & HI & E) Hw Hr].
  unfold greedy_ls_init in E. cbn [ga_points] in E. rewrite atom1_init in E. cbn [bind] in E.
  set (a := mkAtomic _ _ _ _ _ _) in E.
  destruct (scipy_init _ _ _ _ _ _ _ _ _) as [s|] eqn:F; cbn [bind] in E; [|discriminate].
  destruct (parse_choice chs); cbn [bind] in E; [|discriminate]. inversion E; subst gl ch. clear E. cbn [ls_scipy].
  unfold scipy_init in F. cbn [ga_points] in F. destruct (points_differ _ _) as [[|]|]; cbn [bind] in F; try discriminate.
  destruct (negb (Nat.eqb _ _)); [discriminate|]. destruct (negb (str_in _ _)); [discriminate|].
  destruct (base_init _ _ _ _ _ _ _) as [ft|] eqn:B; cbn [bind] in F; [|discriminate]. inversion F; subst s. clear F. cbn [sc_fit].
  assert (INT : integrator (mkGridArg (Some (A1 (map Fin rs))) (Some I)) sph (fit_weights sph w rs)).
  { destruct sph; cbn [fit_weights]; [apply int_sph; auto; lia|apply int_plain; auto]. }
  assert (LW : length f = length (fit_weights sph w rs)) by (rewrite fit_weights_length; lia).
  pose proof (base_fitok _ _ _ _ _ _ _ _ _ INT LW B) as (FO & ME & _).
  apply base_init_inv in B. destruct B as (p & I' & n & Ega & Eft & Hneg & _ & Hn). inversion Ega; subst p I'.
  constructor.
  - rewrite Eft. reflexivity.
  - rewrite Eft. reflexivity.
  - exact (fo_nonneg _ _ _ _ _ FO).
  - intros k Hk. exists (GAtom (mkAtomic (A1 (map Fin rs)) [Fin 0] (map Fin (map Rabs rs)) (Z.of_nat (fst k)) (Z.of_nat (snd k)) norm)).
    split; [rewrite Eft; reflexivity|]. split; [|split].
    + destruct FO as [F1 F2 F3 F4 F5 F6]. constructor; auto.
    + exact ME.
    + unfold total. apply atom_facts; auto.
Qed.

Section LS.
Context (gl : greedy_ls) (norm sph : bool) (w f rs : list R).
Hypothesis HS : ls_setting gl norm sph w f rs.
Hypothesis Pf : positive f.
Hypothesis Tr : two_radii rs.
Let W := fit_weights sph w rs.
Let L1 : length w = length f := lt_lenw _ _ _ _ _ _ HS.
Let L2 : length rs = length f := lt_lenr _ _ _ _ _ _ HS.

Lemma LW7 : length W = length f.
Proof. unfold W. rewrite fit_weights_length; lia. Qed.
Lemma lays_len k : length (lays_of k rs) = length W.
Proof. rewrite LW7. unfold lays_of. rewrite !map_length. lia. Qed.
Lemma lays_ne k : lays_of k rs <> [].
Proof. destruct Tr as (i & _ & Hi & _). intros E. apply (f_equal (@length _)) in E. unfold lays_of in E. rewrite !map_length in E. cbn in E. lia. Qed.

(** Objective and errors for finite parameters. *)
Lemma ls_obj_fin k c e : (0 < total k)%nat -> length c = total k -> length e = total k -> (norm = true -> positive e) ->
  obj_at (sc_fit (ls_scipy gl)) k (map Fin c ++ map Fin e) =
  Ok (Fin (rdot W (map2 sq_fn f (values norm (lays_of k rs) c e)))).
Proof.
  intros Hk Hc He Hp. destruct (lf_at _ _ _ _ _ _ (ls_facts _ _ _ _ _ _ HS) k Hk) as (m & E & FO & ME & V). fold W in FO.
  unfold obj_at. rewrite E. cbn [bind]. unfold eval_obj.
  assert (H12 : half1 (map Fin c ++ map Fin e) = map Fin c /\ half2 (map Fin c ++ map Fin e) = map Fin e).
  { unfold half1, half2. rewrite app_length, !map_length, Hc, He.
    replace ((total k + total k) / 2)%nat with (total k) by (apply Nat.div_unique_exact; lia).
    apply firstn_exact. rewrite map_length; auto. }
  destruct H12 as [-> ->]. rewrite ME, (fo_model _ _ _ _ _ FO), (fo_dens _ _ _ _ _ FO).
  rewrite (vf_eval _ _ _ _ V) by auto. cbn [bind fst].
  assert (HL : length (values norm (lays_of k rs) c e) = length W) by (unfold values; rewrite map_length; apply lays_len).
  destruct (sq_value f (values norm (lays_of k rs) c e) false) as (dd & -> & _); [rewrite HL, LW7; auto|]. cbn [bind fst].
  apply (fo_int _ _ _ _ _ FO). rewrite map2_length, HL, LW7. lia.
Qed.

Lemma ls_good_fin k c e m : (0 < total k)%nat -> length c = total k -> length e = total k -> (norm = true -> positive e) ->
  fitok (set_model (sc_fit (ls_scipy gl)) m) W f m (1 / 10 ^ 18) -> vfacts m norm (lays_of k rs) (total k) ->
  exists g, goodness (set_model (sc_fit (ls_scipy gl)) m) (map Fin c) (map Fin e) = Ok g.
Proof.
  intros Hk Hc He Hp FO V. set (vals := values norm (lays_of k rs) c e).
  assert (HL : length vals = length W) by (unfold vals, values; rewrite map_length; apply lays_len).
  assert (HM : 0 <= 1 / 10 ^ 18) by (apply Rlt_le, Rdiv_lt_0_compat; [lra|apply pow_lt; lra]).
  assert (X : exists v, measure_evaluate (MKL (Fin (1 / 10 ^ 18)) (Fin 100000)) (VArr (A1 (map Fin f))) (VArr (A1 (map Fin vals))) (VBool false) =
     Ok (map Fin v, None) /\ length v = length f).
  { destruct (Exists_dec (fun x => x < 0) vals (fun x => Rlt_dec x 0)) as [N|N].
    - exists (repeat 100000 (length f)). rewrite repeat_length. split; auto.
      rewrite (kl_negative (Fin (1 / 10 ^ 18)) (Fin 100000) f vals false) by (auto; rewrite HL, LW7; auto). do 2 f_equal.
      clear. induction (length f) as [|n IH]; cbn; congruence.
    - destruct (kl_value (1 / 10 ^ 18) (Fin 100000) f vals false HM) as (v & q & E & Lv & _); auto.
      { rewrite HL, LW7; auto. }
      { apply Forall_Exists_neg in N. eapply Forall_impl; [|exact N]. cbn. intros; lra. }
      exists v. auto. }
  destruct X as (v & Ev & Lv).
  destruct (goodness_gen (set_model (sc_fit (ls_scipy gl)) m) W f m (1 / 10 ^ 18) norm (lays_of k rs) (total k) c e v FO V (lays_len k) (lays_ne k) Hc He Hp Ev Lv) as (mx & _ & ->). eauto.
Qed.

Lemma ls_good_pos k p : (0 < total k)%nat -> fits_pos k p -> exists g, good_at (sc_fit (ls_scipy gl)) k p = Ok g.
Proof.
  intros Hk Hp. destruct (lf_at _ _ _ _ _ _ (ls_facts _ _ _ _ _ _ HS) k Hk) as (m & E & FO & ME & V). fold W in FO.
  unfold good_at. rewrite E. cbn [bind]. destruct (halves_pos _ _ Hp) as (c & e & _ & -> & -> & Lc & Le & Pc & Pe).
  apply (ls_good_fin k c e m); auto.
Qed.
Lemma ls_obj_pos k p : (0 < total k)%nat -> fits_pos k p -> exists x, obj_at (sc_fit (ls_scipy gl)) k p = Ok (Fin x).
Proof. intros Hk (c & e & -> & Lc & Le & Pc & Pe). rewrite ls_obj_fin by auto. eauto. Qed.

(** ** The optimizer *)
Lemma lower_pos b x n : b = repeat (1 / 10 ^ 12) n -> Forall2 (fun b y => b <= y) b x -> length x = n /\ positive x.
Proof.
  intros -> H. assert (P : 0 < 1 / 10 ^ 12) by (apply Rdiv_lt_0_compat; [lra|apply pow_lt; lra]).
  revert x H. induction n as [|n IH]; intros x H; cbn [repeat] in H; inversion H; subst; [split; [auto|constructor]|].
  destruct (IH _ H4) as [<- Q]. split; [reflexivity|]. constructor; auto. lra.
Qed.

Lemma ls_opt_pos nnls minimize t k p b : nnls_returns nnls -> minimize_returns minimize ->
  (0 < total k)%nat -> exists q, ls_opt gl nnls minimize t k p b = Ok q /\ fits_pos k q.
Proof.
  intros HN HM Hk. pose proof (ls_facts _ _ _ _ _ _ HS) as LF.
  destruct (lf_at _ _ _ _ _ _ LF k Hk) as (m & E & FO & ME & V). fold W in FO.
  unfold ls_opt. rewrite (lf_points _ _ _ _ _ _ LF). cbn [cofactor_matrix bind].
  match goal with |- context [nnls t ?a ?b] => destruct (HN t a b) as (co & ->) end. cbn [bind]. rewrite E. cbn [bind].
  set (ft := set_model (sc_fit (ls_scipy gl)) m) in *. set (s := mkScipy ft _ _).
  assert (NB : g_nbasis (ft_model ft) = Z.of_nat (total k)) by (rewrite (fo_model _ _ _ _ _ FO); exact (vf_nb _ _ _ _ V)).
  unfold scipy_run. cbn [scipy_problem andb bind]. cbn [s sc_fit]. rewrite NB.
  match goal with |- context [minimize t ?pb] => destruct (HM t pb) as (r & x & -> & Ex & Bx) end.
  cbn [pb_lower] in Bx. rewrite Nat2Z.id in Bx. cbn [bind]. rewrite Ex, py_slice_to, py_slice_from, firstn_map, skipn_map.
  destruct (lower_pos _ _ _ eq_refl Bx) as [Lx Px].
  set (c := firstn (total k) x). set (e := skipn (total k) x).
  assert (Lc : length c = total k) by (unfold c; rewrite firstn_length; lia).
  assert (Le : length e = total k) by (unfold e; rewrite skipn_length; lia).
  assert (Pce : positive c /\ positive e).
  { rewrite <- (firstn_skipn (total k) x) in Px. apply Forall_app in Px. exact Px. }
  destruct Pce as [Pc Pe]. destruct (ls_good_fin k c e m Hk Lc Le (fun _ => Pe) FO V) as (g & Eg). fold ft in Eg. rewrite Eg. cbn [bind q_coeffs q_exps].
  eexists. split; [reflexivity|]. exists c, e. auto 10.
Qed.
End LS.

(** ** The start *)
Lemma chebyshev n (w x y : nat -> R) : (forall i, (i < n)%nat -> 0 < w i) ->
  (forall i j, (i < n)%nat -> (j < n)%nat -> x i < x j -> y j < y i) ->
  (exists i j, (i < n)%nat /\ (j < n)%nat /\ x i <> x j) ->
  sumn n w * sumn n (fun i => w i * x i * y i) < sumn n (fun i => w i * x i) * sumn n (fun i => w i * y i).
Proof.
  intros Pw M (a & b & Ha & Hb & D).
  set (S0 := sumn n w). set (Sx := sumn n (fun i => w i * x i)). set (Sy := sumn n (fun i => w i * y i)).
  set (Sxy := sumn n (fun i => w i * x i * y i)).
  assert (NN : forall i j, (i < n)%nat -> (j < n)%nat -> 0 <= - ((x i - x j) * (y i - y j))).
  { intros i j Hi Hj. destruct (Rtotal_order (x i) (x j)) as [L|[L|L]].
    - pose proof (M i j Hi Hj L). nra.
    - rewrite L. lra.
    - pose proof (M j i Hj Hi L). nra. }
  assert (IN : forall i, sumn n (fun j => w i * w j * - ((x i - x j) * (y i - y j))) =
     - (w i * x i * y i) * S0 + w i * x i * Sy + w i * y i * Sx - w i * Sxy).
  { intros i. unfold S0, Sx, Sy, Sxy. rewrite <- !sumn_scal, <- !sumn_plus, <- sumn_minus. apply sumn_ext. intros j _. ring. }
  assert (P : 0 < sumn n (fun i => sumn n (fun j => w i * w j * - ((x i - x j) * (y i - y j))))).
  { apply sumn_pos.
    - intros i Hi. apply sumn_nonneg. intros j Hj. pose proof (NN i j Hi Hj). pose proof (Pw i Hi). pose proof (Pw j Hj).
      apply Rmult_le_pos; auto. apply Rlt_le, Rmult_lt_0_compat; auto.
    - exists a. split; auto. apply sumn_pos.
      + intros j Hj. pose proof (NN a j Ha Hj). pose proof (Pw a Ha). pose proof (Pw j Hj).
        apply Rmult_le_pos; auto. apply Rlt_le, Rmult_lt_0_compat; auto.
      + exists b. split; auto. apply Rmult_lt_0_compat; [apply Rmult_lt_0_compat; auto|].
        destruct (Rtotal_order (x a) (x b)) as [L|[L|L]]; [pose proof (M a b Ha Hb L); nra|congruence|pose proof (M b a Hb Ha L); nra]. }
  rewrite (sumn_ext n _ _ (fun i _ => IN i)) in P.
  assert (T : sumn n (fun i => - (w i * x i * y i) * S0 + w i * x i * Sy + w i * y i * Sx - w i * Sxy) = 2 * (Sx * Sy - S0 * Sxy)).
  { transitivity (- S0 * Sxy + Sy * Sx + Sx * Sy - Sxy * S0); [|ring].
    unfold Sxy at 2, Sx at 2, Sy at 3, S0 at 3. rewrite <- !sumn_scal, <- !sumn_plus, <- sumn_minus. apply sumn_ext. intros i _. ring. }
  rewrite T in P. lra.
Qed.

Lemma solve_pos v f rs : length f = length v -> length rs = length v -> positive v -> positive f -> two_radii rs -> falling f rs ->
  exists a b, solve_one (map Fin rs) (map Fin f) (map Fin v) = [Fin a; Fin b] /\ 0 < a /\ 0 < b.
Proof.
  intros Hf Hr Pv Pf (i & j & Hi & Hj & D) Fa.
  assert (Td : two_distances v rs).
  { exists i, j. do 2 (split; [lia|]). split; [apply positive_nth; auto; lia|]. split; [apply positive_nth; auto; lia|auto]. }
  pose proof (log_det v rs (positive_nonneg _ Pv) Td) as Q.
  rewrite solve_fin by (auto; lra).
  eexists _, _. split; [reflexivity|]. split; [apply exp_pos|].
  pose proof (chebyshev (length v) (fun i => nth i v 0) (fun i => nth i rs 0 ^ 2) (fun i => ln (nth i f 0))) as C.
  cbv beta in C. match type of C with ?A -> ?B -> ?C' -> _ => assert (A) as CA; [|assert (B) as CB; [|assert (C') as CC; [|specialize (C CA CB CC)]]] end.
  - intros k Hk. apply positive_nth; auto.
  - intros a b Ha Hb L. apply ln_increasing; [apply positive_nth; auto; lia|]. apply Fa; auto; lia.
  - exists i, j. do 2 (split; [lia|]). auto.
  - unfold Rdiv.
    match goal with |- 0 < - (?a * / ?b) => replace (- (a * / b)) with ((- a) / b) by (unfold Rdiv; ring) end.
    apply Rdiv_lt_0_compat; auto. lra.
Qed.

Section Run.
Context (gl : greedy_ls) (norm sph : bool) (w f rs : list R).
Hypothesis HS : ls_setting gl norm sph w f rs.
Hypothesis Pf : positive f.
Hypothesis Tr : two_radii rs.
Hypothesis Fa : falling f rs.
Let L1 : length w = length f := lt_lenw _ _ _ _ _ _ HS.
Let L2 : length rs = length f := lt_lenr _ _ _ _ _ _ HS.

Lemma ls_start_pos : exists p, ls_start gl (1, 0)%nat = Ok p /\ fits_pos (1, 0)%nat p.
Proof.
  pose proof (ls_facts _ _ _ _ _ _ HS) as LF.
  assert (C : forall v, In v [repeat 1 (length f); f; map (fun x => x ^ 2) f] ->
    fits_pos (1, 0)%nat (solve_one (map Fin rs) (map Fin f) (map Fin v))).
  { intros v Hv. assert (LP : length v = length f /\ positive v).
    { cbn [In] in Hv. destruct Hv as [<-|[<-|[<-|[]]]].
      - rewrite repeat_length. split; auto. apply Forall_forall. intros x Hx. apply repeat_spec in Hx. lra.
      - auto.
      - rewrite map_length. split; auto. apply Forall_map. eapply Forall_impl; [|exact Pf]. cbv beta. intros x Hx. apply pow_lt; auto. }
    destruct LP as [Lv Pv]. destruct (solve_pos v f rs) as (a & b & -> & Ha & Hb); auto; try lia.
    exists [a], [b]. repeat split; auto; repeat constructor; auto. }
  assert (E1 : map (fun _ => Fin 1) (map Fin rs) = map Fin (repeat 1 (length f))).
  { rewrite <- L2, map_map. clear. induction rs as [|x l IH]; cbn [map length repeat]; [|rewrite IH]; reflexivity. }
  assert (E3 : map (fun x => xpow x 2) (map Fin f) = map Fin (map (fun x => x ^ 2) f)).
  { rewrite !map_map. apply map_ext. intros x. apply xpow2_fin. }
  assert (OK : exists p, ls_start gl (1, 0)%nat = Ok p).
  { unfold ls_start. rewrite (lf_points _ _ _ _ _ _ LF), (lf_dens _ _ _ _ _ _ LF), E1, E3.
    destruct (ls_obj_pos gl norm sph w f rs HS (1, 0)%nat _ (le_n 1) (C _ (or_introl eq_refl))) as (x1 & ->). cbn [bind].
    destruct (ls_obj_pos gl norm sph w f rs HS (1, 0)%nat _ (le_n 1) (C _ (or_intror (or_introl eq_refl)))) as (x2 & ->). cbn [bind].
    destruct (ls_obj_pos gl norm sph w f rs HS (1, 0)%nat _ (le_n 1) (C _ (or_intror (or_intror (or_introl eq_refl))))) as (x3 & ->). cbn [bind]. eauto. }
  destruct OK as (p & E). exists p. split; auto.
  destruct (ls_start_best gl (1, 0)%nat rs f p (lf_points _ _ _ _ _ _ LF) (lf_dens _ _ _ _ _ _ LF) ltac:(lia) E) as (v & _ & Hv & -> & _).
  now apply C.
Qed.

Lemma ls_run nnls minimize rand ch F d mx extra fuel err :
  nnls_returns nnls -> minimize_returns minimize ->
  rand_pos (ls_strategy gl nnls minimize rand) -> 0 < F -> d <> NaN ->
  (forall g p, extra = Some g -> exists x, g p = Ok x) ->
  (5 * (mx - 1) <= Z.of_nat fuel)%Z ->
  let out := greedy_run (ls_strategy gl nnls minimize rand) ch (mkObject (1, 0)%nat err) (VFloat (Fin F)) d mx extra fuel in
  (exists r ob' c e x, out = Some (Ok (r, ob')) /\ gr_coeffs r = map Fin c /\ gr_exps r = map Fin e /\
     length c = total (gr_cfg r) /\ length e = total (gr_cfg r) /\ positive c /\ positive e /\ gr_fun r = Fin x) \/
  (out = Some (Raise TypeError) /\
   exists k p x, fits_pos k p /\ sy_obj (ls_strategy gl nnls minimize rand) k p = Ok (Fin x) /\ 10 ^ 10 <= x).
Proof.
  intros HN HM HR HF Hd HX Hfu out.
  assert (TK : forall k : cfg, (0 < fst k)%nat -> (0 < total k)%nat) by (unfold total; lia).
  assert (FD : forall g, (exists F, g = Fin F /\ 0 < F) -> exists F, xmul g (Fin 2) = Fin F /\ 0 < F).
  { intros g (G & -> & HG). exists (G * 2). split; [reflexivity|lra]. }
  assert (XF : xleb (Fin F) (Fin 0) = false) by (cbn; apply rleb_false; lra).
  pose proof (run_total (ls_strategy gl nnls minimize rand) ch (mkObject (1, 0)%nat err) d mx extra (Fin F) pos_state (fun g => exists F, g = Fin F /\ 0 < F)) as RT.
  specialize (RT (let 'ex_intro p (conj A B) := ls_start_pos in ex_intro _ p (conj A (conj B (le_n 1))))).
  specialize (RT (fun s => guesses_pos _ ch s HR) (cands_some _ ch)).
  specialize (RT (fun t k p b H => let 'ex_intro q (conj A B) := ls_opt_pos gl norm sph w f rs HS Pf Tr nnls minimize t k p b HN HM (TK k (proj2 H)) in ex_intro _ q (conj A (conj B (proj2 H))))).
  specialize (RT (fun k p H => ls_obj_pos gl norm sph w f rs HS k p (TK k (proj2 H)) (proj1 H)) (fun k p H => ls_good_pos gl norm sph w f rs HS Pf Tr k p (TK k (proj2 H)) (proj1 H))).
  specialize (RT HX (ex_intro _ F (conj eq_refl HF)) FD Hd XF fuel Hfu). fold out in RT.
  destruct RT as [(r & ob' & E & [K _] & x & Ex)|[E (k & p & x & [K _] & B & C)]].
  - left. assert (X : gr_coeffs r = fst (split_s (gr_cfg r) (last (gr_params r) [])) ++ fst (split_p (gr_cfg r) (last (gr_params r) [])) /\
      gr_exps r = snd (split_s (gr_cfg r) (last (gr_params r) [])) ++ snd (split_p (gr_cfg r) (last (gr_params r) []))).
    { unfold out in E. pose proof E as E0. apply run_inv in E0. destruct E0 as (f1 & s0 & s & _ & _ & _ & _ & E0). apply end_inv in E0. destruct E0 as (ex & v & _ & _ & -> & _). auto. }
    destruct X as [X1 X2]. destruct (four_pos _ _ K) as (cs & cp & es & ep & S1 & S2 & M1 & M2 & M3 & M4 & P1 & P2 & P3 & P4).
    rewrite S1, S2 in X1, X2. cbn [fst snd] in X1, X2. rewrite <- map_app in X1, X2.
    exists r, ob', (cs ++ cp), (es ++ ep), x. unfold total. rewrite !app_length. do 3 (split; [now auto|]). split; [lia|]. split; [lia|].
    split; [apply Forall_app; auto|]. split; [apply Forall_app; auto|exact Ex].
  - right. split; auto. exists k, p, x. auto.
Qed.
End Run.

(** ** The start of GreedyKLFPI without the spherical factor (C67) *)
Lemma kl_start_plain_not_best gk w f rs mask N k : kl_setting gk false w f rs mask N -> nonneg w -> positive f -> off_origin w rs ->
  N * sumn (length w) (fun i => nth i w 0 * (nth i f 0 * nth i rs 0 ^ 2)) <>
    4 * PI * rdot w f * sumn (length w) (fun i => nth i w 0 * (nth i f 0 * nth i rs 0 ^ 4)) ->
  exists a a', 0 < a' /\ kl_start gk k = Ok [Fin N; Fin a] /\
    kl_sum w f (values true (one_s rs) [N] [a']) < kl_sum w f (values true (one_s rs) [N] [a]).
Proof.
  intros Hs Hw Pf Ho Hne. pose proof PI_RGT_0 as HP.
  pose proof (ks_lenw _ _ _ _ _ _ _ Hs) as L1. pose proof (ks_lenr _ _ _ _ _ _ _ Hs) as L2. pose proof (ks_N _ _ _ _ _ _ _ Hs) as PN.
  destruct (moment_pos w f rs) as (F & M & M4); try lia; auto.
  set (m2 := sumn _ (fun i => nth i w 0 * (nth i f 0 * nth i rs 0 ^ 2))) in *. set (m4 := sumn _ _) in M4, Hne.
  set (a := 3 * N / (2 * 4 * PI * m4)). assert (D : 0 < 2 * 4 * PI * m4) by (apply Rmult_lt_0_compat; lra).
  exists a, (3/2 * rdot w f / m2). split; [apply Rdiv_lt_0_compat; lra|]. split.
  - rewrite (kl_denom gk false w f rs mask N k Hs) by (fold m4; lra). reflexivity.
  - apply kl_one_best; auto; try lia.
    + unfold a. apply Rdiv_lt_0_compat; lra.
    + fold m2. intros C. apply Hne. unfold a in C.
      assert (X : 3 * N * m2 = 3/2 * rdot w f * (2 * 4 * PI * m4)).
      { replace (3 * N) with (3 * N / (2 * 4 * PI * m4) * (2 * 4 * PI * m4)) by (field; split; lra). rewrite C. field. lra. }
      lra.
Qed.
