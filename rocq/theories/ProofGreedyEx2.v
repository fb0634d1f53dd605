(** Sample greedy fits: built on grids that integrate by summing the values. *)
From Coquelicot Require Import Coquelicot.
From Coq Require Import String Reals List ZArith Lia Lra Bool.
From Verif Require Import XR PyStr SpecDens SpecMeas SpecFit ModelDens ModelMeas ModelGrid ModelFit ModelGreedy SpecGreedy Lists
  ProofDens ProofInit ProofDeriv ProofMeas ProofSlater ProofFitView ProofFit ProofEM ProofFPI ProofFPI2 ProofFPI3 ProofFPI4
  ProofScipy ProofScipy3 ProofGreedy1 ProofGreedy2 ProofGreedy3 ProofGreedy4 ProofGreedy5 ProofGreedy6 ProofGreedyEx ProofGreedy7.
Import ListNotations.
Local Open Scope R_scope.

(** ** One accepted round *)
Section Round.
Context (sy : strategy) (ch : choice) (err : list (list xr)) (F v0 : R) (p0 g0 : list xr) (A : cfg -> list xr -> Prop).
Let k0 : cfg := (1, 0)%nat.
Let s0 := mkG k0 (err ++ [g0]) 0 p0 1 PInf (Fin v0) [p0] 0 (Fin F).
Let nsc := length (s_choices sy ch s0).
Hypothesis R_start : sy_start sy k0 = Ok p0.
Hypothesis R_good : sy_good sy k0 p0 = Ok g0.
Hypothesis R_obj : sy_obj sy k0 p0 = Ok (Fin v0).
Hypothesis R_small : v0 < 10 ^ 10.
Hypothesis R_some : cands_of sy ch s0 <> [].
Hypothesis R_cand : forall t i, (i < length (cands_of sy ch s0))%nat -> exists q,
  sy_opt sy t (meant_for k0 (increase ch) nsc i) (nth i (cands_of sy ch s0) []) true = Ok q /\ A (meant_for k0 (increase ch) nsc i) q.
Hypothesis R_opt : forall t k p, A k p -> exists q, sy_opt sy t k p false = Ok q /\ A k q.
Hypothesis R_A : forall k p, A k p ->
  (exists v, sy_obj sy k p = Ok (Fin v) /\ v <= v0) /\ (exists g, sy_good sy k p = Ok g) /\
  length (fst (remove_redundancies (fst (split_s k p)) (snd (split_s k p)) (Fin (1 / 1000)))) = fst k /\
  length (fst (remove_redundancies (fst (split_p k p)) (snd (split_p k p)) (Fin (1 / 1000)))) = snd k.
Hypothesis R_F : 0 < F.

Lemma round_run d fuel : d <> NaN -> exists r ob, greedy_run sy ch (mkObject k0 err) (VFloat (Fin F)) d 2 None (S fuel) = Some (Ok (r, ob)) /\
  total (gr_cfg r) = (1 + increase ch)%nat /\ ob_cfg ob = gr_cfg r /\ exists p1, gr_params r = [p0; p1] /\ A (gr_cfg r) p1.
Proof.
  intros Hd. unfold greedy_run. cbn [xleb]. rewrite rleb_false by lra. unfold greedy_start. cbn [ob_cfg ob_err].
  rewrite R_start. cbn [bind]. rewrite R_good. cbn [bind]. rewrite R_obj. cbn [bind]. fold s0.
  assert (B : exists k' e' t' op v, greedy_body sy ch None (Fin F) s0 =
     Ok (mkG k' e' t' op (1 + Z.of_nat (increase ch)) (Fin v0) (Fin v) [p0; op] 0 (Fin F)) /\ total k' = (1 + increase ch)%nat /\ A k' op /\ sy_obj sy k' op = Ok (Fin v)).
  { unfold greedy_body. cbn [bind].
    assert (X : firstn (length (s_choices sy ch s0) + length (p_choices sy ch s0)) (s_choices sy ch s0 ++ p_choices sy ch s0) = cands_of sy ch s0)
      by (rewrite <- app_length; apply firstn_all).
    rewrite X. clear X. fold nsc. change (gs_cfg s0) with k0.
    assert (EV : forall i, (i < length (cands_of sy ch s0))%nat -> exists lp w,
       evaluated sy (gs_t s0) k0 (increase ch) nsc (cands_of sy ch s0) i lp (Fin w) /\ w <= v0).
    { intros i Hi. destruct (R_cand (gs_t s0 + i) i Hi) as (q & E1 & K). destruct (proj1 (R_A _ _ K)) as (w & E2 & Hw). exists q, w. split; [split; auto|auto]. }
    destruct (search_total sy (gs_t s0) k0 (increase ch) nsc (cands_of sy ch s0)) as [[[v1 bp] b] SB].
    { intros i Hi. destruct (EV i Hi) as (lp & w & E1 & _). eauto. }
    rewrite SB. cbn [bind].
    destruct (search_best _ _ _ _ _ _ _ _ _ SB) as [(-> & NB)|(i & lp & -> & (I & E1 & E2) & -> & _)].
    { exfalso. assert (P : (0 < length (cands_of sy ch s0))%nat) by (destruct (cands_of sy ch s0); [congruence|cbn; lia]).
      destruct (EV 0%nat P) as (lp & w & E1 & Hw). specialize (NB _ _ _ E1). cbn [xltb] in NB. rewrite rltb_true in NB by lra. discriminate. }
    change (if Nat.ltb i nsc then _ else _) with (meant_for k0 (increase ch) nsc i).
    set (k' := meant_for k0 (increase ch) nsc i) in *.
    assert (TK : total k' = (1 + increase ch)%nat) by (unfold k', meant_for, total, k0; destruct (Nat.ltb i nsc); cbn [fst snd]; lia).
    destruct (R_cand (gs_t s0 + i) i I) as (q & Eq & K). fold k' in Eq, K. assert (q = lp) by congruence. subst q.
    match goal with |- context [sy_opt sy ?t k' lp false] => destruct (R_opt t k' lp K) as (op & -> & K2) end. cbn [bind].
    destruct (R_A _ _ K2) as ((v & Ev & Hv) & (g & Eg) & S1 & S2). rewrite Ev. cbn [bind]. rewrite S1, S2, !Nat.eqb_refl. cbn [negb orb].
    change (gs_best s0) with (Fin v0). cbn [xltb xleb]. rewrite rltb_false by lra. rewrite rleb_true by lra. rewrite Eg. cbn [bind].
    eexists _, _, _, _, _. split; [reflexivity|]. split; auto. }
  destruct B as (k' & e' & t' & op & v & B & TK & K & Ev). cbn [greedy_loop].
  assert (G : greedy_go d 2 s0 = true).
  { unfold greedy_go. cbn. destruct d; try reflexivity; congruence. }
  rewrite G, B. set (s1 := mkG _ _ _ _ _ _ _ _ _ _).
  assert (G1 : greedy_go d 2 s1 = false).
  { unfold greedy_go, s1. cbn [gs_n]. destruct (Z.leb_spec (1 + Z.of_nat (increase ch)) (2 - 1)); [destruct ch; cbn in *; lia|reflexivity]. }
  assert (LL : greedy_loop sy ch None (Fin F) d 2 fuel s1 = Some (Ok s1)) by (destruct fuel; cbn [greedy_loop]; now rewrite G1).
  rewrite LL. unfold greedy_end. cbn [s1 gs_redum Nat.eqb gs_n gs_best gs_prev gs_iter gs_cfg last]. unfold final_exit.
  destruct (Z.ltb_spec (1 + Z.of_nat (increase ch)) (2 - 1)); [destruct ch; cbn in *; lia|]. cbn [negb bind]. rewrite Ev. cbn [bind].
  eexists _, _. split; [reflexivity|]. cbn [gr_cfg ob_cfg gr_params]. split; auto. split; auto. exists op. auto.
Qed.
End Round.

(** ** Building *)
Definition sum_I : list xr -> res xr := fun y => Ok (xsum y).
Definition sum_arg (rs : list R) : grid_arg := mkGridArg (Some (A1 (map Fin rs))) (Some sum_I).
Lemma rdot_ones y : rdot (repeat 1 (length y)) y = rsum y.
Proof.
  unfold rdot, rsum. induction y as [|x y IH]; [reflexivity|]. cbn [length repeat map2 fold_right]. rewrite IH. ring.
Qed.
Lemma sum_spec n y : length y = length (repeat 1 n) -> sum_I (map Fin y) = Ok (Fin (rdot (repeat 1 n) y)).
Proof. rewrite repeat_length. intros <-. unfold sum_I. now rewrite xsum_fin, rdot_ones. Qed.

Definition one_model (rs : list R) (norm : bool) : gmodel :=
  GAtom (mkAtomic (A1 (map Fin rs)) [Fin 0] (map Fin (map Rabs rs)) 1 0 norm).
Definition sum_ls (f rs : list R) (norm : bool) : greedy_ls :=
  mkLS (mkScipy (mkFit (mkGrid (A1 (map Fin rs)) sum_I) (map Fin f) (one_model rs norm) MSq false (Fin 1) (Fin (1 / 10 ^ 18)))
          true (repeat (Fin 1) (length (map Fin f)))) (Fin 1) (Fin 1) 5 5 false.

Lemma no_negative f : nonneg f -> existsb (fun x => xltb x (Fin 0)) (map Fin f) = false.
Proof.
  intros H. induction H as [|x f Hx H IH]; [reflexivity|]. cbn [map existsb xltb]. rewrite rltb_false by lra. exact IH.
Qed.

Lemma sum_ls_init f rs norm : length rs = length f -> nonneg f ->
  greedy_ls_init (sum_arg rs) (map Fin f) "pick-one" (Fin 1) (Fin 1) "slsqp" norm (Some (Fin 1)) false 5 5 false =
  Ok (sum_ls f rs norm, PickOne).
Proof.
  intros Hl Hf. unfold greedy_ls_init, sum_arg. cbn [ga_points]. rewrite atom1_init. cbn [bind]. unfold scipy_init. cbn [ga_points].
  change (g_points (GAtom _)) with (A1 (map Fin rs)).
  assert (P : points_differ (A1 (map Fin rs)) (A1 (map Fin rs)) = Ok false).
  { apply (points_same_1d rs rs eq_refl). intros i _. rewrite Rminus_eq_0, Rabs_R0. apply mask_nonneg. }
  rewrite P. cbn [bind nlen]. rewrite !map_length, Hl, Nat.eqb_refl. cbn [negb].
  change (str_in (lower "slsqp") ["slsqp"; "trust-constr"]%string) with true. cbn [negb].
  unfold base_init. rewrite no_negative by auto. cbn [ga_points ga_integrate ndim Nat.eqb negb andb bind].
  unfold sum_ls, one_model. rewrite map_length. reflexivity.
Qed.
Lemma sum_ls_setting f rs norm : length rs = length f -> nonneg f ->
  ls_setting (sum_ls f rs norm) norm false (repeat 1 (length f)) f rs.
Proof.
  intros Hl Hf. constructor; auto; [|apply repeat_length].
  exists sum_I, (Some (Fin 1)), "pick-one"%string, PickOne, (Fin 1), (Fin 1), "slsqp"%string, false, 5%Z, 5%Z.
  split; [apply sum_spec|]. now apply sum_ls_init.
Qed.

(** ** A Gaussian at two points *)
Definition gauss2 : list R := [1; exp (-1)].
Lemma gauss2_pos : positive gauss2.
Proof. repeat constructor; [lra|apply exp_pos]. Qed.
Lemma gauss2_falling : falling gauss2 [0; 1].
Proof.
  assert (exp (-1) < 1) by (rewrite <- exp_0; apply exp_increasing; lra).
  intros [|[|i]] [|[|j]] Hi Hj; cbn [nth gauss2 length] in *; try lia; intros; try lra.
Qed.
Lemma gauss2_radii : two_radii [0; 1].
Proof. exists 0%nat, 1%nat. cbn [length nth]. split; [lia|]. split; [lia|]. lra. Qed.
Lemma gauss2_setting norm : ls_setting (sum_ls gauss2 [0; 1] norm) norm false [1; 1] gauss2 [0; 1].
Proof. apply (sum_ls_setting gauss2 [0; 1] norm eq_refl). apply positive_nonneg, gauss2_pos. Qed.

(** A minimizer that returns its bounds. *)
Definition low_minimize : nat -> problem -> res opt_result :=
  fun _ pb => Ok (mkOpt (map Fin (pb_lower pb)) (Fin 0) true [] ""%string).
Lemma low_returns : minimize_returns low_minimize.
Proof.
  intros t pb. exists (mkOpt (map Fin (pb_lower pb)) (Fin 0) true [] ""%string), (pb_lower pb). split; [reflexivity|]. split; [reflexivity|].
  induction (pb_lower pb); constructor; auto. lra.
Qed.
Definition no_nnls : nat -> list (list xr) -> list xr -> res (list xr) := fun _ _ _ => Ok [].
Lemma no_nnls_returns : nnls_returns no_nnls.
Proof. intros t m d. exists []. reflexivity. Qed.
Definition ones_rand : nat -> nat -> list xr := fun _ n => map Fin (repeat 1 n).
Lemma ones_rand_pos sy : sy_rand sy = ones_rand -> rand_pos sy.
Proof.
  intros E i n. rewrite E. exists (repeat 1 n). split; [reflexivity|]. split; [apply repeat_length|].
  apply Forall_forall. intros x H. apply repeat_spec in H. lra.
Qed.

(** The start is the density itself. *)
Lemma gauss2_start v : positive v -> length v = 2%nat ->
  solve_one (map Fin [0; 1]) (map Fin gauss2) (map Fin v) = [Fin 1; Fin 1].
Proof.
  intros Pv Lv. assert (Td : two_distances v [0; 1]).
  { exists 0%nat, 1%nat. do 2 (split; [lia|]). split; [apply positive_nth; auto; lia|]. split; [apply positive_nth; auto; lia|cbn; lra]. }
  pose proof (log_det v [0; 1] (positive_nonneg _ Pv) Td) as Q.
  rewrite solve_fin by (auto using gauss2_pos; cbn in *; lra).
  destruct v as [|a [|b [|? ?]]]; try discriminate. inversion_clear Pv. inversion_clear H0.
  unfold sumn, rsum, gauss2 in *. cbn [length seq map fold_right nth] in *. rewrite ln_1, ln_exp.
  replace (Fin 1) with (Fin (exp 0)) at 1 by now rewrite exp_0.
  f_equal; [|f_equal]; do 2 f_equal; field; nra.
Qed.

(** ** A second run of the least squares fit *)
Definition ls_two : list xr := [Fin 1; Fin 0; Fin 1; Fin 2].
Definition two_minimize : nat -> problem -> res opt_result := fun _ _ => Ok (mkOpt ls_two (Fin 0) true [] ""%string).

Lemma ls_two_values k : total k = 2%nat -> (0 < fst k)%nat ->
  values false (lays_of k [0; 1]) [1; 0] [1; 2] = gauss2.
Proof.
  assert (E0 : exp (- (1) * 0 ^ 2) = 1) by (rewrite <- exp_0; f_equal; ring).
  assert (E1 : exp (- (1) * 1 ^ 2) = exp (-1)) by (f_equal; ring).
  destruct k as [[|[|[|s]]] [|[|p]]]; unfold total; cbn [fst snd]; intros; try lia;
  unfold values, lays_of, gauss2, lay_atom, types; cbn [map repeat app fst snd gsum]; rewrite Rabs_R0, Rabs_R1;
  unfold basis_fn; rewrite E0, E1; f_equal; [ring|f_equal; ring|ring|f_equal; ring].
Qed.
Definition is_two (k : cfg) (p : list xr) : Prop := p = ls_two /\ (k = (2, 0) \/ k = (1, 1))%nat.
Lemma is_two_total k p : is_two k p -> total k = 2%nat /\ (0 < fst k)%nat.
Proof. intros [_ [->| ->]]; unfold total; cbn; lia. Qed.

Lemma ls_two_opt t k p b : (k = (2, 0) \/ k = (1, 1))%nat ->
  ls_opt (sum_ls gauss2 [0; 1] false) no_nnls two_minimize t k p b = Ok ls_two.
Proof.
  intros Hk. assert (T : total k = 2%nat) by (destruct Hk as [->| ->]; reflexivity).
  set (gl := sum_ls gauss2 [0; 1] false).
  pose proof (gauss2_setting false) as HS. fold gl in HS. pose proof (ls_facts _ _ _ _ _ _ HS) as LF.
  destruct (lf_at _ _ _ _ _ _ LF k ltac:(lia)) as (m & E & FO & ME & V).
  unfold ls_opt. rewrite (lf_points _ _ _ _ _ _ LF). cbn [cofactor_matrix bind no_nnls]. rewrite E. cbn [bind].
  assert (NB : g_nbasis (ft_model (set_model (sc_fit (ls_scipy gl)) m)) = 2%Z).
  { rewrite (fo_model _ _ _ _ _ FO), (vf_nb _ _ _ _ V), T. reflexivity. }
  unfold scipy_run. cbn [scipy_problem andb bind two_minimize sc_fit o_x]. rewrite NB.
  change (py_slice None (Some 2%Z) ls_two) with (map Fin [1; 0]). change (py_slice (Some 2%Z) None ls_two) with (map Fin [1; 2]).
  destruct (ls_good_fin gl false false [1; 1] gauss2 [0; 1] HS gauss2_pos gauss2_radii k [1; 0] [1; 2] m) as (g & ->); auto; try lia; discriminate.
Qed.

Lemma ls_two_sep c : length (fst (remove_redundancies (map Fin c) (map Fin [1; 2]) (Fin (1 / 1000)))) = length c \/ length c <> 2%nat.
Proof.
  destruct (Nat.eq_dec (length c) 2) as [L|L]; [left|right; auto].
  destruct (remove_unchanged c [1; 2] (1/1000)) as [_ H]; [auto|]. apply H.
  intros i j Hij. cbn [length] in Hij. assert (i = 0 /\ j = 1)%nat as [-> ->] by lia. cbn [nth]. rewrite Rabs_left; lra.
Qed.
Lemma ls_single c e : length (fst (remove_redundancies [Fin c] [Fin e] (Fin (1 / 1000)))) = 1%nat.
Proof.
  destruct (remove_unchanged [c] [e] (1/1000)) as [_ H]; [auto|]. apply H. intros i j Hij. cbn [length] in Hij. lia.
Qed.

Lemma gauss2_error : rdot [1; 1] (map2 sq_fn gauss2 gauss2) = 0.
Proof. unfold rdot, rsum, gauss2, sq_fn. cbn [map2 fold_right]. ring. Qed.

Lemma gauss2_ls_start : ls_start (sum_ls gauss2 [0; 1] false) (1, 0)%nat = Ok (map Fin [1] ++ map Fin [1]) /\
  obj_at (sc_fit (ls_scipy (sum_ls gauss2 [0; 1] false))) (1, 0)%nat (map Fin [1] ++ map Fin [1]) = Ok (Fin 0).
Proof.
  pose proof (gauss2_setting false) as HS. set (gl := sum_ls _ _ _) in *.
  assert (O : obj_at (sc_fit (ls_scipy gl)) (1, 0)%nat (map Fin [1] ++ map Fin [1]) = Ok (Fin 0)).
  { rewrite (ls_obj_fin gl false false [1; 1] gauss2 [0; 1] HS (1, 0)%nat [1] [1]); auto; [|discriminate].
    assert (VV : values false (lays_of (1, 0)%nat [0; 1]) [1] [1] = gauss2); [|rewrite VV; cbn [fit_weights]; rewrite gauss2_error; reflexivity].
    assert (E0 : exp (- (1) * 0 ^ 2) = 1) by (rewrite <- exp_0; f_equal; ring).
    assert (E1 : exp (- (1) * 1 ^ 2) = exp (-1)) by (f_equal; ring).
    unfold values, lays_of, gauss2, lay_atom, types; cbn [map repeat app fst snd gsum]; rewrite Rabs_R0, Rabs_R1;
    unfold basis_fn; rewrite E0, E1; f_equal; [ring|f_equal; ring]. }
  split; auto. unfold ls_start. pose proof (ls_facts _ _ _ _ _ _ HS) as LF.
  rewrite (lf_points _ _ _ _ _ _ LF), (lf_dens _ _ _ _ _ _ LF).
  assert (P2 : positive (map (fun x => x ^ 2) gauss2)).
  { apply Forall_map. eapply Forall_impl; [|exact gauss2_pos]. cbv beta. intros x Hx. apply pow_lt; auto. }
  assert (E3 : map (fun x => xpow x 2) (map Fin gauss2) = map Fin (map (fun x => x ^ 2) gauss2)).
  { rewrite !map_map. apply map_ext. intros x. apply xpow2_fin. }
  rewrite E3. change (map (fun _ => Fin 1) (map Fin [0; 1])) with (map Fin [1; 1]).
  rewrite !gauss2_start by (auto using gauss2_pos; repeat constructor; lra).
  change [Fin 1; Fin 1] with (map Fin [1] ++ map Fin [1]). rewrite O. cbn [bind]. unfold min_key. cbn [fold_left fst xltb].
  rewrite (rltb_false 0 0) by lra. cbn [fst xltb]. rewrite (rltb_false 0 0) by lra. reflexivity.
Qed.

Lemma ls_two_run d fuel : d <> NaN -> exists r ob,
  greedy_run (ls_strategy (sum_ls gauss2 [0; 1] false) no_nnls two_minimize ones_rand) PickOne new_object (VFloat (Fin 2)) d 2 None (S fuel)
    = Some (Ok (r, ob)) /\ total (gr_cfg r) = 2%nat.
Proof.
  intros Hd. pose proof (gauss2_setting false) as HS. set (gl := sum_ls _ _ _) in *.
  destruct gauss2_ls_start as [S1 S2]. fold gl in S1, S2.
  destruct (ls_good_pos gl false false [1; 1] gauss2 [0; 1] HS gauss2_pos gauss2_radii (1, 0)%nat (map Fin [1] ++ map Fin [1]) (le_n 1)) as (g & G).
  { exists [1], [1]. repeat split; auto; repeat constructor; lra. }
  destruct (round_run (ls_strategy gl no_nnls two_minimize ones_rand) PickOne [] 2 0 (map Fin [1] ++ map Fin [1]) g is_two) with (d := d) (fuel := fuel)
    as (r & ob & E & T & _); auto; try lra.
  - discriminate.
  - intros t i Hi. exists ls_two.
    match goal with |- context [meant_for ?a ?b ?c i] => assert (K : (meant_for a b c i = (2, 0) \/ meant_for a b c i = (1, 1))%nat)
      by (unfold meant_for; destruct (Nat.ltb _ _); cbn; auto) end.
    split; [apply ls_two_opt; auto|]. split; auto.
  - intros t k p [-> K]. exists ls_two. split; [apply ls_two_opt; auto|split; auto].
  - intros k p H. pose proof (is_two_total _ _ H) as [K1 K2]. destruct H as [-> K].
    split; [|split].
    + exists 0. split; [|lra]. cbn [ls_strategy sy_obj]. change ls_two with (map Fin [1; 0] ++ map Fin [1; 2]).
      rewrite (ls_obj_fin gl false false [1; 1] gauss2 [0; 1] HS); auto; try lia.
      rewrite ls_two_values by auto. cbn [fit_weights]. now rewrite gauss2_error.
    + cbn [ls_strategy sy_good]. unfold good_at.
      destruct (lf_at _ _ _ _ _ _ (ls_facts _ _ _ _ _ _ HS) k ltac:(lia)) as (m & Em & FO & ME & V). rewrite Em. cbn [bind].
      change (half1 ls_two) with (map Fin [1; 0]). change (half2 ls_two) with (map Fin [1; 2]).
      apply (ls_good_fin gl false false [1; 1] gauss2 [0; 1] HS gauss2_pos gauss2_radii k); auto; lia || discriminate.
    + destruct K as [-> | ->].
      * split; [|reflexivity]. change (split_s (2, 0)%nat ls_two) with (map Fin [1; 0], map Fin [1; 2]). cbn [fst snd].
        destruct (ls_two_sep [1; 0]) as [->|C]; [reflexivity|exfalso; now apply C].
      * split; apply ls_single.
  - exists r, ob. split; auto.
Qed.

(** ** Normalized functions and a density that rises outwards *)
Definition rise2 : list R := [1; exp 1].
Lemma rise2_pos : positive rise2.
Proof. repeat constructor; [lra|apply exp_pos]. Qed.
Lemma rise2_setting : ls_setting (sum_ls rise2 [0; 1] true) true false [1; 1] rise2 [0; 1].
Proof. apply (sum_ls_setting rise2 [0; 1] true eq_refl). apply positive_nonneg, rise2_pos. Qed.
Lemma rise2_start v : positive v -> length v = 2%nat ->
  solve_one (map Fin [0; 1]) (map Fin rise2) (map Fin v) = [Fin 1; Fin (-1)].
Proof.
  intros Pv Lv. assert (Td : two_distances v [0; 1]).
  { exists 0%nat, 1%nat. do 2 (split; [lia|]). split; [apply positive_nth; auto; lia|]. split; [apply positive_nth; auto; lia|cbn; lra]. }
  pose proof (log_det v [0; 1] (positive_nonneg _ Pv) Td) as Q.
  rewrite solve_fin by (auto using rise2_pos; cbn in *; lra).
  destruct v as [|a [|b [|? ?]]]; try discriminate. inversion_clear Pv. inversion_clear H0.
  unfold sumn, rsum, rise2 in *. cbn [length seq map fold_right nth] in *. rewrite ln_1, ln_exp.
  replace (Fin 1) with (Fin (exp 0)) at 1 by now rewrite exp_0.
  f_equal; [|f_equal]; do 2 f_equal; field; nra.
Qed.

Lemma neg_pow x : x < 0 -> xpow (Fin x) (15/10) = NaN.
Proof.
  intros H. unfold xpow. rewrite reqb_false by lra. rewrite rltb_false by lra. rewrite reqb_false by lra.
  assert (I : Int_part (15/10) = 1%Z).
  { unfold Int_part. rewrite <- (tech_up (15/10) 2); [reflexivity| |]; lra. }
  rewrite I. now rewrite reqb_false by lra.
Qed.
Lemma rise2_eval : g_evaluate (one_model [0; 1] true) (A1 [Fin 1]) (A1 [Fin (-1)]) false = Ok ([NaN; NaN], None).
Proof.
  pose proof PI_RGT_0 as P.
  assert (Q : xpow (xdiv (Fin (-1)) (Fin PI)) (15/10) = NaN).
  { rewrite xdiv_fin by lra. apply neg_pow. apply Ropp_lt_cancel. replace (- (-1 / PI)) with (1 / PI) by (field; lra).
    rewrite Ropp_0. apply Rdiv_lt_0_compat; lra. }
  assert (M : forall x, xmul x NaN = NaN) by (intros []; reflexivity).
  assert (A : forall x, xadd NaN x = NaN) by reflexivity.
  unfold one_model. cbn [g_evaluate map]. unfold atomic_evaluate. cbn [length Nat.eqb negb a_np a_radii].
  change (Z.of_nat 1 =? a_nbasis (mkAtomic (A1 [Fin 0; Fin 1]) [Fin 0] [Fin (Rabs 0); Fin (Rabs 1)] 1 0 true))%Z with true.
  cbn [negb Z.eqb]. unfold eval_s. cbn [a_norm]. unfold norm_s_row, gauss_row. cbn [map map2]. rewrite Q, !M.
  unfold xdot. cbn [map2]. change (xmul NaN (Fin 1)) with NaN. reflexivity.
Qed.
Lemma rise2_nan : let ft := sc_fit (ls_scipy (sum_ls rise2 [0; 1] true)) in
  obj_at ft (1, 0)%nat [Fin 1; Fin (-1)] = Ok NaN /\ exists g, good_at ft (1, 0)%nat [Fin 1; Fin (-1)] = Ok g.
Proof.
  set (gl := sum_ls rise2 [0; 1] true). cbv zeta.
  assert (E : at_cfg (sc_fit (ls_scipy gl)) (1, 0)%nat = Ok (sc_fit (ls_scipy gl))) by reflexivity.
  split.
  - unfold obj_at. rewrite E. cbn [bind]. unfold eval_obj.
    change (half1 [Fin 1; Fin (-1)]) with [Fin 1]. change (half2 [Fin 1; Fin (-1)]) with [Fin (-1)].
    change (ft_model (sc_fit (ls_scipy gl))) with (one_model [0; 1] true). rewrite rise2_eval. reflexivity.
  - unfold good_at. rewrite E. cbn [bind]. unfold goodness.
    change (half1 [Fin 1; Fin (-1)]) with [Fin 1]. change (half2 [Fin 1; Fin (-1)]) with [Fin (-1)].
    change (ft_model (sc_fit (ls_scipy gl))) with (one_model [0; 1] true). rewrite rise2_eval. cbn [bind fst].
    change (ft_density (sc_fit (ls_scipy gl))) with (map Fin rise2). unfold abs_diff. rewrite bcast_same by reflexivity. cbn [length map rise2 Nat.eqb map2 bind].
    unfold fit_integrate, integrate_with. change (ft_spherical (sc_fit (ls_scipy gl))) with false. cbv iota.
    change (gr_integrate (ft_grid (sc_fit (ls_scipy gl)))) with sum_I. unfold sum_I. cbn [bind np_max xmaxl measure_evaluate length Nat.eqb negb]. eauto.
Qed.

(** The run raises RuntimeError whatever the optimizers do. *)
Lemma rise2_run nnls minimize rand ch F d mx extra fuel err : (2 < mx)%Z -> 0 < F ->
  greedy_run (ls_strategy (sum_ls rise2 [0; 1] true) nnls minimize rand) ch (mkObject (1, 0)%nat err) (VFloat (Fin F)) d mx extra fuel =
  Some (Raise RuntimeError).
Proof.
  intros Hm HF. destruct rise2_nan as [O (g & G)]. set (gl := sum_ls rise2 [0; 1] true) in *.
  apply (start_nan _ _ _ _ _ _ _ _ [Fin 1; Fin (-1)] g NaN); auto.
  - cbn [xleb]. now rewrite rleb_false by lra.
  - cbn [ob_cfg ls_strategy sy_start]. unfold ls_start. pose proof rise2_setting as HS. fold gl in HS. pose proof (ls_facts _ _ _ _ _ _ HS) as LF.
    rewrite (lf_points _ _ _ _ _ _ LF), (lf_dens _ _ _ _ _ _ LF).
    assert (P2 : positive (map (fun x => x ^ 2) rise2)).
    { apply Forall_map. eapply Forall_impl; [|exact rise2_pos]. cbv beta. intros x Hx. apply pow_lt; auto. }
    assert (E3 : map (fun x => xpow x 2) (map Fin rise2) = map Fin (map (fun x => x ^ 2) rise2)).
    { rewrite !map_map. apply map_ext. intros x. apply xpow2_fin. }
    rewrite E3. change (map (fun _ => Fin 1) (map Fin [0; 1])) with (map Fin [1; 1]).
    rewrite !rise2_start by (auto using rise2_pos; repeat constructor; lra). rewrite O. reflexivity.
Qed.

(** ** GreedyKLFPI with density 1 at one point *)
Definition no_th : thresholds := mkThr (Fin 1) (Fin 1) (Fin 1).
Definition sum_kl (sph : bool) (f rs : list R) (N : R) : greedy_kl :=
  mkKL (mkFpi (mkFit (mkGrid (A1 (map Fin rs)) sum_I) (map Fin f) (one_model rs true) (MKL (Fin nan_mask) (Fin 100000)) sph (Fin N) (Fin nan_mask))
          (Fin (rdot (fit_weights sph (repeat 1 (length f)) rs) f / N))) no_th no_th 0 0.

Lemma sum_kl_init sph f rs N : length rs = length f -> nonneg f -> 0 < N -> rdot (fit_weights sph (repeat 1 (length f)) rs) f <> 0 ->
  greedy_kl_init (sum_arg rs) (map Fin f) "pick-one" no_th no_th 0 0 (Fin nan_mask) (Some (Fin N)) sph = Ok (sum_kl sph f rs N, PickOne).
Proof.
  intros Hl Hf HN HF. unfold sum_arg.
  unfold greedy_kl_init. cbn [ga_points]. rewrite atom1_init. cbn [bind]. fold (one_model rs true).
  set (ga := mkGridArg _ _). set (W := fit_weights sph (repeat 1 (length f)) rs) in *.
  set (ft := mkFit (mkGrid (A1 (map Fin rs)) sum_I) (map Fin f) (one_model rs true) (MKL (Fin nan_mask) (Fin 100000)) sph (Fin N) (Fin nan_mask)).
  assert (B : base_init ga (map Fin f) (one_model rs true) (MKL (Fin nan_mask) (Fin 100000)) (Some (Fin N)) sph (Fin nan_mask) = Ok ft).
  { unfold base_init. rewrite no_negative by auto. cbn [ga ga_points ga_integrate ndim Nat.eqb negb andb bind]. reflexivity. }
  assert (INT : integrator ga sph W).
  { unfold W. destruct sph; cbn [fit_weights]; [apply int_sph; [rewrite repeat_length; auto|apply sum_spec]|apply int_plain; apply sum_spec]. }
  assert (LW : length f = length W) by (unfold W; rewrite fit_weights_length; rewrite repeat_length; auto).
  pose proof (base_fitok _ _ _ _ _ _ _ _ _ INT LW B) as (FO & _ & _).
  destruct (fpi_accepts ga (map Fin f) (one_model rs true) (Fin nan_mask) (Some (Fin N)) sph ft (Fin (rdot W f)) B) as [_ H].
  { apply (fo_int _ _ _ _ _ FO). auto. }
  change (ft_integral ft) with (Fin N) in H. cbv zeta in H. rewrite xdiv_fin in H by lra. rewrite H.
  - reflexivity.
  - intros C. injection C as C. apply HF. apply (Rmult_eq_compat_r N) in C. unfold Rdiv in C. rewrite Rmult_assoc, Rinv_l in C by lra. lra.
  - discriminate.
Qed.
Lemma sum_kl_setting sph f rs N : length rs = length f -> nonneg f -> 0 < N -> rdot (fit_weights sph (repeat 1 (length f)) rs) f <> 0 ->
  kl_setting (sum_kl sph f rs N) sph (repeat 1 (length f)) f rs nan_mask N.
Proof.
  intros Hl Hf HN HF. constructor; auto; [|apply repeat_length|apply mask_nonneg].
  exists sum_I, (Some (Fin N)), "pick-one"%string, PickOne, no_th, no_th, 0%Z, 0%Z.
  split; [apply sum_spec|]. split; [|reflexivity]. now apply sum_kl_init.
Qed.

(** The point at which the one-function start has exponent pi. *)
Definition one_x : R := sqrt (3/8).
Definition one_r : R := sqrt (one_x / PI).
Lemma one_x_pos : 0 < one_x < 1.
Proof.
  split; [apply sqrt_lt_R0; lra|]. unfold one_x. apply Rlt_le_trans with (sqrt 1); [apply sqrt_lt_1; lra|rewrite sqrt_1; lra].
Qed.
Lemma one_r2 : one_r ^ 2 = one_x / PI.
Proof.
  pose proof PI_RGT_0. pose proof one_x_pos. unfold one_r. rewrite pow2_sqrt; auto. apply Rlt_le, Rdiv_lt_0_compat; lra.
Qed.
Lemma one_r4 : one_r ^ 4 = 3 / 8 / PI ^ 2.
Proof.
  pose proof PI_RGT_0. replace (one_r ^ 4) with ((one_r ^ 2) ^ 2) by ring. rewrite one_r2.
  replace ((one_x / PI) ^ 2) with (one_x ^ 2 / PI ^ 2) by (field; lra). unfold one_x. rewrite pow2_sqrt by lra. reflexivity.
Qed.
Lemma one_r_nz : one_r <> 0.
Proof. pose proof one_r2 as E. pose proof PI_RGT_0. pose proof one_x_pos. intros C. rewrite C in E. assert (0 < one_x / PI) by (apply Rdiv_lt_0_compat; lra). lra. Qed.
Definition kl_one_pt : greedy_kl := sum_kl false [1] [one_r] 1.
Lemma one_off : off_origin [1] [one_r].
Proof. exists 0%nat. cbn [length nth]. split; [lia|]. split; [lra|]. apply one_r_nz. Qed.
Lemma one_pos1 : positive [1].
Proof. repeat constructor; lra. Qed.
Lemma one_pt_setting : kl_setting kl_one_pt false [1] [1] [one_r] nan_mask 1.
Proof.
  apply (sum_kl_setting false [1] [one_r] 1 eq_refl); [apply positive_nonneg, one_pos1|lra|].
  unfold rdot, rsum. cbn. lra.
Qed.
Lemma one_start k : kl_start kl_one_pt k = Ok (map Fin [1] ++ map Fin [PI]).
Proof.
  pose proof PI_RGT_0 as HP. pose proof (kl_denom kl_one_pt false [1] [1] [one_r] nan_mask 1 k one_pt_setting) as E. cbv zeta in E.
  assert (M : sumn (length [1]) (fun i => nth i [1] 0 * (nth i [1] 0 * nth i [one_r] 0 ^ 4)) = 3 / 8 / PI ^ 2).
  { unfold sumn, rsum. cbn [length seq map fold_right nth]. rewrite one_r4. ring. }
  rewrite M in E. rewrite E.
  - cbn [map app]. do 4 f_equal. field. lra.
  - assert (0 < 3 / 8 / PI ^ 2); [|lra]. apply Rdiv_lt_0_compat; [lra|]. apply pow_lt. lra.
Qed.

(** The objective decreases with the model at the point. *)
Lemma one_obj k c e : (0 < total k)%nat -> length c = total k -> length e = total k -> positive c -> positive e ->
  exp (- one_x) <= nth 0 (values true (lays_of k [one_r]) c e) 0 ->
  exists v, obj_at (fp_fit (kl_fpi kl_one_pt)) k (map Fin c ++ map Fin e) = Ok (Fin v) /\ v <= one_x /\
    (nth 0 (values true (lays_of k [one_r]) c e) 0 = exp (- one_x) -> v = one_x).
Proof.
  intros Hk Lc Le Pc Pe Hg.
  pose proof (kl_facts _ _ _ _ _ _ _ one_pt_setting) as K. destruct (kf_at _ _ _ _ _ _ _ K k Hk) as (m & E & ST). cbn [fit_weights] in ST.
  unfold obj_at. rewrite E. cbn [bind]. unfold eval_obj.
  assert (H12 : half1 (map Fin c ++ map Fin e) = map Fin c /\ half2 (map Fin c ++ map Fin e) = map Fin e).
  { unfold half1, half2. rewrite app_length, !map_length, Lc, Le.
    replace ((total k + total k) / 2)%nat with (total k) by (apply Nat.div_unique_exact; lia).
    apply firstn_exact. rewrite map_length; auto. }
  destruct H12 as [-> ->].
  destruct (setting_facts _ _ _ _ _ _ _ ST) as [m' [Hft Hme Hlm Hnz Hne Hv]]. cbn [fp_fit] in Hft, Hme.
  assert (NF : nfun (lays_of k [one_r]) = total k) by (apply nfun_lays; discriminate).
  rewrite (fo_model _ _ _ _ _ Hft), (fo_dens _ _ _ _ _ Hft), Hme.
  rewrite (vf_eval _ _ _ _ Hv) by (auto; lia). cbn [bind fst].
  set (vals := values true (lays_of k [one_r]) c e) in *.
  destruct (kl_value nan_mask (Fin 100000) [1] vals false mask_nonneg eq_refl one_pos1
    (values_nonneg _ _ _ _ _ _ Hv (eq_trans Lc (eq_sym NF)) (eq_trans Le (eq_sym NF)) (positive_nonneg _ Pc))) as (v & q & -> & V1 & _ & V2). cbn [bind fst].
  rewrite (fo_int _ _ _ _ _ Hft) by auto.
  destruct v as [|v [|? ?]]; try discriminate. exists v. split; [do 2 f_equal; unfold rdot, rsum; cbn; ring|].
  specialize (V2 0%nat ltac:(cbn; lia)). cbn [nth] in V2. destruct V2 as [V2 V3]. set (g := nth 0 vals 0) in *. pose proof one_x_pos as [X1 X2].
  assert (KE : kept nan_mask 1 (exp (- one_x))) by (apply kept_exp; lra).
  assert (KG : kept nan_mask 1 g).
  { pose proof (exp_pos (- one_x)). destruct KE as [K1 K2]. split; [lra|]. rewrite (Rabs_right g) by lra. rewrite (Rabs_right (exp _)) in K2 by lra. lra. }
  destruct (V2 KG) as [-> _]. unfold kl_fn. pose proof (exp_pos (- one_x)).
  assert (L : 1 * ln (1 / g) = - ln g) by (unfold Rdiv; rewrite !Rmult_1_l; apply ln_Rinv; lra). rewrite L.
  assert (LG : - one_x <= ln g).
  { rewrite <- (ln_exp (- one_x)). destruct Hg as [Hg|<-]; [left; now apply ln_increasing|right; reflexivity]. }
  split; [lra|]. intros ->. rewrite ln_exp. lra.
Qed.

Definition one_state (g : list xr) : gstate :=
  mkG (1, 0)%nat ([] ++ [g]) 0 (map Fin [1] ++ map Fin [PI]) 1 PInf (Fin one_x) [map Fin [1] ++ map Fin [PI]] 0 (Fin 2).
Lemma one_cands g : cands_of (kl_strategy kl_one_pt ones_rand) PickOne (one_state g) =
  [map Fin [100; 1] ++ map Fin [PI / 2; PI]; map Fin [1; 100] ++ map Fin [PI; PI * 2];
   map Fin [1; 1] ++ map Fin [PI; 1]; map Fin [1; 1 * 9 + 1] ++ map Fin [PI; 1 * 9 + 1];
   map Fin [1; 1 * 90 + 10] ++ map Fin [PI; 1 * 90 + 10]] /\
  length (s_choices (kl_strategy kl_one_pt ones_rand) PickOne (one_state g)) = 2%nat.
Proof.
  split; [|reflexivity].
  unfold cands_of, s_choices, p_choices. cbn [one_state gs_cfg gs_params gs_factor next_params increase]. unfold get_next_choices, next_pairs.
  cbn [map app fst snd split_s split_p firstn skipn length seq flat_map Nat.add Nat.eqb Nat.sub kl_strategy sy_rand ones_rand Nat.mul gs_t repeat].
  unfold insert_at, new_exponent. cbn. rewrite (reqb_false 2 0) by lra. reflexivity.
Qed.

Lemma kl_opt_same t k p b : (0 < total k)%nat -> fits_pos k p -> kl_opt kl_one_pt t k p b = Ok p.
Proof.
  intros Hk Hp. pose proof (kl_facts _ _ _ _ _ _ _ one_pt_setting) as K. destruct (kf_at _ _ _ _ _ _ _ K k Hk) as (m & E & ST).
  unfold kl_opt. rewrite E. cbn [bind]. destruct (halves_pos _ _ Hp) as (c & e & -> & -> & -> & Lc & Le & _).
  destruct (setting_facts _ _ _ _ _ _ _ ST) as [m' [Hft _ _ _ _ Hv]]. cbn [fp_fit] in Hft.
  assert (NF : nfun (lays_of k [one_r]) = total k) by (apply nfun_lays; discriminate).
  unfold fpi_run. cbn [fp_fit]. rewrite (fo_model _ _ _ _ _ Hft), (vf_nb _ _ _ _ Hv), NF, !map_length, Lc, Le, Z.eqb_refl. cbn [negb].
  destruct b; reflexivity.
Qed.

Definition one_good (k : cfg) (p : list xr) : Prop :=
  (exists c e, p = map Fin c ++ map Fin e /\ length c = total k /\ length e = total k /\ positive c /\ positive e /\
    exp (- one_x) <= nth 0 (values true (lays_of k [one_r]) c e) 0) /\
  (0 < total k)%nat /\
  length (fst (remove_redundancies (fst (split_s k p)) (snd (split_s k p)) (Fin (1 / 1000)))) = fst k /\
  length (fst (remove_redundancies (fst (split_p k p)) (snd (split_p k p)) (Fin (1 / 1000)))) = snd k.

Lemma one_basis : basis_fn true false PI (Rabs one_r) = exp (- one_x).
Proof.
  pose proof PI_RGT_0. unfold basis_fn, norm_const. rewrite pow2_abs, one_r2. replace (PI / PI) with 1 by (field; lra).
  rewrite rpower_1 || unfold Rpower. rewrite ln_1, Rmult_0_r, exp_0, !Rmult_1_l. f_equal. field. lra.
Qed.
Lemma basis_nonneg p a : 0 < a -> 0 <= basis_fn true p a (Rabs one_r).
Proof.
  intros Ha. pose proof PI_RGT_0. unfold basis_fn. apply Rmult_le_pos; [|left; apply exp_pos]. apply Rmult_le_pos.
  - unfold norm_const, Rpower. destruct p; [|left; apply exp_pos]. apply Rmult_le_pos; [lra|]. left. apply Rdiv_lt_0_compat; apply exp_pos.
  - destruct p; [apply pow2_ge_0|lra].
Qed.
Lemma pair_separated a b c d : 1 / 1000 <= b - a ->
  length (fst (remove_redundancies [Fin c; Fin d] [Fin a; Fin b] (Fin (1 / 1000)))) = 2%nat.
Proof.
  intros H. destruct (remove_unchanged [c; d] [a; b] (1/1000)) as [_ U]; [auto|]. apply U.
  intros i j Hij. cbn [length] in Hij. assert (i = 0 /\ j = 1)%nat as [-> ->] by lia. cbn [nth]. rewrite Rabs_left; lra.
Qed.

Lemma one_all_good g i : (i < 5)%nat ->
  one_good (meant_for (1, 0)%nat 1 2 i) (nth i (cands_of (kl_strategy kl_one_pt ones_rand) PickOne (one_state g)) []).
Proof.
  intros Hi. rewrite (proj1 (one_cands g)). pose proof PI_RGT_0 as HP. pose proof PI2_3_2 as HP2. unfold PI2 in HP2.
  pose proof one_basis as OB. pose proof (exp_pos (- one_x)) as XP.
  destruct i as [|[|[|[|[|i]]]]]; [| | | | |lia]; cbn [nth]; unfold meant_for; cbn [Nat.ltb Nat.leb fst snd Nat.add];
  (split; [eexists _, _; split; [reflexivity|]; do 2 (split; [reflexivity|]); split; [repeat constructor; lra|]; split; [repeat constructor; lra|];
    unfold values, lays_of, lay_atom, types; cbn [map repeat app fst snd gsum nth]; rewrite OB|
   split; [unfold total; cbn; lia|]]).
  - pose proof (basis_nonneg false (PI / 2) ltac:(lra)). lra.
  - split; [|reflexivity]. apply pair_separated. lra.
  - pose proof (basis_nonneg false (PI * 2) ltac:(lra)). lra.
  - split; [|reflexivity]. apply pair_separated. lra.
  - pose proof (basis_nonneg true 1 ltac:(lra)). lra.
  - split; apply ls_single.
  - pose proof (basis_nonneg true (1 * 9 + 1) ltac:(lra)). nra.
  - split; apply ls_single.
  - pose proof (basis_nonneg true (1 * 90 + 10) ltac:(lra)). nra.
  - split; apply ls_single.
Qed.

Lemma one_good_pos k p : one_good k p -> fits_pos k p.
Proof. intros ((c & e & H1 & H2 & H3 & H4 & H5 & _) & _). exists c, e. auto 10. Qed.

Lemma one_run d fuel : d <> NaN -> exists r ob,
  greedy_run (kl_strategy kl_one_pt ones_rand) PickOne new_object (VFloat (Fin 2)) d 2 None (S fuel) = Some (Ok (r, ob)) /\
  total (gr_cfg r) = 2%nat.
Proof.
  intros Hd. assert (Pn : nonneg [1]) by (apply positive_nonneg, one_pos1). pose proof PI_RGT_0 as HP. pose proof one_x_pos as X.
  assert (P0 : fits_pos (1, 0)%nat (map Fin [1] ++ map Fin [PI])).
  { exists [1], [PI]. repeat split; auto; repeat constructor; lra. }
  destruct (kl_good_pos kl_one_pt false [1] [1] [one_r] nan_mask 1 one_pt_setting one_pos1 one_off (1, 0)%nat _ (le_n 1) P0) as (g & G).
  assert (V : nth 0 (values true (lays_of (1, 0)%nat [one_r]) [1] [PI]) 0 = exp (- one_x)).
  { unfold values, lays_of, lay_atom, types; cbn [map repeat app fst snd gsum nth]. rewrite one_basis. ring. }
  destruct (one_obj (1, 0)%nat [1] [PI] (le_n 1) eq_refl eq_refl one_pos1) as (v & O & _ & Ev); [repeat constructor; lra|rewrite V; lra|]. rewrite (Ev V) in O.
  destruct (one_cands g) as [C1 C2].
  destruct (round_run (kl_strategy kl_one_pt ones_rand) PickOne [] 2 one_x (map Fin [1] ++ map Fin [PI]) g one_good) with (d := d) (fuel := fuel)
    as (r & ob & E & T & _); auto; try lra.
  - apply one_start.
  - fold (one_state g). rewrite C1. discriminate.
  - fold (one_state g). intros t i Hi. rewrite C2. cbn [increase]. rewrite C1 in Hi. cbn [length] in Hi.
    pose proof (one_all_good g i Hi) as A. eexists. split; [|exact A]. apply kl_opt_same; [apply A|now apply one_good_pos].
  - intros t k p A. exists p. split; auto. apply kl_opt_same; [apply A|now apply one_good_pos].
  - intros k p A. destruct A as ((c & e & -> & Lc & Le & Pc & Pe & H) & Hk & S1 & S2). split; [|split; [|split; auto]].
    + destruct (one_obj k c e Hk Lc Le Pc Pe H) as (v' & O' & B & _). exists v'. auto.
    + apply (kl_good_pos kl_one_pt false [1] [1] [one_r] nan_mask 1 one_pt_setting one_pos1 one_off k); auto. exists c, e. auto 10.
  - exists r, ob. split; auto.
Qed.

(** The check of the factor. *)
Lemma run_factor sy ch ob factor d mx extra fuel :
  ((forall f, factor <> VFloat f) -> greedy_run sy ch ob factor d mx extra fuel = Some (Raise TypeError)) /\
  (forall f, factor = VFloat f -> xleb f (Fin 0) = true -> greedy_run sy ch ob factor d mx extra fuel = Some (Raise ValueError)).
Proof.
  split; [|intros f -> H; cbn [greedy_run]; unfold greedy_run; now rewrite H].
  intros H. destruct factor; try reflexivity. exfalso. eapply H. reflexivity.
Qed.
