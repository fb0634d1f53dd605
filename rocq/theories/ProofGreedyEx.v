(** Sample strategies and settings for the greedy properties. *)
From Coquelicot Require Import Coquelicot.
From Coq Require Import String Reals List ZArith Lia Lra Bool.
From Verif Require Import XR SpecDens SpecMeas SpecFit ModelDens ModelMeas ModelGrid ModelFit ModelGreedy SpecGreedy Lists
  ProofDens ProofInit ProofDeriv ProofMeas ProofSlater ProofFitView ProofFit ProofEM ProofFPI ProofFPI2 ProofFPI3 ProofFPI4
  ProofGreedy1 ProofGreedy2 ProofGreedy3 ProofGreedy4 ProofGreedy5 ProofGreedy6.
Import ListNotations.
Local Open Scope R_scope.

(** ** An optimizer that always returns the same parameters, with constant objective *)
Definition toy_exps (n : nat) : list R := map INR (seq 1 n).
Definition toy_params (k : cfg) : list xr :=
  map Fin (repeat 1 (total k)) ++ map Fin (toy_exps (fst k) ++ toy_exps (snd k)).
Definition toy (v : xr) : strategy :=
  mkStrategy (fun k => Ok (toy_params k)) (fun _ k _ _ => Ok (toy_params k)) (fun _ _ => Ok v)
             (fun _ _ => Ok [Fin 7]) (fun _ n => map Fin (repeat 1 n)).

Lemma toy_exps_length n : length (toy_exps n) = n.
Proof. unfold toy_exps. now rewrite map_length, seq_length. Qed.
Lemma toy_separated n : separated (1/1000) (toy_exps n).
Proof.
  intros i j Hij. rewrite toy_exps_length in Hij. unfold toy_exps.
  assert (N : forall i, (i < n)%nat -> nth i (map INR (seq 1 n)) 0 = INR (S i)).
  { intros k Hk. rewrite (nth_indep _ 0 (INR 0)) by (rewrite map_length, seq_length; lia). rewrite map_nth, seq_nth by lia. reflexivity. }
  rewrite !N by lia. rewrite <- Rabs_Ropp. assert (INR (S i) + 1 <= INR (S j)).
  { rewrite <- S_INR. apply le_INR. lia. }
  rewrite Rabs_right; lra.
Qed.
Lemma toy_fits k : fits k (toy_params k).
Proof. unfold fits, toy_params. rewrite app_length, !map_length, repeat_length, app_length, !toy_exps_length. unfold total. lia. Qed.
Lemma toy_split k : split_s k (toy_params k) = (map Fin (repeat 1 (fst k)), map Fin (toy_exps (fst k))) /\
  split_p k (toy_params k) = (map Fin (repeat 1 (snd k)), map Fin (toy_exps (snd k))).
Proof.
  assert (E : toy_params k = map Fin (repeat 1 (fst k)) ++ map Fin (repeat 1 (snd k)) ++ map Fin (toy_exps (fst k)) ++ map Fin (toy_exps (snd k))).
  { unfold toy_params, total. rewrite repeat_app, !map_app, <- !app_assoc. reflexivity. }
  unfold split_s, split_p. rewrite E.
  set (A := map Fin (repeat 1 (fst k))). set (B := map Fin (repeat 1 (snd k))). set (C := map Fin (toy_exps (fst k))). set (D := map Fin (toy_exps (snd k))).
  assert (LA : length A = fst k) by (unfold A; now rewrite map_length, repeat_length).
  assert (LB : length B = snd k) by (unfold B; now rewrite map_length, repeat_length).
  assert (LC : length C = fst k) by (unfold C; now rewrite map_length, toy_exps_length).
  split.
  - f_equal; [apply firstn_exact; auto|].
    destruct (firstn_exact (A ++ B) (C ++ D) (fst k + snd k)%nat) as [_ X]; [rewrite app_length; lia|]. rewrite <- app_assoc in X. rewrite X. apply firstn_exact; auto.
  - f_equal.
    + destruct (firstn_exact A (B ++ C ++ D) (fst k) LA) as [_ ->]. apply firstn_exact; auto.
    + destruct (firstn_exact (A ++ B ++ C) D (2 * fst k + snd k)%nat) as [_ X]; [rewrite !app_length; lia|]. rewrite <- !app_assoc in X. exact X.
Qed.
Lemma toy_removed n : length (fst (remove_redundancies (map Fin (repeat 1 n)) (map Fin (toy_exps n)) (Fin (1/1000)))) = n.
Proof.
  destruct (remove_unchanged (repeat 1 n) (toy_exps n) (1/1000)) as [_ H]; [now rewrite repeat_length, toy_exps_length|].
  transitivity (length (repeat 1 n)); [|apply repeat_length]. apply H. apply toy_separated.
Qed.

(** The first of candidates of equal cost is taken. *)
Lemma find_const sy t k inc nsc v p : (forall t k q b, exists q', sy_opt sy t k q b = Ok q') -> (forall k q, sy_obj sy k q = Ok (Fin v)) ->
  v < 10 ^ 10 -> forall rest lp, sy_opt sy (t + 0) (meant_for k inc nsc 0) p true = Ok lp ->
  find_best sy t k inc nsc 0 (p :: rest) (Fin (10 ^ 10), None, false) = Ok (Fin v, Some lp, Nat.ltb 0 nsc).
Proof.
  intros Ho Hv Hlt rest lp Hp. cbn [find_best].
  change (if Nat.ltb 0 nsc then _ else _) with (meant_for k inc nsc 0). rewrite Hp. cbn [bind]. rewrite Hv. cbn [bind fst xltb].
  rewrite rltb_true by auto. cbn [bind]. generalize 1%nat. induction rest as [|q rest IH]; intros i; [reflexivity|]. cbn [find_best].
  match goal with |- context [sy_opt sy ?a ?b q true] => destruct (Ho a b q true) as [q' ->] end. cbn [bind]. rewrite Hv. cbn [bind fst xltb].
  rewrite rltb_false by lra. cbn [bind]. apply IH.
Qed.

Lemma toy_body ch v f0 s : v < 10 ^ 10 -> (0 < fst (gs_cfg s))%nat -> gs_params s = toy_params (gs_cfg s) -> gs_best s = Fin v ->
  let k' := (fst (gs_cfg s) + increase ch, snd (gs_cfg s))%nat in
  exists t', greedy_body (toy (Fin v)) ch None f0 s =
  Ok (mkG k' (gs_err s ++ [[Fin 7]]) t' (toy_params k') (gs_n s + Z.of_nat (increase ch)) (Fin v) (Fin v)
        (gs_iter s ++ [toy_params k']) 0 f0).
Proof.
  intros Hv Hk Hp Hb k'. unfold greedy_body. cbn [bind].
  set (cs := s_choices (toy (Fin v)) ch s). set (cp := p_choices (toy (Fin v)) ch s).
  assert (X : firstn (length cs + length cp) (cs ++ cp) = cs ++ cp) by (rewrite <- app_length; apply firstn_all).
  rewrite X. clear X.
  assert (NE : exists x rest, cs = x :: rest).
  { destruct (toy_split (gs_cfg s)) as [S _]. unfold cs, s_choices. rewrite Hp, S. cbn [fst snd].
    destruct (next_params ch (gs_factor s) (map Fin (repeat 1 (fst (gs_cfg s)))) (map Fin (toy_exps (fst (gs_cfg s))))) eqn:N; [|cbn [map]; eauto].
    exfalso. eapply next_some; [| |exact N]; rewrite !map_length, ?repeat_length, toy_exps_length; auto. }
  destruct NE as (x & rest & NE).
  assert (F : find_best (toy (Fin v)) (gs_t s) (gs_cfg s) (increase ch) (length cs) 0 (cs ++ cp) (Fin (10 ^ 10), None, false) =
     Ok (Fin v, Some (toy_params (meant_for (gs_cfg s) (increase ch) (length cs) 0)), Nat.ltb 0 (length cs))).
  { rewrite NE at 2. cbn [app]. apply find_const; auto. intros. cbn. eauto. }
  rewrite F. cbn [bind]. assert (L : Nat.ltb 0 (length cs) = true) by (rewrite NE; reflexivity).
  unfold meant_for. rewrite L. fold k'. cbn [toy sy_opt sy_obj sy_good bind].
  destruct (toy_split k') as [-> ->]. cbn [fst snd]. rewrite !toy_removed. rewrite !Nat.eqb_refl. cbn [negb orb].
  rewrite Hb. cbn [xltb xleb]. rewrite rltb_false by lra. rewrite rleb_true by lra. eexists. reflexivity.
Qed.

Definition toy_d : xr := Fin (1 / 10 ^ 8).
Lemma toy_d_pos : 0 < 1 / 10 ^ 8.
Proof. apply Rdiv_lt_0_compat; [lra|]. apply pow_lt. lra. Qed.
Lemma small_1e10 : 0 < 10 ^ 10.
Proof. apply pow_lt. lra. Qed.

(** A run with limit 3: stopped by convergence after one more function. *)
Lemma toy_run_one fuel : exists r ob, greedy_run (toy (Fin 0)) PickOne new_object (VFloat (Fin 2)) toy_d 3 None (S fuel) = Some (Ok (r, ob)) /\
  gr_cfg r = (2, 0)%nat /\ gr_success r = false /\ gr_exit r = ExMax 2 /\ gr_params r = [toy_params (1, 0)%nat; toy_params (2, 0)%nat] /\
  gr_coeffs r = [Fin 1; Fin 1] /\ gr_fun r = Fin 0.
Proof.
  unfold greedy_run. cbn [xleb]. rewrite rleb_false by lra. unfold greedy_start. cbn [toy sy_start sy_good sy_obj bind new_object ob_cfg ob_err app].
  set (s0 := mkG _ _ _ _ _ _ _ _ _ _). cbn [greedy_loop].
  assert (G : greedy_go toy_d 3 s0 = true) by reflexivity. rewrite G.
  destruct (toy_body PickOne 0 (Fin 2) s0) as [t' B]; [apply small_1e10|cbn; lia|reflexivity|reflexivity|]. rewrite B. clear B G.
  cbn [s0 gs_cfg fst snd increase gs_err gs_n gs_iter app Z.of_nat Z.add Pos.add Pos.of_succ_nat Nat.add].
  set (s1 := mkG _ _ _ _ _ _ _ _ _ _).
  assert (G : greedy_go toy_d 3 s1 = false).
  { unfold greedy_go, s1, toy_d. cbn. rewrite rleb_false; [reflexivity|]. rewrite Rplus_opp_r, Rabs_R0. pose proof toy_d_pos. cbn in *. lra. }
  assert (LL : greedy_loop (toy (Fin 0)) PickOne None (Fin 2) toy_d 3 fuel s1 = Some (Ok s1)) by (destruct fuel; cbn [greedy_loop]; now rewrite G).
  rewrite LL. unfold greedy_end. cbn [s1 gs_redum Nat.eqb gs_n gs_best gs_prev]. unfold final_exit. cbn [Z.ltb Z.compare Z.sub Z.add Z.opp negb bind toy sy_obj Z.pos_sub Pos.compare Pos.compare_cont Pos.pred_double].
  eexists _, _. split; [reflexivity|]. cbn. repeat split; reflexivity.
Qed.

(** pick-two with limit 2 returns three functions. *)
Lemma toy_run_two fuel : exists r ob, greedy_run (toy (Fin 0)) PickTwo new_object (VFloat (Fin 2)) toy_d 2 None (S fuel) = Some (Ok (r, ob)) /\
  gr_cfg r = (3, 0)%nat /\ gr_success r = true /\ gr_exit r = ExMax 3 /\ gr_coeffs r = [Fin 1; Fin 1; Fin 1].
Proof.
  unfold greedy_run. cbn [xleb]. rewrite rleb_false by lra. unfold greedy_start. cbn [toy sy_start sy_good sy_obj bind new_object ob_cfg ob_err app].
  set (s0 := mkG _ _ _ _ _ _ _ _ _ _). cbn [greedy_loop].
  assert (G : greedy_go toy_d 2 s0 = true) by reflexivity. rewrite G.
  destruct (toy_body PickTwo 0 (Fin 2) s0) as [t' B]; [apply small_1e10|cbn; lia|reflexivity|reflexivity|]. rewrite B. clear B G.
  cbn [s0 gs_cfg fst snd increase gs_err gs_n gs_iter app Z.of_nat Z.add Pos.add Pos.of_succ_nat Nat.add Pos.succ].
  set (s1 := mkG _ _ _ _ _ _ _ _ _ _).
  assert (G : greedy_go toy_d 2 s1 = false) by reflexivity.
  assert (LL : greedy_loop (toy (Fin 0)) PickTwo None (Fin 2) toy_d 2 fuel s1 = Some (Ok s1)) by (destruct fuel; cbn [greedy_loop]; now rewrite G).
  rewrite LL. unfold greedy_end. cbn [s1 gs_redum Nat.eqb gs_n gs_best gs_prev]. unfold final_exit.
  eexists _, _. split; [reflexivity|]. cbn. repeat split; reflexivity.
Qed.

(** ** An objective that is NaN for what the global optimization returns *)
Definition bad_params : list xr := [NaN; Fin 1; Fin 1; Fin 2].
Definition nanny : strategy :=
  mkStrategy (fun k => Ok (toy_params k)) (fun _ k _ b => Ok (if b then toy_params k else bad_params))
             (fun _ p => Ok (match p with NaN :: _ => NaN | _ => Fin 0 end))
             (fun _ _ => Ok [Fin 7]) (fun _ n => map Fin (repeat 1 n)).

Lemma bad_removed : length (fst (remove_redundancies [NaN; Fin 1] [Fin 1; Fin 2] (Fin (1/1000)))) = 2%nat.
Proof.
  assert (E : similar (Fin (1/1000)) (Fin 1) (Fin 2) = false).
  { unfold similar. cbn. apply rltb_false. rewrite Rabs_left; lra. }
  unfold remove_redundancies, groups, group_at. cbn [length seq map nth filter Nat.sub]. rewrite E. reflexivity.
Qed.

Lemma find_nanny t k inc nsc p rest : 
  find_best nanny t k inc nsc 0 (p :: rest) (Fin (10 ^ 10), None, false) = Ok (Fin 0, Some (toy_params (meant_for k inc nsc 0)), Nat.ltb 0 nsc) .
Proof.
  assert (O : forall k' k0, sy_obj nanny k0 (toy_params k') = Ok (Fin 0)).
  { intros k' k0. cbn. unfold toy_params. destruct (total k') eqn:T; cbn [repeat map app].
    - unfold total in T. assert (fst k' = 0 /\ snd k' = 0)%nat as [-> ->] by lia. reflexivity.
    - reflexivity. }
  cbn [find_best]. change (if Nat.ltb 0 nsc then _ else _) with (meant_for k inc nsc 0).
  change (sy_opt nanny (t + 0) (meant_for k inc nsc 0) p true) with (Ok (toy_params (meant_for k inc nsc 0))). cbn [bind]. rewrite O. cbn [bind fst xltb].
  rewrite rltb_true by apply small_1e10. cbn [bind]. generalize 1%nat. induction rest as [|q rest IH]; intros i; [reflexivity|]. cbn [find_best].
  match goal with |- context [sy_opt nanny ?a ?b q true] => change (sy_opt nanny a b q true) with (Ok (toy_params b)) end. cbn [bind]. rewrite O. cbn [bind fst xltb].
  rewrite rltb_false by lra. cbn [bind]. apply IH.
Qed.

(** The result claims two functions; it has an exponent among the coefficients and no exponents. *)
Lemma nanny_run fuel : exists r ob, greedy_run nanny PickOne new_object (VFloat (Fin 2)) toy_d 2 None (S fuel) = Some (Ok (r, ob)) /\
  total (gr_cfg r) = 2%nat /\ total (ob_cfg ob) = 2%nat /\ gr_params r = [toy_params (1, 0)%nat] /\ gr_exps r = [].
Proof.
  unfold greedy_run. cbn [xleb]. rewrite rleb_false by lra. unfold greedy_start. cbn [nanny sy_start sy_good sy_obj bind new_object ob_cfg ob_err app].
  set (s0 := mkG _ _ _ _ _ _ _ _ _ _). cbn [greedy_loop].
  assert (G : greedy_go toy_d 2 s0 = true) by reflexivity. rewrite G. clear G.
  assert (B : exists t', greedy_body nanny PickOne None (Fin 2) s0 = Ok (mkG (2, 0)%nat (gs_err s0) t' (gs_params s0) 2 PInf (Fin 0) (gs_iter s0) 0 (Fin 2))).
  { unfold greedy_body. cbn [bind].
    set (cs := s_choices nanny PickOne s0). set (cp := p_choices nanny PickOne s0).
    assert (X : firstn (length cs + length cp) (cs ++ cp) = cs ++ cp) by (rewrite <- app_length; apply firstn_all).
    rewrite X. clear X. assert (NE : exists x rest, cs = x :: rest) by (unfold cs; cbn; eauto). destruct NE as (x & rest & NE).
    assert (LC : length cs = S (length rest)) by (rewrite NE; reflexivity).
    rewrite NE. cbn [app]. rewrite find_nanny. cbn [bind length]. unfold meant_for. cbn [Nat.ltb Nat.leb].
    change (gs_cfg s0) with (1, 0)%nat. cbn [fst snd increase Nat.add nanny sy_opt sy_obj sy_good bind].
    unfold split_s, split_p. cbn [bad_params fst snd firstn skipn Nat.add Nat.mul].
    rewrite bad_removed. cbn. eexists. reflexivity. }
  destruct B as [t' ->]. cbn [s0 gs_err gs_params gs_iter]. set (s1 := mkG _ _ _ _ _ _ _ _ _ _).
  assert (G : greedy_go toy_d 2 s1 = false) by reflexivity.
  assert (LL : greedy_loop nanny PickOne None (Fin 2) toy_d 2 fuel s1 = Some (Ok s1)) by (destruct fuel; cbn [greedy_loop]; now rewrite G).
  rewrite LL. unfold greedy_end. cbn [s1 gs_redum Nat.eqb gs_n gs_best gs_prev]. unfold final_exit.
  eexists _, _. split; [reflexivity|]. cbn. repeat split; reflexivity.
Qed.

(** ** Search *)
Definition pick : strategy :=
  mkStrategy (fun _ => Ok []) (fun _ _ p _ => Ok p) (fun _ p => Ok (nth 0 p NaN)) (fun _ _ => Ok []) (fun _ _ => []).
Lemma pick_search : find_best pick 0 (1, 0)%nat 1 2 0 [[Fin 3]; [NaN]; [Fin 1]; [Fin 2]] (Fin (10 ^ 10), None, false) =
  Ok (Fin 1, Some [Fin 1], false).
Proof.
  pose proof small_1e10. assert (4 < 10 ^ 10) by (cbn; lra).
  cbn [find_best pick sy_opt sy_obj bind nth fst snd Nat.ltb Nat.leb xltb].
  rewrite (rltb_true 3) by lra. cbn [bind fst xltb]. rewrite (rltb_true 1 3) by lra. cbn [bind fst xltb]. rewrite rltb_false by lra. reflexivity.
Qed.
