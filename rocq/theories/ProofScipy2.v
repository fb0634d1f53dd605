(** ScipyFit: constructor, objective and gradient, constraint, result (C49-C52). *)
From Coquelicot Require Import Coquelicot.
From Coq Require Import String.
From Coq Require Import Reals List ZArith Lia Lra Bool.
From Verif Require Import XR PyStr SpecDens SpecMeas SpecGrid ModelDens ModelMeas ModelGrid ModelFit Lists ProofDens
  ProofDeriv ProofMeas SpecFit ProofFitView ProofFit ProofEM ProofFPI ProofFPI2 ProofFPI3 ProofScipy.
Import ListNotations.
Local Open Scope R_scope.

Lemma scipy_init_inv ga density model me method weights n0 sph mask s :
  scipy_init ga density model me method weights n0 sph mask = Ok s ->
  exists pts m ft, ga_points ga = Some pts /\ points_differ pts (g_points model) = Ok false /\
    nlen pts = length density /\
    (lower method = "slsqp"%string \/ lower method = "trust-constr"%string) /\
    me = MInst m /\ base_init ga density model m n0 sph mask = Ok ft /\
    s = mkScipy ft (String.eqb (lower method) "slsqp")
          (match weights with Some w => w | None => repeat (Fin 1) (length density) end).
Proof.
  unfold scipy_init. destruct (ga_points ga) as [pts|]; [|discriminate].
  destruct (points_differ pts (g_points model)) as [[|]|] eqn:E1; try discriminate. cbn [bind].
  destruct (Nat.eqb_spec (nlen pts) (length density)) as [E2|]; [|discriminate]. cbn [negb].
  destruct (str_in (lower method) ["slsqp"; "trust-constr"]%string) eqn:E3; [|discriminate]. cbn [negb].
  destruct me as [m| |]; try discriminate.
  destruct (base_init ga density model m n0 sph mask) as [ft|] eqn:E4; [|discriminate]. cbn [bind]. intros H.
  injection H as <-. exists pts, m, ft. repeat split; auto.
  unfold str_in in E3. cbn [existsb] in E3.
  destruct (String.eqb_spec (lower method) "slsqp") as [->|]; auto.
  destruct (String.eqb_spec (lower method) "trust-constr") as [->|]; auto. discriminate.
Qed.

Lemma scipy_facts s me W w f norm lays N : scipy_setting s me W w f norm lays N ->
  exists m mask, fitok (sc_fit s) W f m mask /\ ft_measure (sc_fit s) = me /\
    vfacts m norm lays (nfun lays) /\ lays <> [] /\ sc_weights s = map Fin w /\ ft_integral (sc_fit s) = Fin N.
Proof.
  intros [(ga & sph & n0 & m & wopt & method & mask & Hi & Hv & Hs & Ht & Hw) Hf Hlw Hl Hne].
  destruct (scipy_init_inv _ _ _ _ _ _ _ _ _ _ Hs) as (pts & me' & ft & _ & _ & _ & _ & Eme & Hb & ->).
  injection Eme as <-. exists m, mask. cbn [sc_fit sc_weights].
  destruct (base_fitok _ _ _ _ _ _ _ _ _ Hi Hf Hb) as (H1 & H2 & H3).
  assert (Hn : lays <> []).
  { intros ->. destruct W; [congruence|discriminate]. }
  destruct (views_facts _ _ _ Hv) as [nb Hb'].
  assert (E : nfun lays = nb).
  { unfold nfun. apply (vf_len _ _ _ _ Hb'). destruct lays; [congruence|now left]. }
  rewrite E. split; [exact H1|]. split; [exact H2|]. split; [exact Hb'|]. split; [exact Hn|]. split.
  - destruct wopt; auto. rewrite Hw, map_length. clear. induction (length f) as [|n IH]; cbn; congruence.
  - rewrite H3. destruct n0; cbn [target] in Ht; subst; auto.
Qed.

(** ** Measures *)
Lemma smooth_value me f g : length f = length g -> all_smooth me f g ->
  exists q, measure_evaluate me (VArr (A1 (map Fin f))) (VArr (A1 (map Fin g))) (VBool true) =
      Ok (map Fin (map2 (dev me) f g), Some (map Fin q)) /\ length q = length f /\
    forall i, (i < length f)%nat -> is_derive (fun t : R => dev me (nth i f 0) t) (nth i g 0) (nth i q 0).
Proof.
  intros Hl Hs. destruct f as [|f0 f'] eqn:Ef.
  { destruct g; [|discriminate]. exists []. destruct me; cbn; repeat split; auto; lia. }
  rewrite <- Ef in *. assert (Hpos : (0 < length f)%nat) by (rewrite Ef; cbn; lia).
  unfold all_smooth in Hs. destruct me as [|mk neg|a mk].
  - destruct (sq_value f g true Hl) as (d & E & L & D). exists d. auto.
  - destruct mk as [mk| | |]; try (destruct (Hs 0%nat Hpos); fail).
    assert (Hm : 0 <= mk) by apply (Hs 0%nat Hpos).
    assert (Hk : all_kept mk f g) by (split; auto; intros i Hi; split; apply (Hs i Hi)).
    assert (Hpf : Forall (fun x => 0 < x) f).
    { apply Forall_forall. intros x Hx. destruct (In_nth _ _ 0 Hx) as (i & Hi & <-). apply (Hs i Hi). }
    assert (Hpg : Forall (fun x => 0 <= x) g).
    { apply Forall_forall. intros x Hx. destruct (In_nth _ _ 0 Hx) as (i & Hi & <-). left.
      eapply kept_nz; eauto. apply (Hs i). lia. }
    destruct (kl_value mk neg f g true Hm Hl Hpf Hpg) as (v & q & E & L1 & L2 & HI). exists q.
    split; [|split; auto].
    + rewrite E. do 3 f_equal. apply nth_ext with (d := 0) (d' := 0); [rewrite map2_length; lia|].
      intros i Hi. rewrite (nth_map2 _ f g i 0 0 0) by lia. destruct (HI i ltac:(lia)) as [A _].
      apply A. apply (Hs i). lia.
    + intros i Hi. destruct (HI i Hi) as [A _]. destruct (Hs i Hi) as (_ & B & K).
      destruct (A K) as [_ ->]. apply kl_fn_derive; auto. eapply kept_nz; eauto.
  - destruct mk as [mk| | |]; try (destruct (Hs 0%nat Hpos); fail).
    destruct (Hs 0%nat Hpos) as (Ht & Hm & _).
    assert (Hk : all_kept mk f g) by (split; auto; intros i Hi; split; apply (Hs i Hi)).
    destruct (ts_value a mk _ f g true Hm Hk Ht) as (d & E & L & D). exists d. auto.
Qed.

(** Being unmasked is an open condition. *)
Lemma kept_open mk f g : 0 <= mk -> kept mk f g -> locally g (fun t : R => kept mk f t).
Proof.
  intros Hm [H1 H2].
  assert (Hg : 0 < g) by lra. rewrite (Rabs_right g) in H2 by lra.
  set (a := Rmax mk (Rabs f * / 2 ^ 1022)).
  assert (Ha : a < g) by (unfold a; apply Rmax_lub_lt; auto).
  apply (locally_interval _ g (Finite a) p_infty); cbn; auto.
  intros y Hy _. pose proof (Rmax_l mk (Rabs f * / 2 ^ 1022)). pose proof (Rmax_r mk (Rabs f * / 2 ^ 1022)).
  fold a in H, H0. split; [lra|]. rewrite (Rabs_right y) by lra. lra.
Qed.
Lemma smooth_open me f g : smooth_at me f g -> locally g (fun t : R => smooth_at me f t).
Proof.
  destruct me as [|[mk| | |] neg|a [mk| | |]]; cbn [smooth_at]; try tauto.
  - intros _. apply filter_true.
  - intros (H1 & H2 & H3). apply (filter_imp (fun t => kept mk f t)); [auto|]. now apply kept_open.
  - intros (H0 & H1 & H2 & H3). apply (filter_imp (fun t => kept mk f t)); [auto|]. now apply kept_open.
Qed.
Lemma locally_all n (P : nat -> R -> Prop) (x : R) :
  (forall i, (i < n)%nat -> locally x (P i)) -> locally x (fun t : R => forall i, (i < n)%nat -> P i t).
Proof.
  induction n as [|n IH]; intros H.
  - apply filter_forall. intros; lia.
  - apply (filter_imp (fun t => (forall i, (i < n)%nat -> P i t) /\ P n t)).
    + intros t [A B] i Hi. destruct (Nat.eq_dec i n) as [->|]; auto. apply A. lia.
    + apply filter_and; [apply IH; intros; apply H; lia|apply H; lia].
Qed.

(** ** The objective *)
Definition objective (me : measure) (W w f g : list R) : R := quad W (map2 Rmult w (map2 (dev me) f g)).

Lemma objective_sumn me W w f g : length w = length W -> length f = length W -> length g = length W ->
  objective me W w f g = sumn (length W) (fun i => nth i W 0 * (nth i w 0 * dev me (nth i f 0) (nth i g 0))).
Proof.
  intros H1 H2 H3. unfold objective, quad.
  rewrite rdot_sumn by (rewrite !map2_length; lia). apply sumn_ext. intros i Hi.
  rewrite (nth_map2 Rmult w _ i 0 0 0) by (rewrite ?map2_length; lia).
  now rewrite (nth_map2 (dev me) f g i 0 0 0) by lia.
Qed.

(** Slope of the objective along a curve of parameters. *)
Lemma objective_derive me W w f norm lays (C E : R -> list R) (x : R) (dG q : nat -> R) :
  length w = length W -> length f = length W -> length lays = length W ->
  (forall i, (i < length W)%nat ->
     is_derive (fun t : R => gsum norm (nth i lays []) (C t) (E t)) x (dG i) /\
     is_derive (fun t : R => dev me (nth i f 0) t) (gsum norm (nth i lays []) (C x) (E x)) (q i)) ->
  is_derive (fun t : R => objective me W w f (values norm lays (C t) (E t))) x
    (sumn (length W) (fun i => nth i W 0 * (nth i w 0 * q i * dG i))).
Proof.
  intros Hw Hf Hl H.
  apply (is_derive_ext (fun t : R => sumn (length W) (fun i => nth i W 0 *
     (nth i w 0 * dev me (nth i f 0) (gsum norm (nth i lays []) (C t) (E t)))))).
  { intros t. rewrite objective_sumn by (unfold values; rewrite ?map_length; auto).
    apply sumn_ext. intros i Hi. now rewrite nth_values by lia. }
  apply (is_derive_sumn (length W) (fun i t => nth i W 0 *
     (nth i w 0 * dev me (nth i f 0) (gsum norm (nth i lays []) (C t) (E t))))).
  intros i Hi. destruct (H i Hi) as [H1 H2].
  apply (is_derive_scal (fun t : R => nth i w 0 * dev me (nth i f 0) (gsum norm (nth i lays []) (C t) (E t))) x (nth i W 0)).
  replace (nth i w 0 * q i * dG i) with (nth i w 0 * (dG i * q i)) by ring.
  apply (is_derive_scal (fun t : R => dev me (nth i f 0) (gsum norm (nth i lays []) (C t) (E t))) x (nth i w 0)).
  apply (is_derive_comp (dev me (nth i f 0)) (fun t : R => gsum norm (nth i lays []) (C t) (E t))); auto.
Qed.

(** Value of evaluate_model in the three modes. *)
Definition cut (a : sargs) norm (c e : list R) (lay : list (bool * R)) : list R :=
  match a with
  | SFixCoeffs _ => ecol norm lay c e
  | SFixExpons _ => bcol norm lay e
  | _ => bcol norm lay e ++ ecol norm lay c e
  end.

Lemma cut_length a norm c e lay x nb : mode a x c e -> length lay = nb -> length c = nb -> length e = nb ->
  length (cut a norm c e lay) = length x.
Proof.
  intros Hm Hl Hc He. destruct Hm; cbn [cut]; rewrite ?app_length, ?bcol_length, ?ecol_length; lia.
Qed.

Lemma emodel_fin s m norm lays nb a x c e :
  ft_model (sc_fit s) = m -> vfacts m norm lays nb -> mode a x c e ->
  length c = nb -> length e = nb -> (norm = true -> positive e) ->
  evaluate_model s (map Fin x) a =
  Ok (map Fin (values norm lays c e), map (fun lay => map Fin (cut a norm c e lay)) lays).
Proof.
  intros Em Hv Hm Hc He Hpe. unfold evaluate_model. rewrite Em, (vf_nb _ _ _ _ Hv). cbv zeta.
  assert (LB : forall lay, In lay lays -> length (bcol norm lay e) = nb /\ length (ecol norm lay c e) = nb).
  { intros lay Hi. pose proof (vf_len _ _ _ _ Hv lay Hi). rewrite bcol_length, ecol_length; lia. }
  destruct Hm; cbn [cut].
  - rewrite py_slice_to, py_slice_from, map_app.
    rewrite firstn_app, skipn_app, map_length, Hc, Nat.sub_diag.
    rewrite firstn_all2, skipn_all2 by (rewrite map_length; lia). cbn [firstn skipn app]. rewrite app_nil_r.
    rewrite (vf_eval _ _ _ _ Hv) by auto. cbn [bind snd fst]. do 2 f_equal. rewrite map_map. apply map_ext_in.
    intros lay Hi. destruct (LB lay Hi).
    replace 0%Z with (Z.of_nat 0) by auto. replace (2 * Z.of_nat nb)%Z with (Z.of_nat (2 * nb)) by lia.
    rewrite py_slice_mid by (rewrite ?map_length, ?app_length; lia). cbn [skipn].
    apply firstn_all2. rewrite map_length, app_length. lia.
  - rewrite (vf_eval _ _ _ _ Hv) by auto. cbn [bind snd fst]. do 2 f_equal. rewrite map_map. apply map_ext_in.
    intros lay Hi. destruct (LB lay Hi).
    replace 0%Z with (Z.of_nat 0) by auto.
    rewrite py_slice_mid by (rewrite ?map_length, ?app_length; lia). cbn [skipn].
    rewrite map_app, firstn_app, map_length. replace (nb - 0 - length (bcol norm lay e))%nat with 0%nat by lia.
    rewrite firstn_all2 by (rewrite map_length; lia). cbn [firstn]. apply app_nil_r.
  - rewrite (vf_eval _ _ _ _ Hv) by auto. cbn [bind snd fst]. do 2 f_equal. rewrite map_map. apply map_ext_in.
    intros lay Hi. destruct (LB lay Hi).
    replace (2 * Z.of_nat nb)%Z with (Z.of_nat (2 * nb)) by lia.
    rewrite py_slice_mid by (rewrite ?map_length, ?app_length; lia).
    rewrite map_app, skipn_app, map_length. replace (nb - length (bcol norm lay e))%nat with 0%nat by lia.
    rewrite skipn_all2 by (rewrite map_length; lia). cbn [skipn app].
    apply firstn_all2. rewrite map_length. lia.
Qed.

Lemma func_fin s me W w f norm lays N a x c e :
  scipy_setting s me W w f norm lays N -> mode a x c e -> sized lays c e -> (norm = true -> positive e) ->
  all_smooth me f (values norm lays c e) ->
  exists q, length q = length f /\
    (forall i, (i < length f)%nat ->
       is_derive (fun t : R => dev me (nth i f 0) t) (nth i (values norm lays c e) 0) (nth i q 0)) /\
    scipy_func s (map Fin x) a =
      Ok (Fin (objective me W w f (values norm lays c e)),
          map Fin (map (fun j => sumn (length W) (fun i =>
            nth i W 0 * (nth i w 0 * nth i q 0 * nth j (cut a norm c e (nth i lays [])) 0))) (seq 0 (length x)))).
Proof.
  intros Hs Hm [Hc He] Hpe Hsm. destruct (scipy_facts _ _ _ _ _ _ _ _ Hs) as (m & mask & Hft & Hme & Hv & Hne & Hw & _).
  pose proof (ss_lenf _ _ _ _ _ _ _ _ Hs) as Hf. pose proof (ss_lenw _ _ _ _ _ _ _ _ Hs) as Hlw.
  pose proof (ss_lenl _ _ _ _ _ _ _ _ Hs) as Hl.
  assert (HL : length (values norm lays c e) = length W) by (unfold values; rewrite map_length; auto).
  destruct (smooth_value me f (values norm lays c e) ltac:(lia) Hsm) as (q & Eq & Lq & Dq).
  exists q. split; auto. split; auto.
  unfold scipy_func. rewrite (emodel_fin s m norm lays (nfun lays) a x c e (fo_model _ _ _ _ _ Hft) Hv Hm Hc He Hpe).
  cbn [bind]. rewrite Hme, (fo_dens _ _ _ _ _ Hft), Eq. cbn [bind snd fst]. rewrite Hw.
  rewrite emul_fin by (rewrite map2_length; lia). cbn [bind].
  rewrite (fo_int _ _ _ _ _ Hft) by (rewrite !map2_length; lia). cbn [bind].
  rewrite emul_fin by lia. cbn [bind]. rewrite map_length.
  assert (LC : forall lay, In lay lays -> length (cut a norm c e lay) = length x).
  { intros lay Hi. apply (cut_length a norm c e lay x (nfun lays)); auto. apply (vf_len _ _ _ _ Hv); auto. }
  rewrite (mapM_ok _ (fun j => Fin (sumn (length W) (fun i =>
            nth i W 0 * (nth i w 0 * nth i q 0 * nth j (cut a norm c e (nth i lays [])) 0))))).
  - cbn [bind]. rewrite map_map. reflexivity.
  - intros j Hj. apply in_seq in Hj.
    replace (forallb _ _) with true.
    2:{ symmetry. apply forallb_forall. intros r Hr. apply in_map_iff in Hr. destruct Hr as (lay & <- & Hi).
        rewrite map_length, LC by auto. apply Nat.ltb_lt. lia. }
    rewrite (column_fin _ lays j (length x)) by (auto; lia).
    rewrite emul_fin by (rewrite map2_length, map_length; lia). cbn [bind].
    rewrite (fo_int _ _ _ _ _ Hft) by (rewrite !map2_length, map_length; lia).
    do 2 f_equal. rewrite rdot_sumn by (rewrite !map2_length, map_length; lia). apply sumn_ext. intros i Hi.
    rewrite (nth_map2 Rmult _ _ i 0 0 0) by (rewrite ?map2_length, ?map_length; lia).
    rewrite (nth_map2 Rmult w q i 0 0 0) by lia.
    rewrite (nth_indep (map _ lays) 0 ((fun lay => nth j (cut a norm c e lay) 0) [])) by (rewrite map_length; lia).
    now rewrite (map_nth (fun lay => nth j (cut a norm c e lay) 0)).
Qed.

(** ** C49 *)
Lemma upd_app_l {A} (c e : list A) k t : (k < length c)%nat -> upd (c ++ e) k t = upd c k t ++ e.
Proof. revert k; induction c as [|y c IH]; intros [|k] H; simpl in *; try lia; f_equal; auto. apply IH. lia. Qed.
Lemma upd_app_r {A} (c e : list A) k t : (length c <= k)%nat -> upd (c ++ e) k t = c ++ upd e (k - length c) t.
Proof.
  revert k; induction c as [|y c IH]; intros [|k] H; simpl in *; try lia; auto. f_equal. apply IH. lia.
Qed.

(** Near a smooth point moving one parameter keeps the point smooth. *)
Lemma smooth_near me (W f : list R) norm lays (C E : R -> list R) (x : R) (dG : nat -> R) :
  length f = length W -> length lays = length W ->
  (forall i, (i < length W)%nat -> is_derive (fun t : R => gsum norm (nth i lays []) (C t) (E t)) x (dG i)) ->
  all_smooth me f (values norm lays (C x) (E x)) ->
  locally x (fun t : R => all_smooth me f (values norm lays (C t) (E t))).
Proof.
  intros Hf Hl Hd Hs. unfold all_smooth. apply locally_all. intros i Hi.
  pose proof (Hs i Hi) as H. rewrite nth_values in H by lia.
  apply (filter_imp (fun t : R => smooth_at me (nth i f 0) (gsum norm (nth i lays []) (C t) (E t)))).
  - intros t Ht. rewrite nth_values by lia. exact Ht.
  - assert (Hcont : continuous (fun t : R => gsum norm (nth i lays []) (C t) (E t)) x).
    { apply (ex_derive_continuous (V := R_NormedModule)). exists (dG i). apply Hd. lia. }
    apply Hcont. apply smooth_open. exact H.
Qed.

Lemma positive_near (e : list R) k : (k < length e)%nat -> positive e ->
  locally (nth k e 0) (fun t : R => positive (upd e k t)).
Proof.
  intros Hk Hp. assert (H0 : 0 < nth k e 0) by (apply positive_nth; auto).
  apply (filter_imp (fun t : R => 0 < t)).
  - intros t Ht. revert k Hk H0. induction Hp as [|y e Hy Hp IH]; intros [|k] Hk H0; simpl in *; try lia.
    + constructor; auto.
    + constructor; auto. apply IH; auto. lia.
  - apply (locally_interval _ (nth k e 0) (Finite 0) p_infty); cbn; auto.
Qed.

(** One moved parameter: [C t], [E t] with [mode a (X t) (C t) (E t)]. *)
Lemma gradient_curve s me W w f norm lays N a (X C E : R -> list R) (x0 : R) (j : nat) :
  scipy_setting s me W w f norm lays N ->
  (forall t, mode a (X t) (C t) (E t) /\ sized lays (C t) (E t)) ->
  locally x0 (fun t => norm = true -> positive (E t)) ->
  (forall i, (i < length W)%nat -> is_derive (fun t : R => gsum norm (nth i lays []) (C t) (E t)) x0
     (nth j (cut a norm (C x0) (E x0) (nth i lays [])) 0)) ->
  all_smooth me f (values norm lays (C x0) (E x0)) ->
  (j < length (X x0))%nat ->
  locally x0 (fun t => exists d', scipy_func s (map Fin (X t)) a =
      Ok (Fin (objective me W w f (values norm lays (C t) (E t))), d')) /\
  exists d, scipy_func s (map Fin (X x0)) a =
      Ok (Fin (objective me W w f (values norm lays (C x0) (E x0))), map Fin d) /\
    length d = length (X x0) /\
    is_derive (fun t : R => objective me W w f (values norm lays (C t) (E t))) x0 (nth j d 0).
Proof.
  intros Hs HX Hp Hd Hsm Hj.
  pose proof (ss_lenf _ _ _ _ _ _ _ _ Hs) as Hf. pose proof (ss_lenw _ _ _ _ _ _ _ _ Hs) as Hlw.
  pose proof (ss_lenl _ _ _ _ _ _ _ _ Hs) as Hl.
  split.
  - apply (filter_imp (fun t => (norm = true -> positive (E t)) /\ all_smooth me f (values norm lays (C t) (E t)))).
    + intros t [H1 H2]. destruct (HX t) as [Hm Hz].
      destruct (func_fin s me W w f norm lays N a (X t) (C t) (E t) Hs Hm Hz H1 H2) as (q & _ & _ & ->). eauto.
    + apply filter_and; auto.
      apply (smooth_near me W f norm lays C E x0 (fun i => nth j (cut a norm (C x0) (E x0) (nth i lays [])) 0)); auto.
  - destruct (HX x0) as [Hm Hz].
    destruct (func_fin s me W w f norm lays N a (X x0) (C x0) (E x0) Hs Hm Hz (locally_singleton _ _ Hp) Hsm)
      as (q & Lq & Dq & HE).
    eexists. split; [exact HE|]. split; [now rewrite map_length, seq_length|].
    rewrite (nth_indep _ 0 ((fun j0 => sumn (length W) (fun i => nth i W 0 * (nth i w 0 * nth i q 0 * nth j0 (cut a norm (C x0) (E x0) (nth i lays [])) 0))) 0%nat))
      by (rewrite map_length, seq_length; auto).
    rewrite (map_nth (fun j0 => sumn (length W) (fun i => nth i W 0 * (nth i w 0 * nth i q 0 * nth j0 (cut a norm (C x0) (E x0) (nth i lays [])) 0)))).
    rewrite seq_nth by auto. cbn [plus].
    apply (objective_derive me W w f norm lays C E x0 (fun i => nth j (cut a norm (C x0) (E x0) (nth i lays [])) 0)
      (fun i => nth i q 0)); auto.
    intros i Hi. split; [auto|]. specialize (Dq i ltac:(lia)). rewrite nth_values in Dq by lia. exact Dq.
Qed.

Lemma func_gradient s me W w f norm lays N a x c e :
  scipy_setting s me W w f norm lays N -> mode a x c e -> sized lays c e -> (norm = true -> positive e) ->
  all_smooth me f (values norm lays c e) ->
  exists obj d, scipy_func s (map Fin x) a = Ok (Fin obj, map Fin d) /\ length d = length x /\
    obj = quad W (map2 Rmult w (map2 (dev me) f (values norm lays c e))) /\
    forall k, (k < length x)%nat -> exists O : R -> R,
      locally (nth k x 0) (fun t => exists d', scipy_func s (map Fin (upd x k t)) a = Ok (Fin (O t), d')) /\
      is_derive O (nth k x 0) (nth k d 0).
Proof.
  intros Hs Hm Hz Hpe Hsm.
  destruct (func_fin s me W w f norm lays N a x c e Hs Hm Hz Hpe Hsm) as (q & Lq & Dq & HF).
  eexists _, _. split; [exact HF|]. split; [now rewrite map_length, seq_length|]. split; [reflexivity|].
  destruct (scipy_facts _ _ _ _ _ _ _ _ Hs) as (m & mask & Hft & Hme & Hv & Hne & _).
  pose proof (ss_lenl _ _ _ _ _ _ _ _ Hs) as Hl.
  assert (Hll : forall i, (i < length W)%nat -> length (nth i lays []) = nfun lays).
  { intros i Hi. eapply vf_len; eauto. apply nth_In. lia. }
  destruct Hz as [Hc He]. intros k Hk.
  set (D := map _ (seq 0 (length x))) in *.
  (* moving a coefficient or an exponent *)
  assert (MC : forall kc (X : R -> list R), (kc < nfun lays)%nat ->
    (forall t, mode a (X t) (upd c kc t) e) -> X (nth kc c 0) = x -> (k < length x)%nat ->
    (forall i, (i < length W)%nat -> nth k (cut a norm c e (nth i lays [])) 0 = nth kc (bcol norm (nth i lays []) e) 0) ->
    exists O : R -> R,
      locally (nth kc c 0) (fun t => exists d', scipy_func s (map Fin (X t)) a = Ok (Fin (O t), d')) /\
      is_derive O (nth kc c 0) (nth k D 0)).
  { intros kc X Hkc HX E0 _ Hcut. exists (fun t => objective me W w f (values norm lays (upd c kc t) e)).
    assert (U : upd c kc (nth kc c 0) = c) by (apply upd_same; lia).
    destruct (gradient_curve s me W w f norm lays N a X (fun t => upd c kc t) (fun _ => e) (nth kc c 0) k Hs) as [A (d & B & Ld & Dd)].
    - intros t. split; auto. split; rewrite ?upd_length; auto.
    - apply filter_forall. auto.
    - intros i Hi. cbv beta. rewrite U, Hcut by auto. apply is_derive_gsum_c; rewrite ?Hll; auto; lia.
    - cbv beta. rewrite U. exact Hsm.
    - rewrite E0. auto.
    - split; auto. rewrite E0 in B. rewrite HF in B. injection B as _ B. apply map_Fin_inj in B. rewrite B. exact Dd. }
  assert (ME : forall ke (X : R -> list R), (ke < nfun lays)%nat ->
    (forall t, mode a (X t) c (upd e ke t)) -> X (nth ke e 0) = x -> (k < length x)%nat ->
    (forall i, (i < length W)%nat -> nth k (cut a norm c e (nth i lays [])) 0 = nth ke (ecol norm (nth i lays []) c e) 0) ->
    exists O : R -> R,
      locally (nth ke e 0) (fun t => exists d', scipy_func s (map Fin (X t)) a = Ok (Fin (O t), d')) /\
      is_derive O (nth ke e 0) (nth k D 0)).
  { intros ke X Hke HX E0 _ Hcut. exists (fun t => objective me W w f (values norm lays c (upd e ke t))).
    assert (U : upd e ke (nth ke e 0) = e) by (apply upd_same; lia).
    destruct (gradient_curve s me W w f norm lays N a X (fun _ => c) (fun t => upd e ke t) (nth ke e 0) k Hs) as [A (d & B & Ld & Dd)].
    - intros t. split; auto. split; rewrite ?upd_length; auto.
    - destruct norm; [|apply filter_forall; discriminate].
      apply (filter_imp (fun t => positive (upd e ke t))); [auto|]. apply positive_near; auto. lia.
    - intros i Hi. cbv beta. rewrite U, Hcut by auto. apply is_derive_gsum_e; rewrite ?Hll; auto; try lia.
      intros En. apply positive_nth; auto. lia.
    - cbv beta. rewrite U. exact Hsm.
    - rewrite E0. auto.
    - split; auto. rewrite E0 in B. rewrite HF in B. injection B as _ B. apply map_Fin_inj in B. rewrite B. exact Dd. }
  destruct Hm as [c e|c e|c e].
  - rewrite app_length in Hk. destruct (Nat.lt_ge_cases k (length c)) as [H1|H1].
    + rewrite app_nth1 by auto.
      destruct (MC k (fun t => upd (c ++ e) k t)) as (O & A & B); try lia.
      * intros t. rewrite upd_app_l by auto. constructor.
      * rewrite upd_app_l, upd_same by auto. reflexivity.
      * rewrite app_length. lia.
      * intros i Hi. cbn [cut]. rewrite app_nth1; auto. rewrite bcol_length; rewrite ?Hll; auto; lia.
      * exists O. auto.
    + rewrite app_nth2 by auto.
      destruct (ME (k - length c)%nat (fun t => upd (c ++ e) k t)) as (O & A & B); try lia.
      * intros t. rewrite upd_app_r by auto. constructor.
      * rewrite upd_app_r, upd_same by (auto; lia). reflexivity.
      * rewrite app_length. lia.
      * intros i Hi. cbn [cut]. rewrite app_nth2; rewrite bcol_length; rewrite ?Hll; auto; try lia. do 2 f_equal. lia.
      * exists O. auto.
  - apply (MC k (fun t => upd c k t)); auto; try lia; try (intros; constructor). apply upd_same. auto.
  - apply (ME k (fun t => upd e k t)); auto; try lia; try (intros; constructor). apply upd_same. auto.
Qed.
