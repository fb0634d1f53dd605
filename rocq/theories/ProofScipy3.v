(** ScipyFit: constraint, run and constructor (C50-C52). *)
From Coq Require Import String.
From Coq Require Import Reals List ZArith Lia Lra Bool.
From Verif Require Import XR PyStr SpecDens SpecMeas SpecGrid ModelDens ModelMeas ModelGrid ModelFit Lists ProofDens
  ProofMeas ProofGrid ProofCubic SpecFit ProofFitView ProofFit ProofScipy ProofScipy2.
Import ListNotations.
Local Open Scope R_scope.

(** ** C50 *)
Lemma const_value s me W w f norm lays N a x c e :
  scipy_setting s me W w f norm lays N -> mode a x c e -> sized lays c e -> (norm = true -> positive e) ->
  const_norm s (map Fin x) a = Ok (Fin (N - quad W (values norm lays c e))).
Proof.
  intros Hs Hm [Hc He] Hpe. destruct (scipy_facts _ _ _ _ _ _ _ _ Hs) as (m & mask & Hft & Hme & Hv & Hne & Hw & HN).
  pose proof (ss_lenl _ _ _ _ _ _ _ _ Hs) as Hl.
  unfold const_norm. rewrite (emodel_fin s m norm lays (nfun lays) a x c e (fo_model _ _ _ _ _ Hft) Hv Hm Hc He Hpe).
  cbn [bind fst]. rewrite (fo_int _ _ _ _ _ Hft) by (unfold values; rewrite map_length; auto).
  cbn [bind]. rewrite HN. reflexivity.
Qed.

Lemma problem_ok s c0 e0 oc oe maxiter tol wc pb :
  scipy_problem s c0 e0 oc oe maxiter tol wc = Ok pb ->
  oc || oe = true /\ pb_x0 pb = start_of oc oe c0 e0 /\
  (forall x, pb_fun pb x = scipy_func s x (args_of oc oe c0 e0)) /\
  pb_maxiter pb = maxiter /\ pb_tol pb = tol /\
  pb_lower pb = repeat (1 / 10 ^ 12)
    ((if oc && oe then 2 else 1) * Z.to_nat (g_nbasis (ft_model (sc_fit s))))%nat /\
  pb_cons pb = (if wc then [fun x => const_norm s x (if sc_slsqp s then args_of oc oe c0 e0 else SBoth)] else []).
Proof.
  unfold scipy_problem, args_of, start_of. destruct oc, oe; cbn [andb orb]; intros H; try discriminate;
    injection H as <-; cbn [pb_x0 pb_fun pb_maxiter pb_tol pb_lower pb_cons]; repeat split; auto;
    f_equal; lia.
Qed.

Lemma problem_fails s c0 e0 maxiter tol wc :
  scipy_problem s c0 e0 false false maxiter tol wc = Raise ValueError.
Proof. reflexivity. Qed.

(** With "slsqp", or when everything is optimized, the constraint is the documented one. *)
Lemma constraint_ok s me W w f norm lays N c0 e0 oc oe maxiter tol pb x c e :
  scipy_setting s me W w f norm lays N ->
  scipy_problem s (map Fin c0) (map Fin e0) oc oe maxiter tol true = Ok pb ->
  sc_slsqp s = true \/ oc && oe = true ->
  mode (args_of oc oe (map Fin c0) (map Fin e0)) x c e -> sized lays c e -> (norm = true -> positive e) ->
  exists g, pb_cons pb = [g] /\ g (map Fin x) = Ok (Fin (N - quad W (values norm lays c e))).
Proof.
  intros Hs Hp Hor Hm Hz Hpe. destruct (problem_ok _ _ _ _ _ _ _ _ _ Hp) as (_ & _ & _ & _ & _ & _ & ->).
  eexists. split; [reflexivity|]. cbv beta.
  replace (if sc_slsqp s then args_of oc oe (map Fin c0) (map Fin e0) else SBoth)
    with (args_of oc oe (map Fin c0) (map Fin e0)).
  - eapply const_value; eauto.
  - destruct (sc_slsqp s); auto. destruct Hor as [|Ho]; [discriminate|]. unfold args_of. now rewrite Ho.
Qed.

(** With "trust-constr" and one kind of parameters fixed the constraint function raises
    ValueError wherever it is called with a vector of the right size. *)
Lemma trust_raises s me W w f norm lays N c0 e0 oc oe maxiter tol pb x :
  scipy_setting s me W w f norm lays N -> sc_slsqp s = false -> oc && oe = false ->
  scipy_problem s c0 e0 oc oe maxiter tol true = Ok pb -> length x = nfun lays ->
  exists g, pb_cons pb = [g] /\ g x = Raise ValueError.
Proof.
  intros Hs Hsl Ho Hp Hx. destruct (problem_ok _ _ _ _ _ _ _ _ _ Hp) as (_ & _ & _ & _ & _ & _ & ->).
  eexists. split; [reflexivity|]. cbv beta. rewrite Hsl.
  destruct (scipy_facts _ _ _ _ _ _ _ _ Hs) as (m & mask & Hft & Hme & Hv & Hne & Hw & HN).
  unfold const_norm, evaluate_model. rewrite (fo_model _ _ _ _ _ Hft), (vf_nb _ _ _ _ Hv).
  cbv zeta. rewrite py_slice_to, py_slice_from, firstn_all2, skipn_all2 by lia.
  pose proof (vf_pos _ _ _ _ Hv) as Hp0.
  assert (E : g_evaluate m (A1 x) (A1 []) true = Raise ValueError).
  { pose proof (vf_nb _ _ _ _ Hv) as Hnb. destruct m as [a|mm]; cbn [g_evaluate g_nbasis] in *.
    - unfold atomic_evaluate. destruct (Nat.eqb_spec (length x) (length (@nil xr))) as [E|E]; [cbn in E; lia|reflexivity].
    - unfold mol_evaluate. cbv zeta. destruct (Z.eqb_spec (Z.of_nat (length (@nil xr))) (m_nbasis mm)) as [E|E].
      + rewrite Hnb in E. cbn in E. lia.
      + now rewrite orb_true_r. }
  now rewrite E.
Qed.

(** So no optimizer that evaluates the constraints at the start can return. *)
Lemma trust_never s me W w f norm lays N c0 e0 oc oe maxiter tol minimize :
  scipy_setting s me W w f norm lays N -> sc_slsqp s = false -> xorb oc oe = true ->
  length c0 = nfun lays -> length e0 = nfun lays ->
  (forall pb g y, In g (pb_cons pb) -> g (pb_x0 pb) = Raise y -> exists z, minimize pb = Raise z) ->
  exists z, scipy_run minimize s c0 e0 oc oe maxiter tol true = Raise z.
Proof.
  intros Hs Hsl Hx Hc He Hmin. unfold scipy_run.
  destruct (scipy_problem s c0 e0 oc oe maxiter tol true) as [pb|z] eqn:Ep; [|exists z; reflexivity].
  cbn [bind]. destruct (problem_ok _ _ _ _ _ _ _ _ _ Ep) as (_ & Ex & _).
  destruct (trust_raises s me W w f norm lays N c0 e0 oc oe maxiter tol pb (pb_x0 pb) Hs Hsl) as (g & Eg & Er); auto.
  - destruct oc, oe; auto; discriminate.
  - rewrite Ex. unfold start_of. destruct oc, oe; try discriminate; auto.
  - destruct (Hmin pb g ValueError) as [z ->]; auto; [rewrite Eg; now left|]. exists z. reflexivity.
Qed.

(** ** C51 *)
Lemma run_faithful minimize s c0 e0 oc oe maxiter tol wc r :
  scipy_run minimize s c0 e0 oc oe maxiter tol wc = Ok r ->
  exists pb o, scipy_problem s c0 e0 oc oe maxiter tol wc = Ok pb /\ minimize pb = Ok o /\
    q_fun r = o_fun o /\ q_success r = o_success o /\ q_msg r = o_msg o /\ q_jac r = o_jac o /\
    goodness (sc_fit s) (q_coeffs r) (q_exps r) = Ok (q_perf r) /\
    (oc = true -> oe = true -> (0 <= g_nbasis (ft_model (sc_fit s)))%Z ->
       q_coeffs r ++ q_exps r = o_x o /\
       (length (o_x o) = 2 * Z.to_nat (g_nbasis (ft_model (sc_fit s))) ->
        length (q_coeffs r) = Z.to_nat (g_nbasis (ft_model (sc_fit s))))%nat) /\
    (oc = true -> oe = false -> q_coeffs r = o_x o /\ q_exps r = e0) /\
    (oc = false -> oe = true -> q_coeffs r = c0 /\ q_exps r = o_x o).
Proof.
  unfold scipy_run. destruct (scipy_problem s c0 e0 oc oe maxiter tol wc) as [pb|] eqn:Ep; [|discriminate].
  cbn [bind]. destruct (minimize pb) as [o|] eqn:Eo; [|discriminate]. cbn [bind].
  destruct (goodness (sc_fit s) _ _) as [g|] eqn:Eg; [|discriminate]. cbn [bind]. intros H. injection H as <-.
  exists pb, o. cbn [q_fun q_success q_msg q_jac q_coeffs q_exps q_perf].
  split; auto. split; auto. split; auto. split; auto. split; auto. split; auto. split; auto.
  split; [|split].
  - intros -> -> Hn. cbn [andb].
    rewrite <- (Z2Nat.id (g_nbasis (ft_model (sc_fit s)))) by auto.
    rewrite py_slice_to, py_slice_from. split; [apply firstn_skipn|].
    rewrite Nat2Z.id. intros HL. rewrite firstn_length. lia.
  - intros -> ->. auto.
  - intros -> ->. auto.
Qed.

(** Bounds respected by the optimizer bound the returned parameters; fixed ones are returned. *)
Lemma run_bounds minimize s c0 e0 oc oe maxiter tol wc r pb o :
  scipy_run minimize s c0 e0 oc oe maxiter tol wc = Ok r ->
  scipy_problem s c0 e0 oc oe maxiter tol wc = Ok pb -> minimize pb = Ok o ->
  Forall2 (fun b x => xleb (Fin b) x = true) (pb_lower pb) (o_x o) ->
  (oc = true -> Forall (fun x => xleb (Fin (1 / 10 ^ 12)) x = true) (q_coeffs r)) /\
  (oe = true -> Forall (fun x => xleb (Fin (1 / 10 ^ 12)) x = true) (q_exps r)).
Proof.
  intros Hr Hp Ho HF. destruct (problem_ok _ _ _ _ _ _ _ _ _ Hp) as (Hu & _ & _ & _ & _ & El & _).
  assert (HA : Forall (fun x => xleb (Fin (1 / 10 ^ 12)) x = true) (o_x o)).
  { rewrite El in HF. clear -HF. revert HF. generalize (o_x o).
    induction (_ * _)%nat as [|n IH]; intros l H; cbn [repeat] in H; inversion H; subst; constructor; auto. }
  assert (SL : forall a b, Forall (fun x => xleb (Fin (1 / 10 ^ 12)) x = true) (py_slice a b (o_x o))).
  { intros a b. rewrite Forall_forall in HA. apply Forall_forall. intros x Hx. apply HA. unfold py_slice in Hx.
    cbv zeta in Hx. match type of Hx with In _ (firstn ?u (skipn ?v _)) => set (n2 := u) in *; set (n1 := v) in * end.
    rewrite <- (firstn_skipn n1 (o_x o)). apply in_or_app. right.
    rewrite <- (firstn_skipn n2 (skipn n1 (o_x o))). apply in_or_app. left. exact Hx. }
  unfold scipy_run in Hr. rewrite Hp in Hr. cbn [bind] in Hr. rewrite Ho in Hr. cbn [bind] in Hr.
  destruct (goodness (sc_fit s) _ _) as [g|]; [|discriminate]. cbn [bind] in Hr. injection Hr as <-.
  cbn [q_coeffs q_exps]. destruct oc, oe; cbn [andb] in *; split; intros; try discriminate; auto.
Qed.

(** The documented default [measure=KLDivergence] is a class and always rejected. *)
Lemma default_measure_fails ga density model method weights n0 sph mask s :
  scipy_init ga density model MClass method weights n0 sph mask <> Ok s.
Proof.
  intros H. destruct (scipy_init_inv _ _ _ _ _ _ _ _ _ _ H) as (? & ? & ? & _ & _ & _ & _ & E & _). discriminate.
Qed.

(** ** C52 for ScipyFit *)
Lemma scipy_accepts ga density model me method weights n0 sph mask :
  (exists s, scipy_init ga density model me method weights n0 sph mask = Ok s) <->
  exists pts m ft, ga_points ga = Some pts /\ points_differ pts (g_points model) = Ok false /\
    nlen pts = length density /\
    (lower method = "slsqp"%string \/ lower method = "trust-constr"%string) /\
    me = MInst m /\ base_init ga density model m n0 sph mask = Ok ft.
Proof.
  split.
  - intros [s H]. destruct (scipy_init_inv _ _ _ _ _ _ _ _ _ _ H) as (pts & m & ft & A & B & C & D & E & F & _).
    exists pts, m, ft. auto 10.
  - intros (pts & m & ft & A & B & C & D & -> & F). unfold scipy_init. rewrite A, B. cbn [bind].
    rewrite C, Nat.eqb_refl. cbn [negb].
    assert (S : str_in (lower method) ["slsqp"; "trust-constr"]%string = true).
    { unfold str_in. destruct D as [-> | ->]; reflexivity. }
    rewrite S. cbn [negb]. rewrite F. cbn [bind]. eauto.
Qed.

(** Which error the first failed check raises. *)
Lemma scipy_raises ga density model me method weights n0 sph mask :
  (ga_points ga = None -> scipy_init ga density model me method weights n0 sph mask = Raise AttributeError) /\
  (forall pts, ga_points ga = Some pts ->
    (points_differ pts (g_points model) = Ok true ->
       scipy_init ga density model me method weights n0 sph mask = Raise ValueError) /\
    (points_differ pts (g_points model) = Ok false ->
      (nlen pts <> length density ->
         scipy_init ga density model me method weights n0 sph mask = Raise ValueError) /\
      (nlen pts = length density ->
        (lower method <> "slsqp"%string -> lower method <> "trust-constr"%string ->
           scipy_init ga density model me method weights n0 sph mask = Raise ValueError) /\
        (lower method = "slsqp"%string \/ lower method = "trust-constr"%string ->
           (me = MClass \/ me = MNot ->
              scipy_init ga density model me method weights n0 sph mask = Raise TypeError) /\
           (forall m x, me = MInst m -> base_init ga density model m n0 sph mask = Raise x ->
              scipy_init ga density model me method weights n0 sph mask = Raise x))))).
Proof.
  split; [intros H; unfold scipy_init; now rewrite H|]. intros pts Hp. unfold scipy_init. rewrite Hp.
  split; [intros ->; reflexivity|]. intros ->. cbn [bind].
  split; [intros H; destruct (Nat.eqb_spec (nlen pts) (length density)); [congruence|reflexivity]|].
  intros ->. rewrite Nat.eqb_refl. cbn [negb]. split.
  - intros H1 H2. unfold str_in. cbn [existsb].
    destruct (String.eqb_spec (lower method) "slsqp"); [congruence|].
    destruct (String.eqb_spec (lower method) "trust-constr"); [congruence|]. reflexivity.
  - intros D. assert (S : str_in (lower method) ["slsqp"; "trust-constr"]%string = true).
    { unfold str_in. destruct D as [-> | ->]; reflexivity. }
    rewrite S. cbn [negb]. split; [intros [-> | ->]; reflexivity|]. intros m x -> ->. reflexivity.
Qed.

(** Different points are told apart: [points_differ] is false exactly for points that agree to
    1e-12 in every coordinate. *)
Lemma points_same_1d u v : length u = length v ->
  (points_differ (A1 (map Fin u)) (A1 (map Fin v)) = Ok false <->
   forall i, (i < length u)%nat -> Rabs (nth i u 0 - nth i v 0) <= 1 / 10 ^ 12).
Proof.
  intros Hl. unfold points_differ. cbn [as_rows length]. rewrite !map_length, Hl, !fits_refl. cbn [andb].
  rewrite (stretch_same _ [map Fin u] [map Fin v]) by reflexivity. cbn [map2 existsb]. rewrite orb_false_r.
  rewrite stretch_same by now rewrite !map_length.
  assert (E : existsb (fun b => b) (map2 far (map Fin u) (map Fin v)) = false <->
     forall i, (i < length u)%nat -> Rabs (nth i u 0 - nth i v 0) <= 1 / 10 ^ 12).
  { revert v Hl. induction u as [|x u IH]; intros [|y v] Hl; try discriminate.
    - cbn. split; auto. intros; lia.
    - cbn [map map2 existsb length]. rewrite orb_false_iff, IH by (cbn in Hl; lia).
      cbn [far xsub xneg xadd xabs xltb]. split.
      + intros [A B] [|i] Hi; cbn [nth]; [|apply B; lia].
        unfold far in A. cbn [xsub xneg xadd xabs xltb] in A. unfold rltb in A.
        destruct (Rlt_dec _ _) as [|n]; [discriminate|]. apply Rnot_lt_le in n. exact n.
      + intros H. split; [|intros i Hi; apply (H (S i)); lia].
        unfold far. cbn [xsub xneg xadd xabs xltb]. apply rltb_false. apply Rle_not_lt.
        specialize (H 0%nat ltac:(lia)). cbn [nth] in H. exact H. }
  rewrite <- Hl. rewrite <- E. split; [intros H; injection H as H; exact H|intros ->; reflexivity].
Qed.

(** ** Grids of the package as integrators *)
Lemma radial_integrator x : exists W, length W = length x /\ (ascending x -> nonneg W) /\
  forall g, g = radial_grid (map Fin x) ->
    integrator (mkGridArg (Some (gr_points g)) (Some (gr_integrate g))) false W /\
    integrator (mkGridArg (Some (gr_points g)) (Some (gr_integrate g))) true
               (map2 (fun w r => w * (4 * PI * r ^ 2)) W x).
Proof.
  destruct (trap_quadrature x) as (W & HL & Hn & HW). exists W. split; auto. split; auto.
  intros g ->. cbn [gr_points gr_integrate radial_grid].
  assert (E : forall y, length y = length W -> radial_integrate (map Fin x) (A1 (map Fin y)) = Ok (Fin (rdot W y))).
  { intros y Hy. rewrite integrate_ok by congruence. rewrite HW by congruence. reflexivity. }
  split; constructor; auto.
Qed.

Lemma cubic_integrator o axes (n0 n1 n2 : nat) cg :
  cubic_init o axes (Z.of_nat n0) (Z.of_nat n1) (Z.of_nat n2) = Ok cg ->
  let g := cubic_grid cg in let W := repeat (Rabs (det3 axes)) (n0 * n1 * n2) in
  nonneg W /\ integrator (mkGridArg (Some (gr_points g)) (Some (gr_integrate g))) false W.
Proof.
  intros H g W. destruct (cubic_integral o axes n0 n1 n2 cg H) as [_ HI]. split.
  - unfold W, nonneg. apply Forall_forall. intros z Hz. apply repeat_spec in Hz. subst. apply Rabs_pos.
  - constructor. intros y Hy. unfold W in *. rewrite repeat_length in Hy. unfold g. cbn [gr_integrate cubic_grid].
    rewrite HI by auto. do 2 f_equal. clear -Hy. rewrite <- Hy. clear Hy.
    induction y as [|z y IH]; [unfold rdot, rsum; cbn; ring|].
    cbn [length repeat]. unfold rdot, rsum in *. cbn [map2 fold_right]. rewrite <- IH. ring.
Qed.
