(** Constructors and optimization routines of the two greedy classes (C86, C87). *)
From Coq Require Import String Reals List ZArith Lia Lra Bool.
From Verif Require Import XR SpecDens SpecMeas SpecFit SpecStop ModelDens ModelMeas ModelGrid ModelFit ModelGreedy SpecGreedy SpecSettings Lists
  ProofFPI2 ProofFPI5 ProofScipy3.
Import ListNotations.
Local Open Scope R_scope.

Lemma named_iff s ch : parse_choice s = Ok ch <-> named s ch.
Proof.
  unfold parse_choice, named.
  destruct (String.eqb_spec s "pick-one") as [E1|E1]; [|destruct (String.eqb_spec s "pick-two") as [E2|E2]; [|destruct (String.eqb_spec s "pick-two-lose-one") as [E3|E3]]].
  - split; [intros H; injection H as <-; auto|]. intros [[_ ->]|[[E _]|[E _]]]; auto; rewrite E1 in E; discriminate.
  - split; [intros H; injection H as <-; auto|]. intros [[E _]|[[_ ->]|[E _]]]; auto; rewrite E2 in E; discriminate.
  - split; [intros H; injection H as <-; auto|]. intros [[E _]|[[E _]|[_ ->]]]; auto; rewrite E3 in E; discriminate.
  - split; [discriminate|]. intros [[E _]|[[E _]|[E _]]]; contradiction.
Qed.
Lemma unnamed s : (forall ch, ~ named s ch) -> parse_choice s = Raise ValueError.
Proof.
  intros H. unfold parse_choice.
  destruct (String.eqb_spec s "pick-one") as [E|]; [exfalso; apply (H PickOne); unfold named; auto|].
  destruct (String.eqb_spec s "pick-two") as [E|]; [exfalso; apply (H PickTwo); unfold named; auto|].
  destruct (String.eqb_spec s "pick-two-lose-one") as [E|]; [exfalso; apply (H PickTwoLoseOne); unfold named; auto|]. reflexivity.
Qed.

(** ** GreedyKLFPI *)
Lemma kl_built ga f chs g l lm gm mask n0 sph gk ch :
  greedy_kl_init ga f chs g l lm gm mask n0 sph = Ok (gk, ch) <->
  (exists pts a, ga_points ga = Some pts /\ atomic_init (VArr pts) VNone (VInt 1) (VInt 0) true = Ok a /\
     fpi_init ga f (GAtom a) mask n0 sph = Ok (kl_fpi gk)) /\
  named chs ch /\ kl_local gk = l /\ kl_global gk = g /\ kl_lmaxiter gk = lm /\ kl_gmaxiter gk = gm.
Proof.
  unfold greedy_kl_init. split.
  - intros H. destruct (ga_points ga) as [pts|]; [|discriminate]. destruct (atomic_init _ _ _ _ _) as [a|] eqn:A; [|discriminate].
    cbn [bind] in H. destruct (fpi_init _ _ _ _ _ _) as [fp|] eqn:F; [|discriminate]. cbn [bind] in H.
    destruct (parse_choice chs) as [c|] eqn:C; [|discriminate]. cbn [bind] in H. injection H as <- <-. apply named_iff in C.
    cbn [kl_fpi kl_local kl_global kl_lmaxiter kl_gmaxiter]. split; [exists pts, a; auto|auto 10].
  - intros ((pts & a & -> & A & F) & C & <- & <- & <- & <-). rewrite A. cbn [bind]. rewrite F. cbn [bind].
    apply named_iff in C. rewrite C. cbn [bind]. destruct gk; reflexivity.
Qed.

Lemma kl_rejects ga f chs g l lm gm mask n0 sph :
  let out := greedy_kl_init ga f chs g l lm gm mask n0 sph in
  (ga_points ga = None -> out = Raise AttributeError) /\
  (forall pts, ga_points ga = Some pts ->
     (forall x, atomic_init (VArr pts) VNone (VInt 1) (VInt 0) true = Raise x -> out = Raise x) /\
     forall a, atomic_init (VArr pts) VNone (VInt 1) (VInt 0) true = Ok a ->
       (forall x, fpi_init ga f (GAtom a) mask n0 sph = Raise x -> out = Raise x) /\
       ((exists fp, fpi_init ga f (GAtom a) mask n0 sph = Ok fp) -> (forall ch, ~ named chs ch) -> out = Raise ValueError)).
Proof.
  cbv zeta. unfold greedy_kl_init. split; [intros ->; reflexivity|]. intros pts ->. split; [intros x ->; reflexivity|].
  intros a ->. cbn [bind]. split; [intros x ->; reflexivity|]. intros (fp & ->) N. cbn [bind]. now rewrite unnamed.
Qed.

Lemma kl_routine gk t k p b q : kl_opt gk t k p b = Ok q ->
  let limit := if b then kl_lmaxiter gk else kl_gmaxiter gk in
  let th := if b then kl_local gk else kl_global gk in
  let c0 := firstn (length p / 2) p in let e0 := skipn (length p / 2) p in
  exists ft n c e, at_cfg (fp_fit (kl_fpi gk)) k = Ok ft /\
    let f := mkFpi ft (fp_lm (kl_fpi gk)) in
    iterate f true true n c0 e0 = Ok (c, e) /\ q = c ++ e /\ (Z.of_nat n <= Z.max limit 0)%Z /\
    (forall j, (j < n)%nat -> exists dc de dd, moved f true true c0 e0 j dc de dd /\ unfinished th dc de dd) /\
    ((Z.of_nat n < limit)%Z -> exists dc de dd, moved f true true c0 e0 n dc de dd /\ ~ unfinished th dc de dd).
Proof.
  intros H. cbv zeta. unfold kl_opt in H. destruct (at_cfg _ _) as [ft|]; [|discriminate]. cbn [bind] in H.
  destruct (fpi_run _ _ _ _ _ _ _) as [r|] eqn:R; [|discriminate]. cbn [bind] in H. injection H as <-.
  unfold half1, half2 in R. destruct (run_consistent _ _ _ _ _ _ _ _ R) as (c & e & E1 & E2 & A & _ & B & _).
  injection E1 as <-. injection E2 as <-. destruct (run_stops _ _ _ _ _ _ _ _ R) as (C & dc & de & dd & M & U & _).
  exists ft, (length (r_fun r)), (r_coeffs r), (r_exps r). do 4 (split; [auto; fail|]). split.
  - intros j Hj. apply C. exact Hj.
  - intros Hn. exists dc, de, dd. auto.
Qed.

(** ** GreedyLeastSquares *)
Lemma ls_built ga f chs lt gt method norm n0 wc lm gm sph gl ch :
  greedy_ls_init ga f chs lt gt method norm n0 wc lm gm sph = Ok (gl, ch) <->
  (exists pts a, ga_points ga = Some pts /\ atomic_init (VArr pts) VNone (VInt 1) (VInt 0) norm = Ok a /\
     scipy_init ga f (GAtom a) (MInst MSq) method None n0 sph (Fin (1 / 10 ^ 18)) = Ok (ls_scipy gl)) /\
  named chs ch /\ ls_local_tol gl = lt /\ ls_global_tol gl = gt /\ ls_lmaxiter gl = lm /\ ls_gmaxiter gl = gm /\ ls_constraint gl = wc.
Proof.
  unfold greedy_ls_init. split.
  - intros H. destruct (ga_points ga) as [pts|]; [|discriminate]. destruct (atomic_init _ _ _ _ _) as [a|] eqn:A; [|discriminate].
    cbn [bind] in H. destruct (scipy_init _ _ _ _ _ _ _ _ _) as [fp|] eqn:F; [|discriminate]. cbn [bind] in H.
    destruct (parse_choice chs) as [c|] eqn:C; [|discriminate]. cbn [bind] in H. injection H as <- <-. apply named_iff in C.
    cbn [ls_scipy ls_local_tol ls_global_tol ls_lmaxiter ls_gmaxiter ls_constraint]. split; [exists pts, a; auto|auto 10].
  - intros ((pts & a & -> & A & F) & C & <- & <- & <- & <- & <-). rewrite A. cbn [bind]. rewrite F. cbn [bind].
    apply named_iff in C. rewrite C. cbn [bind]. destruct gl; reflexivity.
Qed.

Lemma ls_rejects ga f chs lt gt method norm n0 wc lm gm sph :
  let out := greedy_ls_init ga f chs lt gt method norm n0 wc lm gm sph in
  (ga_points ga = None -> out = Raise AttributeError) /\
  (forall pts, ga_points ga = Some pts ->
     (forall x, atomic_init (VArr pts) VNone (VInt 1) (VInt 0) norm = Raise x -> out = Raise x) /\
     forall a, atomic_init (VArr pts) VNone (VInt 1) (VInt 0) norm = Ok a ->
       (forall x, scipy_init ga f (GAtom a) (MInst MSq) method None n0 sph (Fin (1 / 10 ^ 18)) = Raise x -> out = Raise x) /\
       ((exists s, scipy_init ga f (GAtom a) (MInst MSq) method None n0 sph (Fin (1 / 10 ^ 18)) = Ok s) ->
        (forall ch, ~ named chs ch) -> out = Raise ValueError)).
Proof.
  cbv zeta. unfold greedy_ls_init. split; [intros ->; reflexivity|]. intros pts ->. split; [intros x ->; reflexivity|].
  intros a ->. cbn [bind]. split; [intros x ->; reflexivity|]. intros (fp & ->) N. cbn [bind]. now rewrite unnamed.
Qed.

Lemma at_cfg_nbasis ft k ft' : at_cfg ft k = Ok ft' -> (0 <= g_nbasis (ft_model ft'))%Z.
Proof.
  unfold at_cfg. destruct (ft_model ft); [|discriminate]. unfold change_numb. cbn.
  intros H. repeat match type of H with context [if ?b then _ else _] => destruct b; cbn [bind] in H; try discriminate end.
  injection H as <-. cbn. unfold a_nbasis. cbn. lia.
Qed.

Lemma ls_routine gl nnls minimize t k p b q : ls_opt gl nnls minimize t k p b = Ok q ->
  let e0 := skipn (length p / 2) p in
  exists rs m c0 ft pb o,
    gr_points (ft_grid (sc_fit (ls_scipy gl))) = A1 rs /\ cofactor_matrix (A1 rs) k e0 = Ok m /\
    nnls t m (ft_density (sc_fit (ls_scipy gl))) = Ok c0 /\
    at_cfg (sc_fit (ls_scipy gl)) k = Ok ft /\
    let s := mkScipy ft (sc_slsqp (ls_scipy gl)) (sc_weights (ls_scipy gl)) in
    pb_x0 pb = c0 ++ e0 /\
    (forall x, pb_fun pb x = scipy_func s x SBoth) /\
    pb_maxiter pb = (if b then ls_lmaxiter gl else ls_gmaxiter gl) /\
    pb_tol pb = (if b then ls_local_tol gl else ls_global_tol gl) /\
    pb_lower pb = repeat (1 / 10 ^ 12) (2 * Z.to_nat (g_nbasis (ft_model ft))) /\
    pb_cons pb = (if ls_constraint gl then [fun x => const_norm s x SBoth] else []) /\
    minimize t pb = Ok o /\ q = o_x o.
Proof.
  intros H. cbv zeta. unfold ls_opt in H. fold (half2 p).
  destruct (gr_points (ft_grid (sc_fit (ls_scipy gl)))) as [rs|]; [|discriminate].
  destruct (cofactor_matrix _ _ _) as [m|] eqn:M; [|discriminate]. cbn [bind] in H.
  destruct (nnls _ _ _) as [c0|] eqn:C; [|discriminate]. cbn [bind] in H.
  destruct (at_cfg _ _) as [ft|] eqn:A; [|discriminate]. cbn [bind] in H.
  destruct (scipy_run _ _ _ _ _ _ _ _ _) as [r|] eqn:R; [|discriminate]. cbn [bind] in H. injection H as <-.
  destruct (run_faithful _ _ _ _ _ _ _ _ _ _ R) as (pb & o & P & O & _ & _ & _ & _ & _ & Q & _).
  destruct (problem_ok _ _ _ _ _ _ _ _ _ P) as (_ & P1 & P2 & P3 & P4 & P5 & P6).
  exists rs, m, c0, ft, pb, o. do 4 (split; [auto; fail|]). cbn [start_of args_of andb sc_fit] in *.
  split; [exact P1|]. split; [exact P2|]. split; [exact P3|]. split; [exact P4|]. split; [exact P5|]. split.
  { rewrite P6. cbn [sc_slsqp]. destruct (sc_slsqp (ls_scipy gl)); reflexivity. }
  split; [exact O|]. apply Q; auto. eapply at_cfg_nbasis; eauto.
Qed.
