(** GreedyKLFPI: start, runs (C64, C67), and the NNLS matrix (C68). *)
From Coquelicot Require Import Coquelicot.
From Coq Require Import String Reals List ZArith Lia Lra Bool.
From Verif Require Import XR SpecDens SpecMeas SpecFit ModelDens ModelMeas ModelGrid ModelFit ModelGreedy SpecGreedy Lists
  ProofDens ProofInit ProofDeriv ProofMeas ProofSlater ProofFitView ProofFit ProofEM ProofFPI ProofFPI2 ProofFPI3 ProofGreedy1 ProofGreedy2 ProofGreedy3 ProofGreedy4.
Import ListNotations.
Local Open Scope R_scope.

Lemma fit_weights_length sph w rs : length rs = length w -> length (fit_weights sph w rs) = length w.
Proof. intros H. destruct sph; cbn [fit_weights]; auto. rewrite map2_length. lia. Qed.
Lemma nth_fit_weights sph w rs i : length rs = length w -> (i < length w)%nat ->
  nth i (fit_weights sph w rs) 0 = nth i w 0 * (if sph then 4 * PI * nth i rs 0 ^ 2 else 1).
Proof. intros H Hi. destruct sph; cbn [fit_weights]; [|ring]. rewrite (nth_map2 _ _ _ _ 0 0) by lia. reflexivity. Qed.
Lemma fit_weights_nonneg sph w rs : length rs = length w -> nonneg w -> nonneg (fit_weights sph w rs).
Proof.
  intros H Hw. apply all_nth_Forall. rewrite fit_weights_length by auto. intros i Hi. rewrite nth_fit_weights by auto.
  apply Rmult_le_pos; [now apply nonneg_nth|]. destruct sph; [|lra]. pose proof PI_RGT_0. pose proof (pow2_ge_0 (nth i rs 0)). nra.
Qed.

(** What a setting provides. *)
Definition set_model (ft : fit) (m : gmodel) : fit :=
  mkFit (ft_grid ft) (ft_density ft) m (ft_measure ft) (ft_spherical ft) (ft_integral ft) (ft_mask ft).

Record kfacts (gk : greedy_kl) (sph : bool) (w f rs : list R) (mask N : R) : Prop := {
  kf_points : gr_points (ft_grid (fp_fit (kl_fpi gk))) = A1 (map Fin rs);
  kf_plain : forall y, length y = length w -> gr_integrate (ft_grid (fp_fit (kl_fpi gk))) (map Fin y) = Ok (Fin (rdot w y));
  kf_dens : ft_density (fp_fit (kl_fpi gk)) = map Fin f;
  kf_N : ft_integral (fp_fit (kl_fpi gk)) = Fin N;
  kf_at : forall k, (0 < total k)%nat -> exists m,
    at_cfg (fp_fit (kl_fpi gk)) k = Ok (set_model (fp_fit (kl_fpi gk)) m) /\
    fpi_setting (mkFpi (set_model (fp_fit (kl_fpi gk)) m) (fp_lm (kl_fpi gk)))
      (fit_weights sph w rs) f true (lays_of k rs) mask N;
  kf_bad : forall k p, total k <> 1%nat -> length p = 2%nat ->
    good_at (fp_fit (kl_fpi gk)) k p = Raise ValueError }.

Lemma fpi_init_model ga d m m' mask n0 sph fp : fpi_init ga d m mask n0 sph = Ok fp ->
  fpi_init ga d m' mask n0 sph = Ok (mkFpi (set_model (fp_fit fp) m') (fp_lm fp)).
Proof.
  unfold fpi_init. intros H. destruct (base_init ga d m _ n0 sph mask) as [ft|] eqn:E; cbn [bind] in H; [|discriminate].
  assert (E' : base_init ga d m' (MKL mask (Fin 100000)) n0 sph mask = Ok (set_model ft m')).
  { unfold base_init in *. destruct (existsb _ d); [discriminate|]. destruct (ga_points ga); [|discriminate]. destruct (ga_integrate ga); [|discriminate].
    destruct (negb _ && sph); [discriminate|].
    destruct n0 as [x|]; cbn [bind] in *; [now inversion E|]. destruct (integrate_with _ _ _); cbn [bind] in *; [now inversion E|discriminate]. }
  rewrite E'. cbn [bind]. change (fit_integrate (set_model ft m') d) with (fit_integrate ft d).
  destruct (fit_integrate ft d) as [i|]; cbn [bind] in *; [|discriminate].
  change (ft_integral (set_model ft m')) with (ft_integral ft).
  set (q := xdiv i (ft_integral ft)) in *.
  destruct (xeqb q (Fin 0) || xisnan q); [discriminate|]. inversion H; subst. reflexivity.
Qed.

Lemma atom1_init rs norm : atomic_init (VArr (A1 (map Fin rs))) VNone (VInt 1) (VInt 0) norm =
  Ok (mkAtomic (A1 (map Fin rs)) [Fin 0] (map Fin (map Rabs rs)) 1 0 norm).
Proof.
  destruct (atomic_init_ok (A1 (map Fin rs)) VNone (map Rabs rs) 1 0 norm (geom_1d_default rs) ltac:(lia)) as (m & E & _ & Er & _).
  change (VInt (Z.of_nat 1)) with (VInt 1) in E. change (VInt (Z.of_nat 0)) with (VInt 0) in E. rewrite E.
  cbn in E. match type of E with (do r <- ?t; _) = _ => destruct t as [r|]; [|discriminate] end. cbn [bind] in E.
  inversion E; subst m. cbn [a_radii] in Er. now rewrite Er.
Qed.

Lemma kl_facts gk sph w f rs mask N : kl_setting gk sph w f rs mask N -> kfacts gk sph w f rs mask N.
Proof.
  intros [(I & n0 & chs & ch & g & l & lm & gm & HI & E & Ht) Hw Hr Hm HN].
  unfold greedy_kl_init in E. cbn [ga_points] in E. rewrite atom1_init in E. cbn [bind] in E.
  set (a := mkAtomic _ _ _ _ _ _) in E.
  destruct (fpi_init _ _ (GAtom a) _ _ _) as [fp|] eqn:F; cbn [bind] in E; [|discriminate].
  destruct (parse_choice chs); cbn [bind] in E; [|discriminate]. inversion E; subst gk ch. clear E. cbn [kl_fpi].
  assert (INT : integrator (mkGridArg (Some (A1 (map Fin rs))) (Some I)) sph (fit_weights sph w rs)).
  { destruct sph; cbn [fit_weights]; [apply int_sph; auto; lia|apply int_plain; auto]. }
  assert (LW : length f = length (fit_weights sph w rs)) by (rewrite fit_weights_length; lia).
  pose proof F as F'. unfold fpi_init in F'.
  destruct (base_init _ _ _ _ _ _ _) as [ft|] eqn:B; cbn [bind] in F'; [|discriminate].
  apply base_init_inv in B. destruct B as (p & I' & n & Ega & Eft & Hneg & _ & Hn). inversion Ega; subst p I'. 
  assert (FT : fp_fit fp = ft).
  { destruct (fit_integrate ft (map Fin f)) as [i|]; cbn [bind] in F'; [|discriminate].
    set (q := xdiv i (ft_integral ft)) in *. destruct (xeqb q (Fin 0) || xisnan q); [discriminate|]. inversion F'; reflexivity. }
  destruct (fpi_init_ok _ _ _ _ _ _ _ _ INT LW F) as (_ & _ & FI & _).
  assert (AT : forall k, at_cfg (fp_fit fp) k =
     Ok (set_model (fp_fit fp) (GAtom (mkAtomic (A1 (map Fin rs)) [Fin 0] (map Fin (map Rabs rs)) (Z.of_nat (fst k)) (Z.of_nat (snd k)) true)))).
  { intros k. rewrite FT, Eft. reflexivity. }
  constructor; cbn [kl_fpi].
  - rewrite FT, Eft. reflexivity.
  - rewrite FT, Eft. exact HI.
  - rewrite FT, Eft. reflexivity.
  - rewrite FI. unfold target in Ht. destruct n0; congruence.
  - intros k Hk. eexists. split; [apply AT|]. constructor; auto.
    + exists (mkGridArg (Some (A1 (map Fin rs))) (Some I)), sph, n0,
        (GAtom (mkAtomic (A1 (map Fin rs)) [Fin 0] (map Fin (map Rabs rs)) (Z.of_nat (fst k)) (Z.of_nat (snd k)) true)).
      split; auto. split; [|split; auto].
      * eapply (views_resized (A1 (map Fin rs)) VNone (map Rabs rs) 1 0 true _ (fst k) (snd k)).
        -- apply geom_1d_default.
        -- lia.
        -- unfold total in Hk. lia.
        -- apply atom1_init.
        -- reflexivity.
      * eapply fpi_init_model; eauto.
    + unfold lays_of. rewrite !map_length. lia.
    + lra.
  - intros k q Hk Hq. unfold good_at. rewrite AT. cbn [bind]. unfold goodness. cbn [ft_model set_model g_evaluate].
    unfold atomic_evaluate. unfold half1, half2. rewrite Hq. change (2 / 2)%nat with 1%nat.
    destruct q as [|x [|y [|z q]]]; cbn in Hq; try lia. cbn [firstn skipn length Nat.eqb negb]. unfold a_nbasis. cbn [a_ns a_np].
    destruct (Z.eqb_spec (Z.of_nat 1) (Z.of_nat (fst k) + Z.of_nat (snd k))) as [C|C]; [|reflexivity].
    exfalso. apply Hk. unfold total. lia.
Qed.

(** ** C67 *)
Lemma kl_denom gk sph w f rs mask N k : kl_setting gk sph w f rs mask N ->
  let M := sumn (length w) (fun i => nth i w 0 * (nth i f 0 * nth i rs 0 ^ 4)) in
  M <> 0 -> kl_start gk k = Ok [Fin N; Fin (3 * N / (2 * 4 * PI * M))].
Proof.
  intros Hs M HM. pose proof (kl_facts _ _ _ _ _ _ _ Hs) as K. pose proof PI_RGT_0 as HP.
  unfold kl_start. rewrite (kf_points _ _ _ _ _ _ _ K), (kf_dens _ _ _ _ _ _ _ K), (kf_N _ _ _ _ _ _ _ K).
  assert (E : map (fun r => xpow (xpow r 2) 2) (map Fin rs) = map Fin (map (fun r => r ^ 4) rs)).
  { rewrite !map_map. apply map_ext. intros r. rewrite !xpow2_fin. f_equal. ring. }
  destruct Hs as [_ Hw Hr Hm HN].
  rewrite E, emul_fin by (rewrite map_length; lia). cbn [bind].
  rewrite (kf_plain _ _ _ _ _ _ _ K) by (rewrite map2_length, map_length; lia). cbn [bind].
  assert (D : rdot w (map2 Rmult f (map (fun r => r ^ 4) rs)) = M).
  { rewrite rdot_sumn by (rewrite map2_length, map_length; lia). unfold M. apply sumn_ext. intros i Hi.
    rewrite (nth_map2 _ _ _ _ 0 0) by (rewrite ?map_length; lia). do 2 f_equal.
    rewrite (nth_indep _ 0 ((fun r => r ^ 4) 0)) by (rewrite map_length; lia). apply (map_nth (fun r => r ^ 4)). }
  rewrite D. cbn [xmul]. rewrite xdiv_fin; [reflexivity|]. apply Rmult_integral_contrapositive_currified; [|auto]. nra.
Qed.

Lemma one_value N a r : gsum true (lay_atom 1 0 r) [N] [a] = N * (Rpower (a / PI) (3/2) * exp (- a * r ^ 2)).
Proof. cbn [lay_atom types repeat app map gsum]. unfold basis_fn, norm_const. ring. Qed.

Lemma kl_one W f rs N a a' : length f = length W -> length rs = length W -> positive f -> 0 < N -> 0 < a -> 0 < a' ->
  kl_sum W f (values true (one_s rs) [N] [a']) - kl_sum W f (values true (one_s rs) [N] [a]) =
  3/2 * rdot W f * (ln a - ln a') + (a' - a) * sumn (length W) (fun i => nth i W 0 * (nth i f 0 * nth i rs 0 ^ 2)).
Proof.
  intros Hf Hr Pf HN Ha Ha'. pose proof PI_RGT_0 as HP.
  assert (LL : length (one_s rs) = length W) by (unfold one_s; rewrite !map_length; auto).
  rewrite !kl_sum_sumn by (auto; unfold values; rewrite map_length; auto).
  rewrite rdot_sumn by auto.
  replace (3/2 * sumn (length W) (fun i => nth i W 0 * nth i f 0) * (ln a - ln a')) with
    (3/2 * (ln a - ln a') * sumn (length W) (fun i => nth i W 0 * nth i f 0)) by ring.
  rewrite <- !sumn_scal, <- sumn_plus, <- sumn_minus. apply sumn_ext. intros i Hi.
  assert (VA : forall b, nth i (values true (one_s rs) [N] [b]) 0 = N * (Rpower (b / PI) (3/2) * exp (- b * nth i rs 0 ^ 2))).
  { intros b. unfold values, one_s. rewrite !map_map.
    rewrite (nth_indep _ 0 ((fun x => gsum true (lay_atom 1 0 (Rabs x)) [N] [b]) 0)) by (rewrite map_length; lia).
    rewrite (map_nth (fun x => gsum true (lay_atom 1 0 (Rabs x)) [N] [b])). rewrite one_value, pow2_abs. reflexivity. }
  rewrite !VA. pose proof (positive_nth f i Pf ltac:(lia)) as Pfi.
  assert (L : forall b, 0 < b -> ln (nth i f 0 / (N * (Rpower (b / PI) (3/2) * exp (- b * nth i rs 0 ^ 2)))) =
    ln (nth i f 0) - ln N - 3/2 * (ln b - ln PI) + b * nth i rs 0 ^ 2).
  { intros b Hb. assert (0 < Rpower (b / PI) (3/2)) by (unfold Rpower; apply exp_pos).
    pose proof (exp_pos (- b * nth i rs 0 ^ 2)). assert (0 < Rpower (b / PI) (3/2) * exp (- b * nth i rs 0 ^ 2)) by (now apply Rmult_lt_0_compat).
    rewrite ln_div by (auto; now apply Rmult_lt_0_compat). rewrite !ln_mult by auto. rewrite ln_exp.
    unfold Rpower. rewrite ln_exp, ln_div by lra. ring. }
  unfold kl_fn. rewrite !L by auto. ring.
Qed.

Lemma ln_strict x : 0 < x -> x <> 1 -> ln x < x - 1.
Proof.
  intros Hx Hn. assert (N : ln x <> 0). { intros C. apply Hn. rewrite <- (exp_ln x Hx), C. apply exp_0. }
  pose proof (exp_ineq1 (ln x) N) as E. rewrite exp_ln in E by auto. lra.
Qed.

(** The unique best exponent is [3/2 F / M]. *)
Lemma kl_one_best W f rs N a' : length f = length W -> length rs = length W -> positive f -> 0 < N -> 0 < a' ->
  let F := rdot W f in let M := sumn (length W) (fun i => nth i W 0 * (nth i f 0 * nth i rs 0 ^ 2)) in
  0 < F -> 0 < M -> a' <> 3/2 * F / M ->
  kl_sum W f (values true (one_s rs) [N] [3/2 * F / M]) < kl_sum W f (values true (one_s rs) [N] [a']).
Proof.
  intros Hf Hr Pf HN Ha' F M HF HM Hne. set (a := 3/2 * F / M) in *.
  assert (Ha : 0 < a) by (unfold a; apply Rdiv_lt_0_compat; lra).
  pose proof (kl_one W f rs N a a' Hf Hr Pf HN Ha Ha') as E. fold F M in E.
  assert (Q : ln (a' / a) < a' / a - 1).
  { apply ln_strict; [now apply Rdiv_lt_0_compat|]. intros C. apply Hne.
    replace a' with (a' / a * a) by (field; lra). rewrite C. ring. }
  rewrite ln_div in Q by auto.
  assert (M * a = 3/2 * F) by (unfold a; field; lra).
  assert (R : (a' - a) * M = 3/2 * F * (a' / a - 1)) by (rewrite <- H; field; lra).
  rewrite R in E. nra.
Qed.

Lemma moment_pos W f rs : length f = length W -> length rs = length W -> nonneg W -> positive f -> off_origin W rs ->
  0 < rdot W f /\ 0 < sumn (length W) (fun i => nth i W 0 * (nth i f 0 * nth i rs 0 ^ 2)) /\
  0 < sumn (length W) (fun i => nth i W 0 * (nth i f 0 * nth i rs 0 ^ 4)).
Proof.
  intros Hf Hr HW Pf (j & Hj & Wj & Rj).
  assert (P2 : forall i, 0 <= nth i rs 0 ^ 2) by (intros; apply pow2_ge_0).
  assert (P4 : forall i, 0 <= nth i rs 0 ^ 4) by (intros i; replace (nth i rs 0 ^ 4) with ((nth i rs 0 ^ 2) ^ 2) by ring; apply pow2_ge_0).
  assert (Q2 : 0 < nth j rs 0 ^ 2) by nra. assert (Q4 : 0 < nth j rs 0 ^ 4) by (replace (nth j rs 0 ^ 4) with ((nth j rs 0 ^ 2) ^ 2) by ring; nra).
  assert (PF : forall i, (i < length W)%nat -> 0 < nth i f 0) by (intros; apply positive_nth; auto; lia).
  rewrite rdot_sumn by auto. split; [|split]; apply sumn_pos; try (intros i Hi; specialize (PF i Hi)); try (exists j; split; auto; specialize (PF j Hj)).
  - apply Rmult_le_pos; [now apply nonneg_nth|lra].
  - now apply Rmult_lt_0_compat.
  - apply Rmult_le_pos; [now apply nonneg_nth|]. specialize (P2 i). apply Rmult_le_pos; lra.
  - apply Rmult_lt_0_compat; auto. now apply Rmult_lt_0_compat.
  - apply Rmult_le_pos; [now apply nonneg_nth|]. specialize (P4 i). apply Rmult_le_pos; lra.
  - apply Rmult_lt_0_compat; auto. now apply Rmult_lt_0_compat.
Qed.

Lemma off_weights sph w rs : length rs = length w -> off_origin w rs -> off_origin (fit_weights sph w rs) rs.
Proof.
  intros H (i & Hi & Wi & Ri). exists i. rewrite fit_weights_length, nth_fit_weights by auto. split; auto. split; auto.
  apply Rmult_lt_0_compat; auto. destruct sph; [|lra]. pose proof PI_RGT_0. assert (0 < nth i rs 0 ^ 2) by nra. nra.
Qed.

(** With [spherical] the start is [N/F] times the best exponent. *)
Lemma kl_start_spherical gk w f rs mask N k : kl_setting gk true w f rs mask N -> nonneg w -> positive f -> off_origin w rs ->
  let W := fit_weights true w rs in
  let best := 3/2 * rdot W f / sumn (length W) (fun i => nth i W 0 * (nth i f 0 * nth i rs 0 ^ 2)) in
  0 < best /\ kl_start gk k = Ok [Fin N; Fin (N / rdot W f * best)].
Proof.
  intros Hs Hw Pf Ho W best. pose proof (ks_lenw _ _ _ _ _ _ _ Hs) as L1. pose proof (ks_lenr _ _ _ _ _ _ _ Hs) as L2.
  pose proof PI_RGT_0 as HP.
  assert (LW : length W = length w) by (apply fit_weights_length; lia).
  destruct (moment_pos W f rs) as (F & M & _); try lia; auto.
  { apply fit_weights_nonneg; auto; lia. } { apply off_weights; auto; lia. }
  destruct (moment_pos w f rs) as (_ & _ & M4); try lia; auto.
  split; [unfold best; apply Rdiv_lt_0_compat; lra|].
  rewrite (kl_denom gk true w f rs mask N k Hs) by lra. do 4 f_equal. unfold best.
  assert (E : sumn (length W) (fun i => nth i W 0 * (nth i f 0 * nth i rs 0 ^ 2)) =
    4 * PI * sumn (length w) (fun i => nth i w 0 * (nth i f 0 * nth i rs 0 ^ 4))).
  { rewrite LW, <- sumn_scal. apply sumn_ext. intros i Hi. unfold W. rewrite nth_fit_weights by lia. ring. }
  rewrite E in M |- *. field. lra.
Qed.

Lemma kl_start_best gk w f rs mask N k : kl_setting gk true w f rs mask N -> nonneg w -> positive f -> off_origin w rs ->
  N = rdot (fit_weights true w rs) f ->
  exists a, 0 < a /\ kl_start gk k = Ok [Fin N; Fin a] /\
    forall a', 0 < a' -> a' <> a ->
      kl_sum (fit_weights true w rs) f (values true (one_s rs) [N] [a]) <
      kl_sum (fit_weights true w rs) f (values true (one_s rs) [N] [a']).
Proof.
  intros Hs Hw Pf Ho HN. destruct (kl_start_spherical gk w f rs mask N k Hs Hw Pf Ho) as [B E].
  pose proof (ks_lenw _ _ _ _ _ _ _ Hs) as L1. pose proof (ks_lenr _ _ _ _ _ _ _ Hs) as L2. pose proof (ks_N _ _ _ _ _ _ _ Hs) as PN.
  set (W := fit_weights true w rs) in *. set (best := 3/2 * rdot W f / _) in *.
  assert (LW : length W = length w) by (apply fit_weights_length; lia).
  exists best. split; auto. split.
  - rewrite E. do 4 f_equal. rewrite <- HN. field. lra.
  - intros a' Ha' Hne. destruct (moment_pos W f rs) as (F & M & _); try lia; auto.
    { apply fit_weights_nonneg; auto; lia. } { apply off_weights; auto; lia. }
    apply kl_one_best; auto; lia.
Qed.

(** When [integral_dens] is not the integral of the density, the start is not the best one. *)
Lemma kl_start_not_best gk w f rs mask N k : kl_setting gk true w f rs mask N -> nonneg w -> positive f -> off_origin w rs ->
  N <> rdot (fit_weights true w rs) f ->
  exists a a', 0 < a' /\ kl_start gk k = Ok [Fin N; Fin a] /\
    kl_sum (fit_weights true w rs) f (values true (one_s rs) [N] [a']) <
    kl_sum (fit_weights true w rs) f (values true (one_s rs) [N] [a]).
Proof.
  intros Hs Hw Pf Ho HN. destruct (kl_start_spherical gk w f rs mask N k Hs Hw Pf Ho) as [B E].
  pose proof (ks_lenw _ _ _ _ _ _ _ Hs) as L1. pose proof (ks_lenr _ _ _ _ _ _ _ Hs) as L2. pose proof (ks_N _ _ _ _ _ _ _ Hs) as PN.
  set (W := fit_weights true w rs) in *. set (best := 3/2 * rdot W f / _) in *.
  assert (LW : length W = length w) by (apply fit_weights_length; lia).
  destruct (moment_pos W f rs) as (F & M & _); try lia; auto.
  { apply fit_weights_nonneg; auto; lia. } { apply off_weights; auto; lia. }
  exists (N / rdot W f * best), best. split; auto. split; auto.
  apply kl_one_best; auto; try lia.
  - apply Rmult_lt_0_compat; auto. apply Rdiv_lt_0_compat; lra.
  - fold best. intros C. apply HN. assert (Q : (N / rdot W f - 1) * best = 0) by lra. apply Rmult_integral in Q.
    destruct Q as [Q|Q]; [|lra]. replace N with (N / rdot W f * rdot W f) by (field; lra). replace (N / rdot W f) with 1 by lra. ring.
Qed.

(** ** C68 *)
Lemma cofactor_row ns np e r : length e = (ns + np)%nat ->
  map (fun a => xexp (xmul (xneg a) (xpow (Fin r) 2))) (firstn ns (map Fin e)) ++
  (if Nat.eqb np 0 then [] else map (fun a => xmul (xpow (Fin r) 2) (xexp (xmul (xneg a) (xpow (Fin r) 2)))) (skipn ns (map Fin e))) =
  map Fin (map2 (fun (t : bool) a => basis_fn false t a (Rabs r)) (types ns np) e).
Proof.
  intros He. rewrite xpow2_fin. rewrite firstn_map, skipn_map, !map_map. cbn [xneg xmul xexp].
  assert (P : if Nat.eqb np 0 then [] = map (fun x => Fin (r ^ 2 * exp (- x * r ^ 2))) (skipn ns e) else True).
  { destruct (Nat.eqb_spec np 0) as [->|]; auto. rewrite skipn_all2 by lia. reflexivity. }
  assert (P' : (if Nat.eqb np 0 then [] else map (fun x => Fin (r ^ 2 * exp (- x * r ^ 2))) (skipn ns e)) =
     map (fun x => Fin (r ^ 2 * exp (- x * r ^ 2))) (skipn ns e)) by (destruct (Nat.eqb np 0); auto).
  rewrite P'. clear P P'. unfold types. rewrite <- (firstn_skipn ns e) at 3.
  assert (L : length (firstn ns e) = ns) by (rewrite firstn_length_le; lia).
  rewrite map2_app by (rewrite repeat_length; auto). rewrite map_app.
  assert (RA : Rabs r ^ 2 = r ^ 2) by apply pow2_abs.
  assert (G : forall t l k, length l = k -> map2 (fun (t : bool) a => basis_fn false t a (Rabs r)) (repeat t k) l =
     map (fun a => basis_fn false t a (Rabs r)) l).
  { intros t. induction l as [|x l IH]; intros k Hk; destruct k; try discriminate; cbn [repeat map2 map]; auto. f_equal. apply IH. now inversion Hk. }
  rewrite !G by (rewrite ?skipn_length; lia). rewrite !map_map. f_equal; apply map_ext; intros a; unfold basis_fn; rewrite RA; f_equal; ring.
Qed.

Lemma row_gsum ns np c e r : length c = (ns + np)%nat -> length e = (ns + np)%nat ->
  rdot (map2 (fun (t : bool) a => basis_fn false t a r) (types ns np) e) c = gsum false (lay_atom ns np r) c e.
Proof.
  intros Hc He. unfold lay_atom. assert (L : length (types ns np) = (ns + np)%nat) by apply types_length.
  assert (G : forall ts c e, length c = length ts -> length e = length ts ->
    rdot (map2 (fun (t : bool) a => basis_fn false t a r) ts e) c = gsum false (map (fun t => (t, r)) ts) c e).
  { induction ts as [|t ts IH]; intros c' e' H1 H2; destruct c', e'; try discriminate; auto.
    cbn [map2 map gsum]. unfold rdot in *. cbn [map2]. rewrite rsum_cons, IH by (cbn in *; lia). ring. }
  apply G; lia.
Qed.

Lemma cofactor_matches rs ns np e m : (0 < ns + np)%nat -> length e = (ns + np)%nat ->
  atomic_init (VArr (A1 (map Fin rs))) VNone (VInt (Z.of_nat ns)) (VInt (Z.of_nat np)) false = Ok m ->
  exists rows, cofactor_matrix (A1 (map Fin rs)) (ns, np) (map Fin e) = Ok (map (map Fin) rows) /\
    length rows = length rs /\ Forall (fun row => length row = (ns + np)%nat) rows /\
    forall c, length c = (ns + np)%nat ->
      atomic_evaluate m (A1 (map Fin c)) (A1 (map Fin e)) false = Ok (map (fun row => Fin (rdot row c)) rows, None).
Proof.
  intros Hk He Hm. exists (map (fun r => map2 (fun (t : bool) a => basis_fn false t a (Rabs r)) (types ns np) e) rs).
  split; [|split; [now rewrite map_length|split]].
  - unfold cofactor_matrix. cbn [fst snd]. f_equal. rewrite !map_map. apply map_ext. intros r. apply cofactor_row. auto.
  - apply Forall_forall. intros row H. apply in_map_iff in H. destruct H as (r & <- & _).
    rewrite map2_length, types_length. lia.
  - intros c Hc. assert (V : views (GAtom m) false (map (lay_atom ns np) (map Rabs rs))).
    { eapply views_atom; eauto. apply geom_1d_default. }
    assert (VF : vfacts (GAtom m) false (map (lay_atom ns np) (map Rabs rs)) (ns + np)).
    { destruct (atomic_init_ok (A1 (map Fin rs)) VNone (map Rabs rs) ns np false (geom_1d_default rs) Hk) as (m' & E & _ & Q1 & Q2 & Q3 & Q4).
      rewrite Hm in E. inversion E; subst m'. apply atom_facts; auto. }
    pose proof (vf_eval _ _ _ _ VF c e false Hc He ltac:(discriminate)) as Ev. cbn [g_evaluate] in Ev. rewrite Ev.
    unfold values. rewrite !map_map. do 2 f_equal. apply map_ext. intros r. f_equal. symmetry. now apply row_gsum.
Qed.

(** With [normalize=True] the matrix is that of other functions. *)
Lemma cofactor_normalized rs a c m : rs <> [] -> 0 < a -> a <> PI -> c <> 0 ->
  atomic_init (VArr (A1 (map Fin rs))) VNone (VInt 1) (VInt 0) true = Ok m ->
  exists rows, cofactor_matrix (A1 (map Fin rs)) (1, 0)%nat (map Fin [a]) = Ok (map (map Fin) rows) /\
    atomic_evaluate m (A1 (map Fin [c])) (A1 (map Fin [a])) false <> Ok (map (fun row => Fin (rdot row [c])) rows, None).
Proof.
  intros Hne Ha Hpi Hc Hm. exists (map (fun r => map2 (fun (t : bool) a => basis_fn false t a (Rabs r)) (types 1 0) [a]) rs).
  split.
  - unfold cofactor_matrix. cbn [fst snd]. f_equal. rewrite !map_map. apply map_ext. intros r. now apply (cofactor_row 1 0 [a] r).
  - assert (VF : vfacts (GAtom m) true (map (lay_atom 1 0) (map Rabs rs)) 1).
    { destruct (atomic_init_ok (A1 (map Fin rs)) VNone (map Rabs rs) 1 0 true (geom_1d_default rs) ltac:(lia)) as (m' & E & _ & Q1 & Q2 & Q3 & Q4).
      change (VInt (Z.of_nat 1)) with (VInt 1) in E. change (VInt (Z.of_nat 0)) with (VInt 0) in E.
      rewrite Hm in E. inversion E; subst m'. apply (atom_facts m (map Rabs rs) 1 0); auto. }
    pose proof (vf_eval _ _ _ _ VF [c] [a] false eq_refl eq_refl ltac:(intros _; constructor; [auto|constructor])) as Ev. cbn [g_evaluate] in Ev. rewrite Ev.
    intros E. assert (E' : map Fin (values true (map (lay_atom 1 0) (map Rabs rs)) [c] [a]) =
      map (fun row => Fin (rdot row [c])) (map (fun r => map2 (fun (t : bool) a => basis_fn false t a (Rabs r)) (types 1 0) [a]) rs)) by congruence.
    clear E. destruct rs as [|r rs]; [congruence|]. unfold values in E'. cbn [map] in E'. apply (f_equal (fun l => hd NaN l)) in E'. cbn [hd] in E'.
    rewrite one_value in E'. assert (E : forall x y, Fin x = Fin y -> x = y) by congruence. apply E in E'. clear E. rename E' into E.
    unfold rdot, rsum in E. cbn [types repeat app map2 fold_right] in E. unfold basis_fn in E.
    pose proof PI_RGT_0 as HP. pose proof (exp_pos (- a * Rabs r ^ 2)) as HE.
    assert (Q : Rpower (a / PI) (3/2) = 1).
    { apply (Rmult_eq_reg_l (c * exp (- a * Rabs r ^ 2))); [lra|]. apply Rmult_integral_contrapositive_currified; lra. }
    assert (L : ln (a / PI) = 0).
    { unfold Rpower in Q. apply (f_equal ln) in Q. rewrite ln_exp, ln_1 in Q. lra. }
    apply Hpi. assert (X : a / PI = 1). { rewrite <- (exp_ln (a / PI)) by (now apply Rdiv_lt_0_compat). rewrite L. apply exp_0. }
    replace a with (a / PI * PI) by (field; lra). rewrite X. ring.
Qed.

(** ** C64: a second run on the same object *)
Lemma start_raises sy ob ch f d mx extra fuel e : xleb f (Fin 0) = false -> greedy_start sy ob f = Raise e ->
  greedy_run sy ch ob (VFloat f) d mx extra fuel = Some (Raise e).
Proof. intros H1 H2. unfold greedy_run. now rewrite H1, H2. Qed.

Lemma kl_second_run gk rand ch ob factor d mx extra fuel r ob' sph w f rs mask N f2 d2 mx2 extra2 fuel2 :
  kl_setting gk sph w f rs mask N ->
  greedy_run (kl_strategy gk rand) ch ob factor d mx extra fuel = Some (Ok (r, ob')) ->
  total (gr_cfg r) <> 1%nat -> xleb f2 (Fin 0) = false ->
  greedy_run (kl_strategy gk rand) ch ob' (VFloat f2) d2 mx2 extra2 fuel2 = Some (Raise ValueError).
Proof.
  intros Hs H Ht Hf. pose proof (kl_facts _ _ _ _ _ _ _ Hs) as K. apply run_inv in H.
  destruct H as (f1 & s0 & s & -> & _ & S & _ & E). apply end_inv in E. destruct E as (ex & v & _ & _ & -> & ->). cbn [gr_cfg] in Ht.
  apply start_inv in S. destruct S as (p & g & v' & S & _ & _ & _). apply start_raises; auto.
  unfold greedy_start. cbn [ob_cfg kl_strategy sy_start sy_good] in *.
  assert (S' : kl_start gk (gs_cfg s) = Ok p) by exact S.
  rewrite S'. cbn [bind].
  assert (L : length p = 2%nat).
  { unfold kl_start in S. destruct (gr_points _); [|discriminate]. destruct (emul _ _); cbn [bind] in S; [|discriminate].
    destruct (gr_integrate _ _); cbn [bind] in S; [|discriminate]. inversion S. reflexivity. }
  rewrite (kf_bad _ _ _ _ _ _ _ K) by auto. reflexivity.
Qed.

Lemma ls_second_run gl nnls minimize rand ch ob factor d mx extra fuel r ob' a f2 d2 mx2 extra2 fuel2 :
  ft_model (sc_fit (ls_scipy gl)) = GAtom a ->
  greedy_run (ls_strategy gl nnls minimize rand) ch ob factor d mx extra fuel = Some (Ok (r, ob')) ->
  total (gr_cfg r) <> 1%nat -> xleb f2 (Fin 0) = false ->
  greedy_run (ls_strategy gl nnls minimize rand) ch ob' (VFloat f2) d2 mx2 extra2 fuel2 = Some (Raise ValueError).
Proof.
  intros Ha H Ht Hf. apply run_inv in H.
  destruct H as (f1 & s0 & s & -> & _ & S & _ & E). apply end_inv in E. destruct E as (ex & v & _ & _ & -> & ->). cbn [gr_cfg] in Ht.
  apply start_raises; auto. unfold greedy_start. cbn [ob_cfg ls_strategy sy_start].
  assert (S' : ls_start gl (gs_cfg s) = Raise ValueError); [|now rewrite S'].
  assert (O : forall x y, obj_at (sc_fit (ls_scipy gl)) (gs_cfg s) [x; y] = Raise ValueError).
  2:{ unfold ls_start. destruct (gr_points _) as [pts|d' rows]; [unfold solve_one at 1; rewrite O; reflexivity|].
      unfold solve_one_nd at 1. unfold bmul at 1. destruct (Nat.eqb _ d') eqn:B; [|destruct (Nat.eqb _ 1) eqn:B1; [|destruct (Nat.eqb d' 1) eqn:B2; [|reflexivity]]]; cbn [bind];
        unfold bmul at 1; rewrite B, ?B1, ?B2; cbn [bind];
        (destruct (bmul _ _ _) as [wl|er] eqn:BE; cbn [bind]; [now rewrite O|]; unfold bmul in BE;
         repeat match type of BE with context [if ?b then _ else _] => destruct b end; congruence). }
  intros x y. unfold obj_at, at_cfg. rewrite Ha. cbn [change_numb as_int bind]. unfold eval_obj. cbn [ft_model g_evaluate].
  unfold half1, half2. cbn [length]. change (2 / 2)%nat with 1%nat. cbn [firstn skipn].
  unfold atomic_evaluate. cbn [length Nat.eqb negb]. unfold a_nbasis. cbn [a_ns a_np].
  destruct (Z.eqb_spec (Z.of_nat 1) (Z.of_nat (fst (gs_cfg s)) + Z.of_nat (snd (gs_cfg s)))) as [C|C]; [|reflexivity].
  exfalso. apply Ht. unfold total. lia.
Qed.

(** Otherwise the error list goes on from the first run. *)
Lemma second_run_errors sy ch ob factor d mx extra fuel r ob' factor2 d2 mx2 extra2 fuel2 r2 ob2 :
  greedy_run sy ch ob factor d mx extra fuel = Some (Ok (r, ob')) ->
  greedy_run sy ch ob' factor2 d2 mx2 extra2 fuel2 = Some (Ok (r2, ob2)) ->
  exists rows, gr_perf r2 = gr_perf r ++ rows /\ length rows = length (gr_params r2) /\ gr_perf r <> [].
Proof.
  intros H1 H2. destruct (run_history _ _ _ _ _ _ _ _ _ _ H2) as (h & en & _ & _ & P & Q & _).
  destruct (run_history _ _ _ _ _ _ _ _ _ _ H1) as (h1 & en1 & _ & _ & P1 & Q1 & _).
  exists (map en_err (h ++ [en])). split; [|split].
  - rewrite Q. f_equal. apply run_inv in H1. destruct H1 as (f1 & s0 & s & _ & _ & _ & _ & E). apply end_inv in E.
    destruct E as (ex & v & _ & _ & -> & ->). reflexivity.
  - rewrite P, !map_length. reflexivity.
  - rewrite Q1, map_app. intros C. apply app_eq_nil in C. destruct C as [_ C]. apply app_eq_nil in C. destruct C as [_ C]. discriminate.
Qed.
