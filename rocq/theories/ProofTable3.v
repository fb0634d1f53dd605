(** The fits with SLSQP of the example scripts (C103). *)
From Coquelicot Require Import Coquelicot.
From Coq Require Import Reals String Ascii List ZArith Lia Lra Bool Sorted.
From Verif Require Import XR PyStr PyText ModelParse SpecParse SpecDens SpecMeas SpecGrid SpecSlater ModelDens ModelMeas ModelGrid ModelFit ModelSlater ModelLoad SpecLoad SpecFile SpecElem SpecTar ProofElem
  Lists ProofDens ProofInit ProofDeriv ProofMeas ProofGrid ProofSlater SpecFit ProofFitView ProofFit ProofFPI ProofScipy ProofScipy2 ProofScipy3 SpecZero ProofZero SpecSteps ProofSteps
  ProofTar ProofTar2 DataSlater DataTar ProofNames SpecUgbs DataUgbs ProofUgbs SpecScript ProofScript ProofTable ProofTable2 SpecScript2 ProofExpPoly ProofText ProofConf ProofFile ProofCheck ProofElec.
Import ListNotations.
Local Open Scope R_scope.

(** ** The measures of the result *)
Lemma goodness_four ft W f m mask norm lays nb c e :
  fitok ft W f m mask -> vfacts m norm lays nb -> length lays = length W -> lays <> [] ->
  length c = nb -> length e = nb -> (norm = true -> positive e) -> 0 <= mask -> nonneg c -> nan_passes ft (length W) ->
  let g := values norm lays c e in
  exists mx x, goodness ft (map Fin c) (map Fin e) =
      Ok [Fin (quad W g); Fin (quad W (map2 (fun x y => Rabs (x - y)) f g)); Fin mx; Fin (quad W (map2 sq_fn f g)); x] /\
    is_max (map2 (fun x y => Rabs (x - y)) f g) mx /\
    ((exists i, bare_zero mask f g i) -> x = NaN) /\ ((forall i, ~ bare_zero mask f g i) -> exists y, x = Fin y).
Proof.
  intros Hft Hv HlW Hne Hc He Hpe Hm Hnc HP. pose proof (fo_len _ _ _ _ _ Hft) as Hf. pose proof (fo_nonneg _ _ _ _ _ Hft) as Hnf.
  pose proof (values_nonneg _ _ _ _ _ _ Hv Hc He Hnc) as Hng. cbv zeta.
  set (g := values norm lays c e) in *.
  assert (Hg : length g = length W) by (unfold g, values; rewrite map_length; auto).
  assert (HWn : W <> []). { intros E. rewrite E in HlW. destruct lays; [congruence|discriminate]. }
  assert (Hdn : map2 (fun x y => Rabs (x - y)) f g <> []). { destruct W; [congruence|]. destruct f; [discriminate|]. destruct g; [discriminate|]. discriminate. }
  destruct (np_max_fin _ Hdn) as (mx & Hmx & Mx).
  destruct (goodness_zero ft W f m mask norm lays nb c e Hft Hv HlW Hne Hc He Hpe Hm Hnc HP) as (a & b & d & q & x & E & Z). fold g in Z.
  exists mx, x. rewrite E. split; [|split; [exact Mx|exact Z]]. clear Z. revert E.
  unfold goodness. rewrite (fo_model _ _ _ _ _ Hft), (vf_eval _ _ _ _ Hv) by auto. cbn [bind fst].
  fold g. rewrite (fo_dens _ _ _ _ _ Hft), abs_diff_fin by lia. cbn [bind].
  rewrite !(fo_int _ _ _ _ _ Hft) by (rewrite ?map2_length; lia). cbn [bind]. rewrite Hmx. cbn [bind].
  destruct (sq_value f g false) as (d0 & -> & _); [lia|]. cbn [bind fst].
  rewrite !(fo_int _ _ _ _ _ Hft) by (rewrite ?map2_length; lia). cbn [bind].
  destruct (measure_evaluate _ _ _ _) as [[kl ?]|]; [|discriminate]. cbn [bind fst]. destruct (fit_integrate ft kl); [|discriminate]. cbn [bind].
  intros E. injection E as <- <- <- <- <-. reflexivity.
Qed.

Lemma share_ok z n : (0 < n)%nat -> share z n = Ok (Fin (IZR z / INR n)).
Proof. destruct n; [lia|reflexivity]. Qed.
(** ** The fitting object *)
Lemma setup_ok fl ugbs files (e : string) (z nc nd : Z) (extra : list R) (me : measure) (norm : bool) (fuel : nat) data L d (es ep : list R) :
  slater_atoms fl files (Some e) false false fuel = Some (Ok data) -> describes (atom_of data) L -> Forall valid L -> Forall (fun s => 0 <= s_occ s) L ->
  get_ugbs_exponents fl ugbs (Some e) = Ok d -> dget (str "S") d = Some (map Fin es) -> dget (str "P") d = Some (map Fin ep) -> (0 < length es + length ep)%nat ->
  (0 < z)%Z -> (0 <= nc)%Z -> (3 <= nd)%Z ->
  let n := (length es + length ep)%nat in
  let c0 := repeat (IZR z / INR n) n in
  let e0 := map (fun x => x * 2) (es ++ ep) in
  exists S pts W, clenshaw_init (VInt z) (VInt nc) (VInt nd) (EList (map Fin extra)) (VBool true) = Ok (map Fin pts) /\ ascending pts /\ (2 <= length pts)%nat /\
  spherical_weights pts W /\
  scipy_setting S me W (repeat 1 (length pts)) (map (rho L) pts) norm (map (lay_atom (length es) (length ep)) (map Rabs pts)) (quad W (map (rho L) pts)) /\
  ft_grid (sc_fit S) = radial_grid (map Fin pts) /\ ft_mask (sc_fit S) = Fin (/ 10 ^ 18) /\ sc_slsqp S = true /\ nfun (map (lay_atom (length es) (length ep)) (map Rabs pts)) = n /\
  slsqp_setup fl ugbs files e z nc nd (map Fin extra) me norm fuel = Some (Ok (S, map Fin c0, map Fin e0)).
Proof.
  intros Sl De V O Ug Ds Dp Ln Hz Hc Hd n c0 e0.
  destruct (clenshaw_far z nc nd true extra 2 Hz Hc ltac:(lia) ltac:(lia)) as (pts & xs & E & Asc & Lx & Sx & Fx).
  assert (L2 : (2 <= length pts)%nat).
  { rewrite <- Lx. apply NoDup_incl_length; [|intros r Hr; exact (proj1 (proj1 (Forall_forall _ _) Fx r Hr))].
    clear -Sx. assert (St : StronglySorted Rlt xs) by (apply Sorted_StronglySorted; [intros a b c; lra|exact Sx]). induction St as [|a l St IH F]; constructor; [|apply IH; now inversion Sx].
    intros I. pose proof (proj1 (Forall_forall _ _) F a I). lra. }
  destruct (ProofFPI.radial_integrator pts) as (w & Lw & Hw & Hq & _ & Int). specialize (Hw Asc).
  set (W := map2 (fun w r => w * (4 * PI * r ^ 2)) w pts) in *. set (f := map (rho L) pts). set (lays := map (lay_atom (length es) (length ep)) (map Rabs pts)).
  assert (LW : length W = length pts) by (unfold W; rewrite map2_length; lia).
  assert (SW : spherical_weights pts W).
  { split; [exact LW|]. split.
    - unfold W. clear -Hw Lw. pose proof PI_RGT_0. revert pts Lw. induction Hw as [|a l Ha Hl IH]; intros [|b p] Lp; try discriminate; constructor.
      + apply Rmult_le_pos; [exact Ha|]. pose proof (pow2_ge_0 b). nra.
      + apply IH. cbn in Lp. lia.
    - intros y Hy. rewrite <- Hq by (rewrite map2_length; lia). unfold W, quad, rdot. clear -Lw Hy. revert pts y Lw Hy. induction w as [|a l IH]; intros [|b p] [|q y] Lp Ly; try discriminate; [unfold rsum; cbn; ring|].
      cbn [map2]. rewrite !rsum_cons', IH by (cbn in *; lia). ring. }
  assert (Nf : nfun lays = n). { unfold nfun, lays. destruct pts as [|p pts']; [cbn in L2; lia|]. cbn [map hd]. apply lay_atom_length. }
  assert (LP : length lays = length W) by (unfold lays; rewrite !map_length; lia).
  assert (Lf : length f = length pts) by apply map_length.
  assert (Hf : nonneg f) by (unfold nonneg, f; rewrite Forall_map; apply Forall_forall; intros r _; now apply rho_nonneg).
  destruct (atomic_init_ok (A1 (map Fin pts)) VNone (map Rabs pts) (length es) (length ep) norm (geom_1d_default pts) Ln) as (m & Em & Pm & _).
  assert (Vw : views (GAtom m) norm lays) by (apply (views_atom (A1 (map Fin pts)) VNone _ (length es) (length ep) norm m); [apply geom_1d_default|exact Ln|exact Em]).
  assert (B : exists ft, base_init (arg_of (radial_grid (map Fin pts))) (map Fin f) (GAtom m) me None true (Fin (/ 10 ^ 18)) = Ok ft).
  { apply base_accepts. split.
    - rewrite Forall_map. apply Forall_forall. intros x Hx. cbn [xltb]. apply rltb_false. pose proof (proj1 (Forall_forall _ _) Hf x Hx) as Q. cbv beta in Q. lra.
    - exists (A1 (map Fin pts)), (gr_integrate (radial_grid (map Fin pts))). repeat split; auto. intros _. eexists.
      apply (integrate_with_fin (arg_of (radial_grid (map Fin pts))) true W); [exact Int|reflexivity|lia]. }
  destruct B as [ft B].
  assert (SI : exists S, scipy_init (arg_of (radial_grid (map Fin pts))) (map Fin f) (GAtom m) (MInst me) "SLSQP" None None true (Fin (/ 10 ^ 18)) = Ok S).
  { apply scipy_accepts. exists (A1 (map Fin pts)), me, ft. split; [reflexivity|]. cbn [g_points]. rewrite Pm. split.
    - apply (points_same_1d pts pts eq_refl). intros i _. rewrite Rminus_eq_0, Rabs_R0. apply Rlt_le, Rdiv_lt_0_compat; [lra|apply pow_lt; lra].
    - split; [cbn [nlen]; unfold f; rewrite !map_length; reflexivity|]. split; [left; reflexivity|]. split; [reflexivity|exact B]. }
  destruct SI as [S SI]. exists S, pts, W.
  assert (SS : scipy_setting S me W (repeat 1 (length pts)) f norm lays (quad W f)).
  { constructor; [|lia|rewrite repeat_length; lia|exact LP|intros E'; rewrite E' in LW; cbn in LW; lia].
    exists (arg_of (radial_grid (map Fin pts))), true, None, (GAtom m), None, "SLSQP"%string, (/ 10 ^ 18). split; [exact Int|]. split; [exact Vw|]. split; [exact SI|]. split; [reflexivity|]. now rewrite Lf. }
  split; [exact E|]. split; [exact Asc|]. split; [exact L2|]. split; [exact SW|]. split; [exact SS|].
  destruct (scipy_init_inv _ _ _ _ _ _ _ _ _ _ SI) as (pts' & m' & ft' & _ & _ & _ & _ & Q1 & Q2 & Q3). injection Q1 as <-. rewrite B in Q2. injection Q2 as <-.
  apply base_init_inv in B. destruct B as (p & I & n0' & Q4 & Q5 & _).
  split; [subst S ft; cbn; now inversion Q4|]. split; [subst S ft; reflexivity|]. split; [subst S; reflexivity|]. split; [exact Nf|].
  unfold slsqp_setup. rewrite E. cbn [bindo]. rewrite Ug. cbn [bindo]. unfold dlookup. rewrite Ds, Dp. cbn [bindo]. rewrite !map_length.
  rewrite share_ok by exact Ln. cbn [bindo]. rewrite Em. cbn [bindo]. rewrite Sl. cbn [bindo]. rewrite (density_total (atom_of data) L pts De V). cbn [bindo]. fold f.
  change (mkGridArg (Some (A1 (map Fin pts))) (Some (gr_integrate (radial_grid (map Fin pts))))) with (arg_of (radial_grid (map Fin pts))). rewrite SI. cbn [bindo].
  do 3 f_equal; [f_equal|].
  - unfold c0. symmetry. apply map_repeat.
  - unfold e0. rewrite <- map_app, !map_map; reflexivity.
Qed.

(** ** Runs *)
Definition low : R := 1 / 10 ^ 12.
Lemma low_pos : 0 < low.
Proof. unfold low. apply Rdiv_lt_0_compat; [lra|apply pow_lt; lra]. Qed.

Lemma forall2_repeat b : forall n x, Forall2 Rle (repeat b n) x -> length x = n /\ Forall (fun y => b <= y) x.
Proof.
  induction n as [|n IH]; intros x H; inversion H; subst; [split; constructor|]. destruct (IH _ H4) as [<- F]. split; [reflexivity|now constructor].
Qed.
Lemma slice_halves (c e : list xr) n : length c = n -> py_slice None (Some (Z.of_nat n)) (c ++ e) = c /\ py_slice (Some (Z.of_nat n)) None (c ++ e) = e.
Proof.
  intros <-. rewrite py_slice_to, py_slice_from. split; [rewrite firstn_app, firstn_all, Nat.sub_diag; apply app_nil_r|]. rewrite skipn_app, skipn_all, Nat.sub_diag. reflexivity.
Qed.

Lemma run_ok minimize fl ugbs files (e : string) (z nc nd : Z) (extra : list R) (me : measure) (norm cons : bool) (fuel : nat) data L d (es ep : list R) :
  slater_atoms fl files (Some e) false false fuel = Some (Ok data) -> describes (atom_of data) L -> Forall valid L -> Forall (fun s => 0 <= s_occ s) L ->
  get_ugbs_exponents fl ugbs (Some e) = Ok d -> dget (str "S") d = Some (map Fin es) -> dget (str "P") d = Some (map Fin ep) -> (0 < length es + length ep)%nat ->
  (0 < z)%Z -> (0 <= nc)%Z -> (3 <= nd)%Z -> keeps_bounds minimize ->
  exists r pts W c e1 mx x, slsqp_fit minimize fl ugbs files e z nc nd (map Fin extra) me norm cons fuel = Some (Ok r) /\
    clenshaw_init (VInt z) (VInt nc) (VInt nd) (EList (map Fin extra)) (VBool true) = Ok (map Fin pts) /\ spherical_weights pts W /\
    q_coeffs r = map Fin c /\ q_exps r = map Fin e1 /\ length c = (length es + length ep)%nat /\ length e1 = (length es + length ep)%nat /\
    Forall (fun y => 1 / 10 ^ 12 <= y) (c ++ e1) /\
    let f := map (rho L) pts in
    let g := values norm (map (lay_atom (length es) (length ep)) (map Rabs pts)) c e1 in
    q_perf r = [Fin (quad W g); Fin (quad W (map2 (fun x y => Rabs (x - y)) f g)); Fin mx; Fin (quad W (map2 sq_fn f g)); x] /\
    is_max (map2 (fun x y => Rabs (x - y)) f g) mx /\
    ((exists i, bare_zero (/ 10 ^ 18) f g i) -> x = NaN) /\ ((forall i, ~ bare_zero (/ 10 ^ 18) f g i) -> exists y, x = Fin y).
Proof.
  intros Sl De V O Ug Ds Dp Ln Hz Hc Hd KB.
  destruct (setup_ok fl ugbs files e z nc nd extra me norm fuel data L d es ep Sl De V O Ug Ds Dp Ln Hz Hc Hd) as (S & pts & W & E & Asc & L2 & SW & SS & Gr & Mk & Sq & Nf & Es).
  set (n := (length es + length ep)%nat) in *. set (lays := map (lay_atom (length es) (length ep)) (map Rabs pts)) in *.
  destruct (scipy_facts _ _ _ _ _ _ _ _ SS) as (m & mask & Hft & Hme & Hv & Hne & Hw & HN).
  assert (Em : mask = / 10 ^ 18). { pose proof (fo_mask _ _ _ _ _ Hft) as Q. rewrite Mk in Q. now injection Q as <-. } subst mask.
  set (c0 := repeat (IZR z / INR n) n) in *. set (e0 := map (fun x => x * 2) (es ++ ep)) in *.
  assert (Nb : g_nbasis (ft_model (sc_fit S)) = Z.of_nat n). { rewrite (fo_model _ _ _ _ _ Hft), (vf_nb _ _ _ _ Hv), Nf. reflexivity. }
  destruct (scipy_problem S (map Fin c0) (map Fin e0) true true 10000 (Fin (/ 10 ^ 14)) cons) as [pb|] eqn:Ep; [|discriminate].
  destruct (KB pb) as (o & x & Eo & Ex & Bx).
  destruct (problem_ok _ _ _ _ _ _ _ _ _ Ep) as (_ & _ & _ & _ & _ & Pl & _). rewrite Nb, Nat2Z.id in Pl. cbn [andb] in Pl. rewrite Pl in Bx.
  destruct (forall2_repeat _ _ _ Bx) as [Lx Fx].
  set (c := firstn n x). set (e1 := skipn n x). assert (X : x = c ++ e1) by (symmetry; apply firstn_skipn).
  assert (Lc : length c = n) by (unfold c; rewrite firstn_length; lia). assert (Le : length e1 = n) by (unfold e1; rewrite skipn_length; lia).
  rewrite X in Fx. pose proof Fx as Fx'. apply Forall_app in Fx'. destruct Fx' as [Fc Fe]. pose proof low_pos as LP. unfold low in LP.
  assert (Nc : nonneg c) by (eapply Forall_impl; [|exact Fc]; intros y Hy; cbv beta in Hy; lra).
  assert (Pe : positive e1) by (eapply Forall_impl; [|exact Fe]; intros y Hy; cbv beta in Hy; lra).
  assert (HP : nan_passes (sc_fit S) (length W)).
  { destruct SW as [-> _]. rewrite <- (map_length Fin pts). apply radial_passes; [exact Gr|rewrite map_length; exact L2]. }
  assert (Hm : 0 <= / 10 ^ 18) by (apply Rlt_le, Rinv_0_lt_compat, pow_lt; lra).
  destruct (goodness_four (sc_fit S) W (map (rho L) pts) m (/ 10 ^ 18) norm lays (nfun lays) c e1 Hft Hv (ss_lenl _ _ _ _ _ _ _ _ SS) Hne ltac:(lia) ltac:(lia) (fun _ => Pe) Hm Nc HP) as (mx & y & G1 & G2).
  eexists _, pts, W, c, e1, mx, y. split.
  - unfold slsqp_fit. rewrite Es. cbn [bindo]. unfold scipy_run. rewrite Ep. cbn [bind]. rewrite Eo. cbn [bind andb]. rewrite Ex, X, map_app, Nb.
    destruct (slice_halves (map Fin c) (map Fin e1) n ltac:(rewrite map_length; exact Lc)) as [-> ->]. rewrite G1. cbn [bind]. reflexivity.
  - cbn [q_coeffs q_exps q_perf]. split; [exact E|]. split; [exact SW|]. split; [reflexivity|]. split; [reflexivity|]. split; [exact Lc|]. split; [exact Le|]. split; [exact Fx|]. cbv zeta. split; [reflexivity|exact G2].
Qed.

(** ** The data of the package *)
Definition least_ok (f : list text) : bool := match table f with Some es => forallb (fun x => gtb (snd x) (1%Z, 3%nat)) es | None => false end.
Lemma least_checked : least_ok (map str ygbs) = true.
Proof. vm_compute. reflexivity. Qed.
Lemma shells_in l g v : In v (shells l g) -> In v (map snd g).
Proof. unfold shells. rewrite !in_map_iff. intros (x & E & I). apply filter_In in I. exists x. tauto. Qed.
Lemma group_in e es v : In v (map snd (group e es)) -> exists x, In x es /\ snd x = v.
Proof. unfold group. rewrite map_map, in_map_iff. intros (x & E & I). apply filter_In in I. exists x. split; [tauto|exact E]. Qed.
Lemma shipped_least fl yg e ns s : file_ok yg = true -> least_ok yg = true -> reads_decimals fl -> reads_scientific fl -> In (e, ns) ugbs_sizes -> same_name (str s) (str e) ->
  exists d, get_ugbs_exponents fl yg (Some s) = Ok d /\
    forall l, (l <= 3)%nat -> exists v, dget [l_char l] d = Some (map Fin v) /\ length v = nth l ns 0%nat /\ Forall (fun x => / 10 ^ 3 < x) v.
Proof.
  intros C LC Hd Hs I S. unfold least_ok in LC. destruct (table yg) as [es|] eqn:T; [|discriminate]. unfold file_ok in C. rewrite T in C. apply andb_true_iff in C. destruct C as [G C2].
  assert (N : forall x, In x es -> exists e ns, In (e, ns) ugbs_sizes /\ fst (fst x) = str e).
  { intros x J. rewrite forallb_forall in C2. specialize (C2 x J). apply existsb_exists in C2. destruct C2 as ([e' ns'] & J' & E).
    exists e', ns'. split; auto. destruct (text_eqb_spec (fst (fst x)) (str (fst (e', ns')))); [auto|discriminate]. }
  assert (E := names_element e ns I).
  destruct (exponents_ok fl s _ _ _ (table_ok fl Hd Hs _ _ T) (otherb_no s (same_name_elementb s e S E))) as (d & H1 & H2 & H3). exists d. split; auto.
  rewrite forallb_forall in G. specialize (G _ I). unfold group_ok in G. cbn [fst snd] in G. cbv zeta in G. apply andb_true_iff in G. destruct G as [_ G]. rewrite forallb_forall in G.
  intros l Hl. exists (map value (shells l (group (str e) es))).
  assert (J : In l [0; 1; 2; 3]%nat) by (cbn; lia). specialize (G l J). apply andb_true_iff in G. destruct G as [_ G2]. apply Nat.eqb_eq in G2.
  rewrite (H3 l Hl), chosen_picked, (picked_shells s e); auto; [split; auto; split; [now rewrite map_length|]|].
  - rewrite Forall_map. apply Forall_forall. intros v Iv. apply shells_in, group_in in Iv. destruct Iv as (x & Ix & <-). rewrite forallb_forall in LC. specialize (LC x Ix). apply gtb_ok in LC.
    unfold value at 1 in LC. cbn [fst snd] in LC. lra.
  - intros [[w k] v] Jw. destruct (N _ Jw) as (e' & ns' & J' & Q0). cbn [fst] in *. subst w. destruct (text_eqb_spec (str e') (str e)) as [Q|Q].
    + rewrite Q. apply same_nameb_spec. reflexivity.
    + destruct (same_nameb (str e') (str e)) eqn:B; auto. apply same_nameb_spec in B. exfalso. apply Q. f_equal. eapply names_distinct; eauto.
Qed.

Lemma start_low z (es ep : list R) n : n = (length es + length ep)%nat -> (0 < z)%Z -> (0 < n < 1000)%nat -> Forall (fun x => / 10 ^ 3 < x) es -> Forall (fun x => / 10 ^ 3 < x) ep ->
  Forall (fun y => 1 / 10 ^ 12 <= y) (repeat (IZR z / INR n) n ++ map (fun x => x * 2) (es ++ ep)).
Proof.
  intros En Hz [Hn Hm] Fs Fp. assert (S : 1 / 10 ^ 12 <= / 10 ^ 3).
  { unfold Rdiv. rewrite Rmult_1_l. apply Rinv_le_contravar; [apply pow_lt; lra|]. apply Rle_pow; [lra|lia]. }
  apply Forall_app. split.
  - apply Forall_forall. intros y Hy. apply repeat_spec in Hy. subst y. apply Rle_trans with (/ 10 ^ 3); [exact S|]. assert (1 <= IZR z) by (apply IZR_le; lia).
    assert (Pn : 0 < INR n) by (apply lt_0_INR; lia). apply Rle_trans with (/ INR n).
    + apply Rinv_le_contravar; [exact Pn|]. replace (10 ^ 3) with (INR 1000); [apply le_INR; lia|]. rewrite INR_IZR_INZ. replace (Z.of_nat 1000) with 1000%Z by reflexivity. lra.
    + unfold Rdiv. rewrite <- (Rmult_1_l (/ INR n)) at 1. apply Rmult_le_compat_r; [|assumption]. apply Rlt_le, Rinv_0_lt_compat, Pn.
  - rewrite Forall_map. apply Forall_app. split; [eapply Forall_impl; [|exact Fs]|eapply Forall_impl; [|exact Fp]]; intros x Hx; cbv beta in *; pose proof low_pos; unfold low in *; lra.
Qed.
Lemma sizes_small : forallb (fun s => Nat.ltb 0 (nth 0 (snd s) 0%nat) && Nat.ltb (nth 0 (snd s) 0%nat + nth 1 (snd s) 0%nat) 1000)%bool ugbs_sizes = true.
Proof. vm_compute. reflexivity. Qed.

Lemma rdot_zero W : rdot W (repeat 0 (length W)) = 0.
Proof. unfold rdot. induction W as [|a W IH]; [reflexivity|]. cbn [length repeat map2]. rewrite rsum_cons', IH. ring. Qed.
Lemma rdot_inj : forall W W', length W = length W' -> (forall y, length y = length W -> rdot W y = rdot W' y) -> W = W'.
Proof.
  induction W as [|a W IH]; intros [|b W'] L H; try discriminate; [reflexivity|]. cbn in L. injection L as L.
  assert (C : forall (x : R) l u y, rdot (x :: l) (u :: y) = x * u + rdot l y) by (intros; unfold rdot; cbn [map2]; now rewrite rsum_cons').
  f_equal.
  - pose proof (H (1 :: repeat 0 (length W)) ltac:(cbn; now rewrite repeat_length)) as Q. rewrite !C in Q. rewrite rdot_zero in Q. rewrite L, rdot_zero in Q. lra.
  - apply IH; [exact L|]. intros y Hy. pose proof (H (0 :: y) ltac:(cbn; now rewrite Hy)) as Q. rewrite !C in Q. lra.
Qed.
Lemma tables_34 fl rest s n e ns fuel : reads_decimals fl -> reads_scientific fl -> element s n -> In (e, ns) ugbs_sizes -> same_name (str s) (str e) -> (100 <= fuel)%nat ->
  exists data L pts W S3 S4 c0 e0, slater_atoms fl (archive_files rest) (Some s) false false fuel = Some (Ok data) /\ describes (atom_of data) L /\ Forall (fun s => 0 <= s_occ s) L /\
    clenshaw_init (VInt (Z.of_nat n)) (VInt 10000) (VInt 899) (EList (map Fin [50; 75; 100])) (VBool true) = Ok (map Fin pts) /\ spherical_weights pts W /\
    (let lays := map (lay_atom (nth 0 ns 0%nat) (nth 1 ns 0%nat)) (map Rabs pts) in
     let f := map (rho L) pts in
     scipy_setting S3 (MKL (Fin (/ 10 ^ 18)) (Fin 100000)) W (repeat 1 (length pts)) f true lays (quad W f) /\
     scipy_setting S4 MSq W (repeat 1 (length pts)) f false lays (quad W f)) /\
    length c0 = (nth 0 ns 0 + nth 1 ns 0)%nat /\ length e0 = length c0 /\ rsum c0 = INR n /\ Forall (fun y => 1 / 10 ^ 12 <= y) (c0 ++ e0) /\
    forall minimize,
      table_3 minimize fl (map str ygbs) (archive_files rest) s (Z.of_nat n) fuel =
        Some (scipy_run minimize S3 (map Fin c0) (map Fin e0) true true 10000 (Fin (/ 10 ^ 14)) true) /\
      table_4 minimize fl (map str ygbs) (archive_files rest) s (Z.of_nat n) fuel =
        Some (scipy_run minimize S4 (map Fin c0) (map Fin e0) true true 10000 (Fin (/ 10 ^ 14)) false).
Proof.
  intros Hd Hs El I S Hl.
  destruct (archive_leading fl Hd rest Neutral s n El Logic.I ltac:(discriminate) ltac:(discriminate) fuel Hl) as (data & L & Sl & De & V & O & _).
  destruct (shipped_least fl (map str ygbs) e ns s ugbs_checked least_checked Hd Hs I S) as (d & Ug & G).
  destruct (G 0%nat ltac:(lia)) as (es & Es & Les & Ps). destruct (G 1%nat ltac:(lia)) as (ep & Ep & Lep & Pp).
  assert (P0 := sizes_small). rewrite forallb_forall in P0. specialize (P0 _ I). cbn [snd] in P0. apply andb_true_iff in P0. destruct P0 as [P0 P1]. apply Nat.ltb_lt in P0. apply Nat.ltb_lt in P1.
  rewrite <- Les, <- Lep in *. assert (Hn : (0 < Z.of_nat n)%Z) by (destruct El as [El _]; lia).
  assert (A1 : (0 <= 10000)%Z) by (apply Z.leb_le; reflexivity). assert (A2 : (3 <= 899)%Z) by (apply Z.leb_le; reflexivity).
  destruct (setup_ok fl (map str ygbs) (archive_files rest) s (Z.of_nat n) 10000 899 [50; 75; 100] (MKL (Fin (/ 10 ^ 18)) (Fin 100000)) true fuel data L d es ep Sl De V O Ug Es Ep ltac:(lia) Hn A1 A2)
    as (S3 & pts & W & E & Asc & L2 & SW & SS & _ & _ & _ & _ & Est).
  destruct (setup_ok fl (map str ygbs) (archive_files rest) s (Z.of_nat n) 10000 899 [50; 75; 100] MSq false fuel data L d es ep Sl De V O Ug Es Ep ltac:(lia) Hn A1 A2)
    as (S4 & pts' & W' & E' & _ & _ & SW' & SS' & _ & _ & _ & _ & Est').
  assert (pts' = pts). { rewrite E in E'. injection E' as E'. symmetry. clear -E'. revert pts' E'. induction pts as [|a l IH]; intros [|b l'] H; try discriminate; [reflexivity|]. cbn in H. injection H as <- H. f_equal. now apply IH. } subst pts'.
  assert (W' = W).
  { destruct SW as (L1 & _ & Q1), SW' as (L1' & _ & Q1'). symmetry. apply rdot_inj; [congruence|]. intros y Hy. change (quad W y = quad W' y). rewrite Q1, Q1' by congruence. reflexivity. } subst W'.
  exists data, L, pts, W, S3, S4, (repeat (IZR (Z.of_nat n) / INR (length es + length ep)) (length es + length ep)), (map (fun x => x * 2) (es ++ ep)).
  split; [exact Sl|]. split; [exact De|]. split; [exact O|]. split; [exact E|]. split; [exact SW|]. split; [split; [exact SS|exact SS']|]. split; [apply repeat_length|]. split; [rewrite map_length, app_length, repeat_length; reflexivity|].
  split; [|split; [apply start_low; auto; lia|]].
  - rewrite <- INR_IZR_INZ. set (k := (length es + length ep)%nat) in *. assert (Pk : INR k <> 0) by (apply not_0_INR; lia).
    assert (Q : forall a m, rsum (repeat a m) = INR m * a). { clear. induction m as [|m IH]; [cbn; ring|]. cbn [repeat]. rewrite rsum_cons', IH, S_INR. ring. }
    rewrite Q. field. exact Pk.
  - intros minimize. unfold table_3, table_4, slsqp_fit. rewrite Est, Est'. split; reflexivity.
Qed.

Lemma scripts_34 minimize fl rest s n e ns fuel : reads_decimals fl -> reads_scientific fl -> element s n -> In (e, ns) ugbs_sizes -> same_name (str s) (str e) -> (100 <= fuel)%nat -> keeps_bounds minimize ->
  exists r c e1 r' c' e', table_3 minimize fl (map str ygbs) (archive_files rest) s (Z.of_nat n) fuel = Some (Ok r) /\
    table_4 minimize fl (map str ygbs) (archive_files rest) s (Z.of_nat n) fuel = Some (Ok r') /\
    q_coeffs r = map Fin c /\ q_exps r = map Fin e1 /\ q_coeffs r' = map Fin c' /\ q_exps r' = map Fin e' /\
    length c = (nth 0 ns 0 + nth 1 ns 0)%nat /\ length e1 = length c /\ length c' = length c /\ length e' = length c /\
    Forall (fun y => 1 / 10 ^ 12 <= y) (c ++ e1 ++ c' ++ e') /\ length (q_perf r) = 5%nat /\ length (q_perf r') = 5%nat.
Proof.
  intros Hd Hs El I S Hl KB.
  destruct (archive_leading fl Hd rest Neutral s n El Logic.I ltac:(discriminate) ltac:(discriminate) fuel Hl) as (data & L & Sl & De & V & O & _).
  destruct (shipped_least fl (map str ygbs) e ns s ugbs_checked least_checked Hd Hs I S) as (d & Ug & G).
  destruct (G 0%nat ltac:(lia)) as (es & Es & Les & Ps). destruct (G 1%nat ltac:(lia)) as (ep & Ep & Lep & Pp).
  assert (P0 := sizes_small). rewrite forallb_forall in P0. specialize (P0 _ I). cbn [snd] in P0. apply andb_true_iff in P0. destruct P0 as [P0 _]. apply Nat.ltb_lt in P0.
  assert (Hn : (0 < Z.of_nat n)%Z) by (destruct El as [El _]; lia).
  assert (A1 : (0 <= 10000)%Z) by (apply Z.leb_le; reflexivity). assert (A2 : (3 <= 899)%Z) by (apply Z.leb_le; reflexivity).
  destruct (run_ok minimize fl (map str ygbs) (archive_files rest) s (Z.of_nat n) 10000 899 [50; 75; 100] (MKL (Fin (/ 10 ^ 18)) (Fin 100000)) true true fuel data L d es ep Sl De V O Ug Es Ep ltac:(lia) Hn A1 A2 KB)
    as (r & pts & W & c & e1 & mx & x & R1 & _ & _ & R2 & R3 & R4 & R5 & R6 & R7 & _).
  destruct (run_ok minimize fl (map str ygbs) (archive_files rest) s (Z.of_nat n) 10000 899 [50; 75; 100] MSq false false fuel data L d es ep Sl De V O Ug Es Ep ltac:(lia) Hn A1 A2 KB)
    as (r' & pts' & W' & c' & e' & mx' & x' & R1' & _ & _ & R2' & R3' & R4' & R5' & R6' & R7' & _).
  exists r, c, e1, r', c', e'. split; [exact R1|]. split; [exact R1'|]. split; [exact R2|]. split; [exact R3|]. split; [exact R2'|]. split; [exact R3'|]. split; [lia|]. split; [lia|]. split; [lia|]. split; [lia|].
  split; [rewrite app_assoc; apply Forall_app; split; assumption|]. rewrite R7, R7'. split; reflexivity.
Qed.
Lemma named_34 s z : In (s, z) table_34_atoms -> exists n e ns, z = Z.of_nat n /\ element s n /\ In (e, ns) ugbs_sizes /\ same_name (str s) (str e).
Proof. intros I. apply (named_spec s z), in_or_app. right. exact I. Qed.

(** ** Objectives *)
Lemma ones_mul l n : length l = n -> map2 Rmult (repeat 1 n) l = l.
Proof. revert n. induction l as [|a l IH]; intros [|n] H; try discriminate; [reflexivity|]. cbn [repeat map2]. rewrite IH by (cbn in H; lia). f_equal. ring. Qed.
Lemma least_squares S W f norm lays N c e : scipy_setting S MSq W (repeat 1 (length f)) f norm lays N -> sized lays c e -> (norm = true -> positive e) ->
  exists d, scipy_func S (map Fin (c ++ e)) SBoth = Ok (Fin (quad W (map2 sq_fn f (values norm lays c e))), map Fin d) /\ length d = length (c ++ e) /\
    forall k, (k < length (c ++ e))%nat -> exists O : R -> R,
      locally (nth k (c ++ e) 0) (fun t => exists d', scipy_func S (map Fin (upd (c ++ e) k t)) SBoth = Ok (Fin (O t), d')) /\ is_derive O (nth k (c ++ e) 0) (nth k d 0).
Proof.
  intros Hs Hz Hp. destruct (func_gradient S MSq W (repeat 1 (length f)) f norm lays N SBoth (c ++ e) c e Hs (mode_both c e) Hz Hp) as (obj & d & E & Ld & Eo & G).
  - intros i Hi. exact I.
  - exists d. split; [|split; [exact Ld|exact G]]. rewrite E, Eo. do 3 f_equal. rewrite ones_mul; [reflexivity|]. rewrite map2_length. unfold values. rewrite map_length.
    pose proof (ss_lenf _ _ _ _ _ _ _ _ Hs). pose proof (ss_lenl _ _ _ _ _ _ _ _ Hs). lia.
Qed.
