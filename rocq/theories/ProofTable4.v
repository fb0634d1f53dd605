(** The fits of atomdb_db.py and of the notebook atomic_density.ipynb (C105). *)
From Coquelicot Require Import Coquelicot.
From Coq Require Import Reals String Ascii List ZArith Lia Lra Bool Sorted.
From Verif Require Import XR PyStr PyText ModelParse SpecParse SpecDens SpecMeas SpecGrid SpecSlater ModelDens ModelMeas ModelGrid ModelFit ModelSlater ModelLoad SpecLoad SpecFile SpecElem SpecTar ProofElem
  ProofExpPoly Lists ProofDens ProofInit ProofDeriv ProofMeas ProofGrid ProofSlater SpecFit ProofFitView ProofFit ProofFPI ProofFPI2 SpecZero ProofZero SpecSteps ProofSteps
  ProofTar ProofTar2 DataSlater DataTar ProofNames SpecUgbs DataUgbs ProofUgbs SpecScript ProofScript ProofTable ProofTable2 SpecScript2 ProofTable3 SpecFill ProofFill SpecScript3.
Import ListNotations.
Local Open Scope R_scope.

(** ** The weights are those of the trapezoidal rule with 4 pi r^2 *)
Lemma steps_spherical pts f ns np norm mask n0 :
  ascending pts -> length f = length pts -> nonneg f -> substantial pts f -> (0 < ns + np)%nat -> 0 <= mask -> match n0 with Some N => 0 < N | None => True end ->
  exists m fp W N, atomic_init (VArr (A1 (map Fin pts))) VNone (VInt (Z.of_nat ns)) (VInt (Z.of_nat np)) norm = Ok m /\
    fpi_init (mkGridArg (Some (A1 (map Fin pts))) (Some (gr_integrate (radial_grid (map Fin pts))))) (map Fin f) (GAtom m) (Fin mask) (option_map Fin n0) true = Ok fp /\
    fpi_setting fp W f norm (map (lay_atom ns np) (map Rabs pts)) mask N /\ 0 < N /\ nonneg W /\ supported W f (map (lay_atom ns np) (map Rabs pts)) (ns + np) /\
    nan_passes (fp_fit fp) (length W) /\ nfun (map (lay_atom ns np) (map Rabs pts)) = (ns + np)%nat /\ match n0 with Some M => N = M | None => N = rdot W f end /\
    spherical_weights pts W.
Proof.
  intros Asc L Hf S Hn Hm HN. destruct (steps_total pts f ns np norm true mask n0 Asc L Hf S Hn Hm HN) as (m & fp & W & N & Em & Ef & Hs & PN & NW & Sup & Nan & Nf & Et).
  exists m, fp, W, N. do 9 (split; [assumption|]).
  assert (LW : length W = length pts) by (pose proof (fs_lenf _ _ _ _ _ _ _ Hs); lia).
  split; [exact LW|]. split; [exact NW|]. intros y Hy.
  destruct (setting_facts _ _ _ _ _ _ _ Hs) as [m' [Hft Hme Hlm Hnz Hne Hv]].
  pose proof (fo_int _ _ _ _ _ Hft y (eq_trans Hy (eq_sym LW))) as Q.
  destruct (ProofFPI.radial_integrator pts) as (w & Lw & Hw & Hq & _ & Int).
  unfold fpi_init in Ef. destruct (base_init _ _ _ _ _ _ _) as [ft|] eqn:B in Ef; [|discriminate]. cbn [bind] in Ef.
  assert (LW2 : length (map2 (fun w r => w * (4 * PI * r ^ 2)) w pts) = length pts) by (rewrite map2_length; lia).
  destruct (base_fitok _ _ (map2 (fun w r => w * (4 * PI * r ^ 2)) w pts) _ _ _ _ _ _ Int (eq_trans L (eq_sym LW2)) B) as (FO & _ & _).
  pose proof (fo_int _ _ _ _ _ FO y (eq_trans Hy (eq_sym LW2))) as Q2.
  assert (Eft : fp_fit fp = ft). { destruct (fit_integrate ft _) in Ef; [|discriminate]. cbn [bind] in Ef. destruct (_ || _) in Ef; [discriminate|]. now injection Ef as <-. }
  rewrite Eft, Q2 in Q. injection Q as Q. unfold quad. rewrite <- Q, <- Hq by (rewrite map2_length; lia). unfold rdot. clear -Lw Hy. revert pts y Lw Hy. induction w as [|a l IH]; intros [|b p] [|q y] Lp Ly; try discriminate; [unfold rsum; cbn; ring|].
  cbn [map2]. rewrite !rsum_cons', IH by (cbn in *; lia). ring.
Qed.

(** ** Rows of measures of a run *)
Lemma fit_rows fp W f norm lays mask N c e maxiter th r :
  fpi_setting fp W f norm lays mask N -> 0 < N -> nonneg W -> nan_passes (fp_fit fp) (length W) -> supported W f lays (nfun lays) ->
  SpecFit.sized lays c e -> positive c -> positive e ->
  fpi_run fp (VArr (A1 (map Fin c))) (VArr (A1 (map Fin e))) true true maxiter th = Ok r ->
  forall j, (j < length (r_perf r))%nat -> exists cp ep cj ej, SpecFit.sized lays cp ep /\ positive cp /\ positive ep /\ update_params fp (map Fin cp) (map Fin ep) true true = Ok (map Fin cj, map Fin ej) /\
    iterate fp true true (S j) (map Fin c) (map Fin e) = Ok (map Fin cj, map Fin ej) /\
    SpecFit.sized lays cj ej /\ positive cj /\ positive ej /\ row_of mask W f (values norm lays cj ej) (nth j (r_perf r) []) /\
    (S j = length (r_perf r) -> r_coeffs r = map Fin cj /\ r_exps r = map Fin ej).
Proof.
  intros Hs HN HW Nan Sup Sz Pc Pe Hr j Hj.
  destruct (run_consistent _ _ _ _ _ _ _ _ Hr) as (c1 & e1 & E1 & E2 & _ & Lp & It & Rows). injection E1 as <-. injection E2 as <-.
  destruct (iterate_positive _ _ _ _ _ _ _ c e true true j Hs HN HW Sup Sz Pc Pe eq_refl) as (cp & ep & Ep & Sp & Pcp & Pep).
  destruct (iterate_positive _ _ _ _ _ _ _ c e true true (S j) Hs HN HW Sup Sz Pc Pe eq_refl) as (cj & ej & Ej & Sj & Pcj & Pej).
  exists cp, ep, cj, ej. split; [exact Sp|]. split; [exact Pcp|]. split; [exact Pep|]. split; [cbn [iterate] in Ej; rewrite Ep in Ej; exact Ej|].
  split; [exact Ej|]. split; [exact Sj|]. split; [exact Pcj|]. split; [exact Pej|]. split.
  - destruct (Rows j ltac:(lia)) as (xc & xe & Q1 & Q2 & _). rewrite Ej in Q1. injection Q1 as <- <-.
    destruct (setting_facts _ _ _ _ _ _ _ Hs) as [m [Hft Hme Hlm Hnz Hne Hv]].
    destruct (goodness_four (fp_fit fp) W f m mask norm lays (nfun lays) cj ej Hft Hv (fs_lenl _ _ _ _ _ _ _ Hs) Hne (proj1 Sj) (proj2 Sj) (fun _ => Pej) (fs_mask _ _ _ _ _ _ _ Hs) (positive_nonneg _ Pcj) Nan)
      as (mx & x & G & M). rewrite G in Q2. injection Q2 as <-. exists mx, x. split; [reflexivity|exact M].
  - intros Ls. rewrite <- Lp, <- Ls, Ej in It. injection It as <- <-. auto.
Qed.

(** ** Relative errors *)
Lemma map2_fin (u v : list R) : map2 xmul (map Fin u) (map Fin v) = map Fin (map2 Rmult u v).
Proof. revert v. induction u as [|a u IH]; intros [|b v]; cbn; [reflexivity..|]. now rewrite IH. Qed.
Lemma radial_value pts W y : spherical_weights pts W -> length y = length pts ->
  gr_integrate (radial_grid (map Fin pts)) (map Fin (map2 Rmult y (map (fun r => 4 * PI * (r * r)) pts))) = Ok (Fin (quad W y)).
Proof.
  intros (_ & _ & H) L. cbn [radial_grid gr_integrate]. unfold radial_integrate. rewrite !map_length, map2_length, map_length, L, Nat.min_id, Nat.eqb_refl, xtrapz_fin. do 2 f_equal. rewrite H by exact L.
  assert (T : forall a u v, length u = length v -> trap u (map (Rmult a) v) = a * trap u v).
  { intros a u. induction u as [|x u IH]; intros [|y' v] Q; try discriminate; [cbn; ring|]. destruct u as [|x1 u]; destruct v as [|y1 v]; try discriminate; [cbn; ring|]. cbn [map] in *. specialize (IH (y1 :: v) ltac:(cbn in *; lia)). cbn [map] in IH. cbn [trap] in *. rewrite IH. field. }
  rewrite <- T by (rewrite map2_length; lia). f_equal. clear -L. revert y L. induction pts as [|a p IH]; intros [|b y] L; try discriminate; [reflexivity|]. cbn. rewrite IH by (cbn in L; lia). f_equal. ring.
Qed.
Lemma sq_fin f : map xsq (map Fin f) = map Fin (map (fun x => x * x) f).
Proof. rewrite !map_map. reflexivity. Qed.
Lemma sph_fin pts : map (fun r => xmul (Fin (4 * PI)) (xsq r)) (map Fin pts) = map Fin (map (fun r => 4 * PI * (r * r)) pts).
Proof. rewrite !map_map. reflexivity. Qed.
Lemma errors_ok pts W f row1 row2 row3 row0 x : spherical_weights pts W -> length f = length pts -> (2 <= length pts)%nat -> nonneg f -> 0 < quad W f ->
  exists M k, is_max f M /\ 0 < M /\ 0 < quad W (map (fun y => y * y) f) /\
    relative_errors (map Fin pts) (map Fin f) [row0; Fin row1; Fin row2; Fin row3; x] = Ok [Fin (row1 / quad W f); Fin (row2 / M); Fin (row3 / quad W (map (fun y => y * y) f)); xdiv x k] /\
    (In 0 f -> k = NaN) /\ (positive f -> k = Fin (quad W (map (fun y => y * ln y) f))).
Proof.
  intros SW L L2 Nf Q. pose proof SW as (LW & NW & _).
  destruct (rdot_pos_ex W f) as (i & Hi & Pw & Pf); [lia|exact NW|exact Q|].
  assert (Q2 : 0 < quad W (map (fun y => y * y) f)).
  { apply (Rlt_le_trans _ (nth i W 0 * (nth i f 0 * nth i f 0))); [apply Rmult_lt_0_compat; [exact Pw|nra]|]. clear -Hi NW LW L. unfold quad, rdot. assert (Hl : length W = length f) by lia. clear LW L. revert i f Hi Hl. induction NW as [|a w Ha Hw IH]; intros i [|b f] Hi Hl; try discriminate; [cbn in Hi; lia|].
    cbn [map map2]. rewrite rsum_cons'. assert (Z : 0 <= rsum (map2 Rmult w (map (fun y => y * y) f))).
    { clear -Hw. revert f. induction Hw as [|a w Ha Hw IH]; intros [|b f]; try (unfold rsum; cbn; lra). cbn [map map2]. rewrite rsum_cons'. specialize (IH f). assert (0 <= a * (b * b)) by (apply Rmult_le_pos; nra). lra. }
    destruct i as [|i]; [cbn; lra|]. cbn [nth]. specialize (IH i f ltac:(cbn in Hi; lia) ltac:(cbn in Hl; lia)). assert (0 <= a * (b * b)) by (apply Rmult_le_pos; nra). lra. }
  destruct (np_max_fin f) as (M & EM & MM); [intros E; rewrite E in L; cbn in L; lia|].
  assert (PM : 0 < M). { apply Rlt_le_trans with (nth i f 0); [exact Pf|]. apply MM, nth_In. lia. }
  assert (RI : forall y, length y = length pts -> gr_integrate (radial_grid (map Fin pts)) y = Ok (xtrapz (map Fin pts) y)).
  { intros y Ly. cbn. unfold radial_integrate. rewrite map_length, Ly, Nat.eqb_refl. reflexivity. }
  set (kl := map2 xmul (map2 xmul (map Fin f) (map xln (map Fin f))) (map (fun r => xmul (Fin (4 * PI)) (xsq r)) (map Fin pts))).
  assert (Lk : length kl = length pts) by (unfold kl; rewrite !map2_length, !map_length; lia).
  exists M, (xtrapz (map Fin pts) kl). split; [exact MM|]. split; [exact PM|]. split; [exact Q2|]. split; [|split].
  - unfold relative_errors. fold kl. rewrite (RI kl Lk), sph_fin, sq_fin, !map2_fin, (radial_value pts W f SW L), (radial_value pts W (map (fun y => y * y) f) SW) by (rewrite map_length; exact L).
    cbn [bind]. rewrite EM. cbn [bind nth]. rewrite !xdiv_fin by lra. reflexivity.
  - intros Z. apply xtrapz_nan; [rewrite map_length; lia|rewrite map_length; exact L2|]. apply map2_nan_l; [rewrite map2_length, !map_length; lia|].
    clear -Z. induction f as [|a f IH]; [destruct Z|]. destruct Z as [->|Z]; [left|right; apply IH, Z]. cbn [xln]. rewrite rltb_false by lra. unfold reqb. destruct (Req_EM_T 0 0) as [_|n]; [|lra]. cbn [xmul inf_times]. unfold reqb. destruct (Req_EM_T 0 0) as [_|n]; [reflexivity|lra].
  - intros P. assert (E : map2 xmul (map Fin f) (map xln (map Fin f)) = map Fin (map (fun y => y * ln y) f)).
    { clear -P. induction P as [|a f Ha P IH]; [reflexivity|]. cbn [map map2]. rewrite IH. cbn [xln]. rewrite rltb_true by exact Ha. reflexivity. }
    unfold kl. rewrite E, sph_fin, map2_fin. assert (L3 : length (map (fun y => y * ln y) f) = length pts) by (rewrite map_length; exact L).
    pose proof (radial_value pts W (map (fun y => y * ln y) f) SW L3) as R. rewrite RI in R by (rewrite map_length, map2_length, !map_length; lia). now injection R as ->.
Qed.

(** ** The fit of atomdb_db.py *)
Lemma clip_fin v : map clip (map Fin v) = map Fin (map (Rmax 0) v).
Proof.
  rewrite !map_map. apply map_ext. intros x. unfold clip. cbn [xltb]. destruct (Rlt_dec x 0) as [H|H]; [rewrite rltb_true, Rmax_left by lra; reflexivity|rewrite rltb_false, Rmax_right by lra; reflexivity].
Qed.
Lemma clenshaw_none z nc nd inc : clenshaw_init (VInt z) (VInt nc) (VInt nd) ENone (VBool inc) = clenshaw_init (VInt z) (VInt nc) (VInt nd) (EList (map Fin [])) (VBool inc).
Proof. unfold clenshaw_init. cbn [as_int map]. rewrite app_nil_r. reflexivity. Qed.
Lemma clenshaw_asc z nc nd pts : (0 < z)%Z -> (0 <= nc)%Z -> (0 <= nd)%Z -> clenshaw_init (VInt z) (VInt nc) (VInt nd) ENone (VBool true) = Ok (map Fin pts) -> ascending pts.
Proof.
  intros Hz Hc Hd E. rewrite clenshaw_none, clenshaw_ok in E by assumption. injection E as E. apply ProofGrid.map_Fin_inj in E. subst pts. apply rsort_sorted.
Qed.
Lemma clenshaw_origin z nc nd pts : (0 < z)%Z -> (0 < nc)%Z -> (0 <= nd)%Z -> clenshaw_init (VInt z) (VInt nc) (VInt nd) ENone (VBool true) = Ok (map Fin pts) -> In 0 pts.
Proof.
  intros Hz Hc Hd E. rewrite clenshaw_none, clenshaw_ok in E by lia. injection E as E. apply ProofGrid.map_Fin_inj in E. subst pts.
  apply (Permutation.Permutation_in _ (Permutation.Permutation_sym (rsort_perm _))). apply in_or_app. left. unfold core_points. apply in_map_iff. exists 0%nat. split.
  - replace (5 / 10 * PI * INR 0 / INR (Z.to_nat nc)) with 0 by (unfold Rdiv; change (INR 0) with 0; ring). rewrite cos_0. unfold Rdiv. ring.
  - apply in_seq. split; lia.
Qed.
Lemma substantial_two pts f : substantial pts f -> (2 <= length pts)%nat.
Proof. unfold substantial. destruct pts as [|p0 [|p1 pts]]; cbn; intros H; try lra; try lia. Qed.
Lemma substantial_quad pts W f : spherical_weights pts W -> length f = length pts -> substantial pts f -> 0 < quad W f.
Proof. intros (_ & _ & H) L S. rewrite H by exact L. pose proof PI_RGT_0. apply Rmult_lt_0_compat; [lra|exact S]. Qed.

Lemma atomdb_runs fl ugbs dens (e : string) (z nc nd : Z) (pts v : list R) d (es ep : list R) :
  get_ugbs_exponents fl ugbs (Some e) = Ok d -> dget (str "S") d = Some (map Fin es) -> dget (str "P") d = Some (map Fin ep) -> positive es -> positive ep -> (0 < length es + length ep)%nat ->
  (0 < z)%Z -> (0 <= nc)%Z -> (0 <= nd)%Z -> clenshaw_init (VInt z) (VInt nc) (VInt nd) ENone (VBool true) = Ok (map Fin pts) -> dens (map Fin pts) = map Fin v -> length v = length pts ->
  let f := map (Rmax 0) v in let ns := length es in let n := (length es + length ep)%nat in let lays := map (lay_atom (length es) (length ep)) (map Rabs pts) in
  substantial pts f ->
  exists fp W r c e1 row errs, spherical_weights pts W /\ fpi_setting fp W f true lays (/ 10 ^ 18) (IZR z) /\ supported W f lays n /\ nan_passes (fp_fit fp) (length W) /\
    fpi_run fp (VArr (A1 (map Fin (repeat (IZR z / INR n) n)))) (VArr (A1 (map Fin (map (fun x => x * 2) (es ++ ep))))) true true 10000 (mkThr (Fin (/ 10 ^ 6)) (Fin (/ 10 ^ 6)) (Fin (/ 10 ^ 14))) = Ok r /\
    r_coeffs r = map Fin c /\ r_exps r = map Fin e1 /\ length c = n /\ length e1 = n /\ positive c /\ positive e1 /\
    last (r_perf r) [] = row /\ row_of (/ 10 ^ 18) W f (values true lays c e1) row /\ errors_of W f (values true lays c e1) row errs /\
    atomdb_fit fl ugbs dens e z nc nd = Ok (mkEntry (map Fin (firstn ns c)) (map Fin (firstn ns e1)) (map Fin (skipn ns c)) (map Fin (skipn ns e1)) row (r_success r) errs).
Proof.
  intros Ug Ds Dp Ps Pp Ln Hz Hc Hd E Ev Lv f ns n lays Sub.
  assert (Asc := clenshaw_asc z nc nd pts Hz Hc Hd E). assert (L : length f = length pts) by (unfold f; rewrite map_length; exact Lv).
  assert (Nf : nonneg f) by (unfold nonneg, f; rewrite Forall_map; apply Forall_forall; intros x _; apply Rmax_l).
  assert (Pz : 0 < IZR z) by (apply IZR_lt; exact Hz). assert (Pn : 0 < INR n) by (apply lt_0_INR; exact Ln).
  set (c0 := repeat (IZR z / INR n) n). set (e0 := map (fun x => x * 2) (es ++ ep)).
  assert (Pc : positive c0). { apply Forall_forall. intros x Hx. apply repeat_spec in Hx. subst x. now apply Rdiv_lt_0_compat. }
  assert (Pe : positive e0). { unfold positive, e0. rewrite Forall_map. apply Forall_app. split; [eapply Forall_impl; [|exact Ps]|eapply Forall_impl; [|exact Pp]]; intros x Hx; cbv beta in *; lra. }
  assert (Lc : length c0 = n) by apply repeat_length.
  assert (Le : length e0 = n) by (unfold e0; rewrite map_length; apply app_length).
  assert (Hm : 0 <= / 10 ^ 18) by (apply Rlt_le, Rinv_0_lt_compat, pow_lt; lra).
  destruct (steps_spherical pts f (length es) (length ep) true (/ 10 ^ 18) (Some (IZR z)) Asc L Nf Sub Ln Hm Pz) as (m & fp & W & N & Em & Ef & Hs & PN & NW & Sup & Nan & Nfn & EN & SW). subst N.
  fold lays in Hs, Sup, Nfn. fold n in Sup, Nfn.
  assert (Sz : SpecFit.sized lays c0 e0) by (split; congruence).
  destruct (run_zero _ _ _ _ _ _ _ c0 e0 true true 10000 (mkThr (Fin (/ 10 ^ 6)) (Fin (/ 10 ^ 6)) (Fin (/ 10 ^ 14))) Hs PN NW Nan ltac:(rewrite Nfn; exact Sup) eq_refl Sz Pc Pe) as (r & c & e1 & Hr & A & B & [C1 C2] & D & F & _).
  assert (Hi : (0 < 10000)%Z) by reflexivity. destruct (run_nonempty _ _ _ _ _ _ _ _ _ _ Hi Hr) as [R1 R2].
  assert (Np : r_perf r <> []). { intros Q. rewrite Q in R2. cbn in R2. lia. }
  destruct (exists_last Np) as (l & row & El).
  destruct (fit_rows _ _ _ _ _ _ _ c0 e0 10000 _ r Hs PN NW Nan ltac:(rewrite Nfn; exact Sup) Sz Pc Pe Hr (length l) ltac:(rewrite El, app_length; cbn; lia)) as (cp & ep' & cj & ej & _ & _ & _ & _ & _ & _ & _ & _ & Row & Last).
  destruct (Last ltac:(rewrite El, app_length; cbn; lia)) as [Q1 Q2]. rewrite A in Q1. rewrite B in Q2. apply ProofGrid.map_Fin_inj in Q1. apply ProofGrid.map_Fin_inj in Q2. subst cj ej. clear Last.
  rewrite El, app_nth2, Nat.sub_diag in Row by lia. cbn [nth] in Row.
  pose proof Row as (mx & x & Er & Mx & Z1 & Z2).
  assert (Qf := substantial_quad pts W f SW L Sub).
  destruct (errors_ok pts W f (quad W (map2 (fun x y => Rabs (x - y)) f (values true lays c e1))) mx (quad W (map2 sq_fn f (values true lays c e1))) (Fin (quad W (values true lays c e1))) x SW L (substantial_two _ _ Sub) Nf Qf)
    as (M & k & MM & PM & _ & Er2 & K0 & K1).
  eexists fp, W, r, c, e1, row, _. split; [exact SW|]. split; [exact Hs|]. split; [exact Sup|]. split; [exact Nan|]. split; [exact Hr|]. split; [exact A|]. split; [exact B|].
  split; [congruence|]. split; [congruence|]. split; [exact D|]. split; [exact F|]. split; [rewrite El; apply last_last|]. split; [exact Row|]. split.
  2:{ unfold atomdb_fit. rewrite E. cbn [bind]. rewrite Ug. cbn [bind]. unfold dlookup. rewrite Ds, Dp. cbn [bind]. rewrite !map_length. fold n. rewrite (share_ok z n Ln). cbn [bind]. rewrite Em. cbn [bind].
      rewrite Ev, clip_fin. fold f. cbn [option_map] in Ef. rewrite Ef. cbn [bind].
      replace (repeat (Fin (IZR z / INR n)) n) with (map Fin c0) by (unfold c0; apply map_repeat).
      replace (map (fun x => xmul x (Fin 2)) (map Fin es ++ map Fin ep)) with (map Fin e0) by (unfold e0; rewrite <- map_app, !map_map; reflexivity).
      rewrite Hr. cbn [bind]. rewrite El, rev_app_distr. cbn [rev app]. rewrite Er, Er2. cbn [bind]. rewrite A, B, !firstn_map, !skipn_map. reflexivity. }
  exists M, mx, x, (xdiv x k). split; [exact MM|]. rewrite Er. split; [reflexivity|]. split; [reflexivity|]. split; [reflexivity|]. split; [intros Z; rewrite (K0 Z); destruct x; reflexivity|intros P; now rewrite (K1 P)].
Qed.
Lemma atomdb_elements fl dens s n e ns nc nd (pts v : list R) : reads_decimals fl -> reads_scientific fl -> element s n -> In (e, ns) ugbs_sizes -> same_name (str s) (str e) ->
  (0 <= nc)%Z -> (0 <= nd)%Z -> clenshaw_init (VInt (Z.of_nat n)) (VInt nc) (VInt nd) ENone (VBool true) = Ok (map Fin pts) -> dens (map Fin pts) = map Fin v -> length v = length pts ->
  let f := map (Rmax 0) v in let k := (nth 0 ns 0 + nth 1 ns 0)%nat in let lays := map (lay_atom (nth 0 ns 0%nat) (nth 1 ns 0%nat)) (map Rabs pts) in
  substantial pts f ->
  exists fp W r c0 e0 c e1 row errs, spherical_weights pts W /\ fpi_setting fp W f true lays (/ 10 ^ 18) (INR n) /\ supported W f lays k /\ nan_passes (fp_fit fp) (length W) /\
    length c0 = k /\ length e0 = k /\ positive c0 /\ positive e0 /\ rsum c0 = INR n /\
    fpi_run fp (VArr (A1 (map Fin c0))) (VArr (A1 (map Fin e0))) true true 10000 (mkThr (Fin (/ 10 ^ 6)) (Fin (/ 10 ^ 6)) (Fin (/ 10 ^ 14))) = Ok r /\
    r_coeffs r = map Fin c /\ r_exps r = map Fin e1 /\ length c = k /\ length e1 = k /\ positive c /\ positive e1 /\
    last (r_perf r) [] = row /\ row_of (/ 10 ^ 18) W f (values true lays c e1) row /\ errors_of W f (values true lays c e1) row errs /\
    atomdb_fit fl (map str ygbs) dens s (Z.of_nat n) nc nd =
      Ok (mkEntry (map Fin (firstn (nth 0 ns 0%nat) c)) (map Fin (firstn (nth 0 ns 0%nat) e1)) (map Fin (skipn (nth 0 ns 0%nat) c)) (map Fin (skipn (nth 0 ns 0%nat) e1)) row (r_success r) errs).
Proof.
  intros Hd Hs El I S Hc Hn E Ev Lv f k lays Sub.
  destruct (shipped_exponents fl Hd Hs (map str ygbs) ugbs_checked e ns s I S) as (d & Ug & _ & _ & G).
  destruct (G 0%nat ltac:(lia)) as (es & Es & Les & Ps & _). destruct (G 1%nat ltac:(lia)) as (ep & Ep & Lep & Pp & _).
  assert (P0 := sizes_positive). rewrite forallb_forall in P0. specialize (P0 _ I). cbn [snd] in P0. apply Nat.ltb_lt in P0.
  assert (Ln : (0 < length es + length ep)%nat) by lia. assert (Pz : (0 < Z.of_nat n)%Z) by (destruct El as [El _]; lia).
  subst lays k. rewrite <- Les, <- Lep.
  destruct (atomdb_runs fl (map str ygbs) dens s (Z.of_nat n) nc nd pts v d es ep Ug Es Ep Ps Pp Ln Pz Hc Hn E Ev Lv Sub) as (fp & W & r & c & e1 & row & errs & A1 & A2 & A3 & A4 & A5 & A6 & A7 & A8 & A9 & A10 & A11 & A12 & A13 & A14 & A15).
  assert (Pr : 0 < INR n) by (apply lt_0_INR; lia). assert (Pk : 0 < INR (length es + length ep)) by (apply lt_0_INR; lia).
  rewrite <- INR_IZR_INZ in A2.
  exists fp, W, r, (repeat (IZR (Z.of_nat n) / INR (length es + length ep)) (length es + length ep)), (map (fun x => x * 2) (es ++ ep)), c, e1, row, errs.
  split; [exact A1|]. split; [exact A2|]. split; [exact A3|]. split; [exact A4|]. split; [apply repeat_length|]. split; [rewrite map_length; apply app_length|].
  split; [apply Forall_forall; intros x Hx; apply repeat_spec in Hx; subst x; rewrite <- INR_IZR_INZ; now apply Rdiv_lt_0_compat|].
  split; [unfold positive; rewrite Forall_map; apply Forall_app; split; [eapply Forall_impl; [|exact Ps]|eapply Forall_impl; [|exact Pp]]; intros x Hx; cbv beta in *; lra|].
  split; [|exact (conj A5 (conj A6 (conj A7 (conj A8 (conj A9 (conj A10 (conj A11 (conj A12 (conj A13 (conj A14 A15))))))))))].
  rewrite <- INR_IZR_INZ. assert (Q : forall x m, rsum (repeat x m) = INR m * x). { intros x m. induction m as [|m IH]; [unfold rsum; cbn; ring|]. cbn [repeat]. rewrite rsum_cons', IH, S_INR. ring. }
  rewrite Q. field. lra.
Qed.
Definition named_db (x : string * Z) : bool :=
  match nth_error symbols (Z.to_nat (snd x) - 1) with Some t => String.eqb (lower t) (lower (fst x)) | None => false end && Z.ltb 0 (snd x) &&
  existsb (fun y => String.eqb (lower (fst y)) (lower (fst x))) ugbs_sizes.
Lemma named_atomdb s z : In (s, z) atomdb_atoms -> exists n e ns, z = Z.of_nat n /\ element s n /\ In (e, ns) ugbs_sizes /\ same_name (str s) (str e).
Proof.
  intros I. assert (H : forallb named_db atomdb_atoms = true) by (vm_compute; reflexivity). rewrite forallb_forall in H. specialize (H _ I). unfold named_db in H. cbn [fst snd] in H. rewrite !andb_true_iff, existsb_exists in H. destruct H as [[H1 H2] ([e ns] & J & H3)].
  destruct (nth_error symbols (Z.to_nat z - 1)) as [t|] eqn:E; [|discriminate]. apply Z.ltb_lt in H2. apply String.eqb_eq in H1, H3. cbn [fst] in H3. exists (Z.to_nat z), e, ns. split; [lia|].
  split; [split; [lia|]; exists t; split; [exact E|apply lower_str; congruence]|]. split; [exact J|]. apply lower_str. congruence.
Qed.

(** ** The fit of the notebook *)
Lemma sum_close fp W f lays N cp ep c : fpi_setting fp W f true lays 0 N -> 0 < N -> nonneg W -> nonneg f -> 0 < quad W f ->
  SpecFit.sized lays cp ep -> positive cp -> positive ep -> forall e1, update_params fp (map Fin cp) (map Fin ep) true true = Ok (map Fin c, e1) ->
  rsum c <= N + N / 2 ^ 1022 /\ ((forall i, (i < length f)%nat -> nth i f 0 / 2 ^ 1022 < nth i (values true lays cp ep) 0) -> rsum c = N).
Proof.
  intros Hs PN HW Nf Q Sz Pc Pe e1 U. pose proof (fs_lenf _ _ _ _ _ _ _ Hs) as Lf.
  assert (B : 0 < 2 ^ 1022) by (apply pow_lt; lra). assert (Bi : 0 < / 2 ^ 1022) by now apply Rinv_0_lt_compat. set (b := 2 ^ 1022) in *.
  split.
  - destruct (fill_excess _ _ _ _ _ _ _ _ _ _ _ _ Hs PN HW Nf Sz (positive_nonneg _ Pc) (fun _ => Pe) U) as (c' & E & _ & H). apply ProofGrid.map_Fin_inj in E. subst c'.
    eapply Rle_trans; [exact H|]. apply Rplus_le_compat_l. replace (N / b) with (N / quad W f * (/ b * quad W f)) by (field; lra).
    apply Rmult_le_compat_l; [apply Rlt_le, Rdiv_lt_0_compat; assumption|]. unfold quad. rewrite rdot_sumn by lia. rewrite <- sumn_scal. unfold masked_part. apply sumn_le. intros i Hi.
    pose proof (nonneg_nth W i HW) as W0. pose proof (nonneg_nth f i Nf) as F0. assert (0 <= / b * (nth i W 0 * nth i f 0)) by (apply Rmult_le_pos; [lra|now apply Rmult_le_pos]).
    destruct (visible _ _ _); [assumption|]. unfold mask_cap. rewrite (nth_indep (map _ f) 0 (Rmax 0 (Rabs 0 * / 2 ^ 1022))) by (rewrite map_length; lia). rewrite (map_nth (fun x => Rmax 0 (Rabs x * / 2 ^ 1022))). fold b.
    rewrite Rabs_right by lra. rewrite Rmax_right by (apply Rmult_le_pos; lra). lra.
  - intros V. destruct (fill_sum _ _ _ _ _ _ _ _ _ _ _ _ Hs Sz (positive_nonneg _ Pc) (fun _ => Pe) U) as (c' & E & _ & H). apply ProofGrid.map_Fin_inj in E. subst c'. rewrite H.
    assert (Z : forall v, masked_part 0 W f (values true lays cp ep) v = 0).
    { intros v. unfold masked_part. apply sumn_zero. intros i Hi. specialize (V i ltac:(lia)). pose proof (nonneg_nth f i Nf) as F0. unfold visible. fold b.
      assert (G0 : 0 <= nth i f 0 / b) by (apply Rmult_le_pos; lra). destruct (Rlt_dec 0 (nth i (values true lays cp ep) 0)) as [G|G]; [|lra]. destruct (Rlt_dec (Rabs (nth i f 0) * / b) (Rabs (nth i (values true lays cp ep) 0))) as [K|K]; [reflexivity|].
      exfalso. apply K. rewrite !Rabs_right by lra. exact V. }
    rewrite !Z. ring.
Qed.

Lemma notebook_runs fl files (e : string) (z nc nd : Z) (extra : list R) (ns np : nat) (c0 e0 : list R) (N : R) (maxiter : Z) (fuel : nat) data L s :
  slater_atoms fl files (Some e) false false fuel = Some (Ok data) -> describes (atom_of data) L -> Forall valid L -> Forall (fun s => 0 <= s_occ s) L -> In s L -> 0 < s_occ s -> leading s ->
  (0 < z)%Z -> (0 <= nc)%Z -> (3 * Z.of_nat (size s) <= nd)%Z -> (0 < ns + np)%nat -> length c0 = (ns + np)%nat -> length e0 = (ns + np)%nat -> positive c0 -> positive e0 -> 0 < N -> (0 < maxiter)%Z ->
  exists pts W fp r c e1, clenshaw_init (VInt z) (VInt nc) (VInt nd) (EList (map Fin extra)) (VBool true) = Ok (map Fin pts) /\ spherical_weights pts W /\
    let f := map (rho L) pts in let lays := map (lay_atom ns np) (map Rabs pts) in
    fpi_setting fp W f true lays 0 N /\ supported W f lays (ns + np) /\
    notebook_fit fl files e z nc nd (map Fin extra) ns np (map Fin c0) (map Fin e0) (Fin N) maxiter fuel =
      Some (Ok (Fin (trap pts f), map Fin (values true lays c0 e0), r, map Fin (values true lays c e1))) /\
    r_coeffs r = map Fin c /\ r_exps r = map Fin e1 /\ length c = (ns + np)%nat /\ length e1 = (ns + np)%nat /\ positive c /\ positive e1 /\
    (1 <= length (r_perf r))%nat /\
    (forall j, (j < length (r_perf r))%nat -> exists cj ej, iterate fp true true (S j) (map Fin c0) (map Fin e0) = Ok (map Fin cj, map Fin ej) /\ row_of 0 W f (values true lays cj ej) (nth j (r_perf r) [])) /\
    rsum c <= N + N / 2 ^ 1022 /\
    exists cp ep, update_params fp (map Fin cp) (map Fin ep) true true = Ok (map Fin c, map Fin e1) /\ positive cp /\ positive ep /\
      ((forall i, (i < length f)%nat -> nth i f 0 / 2 ^ 1022 < nth i (values true lays cp ep) 0) -> rsum c = N).
Proof.
  intros Sl De V O I P Ld Hz Hc Hd Hn Lc Le Pc Pe PN Hi.
  destruct (fitted_density (atom_of data) L s z nc nd extra true false De V O I P Ld Hz Hc Hd) as (pts & f & E & Ef & Asc & Lf & Nf & Sub).
  rewrite (density_total _ L pts De V) in Ef. injection Ef as Ef. apply ProofGrid.map_Fin_inj in Ef. subst f. set (f := map (rho L) pts) in *. set (lays := map (lay_atom ns np) (map Rabs pts)).
  destruct (steps_spherical pts f ns np true 0 (Some N) Asc Lf Nf Sub Hn (Rle_refl 0) PN) as (m & fp & W & N' & Em & Efp & Hs & _ & NW & Sup & Nan & Nfn & EN & SW). subst N'. fold lays in Hs, Sup, Nfn.
  assert (Sz : SpecFit.sized lays c0 e0) by (split; congruence). assert (Sup' : supported W f lays (nfun lays)) by (rewrite Nfn; exact Sup).
  destruct (run_zero _ _ _ _ _ _ _ c0 e0 true true maxiter default_thr Hs PN NW Nan Sup' eq_refl Sz Pc Pe) as (r & c & e1 & Hr & A & B & [C1 C2] & D & F & _).
  destruct (run_nonempty _ _ _ _ _ _ _ _ _ _ Hi Hr) as [R1 R2].
  exists pts, W, fp, r, c, e1. split; [exact E|]. split; [exact SW|]. cbv zeta. fold f lays. split; [exact Hs|]. split; [exact Sup|].
  assert (Rows := fit_rows _ _ _ _ _ _ _ c0 e0 maxiter _ r Hs PN NW Nan Sup' Sz Pc Pe Hr).
  split.
  { unfold notebook_fit. rewrite E. cbn [bindo]. rewrite Sl. cbn [bindo]. rewrite (density_total _ L pts De V). cbn [bindo]. fold f.
    replace (gr_integrate (radial_grid (map Fin pts)) (map Fin f)) with (Ok (Fin (trap pts f))) by (cbn; unfold radial_integrate; rewrite !map_length, Lf, Nat.eqb_refl, xtrapz_fin; reflexivity). cbn [bindo].
    rewrite Em. cbn [bindo option_map] in Efp |- *. rewrite Efp. cbn [bindo].
    destruct (setting_facts _ _ _ _ _ _ _ Hs) as [m' [Hft Hme Hlm Hnz Hne Hv]].
    assert (Mm : m' = GAtom m). { pose proof (fo_model _ _ _ _ _ Hft) as Q. rewrite <- Q. unfold fpi_init in Efp. destruct (base_init _ _ _ _ _ _ _) as [ft|] eqn:Bi in Efp; [|discriminate]. cbn [bind] in Efp.
      apply base_init_inv in Bi. destruct Bi as (p & In & n0' & _ & Q5 & _). subst ft. destruct (fit_integrate _ _) in Efp; [|discriminate]. cbn [bind] in Efp. destruct (_ || _) in Efp; [discriminate|]. now injection Efp as <-. }
    subst m'. rewrite (vf_eval _ _ _ _ Hv c0 e0 false (proj1 Sz) (proj2 Sz) (fun _ => Pe)). cbn [bindo fst]. rewrite Hr. cbn [bindo]. rewrite A, B.
    rewrite (vf_eval _ _ _ _ Hv c e1 false C1 C2 (fun _ => F)). cbn [bindo fst]. reflexivity. }
  split; [exact A|]. split; [exact B|]. split; [congruence|]. split; [congruence|]. split; [exact D|]. split; [exact F|]. split; [lia|].
  split. { intros j Hj. destruct (Rows j Hj) as (cp & ep & cj & ej & _ & _ & _ & _ & It & _ & _ & _ & Ro & _). exists cj, ej. auto. }
  destruct (Rows (length (r_perf r) - 1)%nat ltac:(lia)) as (cp & ep & cj & ej & Sp & Pp & Qp & Up & _ & _ & _ & _ & _ & La). destruct (La ltac:(lia)) as [L1 L2].
  rewrite A in L1. rewrite B in L2. apply ProofGrid.map_Fin_inj in L1. apply ProofGrid.map_Fin_inj in L2. subst cj ej.
  destruct (sum_close fp W f lays N cp ep c Hs PN NW Nf (substantial_quad _ _ _ SW Lf Sub) Sp Pp Qp _ Up) as [S1 S2]. split; [exact S1|]. exists cp, ep. auto.
Qed.
Lemma notebook_be fl rest fuel : reads_decimals fl -> (100 <= fuel)%nat ->
  exists L pts W fp r c e1, clenshaw_init (VInt 4) (VInt 400) (VInt 500) (EList (map Fin [25; 50; 75])) (VBool true) = Ok (map Fin pts) /\ spherical_weights pts W /\
    let f := map (rho L) pts in let lays := map (lay_atom 5 3) (map Rabs pts) in
    Forall valid L /\ rsum (map s_occ L) = 4 /\ fpi_setting fp W f true lays 0 4 /\ supported W f lays 8 /\
    notebook fl (archive_files rest) fuel = Some (Ok (Fin (trap pts f), map Fin (values true lays notebook_c0 notebook_e0), r, map Fin (values true lays c e1))) /\
    r_coeffs r = map Fin c /\ r_exps r = map Fin e1 /\ length c = 8%nat /\ length e1 = 8%nat /\ positive c /\ positive e1 /\
    (1 <= length (r_perf r))%nat /\
    (forall j, (j < length (r_perf r))%nat -> exists cj ej, iterate fp true true (S j) (map Fin notebook_c0) (map Fin notebook_e0) = Ok (map Fin cj, map Fin ej) /\ row_of 0 W f (values true lays cj ej) (nth j (r_perf r) [])) /\
    rsum c <= 4 + 4 / 2 ^ 1022 /\
    exists cp ep, update_params fp (map Fin cp) (map Fin ep) true true = Ok (map Fin c, map Fin e1) /\ positive cp /\ positive ep /\
      ((forall i, (i < length f)%nat -> nth i f 0 / 2 ^ 1022 < nth i (values true lays cp ep) 0) -> rsum c = 4).
Proof.
  intros Hd Hl. assert (El : element "be" 4) by (split; [lia|]; exists "Be"%string; split; reflexivity).
  destruct (archive_leading fl Hd rest Neutral "be" 4 El Logic.I ltac:(discriminate) ltac:(discriminate) fuel Hl) as (data & L & Sl & De & V & O & Oc & sh & Is & Po & Ld & Sz).
  assert (A1 : (0 < 4)%Z) by reflexivity. assert (A2 : (0 <= 400)%Z) by discriminate. assert (A3 : (3 * Z.of_nat (size sh) <= 500)%Z) by lia. assert (A4 : (0 < 1000)%Z) by reflexivity.
  assert (Pc : positive notebook_c0) by (unfold notebook_c0; repeat (constructor; [lra|]); constructor). assert (Pe : positive notebook_e0) by (unfold notebook_e0; repeat (constructor; [lra|]); constructor).
  destruct (notebook_runs fl (archive_files rest) "be" 4 400 500 [25; 50; 75] 5 3 notebook_c0 notebook_e0 4 1000 fuel data L sh Sl De V O Is Po Ld A1 A2 A3 ltac:(lia) eq_refl eq_refl Pc Pe ltac:(lra) A4)
    as (pts & W & fp & r & c & e1 & H1 & H2 & H3 & H4 & H5 & H6).
  exists L, pts, W, fp, r, c, e1. split; [exact H1|]. split; [exact H2|]. cbv zeta. split; [exact V|]. split; [exact Oc|]. split; [exact H3|]. split; [exact H4|]. split; [exact H5|]. exact H6.
Qed.

(** ** What the fits of table_1_and_2.py and table_5.py are (C99) *)
Lemma table_setup fl ugbs files e z nc nd extra (kinetic origin : bool) factor total fuel data L s d es ep :
  slater_atoms fl files (Some e) false false fuel = Some (Ok data) -> describes (atom_of data) L -> Forall valid L -> Forall (fun s => 0 <= s_occ s) L -> In s L -> 0 < s_occ s -> leading s ->
  get_ugbs_exponents fl ugbs (Some e) = Ok d -> dget (str "S") d = Some (map Fin es) -> dget (str "P") d = Some (map Fin ep) -> positive es -> positive ep -> (0 < length es + length ep)%nat ->
  (0 < z)%Z -> (0 <= nc)%Z -> (3 * Z.of_nat (size s) <= nd)%Z -> 0 < factor -> match total with Some N => 0 < N | None => True end ->
  let n := (length es + length ep)%nat in
  exists pts f fp W N r c e1, clenshaw_init (VInt z) (VInt nc) (VInt nd) (EList (map Fin extra)) (VBool origin) = Ok (map Fin pts) /\
    (if kinetic then kinetic_energy (atom_of data) (A1 (map Fin pts)) = Ok (map Fin f) else f = map (rho L) pts) /\ spherical_weights pts W /\
    let lays := map (lay_atom (length es) (length ep)) (map Rabs pts) in
    fpi_setting fp W f true lays (/ 10 ^ 18) N /\ N = match total with Some M => M | None => quad W f end /\ supported W f lays n /\ nan_passes (fp_fit fp) (length W) /\
    fpi_run fp (VArr (A1 (map Fin (repeat (IZR z / INR n) n)))) (VArr (A1 (map Fin (map (fun x => x * factor) (es ++ ep))))) true true 10000 (mkThr (Fin (/ 10 ^ 6)) (Fin (/ 10 ^ 6)) (Fin (/ 10 ^ 14))) = Ok r /\
    table_fit fl ugbs files e z nc nd (map Fin extra) kinetic origin factor (option_map Fin total) fuel = Some (Ok r) /\
    r_coeffs r = map Fin c /\ r_exps r = map Fin e1 /\ row_of (/ 10 ^ 18) W f (values true lays c e1) (last (r_perf r) []).
Proof.
  intros Sl De V O I P Ld Ug Ds Dp Ps Pp Ln Hz Hc Hd Hf HN n.
  destruct (fitted_density (atom_of data) L s z nc nd extra origin kinetic De V O I P Ld Hz Hc Hd) as (pts & f & E & Ef & Asc & Lf & Nf & Sub).
  assert (Pz : 0 < IZR z) by (apply IZR_lt; exact Hz). assert (Pn : 0 < INR n) by (apply lt_0_INR; exact Ln).
  set (c0 := repeat (IZR z / INR n) n). set (e0 := map (fun x => x * factor) (es ++ ep)).
  assert (Pc : positive c0). { apply Forall_forall. intros x Hx. apply repeat_spec in Hx. subst x. now apply Rdiv_lt_0_compat. }
  assert (Pe : positive e0). { unfold positive, e0. rewrite Forall_map. apply Forall_app. split; [eapply Forall_impl; [|exact Ps]|eapply Forall_impl; [|exact Pp]]; intros x Hx; cbv beta in *; now apply Rmult_lt_0_compat. }
  assert (Lc : length c0 = n) by apply repeat_length.
  assert (Le : length e0 = n) by (unfold e0; rewrite map_length; apply app_length).
  assert (Hm : 0 <= / 10 ^ 18) by (apply Rlt_le, Rinv_0_lt_compat, pow_lt; lra).
  destruct (steps_spherical pts f (length es) (length ep) true (/ 10 ^ 18) total Asc Lf Nf Sub Ln Hm HN) as (m & fp & W & N & Em & Efp & Hs & PN & NW & Sup & Nan & Nfn & EN & SW).
  set (lays := map (lay_atom (length es) (length ep)) (map Rabs pts)) in *. fold n in Sup, Nfn.
  assert (Sz : SpecFit.sized lays c0 e0) by (split; congruence). assert (Sup' : supported W f lays (nfun lays)) by (rewrite Nfn; exact Sup).
  destruct (run_zero _ _ _ _ _ _ _ c0 e0 true true 10000 (mkThr (Fin (/ 10 ^ 6)) (Fin (/ 10 ^ 6)) (Fin (/ 10 ^ 14))) Hs PN NW Nan Sup' eq_refl Sz Pc Pe) as (r & c & e1 & Hr & A & B & [C1 C2] & D & F & _).
  assert (Hi : (0 < 10000)%Z) by reflexivity. destruct (run_nonempty _ _ _ _ _ _ _ _ _ _ Hi Hr) as [R1 R2].
  exists pts, f, fp, W, N, r, c, e1. split; [exact E|]. split.
  { destruct kinetic; [exact Ef|]. rewrite (density_total _ L pts De V) in Ef. injection Ef as Ef. apply ProofGrid.map_Fin_inj in Ef. now symmetry. }
  split; [exact SW|]. cbv zeta. fold lays. split; [exact Hs|]. split; [destruct total; exact EN|]. split; [exact Sup|]. split; [exact Nan|]. split; [exact Hr|]. split.
  - unfold table_fit. rewrite E. cbn [bindo]. rewrite Ug. cbn [bindo]. unfold dlookup. rewrite Ds, Dp. cbn [bindo]. rewrite !map_length. fold n. rewrite (share_ok z n Ln). cbn [bindo].
    rewrite Sl. cbn [bindo]. rewrite Ef. cbn [bindo]. rewrite Em. cbn [bindo]. rewrite Efp. cbn [bindo].
    replace (repeat (Fin (IZR z / INR n)) n) with (map Fin c0) by (unfold c0; apply map_repeat).
    replace (map (fun x => xmul x (Fin factor)) (map Fin es ++ map Fin ep)) with (map Fin e0) by (unfold e0; rewrite <- map_app, !map_map; reflexivity).
    f_equal. exact Hr.
  - split; [exact A|]. split; [exact B|].
    assert (Np : r_perf r <> []). { intros Q. rewrite Q in R2. cbn in R2. lia. } destruct (exists_last Np) as (l & row & El).
    destruct (fit_rows _ _ _ _ _ _ _ c0 e0 10000 _ r Hs PN NW Nan Sup' Sz Pc Pe Hr (length l) ltac:(rewrite El, app_length; cbn; lia)) as (cp & ep' & cj & ej & _ & _ & _ & _ & _ & _ & _ & _ & Row & Last).
    destruct (Last ltac:(rewrite El, app_length; cbn; lia)) as [Q1 Q2]. rewrite A in Q1. rewrite B in Q2. apply ProofGrid.map_Fin_inj in Q1. apply ProofGrid.map_Fin_inj in Q2. subst cj ej.
    rewrite El, app_nth2, Nat.sub_diag in Row by lia. cbn [nth] in Row. rewrite El, last_last. exact Row.
Qed.
(** On the archived files and the shipped exponents. *)
Lemma table_1_setup fl rest s n e ns fuel : reads_decimals fl -> reads_scientific fl -> element s n -> In (e, ns) ugbs_sizes -> same_name (str s) (str e) -> (100 <= fuel)%nat ->
  let k := (nth 0 ns 0 + nth 1 ns 0)%nat in
  exists L data es ep d pts fp W r c e1, slater_atoms fl (archive_files rest) (Some s) false false fuel = Some (Ok data) /\ describes (atom_of data) L /\
    get_ugbs_exponents fl (map str ygbs) (Some s) = Ok d /\ dget (str "S") d = Some (map Fin es) /\ dget (str "P") d = Some (map Fin ep) /\ length es = nth 0 ns 0%nat /\ length ep = nth 1 ns 0%nat /\
    clenshaw_init (VInt (Z.of_nat n)) (VInt 10000) (VInt 899) (EList (map Fin [50; 75; 100])) (VBool true) = Ok (map Fin pts) /\ spherical_weights pts W /\
    let lays := map (lay_atom (nth 0 ns 0%nat) (nth 1 ns 0%nat)) (map Rabs pts) in let f := map (rho L) pts in
    fpi_setting fp W f true lays (/ 10 ^ 18) (INR n) /\ supported W f lays k /\ nan_passes (fp_fit fp) (length W) /\
    fpi_run fp (VArr (A1 (map Fin (repeat (INR n / INR k) k)))) (VArr (A1 (map Fin (map (fun x => x * 2) (es ++ ep))))) true true 10000 (mkThr (Fin (/ 10 ^ 6)) (Fin (/ 10 ^ 6)) (Fin (/ 10 ^ 14))) = Ok r /\
    table_1 fl (map str ygbs) (archive_files rest) s (Z.of_nat n) fuel = Some (Ok r) /\
    r_coeffs r = map Fin c /\ r_exps r = map Fin e1 /\ row_of (/ 10 ^ 18) W f (values true lays c e1) (last (r_perf r) []).
Proof.
  intros Hd Hs El I S Hl.
  destruct (archive_leading fl Hd rest Neutral s n El Logic.I ltac:(discriminate) ltac:(discriminate) fuel Hl) as (data & L & Sl & De & V & O & _ & sh & Is & Po & Ld & Sz).
  destruct (shipped_exponents fl Hd Hs (map str ygbs) ugbs_checked e ns s I S) as (d & Ug & _ & _ & G).
  destruct (G 0%nat ltac:(lia)) as (es & Es & Les & Ps & _). destruct (G 1%nat ltac:(lia)) as (ep & Ep & Lep & Pp & _).
  assert (P0 := sizes_positive). rewrite forallb_forall in P0. specialize (P0 _ I). cbn [snd] in P0. apply Nat.ltb_lt in P0.
  assert (Ln : (0 < length es + length ep)%nat) by lia. assert (Pz : (0 < Z.of_nat n)%Z) by (destruct El as [El _]; lia).
  assert (B1 : (0 <= 10000)%Z) by discriminate. assert (B2 : (3 * Z.of_nat (size sh) <= 899)%Z) by lia. assert (Pn : 0 < INR n) by (apply lt_0_INR; lia).
  rewrite <- Les, <- Lep.
  destruct (table_setup fl (map str ygbs) (archive_files rest) s (Z.of_nat n) 10000 899 [50; 75; 100] false true 2 (Some (INR n)) fuel data L sh d es ep Sl De V O Is Po Ld Ug Es Ep Ps Pp Ln Pz B1 B2 ltac:(lra) Pn)
    as (pts & f & fp & W & N & r & c & e1 & H1 & H2 & H3 & H4 & H5 & H6 & H7 & H8 & H9 & H10). subst f N.
  exists L, data, es, ep, d, pts, fp, W, r, c, e1. do 9 (split; [solve [assumption|reflexivity]|]). cbv zeta. split; [exact H4|]. split; [exact H6|]. split; [exact H7|]. rewrite <- INR_IZR_INZ in H8. split; [exact H8|]. split; [|exact H10].
  unfold table_1. rewrite <- INR_IZR_INZ. exact H9.
Qed.
Lemma table_5_setup fl rest s n e ns fuel : reads_decimals fl -> reads_scientific fl -> element s n -> In (e, ns) ugbs_sizes -> same_name (str s) (str e) -> (100 <= fuel)%nat ->
  let k := (nth 0 ns 0 + nth 1 ns 0)%nat in
  exists L data es ep d pts f fp W r c e1, slater_atoms fl (archive_files rest) (Some s) false false fuel = Some (Ok data) /\ describes (atom_of data) L /\
    get_ugbs_exponents fl (map str ygbs) (Some s) = Ok d /\ dget (str "S") d = Some (map Fin es) /\ dget (str "P") d = Some (map Fin ep) /\ length es = nth 0 ns 0%nat /\ length ep = nth 1 ns 0%nat /\
    clenshaw_init (VInt (Z.of_nat n)) (VInt 10000) (VInt 899) (EList (map Fin [50; 75; 100])) (VBool false) = Ok (map Fin pts) /\ spherical_weights pts W /\
    let lays := map (lay_atom (nth 0 ns 0%nat) (nth 1 ns 0%nat)) (map Rabs pts) in 
    kinetic_energy (atom_of data) (A1 (map Fin pts)) = Ok (map Fin f) /\
    fpi_setting fp W f true lays (/ 10 ^ 18) (quad W f) /\ supported W f lays k /\ nan_passes (fp_fit fp) (length W) /\
    fpi_run fp (VArr (A1 (map Fin (repeat (INR n / INR k) k)))) (VArr (A1 (map Fin (map (fun x => x * (10 / 3)) (es ++ ep))))) true true 10000 (mkThr (Fin (/ 10 ^ 6)) (Fin (/ 10 ^ 6)) (Fin (/ 10 ^ 14))) = Ok r /\
    table_5 fl (map str ygbs) (archive_files rest) s (Z.of_nat n) fuel = Some (Ok r) /\
    r_coeffs r = map Fin c /\ r_exps r = map Fin e1 /\ row_of (/ 10 ^ 18) W f (values true lays c e1) (last (r_perf r) []).
Proof.
  intros Hd Hs El I S Hl.
  destruct (archive_leading fl Hd rest Neutral s n El Logic.I ltac:(discriminate) ltac:(discriminate) fuel Hl) as (data & L & Sl & De & V & O & _ & sh & Is & Po & Ld & Sz).
  destruct (shipped_exponents fl Hd Hs (map str ygbs) ugbs_checked e ns s I S) as (d & Ug & _ & _ & G).
  destruct (G 0%nat ltac:(lia)) as (es & Es & Les & Ps & _). destruct (G 1%nat ltac:(lia)) as (ep & Ep & Lep & Pp & _).
  assert (P0 := sizes_positive). rewrite forallb_forall in P0. specialize (P0 _ I). cbn [snd] in P0. apply Nat.ltb_lt in P0.
  assert (Ln : (0 < length es + length ep)%nat) by lia. assert (Pz : (0 < Z.of_nat n)%Z) by (destruct El as [El _]; lia).
  assert (B1 : (0 <= 10000)%Z) by discriminate. assert (B2 : (3 * Z.of_nat (size sh) <= 899)%Z) by lia. assert (Pn : 0 < INR n) by (apply lt_0_INR; lia).
  rewrite <- Les, <- Lep.
  destruct (table_setup fl (map str ygbs) (archive_files rest) s (Z.of_nat n) 10000 899 [50; 75; 100] true false (10 / 3) None fuel data L sh d es ep Sl De V O Is Po Ld Ug Es Ep Ps Pp Ln Pz B1 B2 ltac:(lra) Logic.I)
    as (pts & f & fp & W & N & r & c & e1 & H1 & H2 & H3 & H4 & H5 & H6 & H7 & H8 & H9 & H10). subst N.
  exists L, data, es, ep, d, pts, f, fp, W, r, c, e1. do 9 (split; [solve [assumption|reflexivity]|]). cbv zeta. split; [exact H2|]. split; [exact H4|]. split; [exact H6|]. split; [exact H7|]. rewrite <- INR_IZR_INZ in H8. split; [exact H8|]. split; [|exact H10].
  exact H9.
Qed.
