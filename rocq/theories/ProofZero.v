(** Fits of densities that vanish at some points (C96). *)
From Coquelicot Require Import Coquelicot.
From Coq Require Import Reals List ZArith Lia Lra Bool.
From Verif Require Import XR SpecDens SpecMeas SpecGrid ModelDens ModelMeas ModelGrid ModelFit Lists ProofDens
  ProofDeriv ProofMeas ProofGrid ProofCubic SpecFit ProofFitView ProofFit ProofEM ProofFPI ProofFPI2 ProofFPI3 ProofFPI4 ProofModelMisc ProofFitEx SpecZero.
Import ListNotations.
Local Open Scope R_scope.

(** ** Grids *)
Lemma xadd_nan_r a : xadd a NaN = NaN. Proof. destruct a; reflexivity. Qed.
Lemma xmul_nan_r a : xmul a NaN = NaN. Proof. destruct a; reflexivity. Qed.
Lemma xmul_nan_l a : xmul NaN a = NaN. Proof. reflexivity. Qed.
Lemma xsum_nan l : In NaN l -> xsum l = NaN.
Proof.
  induction l as [|a l IH]; [intros []|]. intros [->|H]; [reflexivity|]. change (xsum (a :: l)) with (xadd a (xsum l)). rewrite IH by exact H. apply xadd_nan_r.
Qed.
Lemma xtrapz_nan x y : length x = length y -> (2 <= length x)%nat -> In NaN y -> xtrapz x y = NaN.
Proof.
  revert y. induction x as [|x0 x IH]; intros y L L2 H; [cbn in L2; lia|]. destruct y as [|y0 y]; [destruct H|].
  destruct x as [|x1 x]; [cbn in L2; lia|]. destruct y as [|y1 y]; [discriminate|]. change (xtrapz (x0 :: x1 :: x) (y0 :: y1 :: y)) with
    (xadd (xdiv (xmul (xsub x1 x0) (xadd y1 y0)) (Fin 2)) (xtrapz (x1 :: x) (y1 :: y))).
  assert (K : y1 = NaN \/ y0 = NaN -> xadd (xdiv (xmul (xsub x1 x0) (xadd y1 y0)) (Fin 2)) (xtrapz (x1 :: x) (y1 :: y)) = NaN).
  { intros Q. replace (xadd y1 y0) with NaN by (destruct Q as [-> | ->]; [reflexivity|symmetry; apply xadd_nan_r]). rewrite xmul_nan_r. reflexivity. }
  destruct H as [->|H]; [apply K; now right|]. destruct x as [|x2 x].
  - destruct y as [|y2 y]; [|discriminate]. destruct H as [->|[]]. apply K. now left.
  - rewrite (IH (y1 :: y)); [apply xadd_nan_r|cbn in L |- *; lia|cbn; lia|exact H].
Qed.
Lemma map2_nan_l x y : length x = length y -> In NaN x -> In NaN (map2 xmul x y).
Proof. revert y. induction x as [|a x IH]; intros [|b y] L H; try discriminate; try (destruct H; fail); destruct H as [->|H]; cbn [map2]; [left; reflexivity|right; apply IH; [cbn in L; lia|exact H]]. Qed.
Lemma map2_nan_r x y : length x = length y -> In NaN y -> In NaN (map2 xmul x y).
Proof. revert y. induction x as [|a x IH]; intros [|b y] L H; try discriminate; try (destruct H; fail); destruct H as [->|H]; cbn [map2]; [left; apply xmul_nan_r|right; apply IH; [cbn in L; lia|exact H]]. Qed.

Lemma radial_passes ft pts : ft_grid ft = radial_grid pts -> (2 <= length pts)%nat -> nan_passes ft (length pts).
Proof.
  intros E H y L. unfold fit_integrate, integrate_with. rewrite E. cbn [radial_grid gr_points gr_integrate].
  assert (I : forall z, length z = length pts -> radial_integrate pts (A1 z) = Ok (xtrapz pts z)) by (intros z Lz; unfold radial_integrate; now rewrite (proj2 (Nat.eqb_eq _ _) Lz)).
  destruct (ft_spherical ft).
  - unfold emul, bcast, fits, stretch. rewrite !map_length, L, Nat.eqb_refl. cbn [orb bind]. rewrite I by (rewrite map2_length, !map_length; lia).
    eexists. split; [reflexivity|]. intros N. apply xtrapz_nan; [rewrite map2_length, !map_length; lia|exact H|]. apply map2_nan_l; [now rewrite !map_length|].
    apply in_map_iff. exists NaN. split; [reflexivity|exact N].
  - rewrite I by exact L. eexists. split; [reflexivity|]. intros N. apply xtrapz_nan; [lia|exact H|exact N].
Qed.
Lemma cubic_passes ft o axes (n0 n1 n2 : nat) g : cubic_init o axes (Z.of_nat n0) (Z.of_nat n1) (Z.of_nat n2) = Ok g ->
  ft_grid ft = cubic_grid g -> ft_spherical ft = false -> nan_passes ft (n0 * n1 * n2).
Proof.
  rewrite cubic_ok. intros G E S y L. injection G as <-. unfold fit_integrate, integrate_with. rewrite S, E. cbn [cubic_grid gr_integrate].
  unfold cubic_integrate. cbn [cg_points cg_weights]. rewrite map_length, coords_length, L, Nat.eqb_refl, weights_eq. eexists. split; [reflexivity|].
  intros N. apply xsum_nan, map2_nan_r; [now rewrite map_length, repeat_length|exact N].
Qed.

(** ** A NaN in the objective ends a run *)
Definition clean (s : fstate) : Prop := forall k, (2 <= k < length (st_fun s))%nat ->
  xsub (nth (k - 1) (st_fun s) NaN) (nth (k - 2) (st_fun s) NaN) <> NaN.
Lemma step_fun f oc oe s s' : fpi_step f oc oe s = Ok s' -> exists v, st_fun s' = st_fun s ++ [v].
Proof.
  unfold fpi_step. intros H. destruct (if oc && oe then _ else _) as [[cs es]|]; [|discriminate]. cbn [bind] in H.
  destruct (abs_diff cs (st_cs s)) as [d1|]; [|discriminate]. cbn [bind] in H. destruct (np_max d1) as [dc|]; [|discriminate]. cbn [bind] in H.
  destruct (abs_diff es (st_es s)) as [d2|]; [|discriminate]. cbn [bind] in H. destruct (np_max d2) as [de|]; [|discriminate]. cbn [bind] in H.
  destruct (goodness (fp_fit f) cs es) as [g|]; [|discriminate]. cbn [bind] in H. injection H as <-. eexists. reflexivity.
Qed.
Lemma go_on_dd th maxiter s : go_on th maxiter s = true -> st_dd s <> NaN.
Proof.
  unfold go_on. intros H E. rewrite E in H. replace (xltb (th_d th) NaN) with false in H by (destruct (th_d th); reflexivity).
  rewrite andb_false_r in H. discriminate.
Qed.
Lemma loop_clean f oc oe th maxiter c e fuel : forall s n s', trace_ok f oc oe c e s n -> clean s ->
  fpi_loop f oc oe th maxiter fuel s = Ok s' -> clean s'.
Proof.
  induction fuel as [|k IH]; intros s n s' T C H; [injection H as <-; exact C|]. cbn [fpi_loop] in H.
  destruct (go_on th maxiter s) eqn:G; [|injection H as <-; exact C]. destruct (fpi_step f oc oe s) as [s1|] eqn:E; [|discriminate]. cbn [bind] in H.
  apply (IH s1 (S n) s'); auto; [eapply step_trace; eauto|]. destruct (step_fun _ _ _ _ _ E) as [v Ev]. pose proof (to_fun _ _ _ _ _ _ _ T) as L.
  intros q Q. rewrite Ev in Q |- *. rewrite app_length in Q. cbn [length] in Q. rewrite !app_nth1 by lia.
  destruct (Nat.eq_dec q n) as [->|N]; [|apply C; lia]. pose proof (to_dd _ _ _ _ _ _ _ T) as D. destruct (Nat.leb_spec n 1) as [X|X]; [lia|].
  apply go_on_dd in G. intros Z. rewrite Z in D. rewrite D in G. now apply G.
Qed.
Lemma xsub_nan a b : a = NaN \/ b = NaN -> xsub a b = NaN.
Proof. intros [->| ->]; [reflexivity|destruct a; reflexivity]. Qed.
Lemma nan_stops f c0 e0 oc oe maxiter th r j : fpi_run f c0 e0 oc oe maxiter th = Ok r ->
  (j < length (r_fun r))%nat -> nth j (r_fun r) NaN = NaN ->
  (length (r_fun r) <= Nat.max 2 (S j))%nat /\ ((2 <= length (r_fun r))%nat -> r_success r = false).
Proof.
  intros H Hj E. unfold fpi_run in H. destruct c0 as [| | | | |ca| |]; try discriminate; destruct e0 as [| | | | |ea| |]; try discriminate;
    try (destruct ca; discriminate).
  destruct ca as [c|]; [|discriminate]. destruct (negb _) in H; [discriminate|]. destruct ea as [e|]; [|discriminate]. destruct (negb _) in H; [discriminate|].
  destruct (fpi_loop _ _ _ _ _ _ _) as [s|] eqn:EL; [|discriminate]. cbn [bind] in H. injection H as <-. cbn [r_fun r_success] in *.
  destruct (loop_trace f oc oe th maxiter c e (Z.to_nat maxiter) _ 0%nat s (init_trace f oc oe c e) ltac:(lia) EL) as (n & T & Hn & Hg).
  assert (C : clean s). { eapply loop_clean; [apply init_trace| |exact EL]. intros k K. cbn in K. lia. }
  pose proof (to_fun _ _ _ _ _ _ _ T) as L. rewrite L in *.
  assert (B : (n <= Nat.max 2 (S j))%nat).
  { destruct (Nat.le_gt_cases n (Nat.max 2 (S j))) as [X|X]; [exact X|]. exfalso. apply (C (Nat.max 2 (S j))); [lia|]. apply xsub_nan.
    destruct j as [|j]; [right; exact E|left]. replace (Nat.max 2 (S (S j)) - 1)%nat with (S j) by lia. exact E. }
  split; [exact B|]. intros N2. pose proof (to_dd _ _ _ _ _ _ _ T) as D. destruct (Nat.leb_spec n 1) as [X|X]; [lia|].
  rewrite xsub_nan in D. { cbn [xabs] in D. rewrite D. cbn [xisnan]. now rewrite orb_true_r. }
  destruct (Nat.eq_dec j (n - 1)) as [->|Nj]; [now left|]. right. replace (n - 2)%nat with j by lia. exact E.
Qed.

(** ** The measures of a fit to a non-negative density *)
Lemma fin_list l : (forall i, (i < length l)%nat -> exists x, nth i l NaN = Fin x) -> exists v, l = map Fin v.
Proof.
  induction l as [|a l IH]; intros H; [now exists []|]. destruct (H 0%nat) as [x Hx]; [cbn; lia|]. cbn in Hx.
  destruct IH as [v Hv]; [intros i Hi; apply (H (S i)); cbn; lia|]. exists (x :: v). cbn. now rewrite Hx, Hv.
Qed.
Lemma bare_dec mask f g : (exists i, bare_zero mask f g i) \/ (forall i, ~ bare_zero mask f g i).
Proof.
  assert (K : forall n, (exists i, (i < n)%nat /\ nth i f 0 = 0 /\ mask < nth i g 0) \/ (forall i, (i < n)%nat -> ~ (nth i f 0 = 0 /\ mask < nth i g 0))).
  { induction n as [|n [IH|IH]]; [right; intros i Hi; lia|left; destruct IH as (i & A & B); exists i; split; [lia|exact B]|].
    destruct (Req_dec (nth n f 0) 0) as [A|A]; [destruct (Rlt_dec mask (nth n g 0)) as [B|B]; [left; exists n; auto|]|];
      right; intros i Hi [X Y]; (destruct (Nat.eq_dec i n) as [->|]; [contradiction|apply (IH i); [lia|auto]]). }
  destruct (K (length f)) as [(i & A & B & C)|N]; [left; exists i; now split|right]. intros i (A & B & C). now apply (N i).
Qed.
Lemma goodness_zero ft W f m mask norm lays nb c e :
  fitok ft W f m mask -> vfacts m norm lays nb -> length lays = length W -> lays <> [] ->
  length c = nb -> length e = nb -> (norm = true -> positive e) -> 0 <= mask -> nonneg c -> nan_passes ft (length W) ->
  exists a b d q x, goodness ft (map Fin c) (map Fin e) = Ok [a; b; d; q; x] /\
    ((exists i, bare_zero mask f (values norm lays c e) i) -> x = NaN) /\
    ((forall i, ~ bare_zero mask f (values norm lays c e) i) -> exists y, x = Fin y).
Proof.
  intros Hft Hv HlW Hne Hc He Hpe Hm Hnc HP. pose proof (fo_len _ _ _ _ _ Hft) as Hf. pose proof (fo_nonneg _ _ _ _ _ Hft) as Hnf.
  pose proof (values_nonneg _ _ _ _ _ _ Hv Hc He Hnc) as Hng.
  set (g := values norm lays c e) in *.
  assert (Hg : length g = length W) by (unfold g, values; rewrite map_length; auto).
  assert (HWn : W <> []). { intros E. rewrite E in HlW. destruct lays; [congruence|discriminate]. }
  assert (Hdn : map2 (fun x y => Rabs (x - y)) f g <> []). { destruct W; [congruence|]. destruct f; [discriminate|]. destruct g; [discriminate|]. discriminate. }
  destruct (np_max_fin _ Hdn) as (mx & Hmx & _).
  destruct (kl_finite_iff mask (Fin 100000) f g false Hm ltac:(lia) Hnf Hng) as (v & dv & Ev & Lv & HI).
  destruct (HP v ltac:(lia)) as (x & Ex & Nx).
  unfold goodness. rewrite (fo_model _ _ _ _ _ Hft), (vf_eval _ _ _ _ Hv) by auto. cbn [bind fst].
  fold g. rewrite (fo_dens _ _ _ _ _ Hft), abs_diff_fin by lia. cbn [bind].
  rewrite !(fo_int _ _ _ _ _ Hft) by (rewrite ?map2_length; lia). cbn [bind]. rewrite Hmx. cbn [bind].
  destruct (sq_value f g false) as (d & -> & _); [lia|]. cbn [bind fst].
  rewrite !(fo_int _ _ _ _ _ Hft) by (rewrite ?map2_length; lia). cbn [bind].
  rewrite (fo_mask _ _ _ _ _ Hft), Ev. cbn [bind fst]. rewrite Ex. cbn [bind].
  eexists _, _, _, _, x. split; [reflexivity|]. split.
  - intros (i & Hi & Z). apply Nx. rewrite <- (proj1 (HI i Hi) Z). apply nth_In. lia.
  - intros NB. destruct (fin_list v) as [w Hw].
    { intros i Hi. apply (proj2 (HI i ltac:(lia))). intros Z. apply (NB i). split; [lia|exact Z]. }
    rewrite Hw, (fo_int _ _ _ _ _ Hft) in Ex by (rewrite <- (map_length Fin w), <- Hw; lia). injection Ex as <-. eexists. reflexivity.
Qed.

(** ** Runs *)
Lemma step_total0 fp W f norm lays mask N oc oe s c e :
  fpi_setting fp W f norm lays mask N -> 0 < N -> nonneg W -> nan_passes (fp_fit fp) (length W) ->
  supported W f lays (nfun lays) -> oc || oe = true ->
  st_cs s = map Fin c -> st_es s = map Fin e -> sized lays c e -> positive c -> positive e ->
  exists s' c' e', fpi_step fp oc oe s = Ok s' /\
    st_cs s' = map Fin c' /\ st_es s' = map Fin e' /\ sized lays c' e' /\ positive c' /\ positive e'.
Proof.
  intros Hs HN0 HW HP Hsup Hu Ec Ee Hsz Hpc Hpe.
  destruct (step_positive _ _ _ _ _ _ _ c e oc oe Hs HN0 HW Hsup Hsz Hpc Hpe Hu)
    as (c' & e' & E & Hsz' & Hpc' & Hpe' & _).
  destruct (setting_facts _ _ _ _ _ _ _ Hs) as [m [Hft Hme Hlm Hnz Hne Hv]].
  destruct Hs as [_ Hf Hl Hm HN].
  assert (HU : (if oc && oe then update_params fp (st_cs s) (st_es s) true true
     else if oc then update_params fp (st_cs s) (st_es s) true false
     else if oe then update_params fp (st_cs s) (st_es s) false true else Raise ValueError) =
     update_params fp (st_cs s) (st_es s) oc oe) by (destruct oc, oe; reflexivity).
  unfold fpi_step. rewrite HU, Ec, Ee, E. cbn [bind].
  destruct Hsz as [Hc He], Hsz' as [Hc' He'].
  pose proof (vf_pos _ _ _ _ Hv) as Hnb.
  rewrite abs_diff_fin by lia. cbn [bind].
  assert (NE : forall u v : list R, length u = nfun lays -> length v = nfun lays ->
    map2 (fun x y => Rabs (x - y)) u v <> []).
  { intros [|x u] [|y v] Hu1 Hv1; simpl in Hu1, Hv1; try lia. discriminate. }
  destruct (np_max_fin _ (NE c' c Hc' Hc)) as (dc & -> & _). cbn [bind].
  rewrite abs_diff_fin by lia. cbn [bind].
  destruct (np_max_fin _ (NE e' e He' He)) as (de & -> & _). cbn [bind].
  destruct (goodness_zero (fp_fit fp) W f m mask norm lays (nfun lays) c' e' Hft Hv Hl Hne Hc' He'
    (fun _ => Hpe') Hm (positive_nonneg _ Hpc') HP) as (? & ? & ? & ? & x & -> & _). cbn [bind].
  eexists _, c', e'. split; [reflexivity|]. cbn [st_cs st_es]. repeat split; auto.
Qed.

Lemma loop_total0 fp W f norm lays mask N oc oe th maxiter :
  fpi_setting fp W f norm lays mask N -> 0 < N -> nonneg W -> nan_passes (fp_fit fp) (length W) ->
  supported W f lays (nfun lays) -> oc || oe = true ->
  forall fuel s c e,
  st_cs s = map Fin c -> st_es s = map Fin e -> sized lays c e -> positive c -> positive e ->
  exists s' c' e', fpi_loop fp oc oe th maxiter fuel s = Ok s' /\
    st_cs s' = map Fin c' /\ st_es s' = map Fin e' /\ sized lays c' e' /\ positive c' /\ positive e'.
Proof.
  intros Hs HN0 HW Hpf Hsup Hu. induction fuel as [|k IH]; intros s c e Ec Ee Hsz Hpc Hpe.
  - exists s, c, e. auto 10.
  - cbn [fpi_loop]. destruct (go_on th maxiter s).
    + destruct (step_total0 _ _ _ _ _ _ _ oc oe s c e Hs HN0 HW Hpf Hsup Hu Ec Ee Hsz Hpc Hpe)
        as (s' & c' & e' & -> & H1 & H2 & H3 & H4 & H5). cbn [bind]. eapply IH; eauto.
    + exists s, c, e. auto 10.
Qed.

Lemma run_zero fp W f norm lays mask N c e oc oe maxiter th :
  fpi_setting fp W f norm lays mask N -> 0 < N -> nonneg W -> nan_passes (fp_fit fp) (length W) ->
  supported W f lays (nfun lays) -> oc || oe = true ->
  sized lays c e -> positive c -> positive e ->
  exists r c' e',
    fpi_run fp (VArr (A1 (map Fin c))) (VArr (A1 (map Fin e))) oc oe maxiter th = Ok r /\
    r_coeffs r = map Fin c' /\ r_exps r = map Fin e' /\ sized lays c' e' /\ positive c' /\ positive e' /\
    forall j, (j < length (r_fun r))%nat -> exists cj ej,
      iterate fp oc oe (S j) (map Fin c) (map Fin e) = Ok (map Fin cj, map Fin ej) /\
      ((exists i, bare_zero mask f (values norm lays cj ej) i) -> nth j (r_fun r) PInf = NaN) /\
      ((forall i, ~ bare_zero mask f (values norm lays cj ej) i) -> exists x, nth j (r_fun r) PInf = Fin x).
Proof.
  intros Hs HN0 HW HP Hsup Hu Hsz Hpc Hpe.
  destruct (setting_facts _ _ _ _ _ _ _ Hs) as [m [Hft Hme Hlm Hnz Hne Hv]].
  assert (R : exists r c' e', fpi_run fp (VArr (A1 (map Fin c))) (VArr (A1 (map Fin e))) oc oe maxiter th = Ok r /\
    r_coeffs r = map Fin c' /\ r_exps r = map Fin e' /\ sized lays c' e' /\ positive c' /\ positive e').
  { unfold fpi_run. rewrite (fo_model _ _ _ _ _ Hft), (vf_nb _ _ _ _ Hv), !map_length.
    destruct Hsz as [Hc He]. rewrite Hc, He, Z.eqb_refl. cbn [negb].
    destruct (loop_total0 _ _ _ _ _ _ _ oc oe th maxiter Hs HN0 HW HP Hsup Hu (Z.to_nat maxiter)
      (mkState (map Fin c) (map Fin e) PInf PInf PInf [] [] 0) c e eq_refl eq_refl (conj Hc He) Hpc Hpe)
      as (s' & c' & e' & -> & H1 & H2 & H3 & H4 & H5). cbn [bind].
    eexists _, c', e'. split; [reflexivity|]. cbn [r_coeffs r_exps]. auto. }
  destruct R as (r & c' & e' & Hr & H1 & H2 & H3 & H4 & H5). exists r, c', e'. repeat (split; auto); try apply H3. intros j Hj.
  destruct (run_consistent _ _ _ _ _ _ _ _ Hr) as (c1 & e1 & E1 & E2 & _ & _ & _ & Hrows). injection E1 as <-. injection E2 as <-.
  destruct (Hrows j Hj) as (xc & xe & Q1 & Q2 & Q3).
  destruct (iterate_positive _ _ _ _ _ _ _ c e oc oe (S j) Hs HN0 HW Hsup Hsz Hpc Hpe Hu) as (cj & ej & E & [Sc Se] & Pc & Pe).
  rewrite E in Q1. injection Q1 as <- <-. exists cj, ej. split; [exact E|].
  pose proof (fs_lenl _ _ _ _ _ _ _ Hs) as Hl. pose proof (fs_mask _ _ _ _ _ _ _ Hs) as Hm.
  destruct (goodness_zero (fp_fit fp) W f m mask norm lays (nfun lays) cj ej Hft Hv Hl Hne Sc Se
    (fun _ => Pe) Hm (positive_nonneg _ Pc) HP) as (? & ? & ? & ? & x & G & Z1 & Z2).
  rewrite G in Q2. injection Q2 as Q2. rewrite (nth_indep _ PInf NaN) by exact Hj. rewrite Q3, <- Q2. cbn [last]. split; [exact Z1|exact Z2].
Qed.

(** A zero of the density not masked at the first two iterates: the run makes no more than two updates. *)
Lemma zero_ends fp W f norm lays mask N c e oc oe maxiter th :
  fpi_setting fp W f norm lays mask N -> 0 < N -> nonneg W -> nan_passes (fp_fit fp) (length W) ->
  supported W f lays (nfun lays) -> oc || oe = true -> sized lays c e -> positive c -> positive e ->
  (forall c1 e1, iterate fp oc oe 1 (map Fin c) (map Fin e) = Ok (map Fin c1, map Fin e1) -> exists i, bare_zero mask f (values norm lays c1 e1) i) ->
  exists r, fpi_run fp (VArr (A1 (map Fin c))) (VArr (A1 (map Fin e))) oc oe maxiter th = Ok r /\
    (length (r_fun r) <= 2)%nat /\ ((1 <= length (r_fun r))%nat -> nth 0 (r_fun r) PInf = NaN) /\
    ((2 <= length (r_fun r))%nat -> r_success r = false).
Proof.
  intros Hs HN0 HW HP Hsup Hu Hsz Hpc Hpe B. destruct (run_zero fp W f norm lays mask N c e oc oe maxiter th Hs HN0 HW HP Hsup Hu Hsz Hpc Hpe)
    as (r & c' & e' & Hr & _ & _ & _ & _ & _ & J). exists r. split; [exact Hr|].
  destruct (Nat.eq_dec (length (r_fun r)) 0) as [Z|Z]; [rewrite Z; repeat split; intros; lia|].
  destruct (J 0%nat ltac:(lia)) as (cj & ej & E & K & _). specialize (K (B _ _ E)).
  destruct (nan_stops _ _ _ _ _ _ _ r 0 Hr ltac:(lia)) as [A S]; [rewrite (nth_indep _ NaN PInf) by lia; exact K|]. split; [cbn in A; exact A|]. split; [intros _; exact K|exact S].
Qed.

(** With the default mask value every zero of the density is hit as soon as an s-type function is present. *)
Lemma zero_default fp W f norm lays N c e oc oe maxiter th i k :
  fpi_setting fp W f norm lays 0 N -> 0 < N -> nonneg W -> nan_passes (fp_fit fp) (length W) ->
  supported W f lays (nfun lays) -> oc || oe = true -> sized lays c e -> positive c -> positive e ->
  (i < length f)%nat -> nth i f 0 = 0 -> (k < nfun lays)%nat -> kind (nth i lays []) k = false ->
  exists r, fpi_run fp (VArr (A1 (map Fin c))) (VArr (A1 (map Fin e))) oc oe maxiter th = Ok r /\
    (length (r_fun r) <= 2)%nat /\ Forall (fun x => x = NaN) (r_fun r) /\
    ((2 <= length (r_fun r))%nat -> r_success r = false).
Proof.
  intros Hs HN0 HW HP Hsup Hu Hsz Hpc Hpe Hi Z Hk S.
  assert (B : forall n cj ej, iterate fp oc oe n (map Fin c) (map Fin e) = Ok (map Fin cj, map Fin ej) -> bare_zero 0 f (values norm lays cj ej) i).
  { intros n cj ej E. destruct (iterate_positive _ _ _ _ _ _ _ c e oc oe n Hs HN0 HW Hsup Hsz Hpc Hpe Hu) as (c2 & e2 & E2 & [Sc Se] & Pc & Pe).
    rewrite E in E2. injection E2 as E2 E3. apply map_Fin_inj in E2. apply map_Fin_inj in E3. subst c2 e2.
    destruct (setting_facts _ _ _ _ _ _ _ Hs) as [m [_ _ _ _ _ Hv]]. pose proof (fs_lenl _ _ _ _ _ _ _ Hs) as Hl. pose proof (fs_lenf _ _ _ _ _ _ _ Hs) as Hf.
    split; [exact Hi|]. split; [exact Z|]. unfold values. rewrite (nth_indep _ 0 (gsum norm [] cj ej)) by (rewrite map_length; lia).
    rewrite (map_nth (fun lay => gsum norm lay cj ej)). assert (L : length (nth i lays []) = nfun lays) by (apply (vf_len _ _ _ _ Hv), nth_In; lia).
    apply (gsum_pos norm _ cj ej k); [apply positive_nonneg, Pc|lia|lia|lia|apply positive_nth; [exact Pc|lia]|].
    rewrite (nth_indep _ _ (false, 0)) by lia. exact S. }
  destruct (run_zero fp W f norm lays 0 N c e oc oe maxiter th Hs HN0 HW HP Hsup Hu Hsz Hpc Hpe) as (r & c' & e' & Hr & _ & _ & _ & _ & _ & J).
  exists r. split; [exact Hr|].
  assert (A : forall j, (j < length (r_fun r))%nat -> nth j (r_fun r) PInf = NaN).
  { intros j Hj. destruct (J j Hj) as (cj & ej & E & K & _). apply K. exists i. apply (B _ _ _ E). }
  assert (F : Forall (fun x => x = NaN) (r_fun r)) by (apply Forall_nth; intros j d Hj; rewrite (nth_indep _ d PInf) by exact Hj; auto).
  destruct (Nat.eq_dec (length (r_fun r)) 0) as [E0|E0]; [split; [lia|split; [exact F|intros; lia]]|].
  destruct (nan_stops _ _ _ _ _ _ _ r 0 Hr ltac:(lia)) as [X Y]; [rewrite (nth_indep _ NaN PInf) by lia; apply A; lia|].
  split; [exact X|]. split; [exact F|exact Y].
Qed.

(** ** Sample: density 1, 0 on the two-point grid, default mask value *)
Definition zero_fit : fit := mkFit two_grid [Fin 1; Fin 0] (GAtom two_atom) (MKL (Fin 0) (Fin 100000)) false (Fin (1/4)) (Fin 0).
Definition zero_fpi : fpi := mkFpi zero_fit (Fin 1).
Lemma zero_init : fpi_init (arg_of two_grid) (map Fin [1; 0]) (GAtom two_atom) (Fin 0) None false = Ok zero_fpi.
Proof.
  unfold fpi_init, base_init, arg_of. cbn [map existsb xltb ga_points ga_integrate].
  rewrite !rltb_false by lra. cbn [orb two_grid radial_grid gr_points gr_integrate ndim Nat.eqb negb andb].
  pose proof (two_int [1; 0] eq_refl) as I. unfold two_grid, radial_grid in I. cbn [gr_integrate map] in I.
  unfold fit_integrate, integrate_with. cbn [gr_integrate ft_spherical ft_grid].
  rewrite I. cbn [bind ft_spherical ft_grid gr_integrate].
  rewrite I. replace (rdot two_W [1; 0]) with (1/4) by (unfold rdot, rsum, two_W; cbn; field).
  cbn [bind ft_integral xdiv]. rewrite reqb_false by lra. replace (1/4/(1/4)) with 1 by field.
  cbn [xeqb xisnan]. rewrite reqb_false by lra. reflexivity.
Qed.
Lemma zero_setting : fpi_setting zero_fpi two_W [1; 0] true two_lays 0 (1/4).
Proof.
  constructor; auto; [|lra|lra]. exists (arg_of two_grid), false, None, (GAtom two_atom). split; [exact two_integrator|]. split; [exact two_views|]. split; [exact zero_init|].
  unfold target, rdot, rsum, two_W. cbn. field.
Qed.
Lemma zero_supported : supported two_W [1; 0] two_lays (nfun two_lays).
Proof.
  intros k Hk. cbn in Hk. exists 0%nat. cbn [length nth two_W]. split; [lia|]. split; [lra|]. split; [lra|].
  rewrite (two_lay 0) by lia. destruct k as [|[|k]]; [| |lia]; cbn; lra.
Qed.
Lemma zero_passes : nan_passes zero_fit (length two_W).
Proof. apply (radial_passes zero_fit [Fin (1/2); Fin 1]); [reflexivity|cbn; lia]. Qed.
Lemma zero_term k F : (k < 2)%nat ->
  nth 0 two_W 0 * (kl_ratio 0 (nth 0 [1; 0] 0) (gsum true (nth 0 two_lays []) [1/3; 2/3] [PI; PI]) *
    basis_fn true (kind (nth 0 two_lays []) k) (nth k [PI; PI] 0) (away (nth 0 two_lays []) k) * F) = 1/4 * F.
Proof.
  intros Hk. rewrite two_gsum by lia. change (nth 0 [1; 0] 0) with 1.
  destruct (two_kept PI 0 ltac:(now left) ltac:(lia)) as [K1 K2]. pose proof (two_large PI 0 ltac:(now left) ltac:(lia)). pose proof (exp_pos (- (4))).
  rewrite kl_ratio_kept by (split; [lra|exact K2]). rewrite two_lay by lia.
  replace (basis_fn true (kind (lay_atom 2 0 (two_r 0)) k) (nth k [PI; PI] 0) (away (lay_atom 2 0 (two_r 0)) k))
    with (basis_fn true false PI (two_r 0)) by (destruct k as [|[|k]]; [| |lia]; reflexivity).
  change (nth 0 two_W 0) with (1/4). field. lra.
Qed.
Lemma zero_rest k F : (k < 2)%nat ->
  nth 1 two_W 0 * (kl_ratio 0 (nth 1 [1; 0] 0) (gsum true (nth 1 two_lays []) [1/3; 2/3] [PI; PI]) *
    basis_fn true (kind (nth 1 two_lays []) k) (nth k [PI; PI] 0) (away (nth 1 two_lays []) k) * F) = 0.
Proof.
  intros Hk. rewrite two_gsum by lia. change (nth 1 [1; 0] 0) with 0. pose proof (two_large PI 1 ltac:(now left) ltac:(lia)). pose proof (exp_pos (- (4))).
  rewrite kl_ratio_kept.
  - unfold Rdiv. rewrite Rmult_0_l. ring.
  - split; [lra|]. rewrite Rabs_R0, Rmult_0_l. apply Rabs_pos_lt. lra.
Qed.
Lemma zero_avg k : (k < 2)%nat -> avg1 0 two_W [1; 0] true two_lays [1/3; 2/3] [PI; PI] k = 1/4 /\ avg2 0 two_W [1; 0] true two_lays [1/3; 2/3] [PI; PI] k = 1/16.
Proof.
  intros Hk. unfold avg1, avg2, sumn, rsum. cbv zeta. change (length two_W) with 2%nat. cbn [seq map fold_right].
  pose proof (zero_term k 1 Hk) as A. pose proof (zero_rest k 1 Hk) as B. pose proof (zero_term k (away (nth 0 two_lays []) k ^ 2) Hk) as C. pose proof (zero_rest k (away (nth 1 two_lays []) k ^ 2) Hk) as D.
  rewrite Rmult_1_r in A, B. rewrite A, B, C, D.
  assert (E : away (nth 0 two_lays []) k = 1/2) by (rewrite (two_lay 0) by lia; destruct k as [|[|k]]; [| |lia]; reflexivity).
  rewrite E. split; field.
Qed.
Lemma zero_first c' : iterate zero_fpi true true 1 (map Fin [1/3; 2/3]) (map Fin [PI; PI]) = Ok c' -> snd c' = map Fin [6; 6].
Proof.
  intros E. cbn [iterate bind fst snd] in E.
  assert (P : positive [1/3; 2/3]) by apply two_positive. pose proof PI_RGT_0 as P0.
  destruct (update_formula zero_fpi two_W [1; 0] true two_lays 0 (1/4) [1/3; 2/3] [PI; PI] true true zero_setting (two_sized _ _ _ _) (positive_nonneg _ P)
    (fun _ => two_pos_e _ P0) eq_refl) as (c1 & e1 & E1 & [_ L] & _ & H).
  - intros _ k Hk. rewrite (proj2 (zero_avg k Hk)). lra.
  - rewrite E1 in E. injection E as <-. cbn [snd]. f_equal. change (nfun two_lays) with 2%nat in *.
    destruct e1 as [|x [|y [|? ?]]]; try discriminate. pose proof (H 0%nat ltac:(lia)) as H0. pose proof (H 1%nat ltac:(lia)) as H1. cbv iota in H0, H1.
    destruct (zero_avg 0 ltac:(lia)) as [A0 B0]. destruct (zero_avg 1 ltac:(lia)) as [A1 B1]. rewrite A0, B0 in H0. rewrite A1, B1 in H1. cbn [nth] in H0, H1.
    change (kind (hd [] two_lays) 0) with false in H0. change (kind (hd [] two_lays) 1) with false in H1. cbn [half_power] in H0, H1.
    rewrite H0, H1. f_equal; [field|]. f_equal. field.
Qed.
Lemma zero_run : exists r, fpi_run zero_fpi (VArr (A1 (map Fin [1/3; 2/3]))) (VArr (A1 (map Fin [PI; PI]))) true true 500 default_thr = Ok r /\
  r_fun r = [NaN; NaN] /\ r_success r = false.
Proof.
  pose proof PI_RGT_0 as P0.
  destruct (zero_default zero_fpi two_W [1; 0] true two_lays (1/4) [1/3; 2/3] [PI; PI] true true 500 default_thr 1 0) as (r & Hr & L & F & S); auto;
    [apply zero_setting|lra|apply two_nonneg|apply zero_passes|apply zero_supported|apply two_sized|apply two_positive|now apply two_pos_e|cbn; lia|].
  exists r. split; [exact Hr|].
  assert (N : length (r_fun r) = 2%nat).
  { destruct (run_inv _ _ _ _ _ _ _ _ Hr) as (c & e & s & n & E1 & E2 & _ & _ & T & Hn & G & ->). injection E1 as <-. injection E2 as <-.
    cbn [r_fun] in *. rewrite (to_fun _ _ _ _ _ _ _ T) in *. destruct n as [|[|n]]; [| |lia]; exfalso; revert G; unfold go_on; rewrite (to_iter _ _ _ _ _ _ _ T).
    - destruct (to_zero _ _ _ _ _ _ _ T eq_refl) as [-> ->]. pose proof (to_dd _ _ _ _ _ _ _ T) as D. cbn in D. rewrite D. discriminate.
    - destruct (to_change _ _ _ _ _ _ _ T ltac:(lia)) as (cp & ep & E & _ & C). cbn [Nat.sub iterate] in E. injection E as <- <-.
      pose proof (zero_first _ (to_par _ _ _ _ _ _ _ T)) as Q. cbn [snd] in Q. rewrite Q in C. pose proof (to_dd _ _ _ _ _ _ _ T) as D. cbn in D. rewrite D.
      destruct C as (l & C1 & C2). pose proof PI_4. pose proof (abs_diff_fin [6; 6] [PI; PI] eq_refl) as AD. pose proof (f_equal (fun x => match x with Ok y => y | Raise _ => l end) (eq_trans (eq_sym C1) AD)) as EL. cbv beta iota in EL. subst l.
      destruct (np_max_fin (map2 (fun x y => Rabs (x - y)) [6; 6] [PI; PI]) ltac:(discriminate)) as (x & X1 & X2 & X3). pose proof (eq_trans (eq_sym X1) C2) as C3. injection C3 as C3. rewrite <- C3.
      assert (Q2 : 1 / 10 ^ 6 < x). { destruct X2 as [X2|[X2|[]]]; rewrite <- X2, Rabs_right by lra; lra. }
      cbn [default_thr th_e th_d xltb]. rewrite rltb_true by exact Q2. discriminate. }
  destruct (r_fun r) as [|x [|y [|? ?]]]; try discriminate. inversion F as [|? ? X F1]. inversion F1 as [|? ? Y F2]. subst. split; [reflexivity|apply S; cbn; lia].
Qed.
