(** Runs from positive parameters, fixed points, misleading success flags (C44-C48). *)
From Coquelicot Require Import Coquelicot.
From Coq Require Import Reals List ZArith Lia Lra Bool.
From Verif Require Import XR SpecDens SpecMeas SpecGrid ModelDens ModelMeas ModelGrid ModelFit Lists ProofDens
  ProofDeriv ProofMeas SpecFit ProofFitView ProofFit ProofEM ProofFPI ProofFPI2.
Import ListNotations.
Local Open Scope R_scope.

Lemma map_Fin_inj a b : map Fin a = map Fin b -> a = b.
Proof.
  revert b; induction a as [|x a IH]; intros [|y b] E; try discriminate; auto.
  cbn [map] in E. injection E as -> E. f_equal. auto.
Qed.

Lemma goodness_total ft W f m mask norm lays nb c e :
  fitok ft W f m mask -> vfacts m norm lays nb -> length lays = length W -> lays <> [] ->
  length c = nb -> length e = nb -> (norm = true -> positive e) ->
  0 <= mask -> positive f -> nonneg c ->
  exists mx v, goodness ft (map Fin c) (map Fin e) = Ok (measures W f (values norm lays c e) v mx) /\
    is_max (map2 (fun x y => Rabs (x - y)) f (values norm lays c e)) mx /\ length v = length f /\
    forall i, (i < length f)%nat ->
      (kept mask (nth i f 0) (nth i (values norm lays c e) 0) ->
         nth i v 0 = kl_fn (nth i f 0) (nth i (values norm lays c e) 0)) /\
      (~ kept mask (nth i f 0) (nth i (values norm lays c e) 0) -> nth i v 0 = 0).
Proof.
  intros Hft Hv HlW Hne Hc He Hpe Hm Hpf Hnc. pose proof (fo_len _ _ _ _ _ Hft) as Hf.
  assert (HL : length (values norm lays c e) = length W) by (unfold values; rewrite map_length; auto).
  destruct (kl_value mask (Fin 100000) f (values norm lays c e) false Hm ltac:(lia) Hpf
    (values_nonneg _ _ _ _ _ _ Hv Hc He Hnc)) as (v & q & Ev & L1 & L2 & HI).
  destruct (goodness_gen ft W f m mask norm lays nb c e v Hft Hv HlW Hne Hc He Hpe Ev L1) as (mx & H1 & H2).
  exists mx, v. split; auto. split; auto. split; auto.
  intros i Hi. destruct (HI i Hi) as [A B]. split; intros K; [now apply A|now apply B].
Qed.

(** A run from positive parameters always returns, with finite positive parameters. *)
Lemma step_total fp W f norm lays mask N oc oe s c e :
  fpi_setting fp W f norm lays mask N -> 0 < N -> nonneg W -> positive f ->
  supported W f lays (nfun lays) -> oc || oe = true ->
  st_cs s = map Fin c -> st_es s = map Fin e -> sized lays c e -> positive c -> positive e ->
  exists s' c' e', fpi_step fp oc oe s = Ok s' /\
    st_cs s' = map Fin c' /\ st_es s' = map Fin e' /\ sized lays c' e' /\ positive c' /\ positive e'.
Proof.
  intros Hs HN0 HW Hpf Hsup Hu Ec Ee Hsz Hpc Hpe.
  destruct (step_positive _ _ _ _ _ _ _ c e oc oe Hs HN0 HW Hsup Hsz Hpc Hpe Hu)
    as (c' & e' & E & Hsz' & Hpc' & Hpe' & _).
  destruct (setting_facts _ _ _ _ _ _ _ Hs) as [m [Hft Hme Hlm Hnz Hne Hv]].
  destruct Hs as [_ Hf Hl Hm HN].
  assert (HU : (if oc && oe then update_params fp (st_cs s) (st_es s) true true
     else if oc then update_params fp (st_cs s) (st_es s) true false
     else if oe then update_params fp (st_cs s) (st_es s) false true else Raise ValueError) =
     update_params fp (st_cs s) (st_es s) oc oe) by (destruct oc, oe; reflexivity).
  unfold fpi_step. rewrite HU, Ec, Ee, E. cbn [bind].
  destruct Hsz as [Hc He], Hsz' as [Hc' He'].
  pose proof (vf_pos _ _ _ _ Hv) as Hnb.
  rewrite abs_diff_fin by lia. cbn [bind].
  assert (NE : forall u v : list R, length u = nfun lays -> length v = nfun lays ->
    map2 (fun x y => Rabs (x - y)) u v <> []).
  { intros [|x u] [|y v] Hu1 Hv1; simpl in Hu1, Hv1; try lia. discriminate. }
  destruct (np_max_fin _ (NE c' c Hc' Hc)) as (dc & -> & _). cbn [bind].
  rewrite abs_diff_fin by lia. cbn [bind].
  destruct (np_max_fin _ (NE e' e He' He)) as (de & -> & _). cbn [bind].
  destruct (goodness_total (fp_fit fp) W f m mask norm lays (nfun lays) c' e' Hft Hv Hl Hne Hc' He'
    (fun _ => Hpe') Hm Hpf (positive_nonneg _ Hpc')) as (mx & v & -> & _). cbn [bind].
  eexists _, c', e'. split; [reflexivity|]. cbn [st_cs st_es]. repeat split; auto.
Qed.

Lemma loop_total fp W f norm lays mask N oc oe th maxiter :
  fpi_setting fp W f norm lays mask N -> 0 < N -> nonneg W -> positive f ->
  supported W f lays (nfun lays) -> oc || oe = true ->
  forall fuel s c e,
  st_cs s = map Fin c -> st_es s = map Fin e -> sized lays c e -> positive c -> positive e ->
  exists s' c' e', fpi_loop fp oc oe th maxiter fuel s = Ok s' /\
    st_cs s' = map Fin c' /\ st_es s' = map Fin e' /\ sized lays c' e' /\ positive c' /\ positive e'.
Proof.
  intros Hs HN0 HW Hpf Hsup Hu. induction fuel as [|k IH]; intros s c e Ec Ee Hsz Hpc Hpe.
  - exists s, c, e. auto 10.
  - cbn [fpi_loop]. destruct (go_on th maxiter s).
    + destruct (step_total _ _ _ _ _ _ _ oc oe s c e Hs HN0 HW Hpf Hsup Hu Ec Ee Hsz Hpc Hpe)
        as (s' & c' & e' & -> & H1 & H2 & H3 & H4 & H5). cbn [bind]. eapply IH; eauto.
    + exists s, c, e. auto 10.
Qed.

Lemma run_positive fp W f norm lays mask N c e oc oe maxiter th :
  fpi_setting fp W f norm lays mask N -> 0 < N -> nonneg W -> positive f ->
  supported W f lays (nfun lays) -> oc || oe = true ->
  sized lays c e -> positive c -> positive e ->
  exists r c' e',
    fpi_run fp (VArr (A1 (map Fin c))) (VArr (A1 (map Fin e))) oc oe maxiter th = Ok r /\
    r_coeffs r = map Fin c' /\ r_exps r = map Fin e' /\ sized lays c' e' /\ positive c' /\ positive e'.
Proof.
  intros Hs HN0 HW Hpf Hsup Hu Hsz Hpc Hpe.
  destruct (setting_facts _ _ _ _ _ _ _ Hs) as [m [Hft Hme Hlm Hnz Hne Hv]].
  unfold fpi_run. rewrite (fo_model _ _ _ _ _ Hft), (vf_nb _ _ _ _ Hv), !map_length.
  destruct Hsz as [Hc He]. rewrite Hc, He, Z.eqb_refl. cbn [negb].
  destruct (loop_total _ _ _ _ _ _ _ oc oe th maxiter Hs HN0 HW Hpf Hsup Hu (Z.to_nat maxiter)
    (mkState (map Fin c) (map Fin e) PInf PInf PInf [] [] 0) c e eq_refl eq_refl (conj Hc He) Hpc Hpe)
    as (s' & c' & e' & -> & H1 & H2 & H3 & H4 & H5). cbn [bind].
  eexists _, c', e'. split; [reflexivity|]. cbn [r_coeffs r_exps]. auto.
Qed.

(** ** C45 for runs *)
Lemma run_monotone fp W f lays mask N c e oc oe maxiter th r :
  fpi_setting fp W f true lays mask N -> 0 < N -> nonneg W -> positive f ->
  supported W f lays (nfun lays) -> sized lays c e -> positive c -> positive e ->
  fpi_run fp (VArr (A1 (map Fin c))) (VArr (A1 (map Fin e))) oc oe maxiter th = Ok r ->
  (forall j cj ej, (j <= length (r_fun r))%nat ->
     iterate fp oc oe j (map Fin c) (map Fin e) = Ok (map Fin cj, map Fin ej) ->
     all_above mask f (values true lays cj ej)) ->
  exists F, r_fun r = map Fin F /\
    (forall j, (j < length F)%nat -> exists cj ej,
       iterate fp oc oe (S j) (map Fin c) (map Fin e) = Ok (map Fin cj, map Fin ej) /\
       nth j F 0 = kl_sum W f (values true lays cj ej)) /\
    (forall j, (S j < length F)%nat -> nth (S j) F 0 <= nth j F 0) /\
    (rsum c <= N \/ oc = false -> (0 < length F)%nat -> nth 0 F 0 <= kl_sum W f (values true lays c e)).
Proof.
  intros Hs HN0 HW Hpf Hsup Hsz Hpc Hpe Hr Hk.
  destruct (run_consistent _ _ _ _ _ _ _ _ Hr) as (c1 & e1 & E1 & E2 & Hn & Hp & Hi & Hrows).
  injection E1 as <-. injection E2 as <-.
  set (n := length (r_fun r)) in *.
  assert (Hu : (0 < n)%nat -> oc || oe = true).
  { intros H0. destruct (Hrows 0%nat H0) as (cj & ej & Q & _). cbn [iterate bind fst snd] in Q.
    destruct oc, oe; auto. discriminate. }
  destruct (setting_facts _ _ _ _ _ _ _ Hs) as [m [Hft Hme Hlm Hnz Hne Hv]].
  pose proof (fs_lenl _ _ _ _ _ _ _ Hs) as Hl. pose proof (fs_mask _ _ _ _ _ _ _ Hs) as Hm.
  (* every entry *)
  assert (HE : forall j, (j < n)%nat -> exists cj ej,
     iterate fp oc oe (S j) (map Fin c) (map Fin e) = Ok (map Fin cj, map Fin ej) /\
     nth j (r_fun r) NaN = Fin (kl_sum W f (values true lays cj ej))).
  { intros j Hj. specialize (Hu ltac:(lia)).
    destruct (iterate_positive _ _ _ _ _ _ _ c e oc oe (S j) Hs HN0 HW Hsup Hsz Hpc Hpe Hu)
      as (cj & ej & Q & [S1 S2] & P1 & P2).
    exists cj, ej. split; auto.
    destruct (Hrows j Hj) as (cj' & ej' & Q' & G & L). rewrite Q in Q'. injection Q' as <- <-.
    destruct (goodness_kept (fp_fit fp) W f m mask true lays (nfun lays) cj ej Hft Hv Hl Hne S1 S2
      (fun _ => P2) Hm Hpf (Hk (S j) cj ej ltac:(lia) Q)) as (mx & _ & G').
    rewrite G in G'. injection G' as G'. rewrite L, G'. reflexivity. }
  set (F := map (fun x => match x with Fin v => v | _ => 0 end) (r_fun r)).
  assert (LF : length F = n) by (unfold F; now rewrite map_length).
  assert (NF : forall j, (j < n)%nat -> exists cj ej,
     iterate fp oc oe (S j) (map Fin c) (map Fin e) = Ok (map Fin cj, map Fin ej) /\
     nth j F 0 = kl_sum W f (values true lays cj ej)).
  { intros j Hj. destruct (HE j Hj) as (cj & ej & Q & L). exists cj, ej. split; auto.
    unfold F. pose proof (map_nth (fun x => match x with Fin v => v | _ => 0 end) (r_fun r) NaN j) as M.
    cbv beta iota in M. rewrite M, L. reflexivity. }
  exists F. split; [|split; [|split]].
  - apply nth_ext with (d := NaN) (d' := Fin 0); [now rewrite map_length, LF|].
    intros j Hj. destruct (HE j Hj) as (cj & ej & Q & L). destruct (NF j Hj) as (cj' & ej' & Q' & L').
    rewrite (map_nth Fin), L, L'. rewrite Q in Q'. injection Q' as Q1 Q2.
    apply map_Fin_inj in Q1, Q2. now subst.
  - intros j Hj. apply NF. lia.
  - intros j Hj. rewrite LF in Hj. specialize (Hu ltac:(lia)).
    destruct (NF j ltac:(lia)) as (c2 & e2 & Q2 & ->). destruct (NF (S j) ltac:(lia)) as (c3 & e3 & Q3 & ->).
    destruct (iterate_decreases _ _ _ _ _ _ c e oc oe (S (S j)) Hs HN0 HW Hpf Hsup Hsz Hpc Hpe Hu)
      as (c4 & e4 & c5 & e5 & Q4 & Q5 & _ & _ & _ & _ & Hle); try lia.
    { intros i ci ei Hij Qi. apply (Hk i); auto. lia. }
    replace (S (S j) - 1)%nat with (S j) in Q4 by lia.
    rewrite Q2 in Q4. rewrite Q3 in Q5. injection Q4 as A1 A2. injection Q5 as A3 A4.
    apply map_Fin_inj in A1, A2, A3, A4. now subst.
  - intros Hsum Hj. rewrite LF in Hj. specialize (Hu Hj).
    destruct (NF 0%nat Hj) as (c2 & e2 & Q2 & ->).
    destruct (iterate_decreases _ _ _ _ _ _ c e oc oe 1%nat Hs HN0 HW Hpf Hsup Hsz Hpc Hpe Hu)
      as (c4 & e4 & c5 & e5 & Q4 & Q5 & _ & _ & _ & _ & Hle); try lia.
    { intros i ci ei Hij Qi. apply (Hk i); auto. lia. }
    { intros Ho _. destruct Hsum; [auto|congruence]. }
    cbn [iterate Nat.sub] in Q4. rewrite Q2 in Q5. injection Q4 as A1 A2. injection Q5 as A3 A4.
    apply map_Fin_inj in A1, A2, A3, A4. now subst.
Qed.

(** ** C46: fixed points *)

(** Derivatives of the divergence. *)
Lemma is_derive_sumn n (F : nat -> R -> R) (dF : nat -> R) x :
  (forall i, (i < n)%nat -> is_derive (F i) x (dF i)) ->
  is_derive (fun t : R => sumn n (fun i => F i t)) x (sumn n dF).
Proof.
  revert F dF; induction n as [|n IH]; intros F dF H.
  - unfold sumn. simpl. apply (is_derive_const 0 x).
  - rewrite sumn_S. apply (is_derive_ext (fun t : R => F 0%nat t + sumn n (fun i => F (S i) t))).
    { intros t. now rewrite sumn_S. }
    apply (is_derive_plus (V := R_NormedModule)).
    + apply H. lia.
    + apply (IH (fun i => F (S i)) (fun i => dF (S i))). intros i Hi. apply H. lia.
Qed.

Lemma kl_sum_derive W f lays norm (C E : R -> list R) (x : R) (dG : nat -> R) :
  length f = length W -> length lays = length W -> positive f ->
  (forall i, (i < length W)%nat ->
     is_derive (fun t : R => gsum norm (nth i lays []) (C t) (E t)) x (dG i) /\
     0 < gsum norm (nth i lays []) (C x) (E x)) ->
  is_derive (fun t : R => kl_sum W f (values norm lays (C t) (E t))) x
    (- sumn (length W) (fun i => nth i W 0 * (nth i f 0 / gsum norm (nth i lays []) (C x) (E x) * dG i))).
Proof.
  intros Hf Hl Hpf H.
  apply (is_derive_ext (fun t : R => sumn (length W) (fun i => nth i W 0 *
     kl_fn (nth i f 0) (gsum norm (nth i lays []) (C t) (E t))))).
  { intros t. rewrite kl_sum_sumn by (unfold values; rewrite ?map_length; auto).
    apply sumn_ext. intros i Hi. now rewrite nth_values by lia. }
  replace (- sumn (length W) (fun i => nth i W 0 * (nth i f 0 / gsum norm (nth i lays []) (C x) (E x) * dG i)))
    with (sumn (length W) (fun i => nth i W 0 * (dG i * - (nth i f 0 / gsum norm (nth i lays []) (C x) (E x))))).
  2:{ rewrite <- (Rmult_1_l (sumn _ (fun i => _ * (_ / _ * dG i)))), <- Ropp_mult_distr_l_reverse, <- sumn_scal.
      apply sumn_ext. intros. ring. }
  apply is_derive_sumn. intros i Hi. destruct (H i Hi) as [H1 H2].
  apply (is_derive_scal (fun t : R => kl_fn (nth i f 0) (gsum norm (nth i lays []) (C t) (E t))) x (nth i W 0)).
  apply (is_derive_comp (kl_fn (nth i f 0)) (fun t : R => gsum norm (nth i lays []) (C t) (E t))); auto.
  apply kl_fn_derive; auto. apply positive_nth; auto. lia.
Qed.

Lemma kl_grad_c m norm lays nb mask W f c e k :
  vfacts m norm lays nb -> length f = length W -> length lays = length W -> positive f ->
  length c = nb -> length e = nb -> 0 <= mask -> all_above mask f (values norm lays c e) -> (k < nb)%nat ->
  is_derive (fun t : R => kl_sum W f (values norm lays (upd c k t) e)) (nth k c 0)
    (- avg1 mask W f norm lays c e k).
Proof.
  intros Hv Hf Hl Hpf Hc He Hm Hk Hkb.
  assert (Hll : forall i, (i < length W)%nat -> length (nth i lays []) = nb).
  { intros i Hi. eapply vf_len; eauto. apply nth_In. lia. }
  assert (Hg : forall i, (i < length W)%nat -> 0 < gsum norm (nth i lays []) c e).
  { intros i Hi. rewrite <- nth_values by lia. eapply kept_nz; eauto. apply Hk. lia. }
  replace (avg1 mask W f norm lays c e k) with
    (sumn (length W) (fun i => nth i W 0 * (nth i f 0 / gsum norm (nth i lays []) (upd c k (nth k c 0)) e *
        nth k (bcol norm (nth i lays []) e) 0))).
  2:{ unfold avg1. cbv zeta. apply sumn_ext. intros i Hi. rewrite upd_same by lia.
      rewrite nth_bcol by (rewrite ?Hll; auto; lia). rewrite kl_ratio_kept; auto.
      rewrite <- nth_values by lia. apply Hk. lia. }
  apply (kl_sum_derive W f lays norm (fun t => upd c k t) (fun _ => e)); auto.
  intros i Hi. split.
  - apply is_derive_gsum_c; rewrite ?Hll; auto; lia.
  - rewrite upd_same by lia. auto.
Qed.

Lemma dbasis_norm p a r : 0 < a ->
  dbasis true p a r = (half_power p / a - r ^ 2) * basis_fn true p a r.
Proof.
  intros Ha. assert (HP : 0 < Rpower PI (3/2)) by apply exp_pos.
  assert (HPI := PI_RGT_0).
  assert (E1 : Rpower a (3/2) = a * Rpower a (1/2)).
  { replace (3/2) with (1 + 1/2) by lra. now rewrite Rpower_plus, Rpower_1. }
  assert (E2 : Rpower a (5/2) = a * Rpower a (3/2)).
  { replace (5/2) with (1 + 3/2) by lra. now rewrite Rpower_plus, Rpower_1. }
  unfold dbasis, basis_fn, norm_const, half_power. destruct p.
  - rewrite E2. field. split; lra.
  - assert (E3 : Rpower (a / PI) (3/2) = Rpower a (3/2) / Rpower PI (3/2)).
    { unfold Rpower, Rdiv. rewrite ln_mult, ln_Rinv by (auto; now apply Rinv_0_lt_compat).
      rewrite <- exp_Ropp, <- exp_plus. f_equal. ring. }
    rewrite E3, E1. field. split; lra.
Qed.

Lemma kl_grad_e m norm lays nb mask W f c e k :
  vfacts m norm lays nb -> length f = length W -> length lays = length W -> lays <> [] -> positive f ->
  length c = nb -> length e = nb -> 0 <= mask -> all_above mask f (values norm lays c e) -> (k < nb)%nat ->
  (norm = true -> 0 < nth k e 0) ->
  is_derive (fun t : R => kl_sum W f (values norm lays c (upd e k t))) (nth k e 0)
    (- (nth k c 0 * ((if norm then half_power (kind (nth 0 lays []) k) * avg1 mask W f norm lays c e k / nth k e 0
                      else 0) - avg2 mask W f norm lays c e k))).
Proof.
  intros Hv Hf Hl Hne Hpf Hc He Hm Hk Hkb Hpe.
  assert (Hll : forall i, (i < length W)%nat -> length (nth i lays []) = nb).
  { intros i Hi. eapply vf_len; eauto. apply nth_In. lia. }
  assert (Hg : forall i, (i < length W)%nat -> 0 < gsum norm (nth i lays []) c e).
  { intros i Hi. rewrite <- nth_values by lia. eapply kept_nz; eauto. apply Hk. lia. }
  replace (nth k c 0 * _) with
    (sumn (length W) (fun i => nth i W 0 * (nth i f 0 / gsum norm (nth i lays []) c (upd e k (nth k e 0)) *
        nth k (ecol norm (nth i lays []) c e) 0))).
  2:{ transitivity (sumn (length W) (fun i => nth k c 0 * (
         (if norm then half_power (kind (nth 0 lays []) k) / nth k e 0 else 0) *
           (nth i W 0 * (kl_ratio mask (nth i f 0) (gsum norm (nth i lays []) c e) *
              basis_fn norm (kind (nth i lays []) k) (nth k e 0) (away (nth i lays []) k))) -
         1 * (nth i W 0 * (kl_ratio mask (nth i f 0) (gsum norm (nth i lays []) c e) *
              basis_fn norm (kind (nth i lays []) k) (nth k e 0) (away (nth i lays []) k) *
              away (nth i lays []) k ^ 2))))).
      - apply sumn_ext. intros i Hi. rewrite upd_same by lia.
        rewrite nth_ecol by (rewrite ?Hll; auto; lia).
        rewrite kl_ratio_kept by (rewrite <- nth_values by lia; apply Hk; lia).
        specialize (Hg i Hi).
        destruct norm.
        + rewrite dbasis_norm by auto.
          assert (Ek : kind (nth 0 lays []) k = kind (nth i lays []) k).
          { eapply vf_kind; eauto; apply nth_In; destruct lays; [congruence|simpl in *; lia|congruence|lia]. }
          rewrite Ek. specialize (Hpe eq_refl). field. lra.
        + unfold dbasis. field. lra.
      - rewrite sumn_scal, sumn_minus, !sumn_scal. unfold avg1, avg2. cbv zeta.
        destruct norm; unfold Rdiv; ring. }
  apply (kl_sum_derive W f lays norm (fun _ => c) (fun t => upd e k t)); auto.
  intros i Hi. split.
  - apply is_derive_gsum_e; rewrite ?Hll; auto; lia.
  - rewrite upd_same by lia. auto.
Qed.

Lemma rsum_upd_derive (c : list R) : forall k, (k < length c)%nat ->
  is_derive (fun t : R => rsum (upd c k t)) (nth k c 0) 1.
Proof.
  induction c as [|x c IH]; intros k Hk; simpl in Hk; [lia|]. destruct k as [|k].
  - apply (is_derive_ext (fun t : R => t + rsum c)); [reflexivity|]. cbn [nth]. auto_derive; auto; ring.
  - apply (is_derive_ext (fun t : R => x + rsum (upd c k t))); [reflexivity|]. cbn [nth].
    replace 1 with (0 + 1) by ring.
    apply (is_derive_plus (V := R_NormedModule) (fun _ : R => x) (fun t : R => rsum (upd c k t)));
      [apply (is_derive_const x)|]. apply IH. lia.
Qed.

Lemma fixed_coeffs fp W f norm lays mask N c e ue e1 :
  fpi_setting fp W f norm lays mask N -> 0 < N -> nonneg W -> positive f ->
  sized lays c e -> positive c -> (norm = true -> positive e) ->
  all_above mask f (values norm lays c e) ->
  update_params fp (map Fin c) (map Fin e) true ue = Ok (map Fin c, e1) ->
  rsum c = N /\ (forall k, (k < nfun lays)%nat ->
     is_derive (fun t : R => kl_sum W f (values norm lays (upd c k t) e) + quad W f / N * rsum (upd c k t))
       (nth k c 0) 0) /\ (forall c2, length c2 = nfun lays -> rsum c2 <= N ->
     positive (values norm lays c2 e) ->
     kl_sum W f (values norm lays c e) <= kl_sum W f (values norm lays c2 e)).
Proof.
  intros Hs HN0 HW Hpf Hsz Hpc Hpe Hk H.
  destruct (coeffs_sum _ _ _ _ _ _ _ _ _ _ _ _ Hs Hsz (positive_nonneg _ Hpc) Hpe Hk H) as (c' & Ec & _ & Hsum).
  apply map_Fin_inj in Ec. subst c'. split; auto.
  destruct (setting_facts _ _ _ _ _ _ _ Hs) as [m [Hft Hme Hlm Hnz Hne Hv]].
  destruct Hsz as [Hc He]. destruct Hs as [_ Hf Hl Hm HN].
  assert (Hd : 0 < rdot W f).
  { destruct (rdot_nonneg W f HW (positive_nonneg _ Hpf)); auto. congruence. }
  assert (Hlam : 0 < rdot W f / N) by now apply Rdiv_lt_0_compat.
  rewrite (update_gen fp W f m mask norm lays (nfun lays) (rdot W f / N) c e true ue) in H
    by (auto; try lra; now apply positive_nonneg).
  assert (HA : forall k, (k < nfun lays)%nat -> avg1 mask W f norm lays c e k = rdot W f / N).
  { intros k Hkb. assert (E : upd_c mask W f norm lays (rdot W f / N) c e = c).
    { apply map_Fin_inj. apply (f_equal (fun z => match z with Ok p => fst p | _ => [] end)) in H. exact H. }
    pose proof (nth_upd_c mask W f norm lays (rdot W f / N) c e k ltac:(lia)) as Ek. rewrite E in Ek.
    assert (0 < nth k c 0) by (apply positive_nth; auto; lia).
    apply Rmult_eq_reg_l with (nth k c 0 / (rdot W f / N)).
    - transitivity (nth k c 0 * avg1 mask W f norm lays c e k / (rdot W f / N)); [field; lra|].
      rewrite <- Ek. field. lra.
    - apply Rgt_not_eq. now apply Rdiv_lt_0_compat. }
  split.
  - intros k Hkb. replace 0 with (- avg1 mask W f norm lays c e k + rdot W f / N * 1) at 2 by (rewrite HA by auto; ring).
    apply (is_derive_plus (V := R_NormedModule) (fun t : R => kl_sum W f (values norm lays (upd c k t) e))
       (fun t : R => quad W f / N * rsum (upd c k t))).
    + eapply kl_grad_c; eauto.
    + apply (is_derive_scal (fun t : R => rsum (upd c k t)) (nth k c 0) (quad W f / N) 1).
      apply rsum_upd_derive. lia.
  - intros c2 Hc2 Hs2 Hp2.
    assert (Hll : forall i, (i < length W)%nat -> length (nth i lays []) = nfun lays).
    { intros i Hi. eapply vf_len; eauto. apply nth_In. lia. }
    assert (Hg : forall i, (i < length W)%nat -> 0 < gsum norm (nth i lays []) c e).
    { intros i Hi. rewrite <- nth_values by lia. eapply kept_nz; eauto. apply Hk. lia. }
    rewrite !kl_sum_sumn by (unfold values; rewrite ?map_length; auto).
    apply Rle_trans with (sumn (length W) (fun i => nth i W 0 * kl_fn (nth i f 0) (nth i (values norm lays c2 e) 0) +
       (nth i W 0 * (nth i f 0 / gsum norm (nth i lays []) c e * gsum norm (nth i lays []) c2 e) - nth i W 0 * nth i f 0))).
    + apply sumn_le. intros i Hi. specialize (Hg i Hi).
      assert (Hg2 : 0 < nth i (values norm lays c2 e) 0).
      { apply positive_nth; auto. unfold values. rewrite map_length. lia. }
      assert (Hfi : 0 < nth i f 0) by (apply positive_nth; auto; lia).
      assert (Hwi : 0 <= nth i W 0) by (apply nonneg_nth; auto).
      rewrite !nth_values in * by lia. set (g := gsum norm (nth i lays []) c e) in *.
      set (h := gsum norm (nth i lays []) c2 e) in *.
      rewrite <- Rmult_minus_distr_l, <- Rmult_plus_distr_l. apply Rmult_le_compat_l; auto.
      unfold kl_fn. unfold Rdiv at 1 2. rewrite !ln_mult, !ln_Rinv by (auto; now apply Rinv_0_lt_compat).
      assert (L : ln (h / g) <= h / g - 1) by (apply ln_le_sub; now apply Rdiv_lt_0_compat).
      unfold Rdiv in L at 1. rewrite ln_mult, ln_Rinv in L by (auto; now apply Rinv_0_lt_compat).
      apply Rmult_le_compat_l with (r := nth i f 0) in L; [|lra].
      replace (nth i f 0 / g * h) with (nth i f 0 * (h / g)) by (field; lra). lra.
    + rewrite sumn_plus, sumn_minus, <- rdot_sumn by auto.
      assert (E : sumn (length W) (fun i => nth i W 0 * (nth i f 0 / gsum norm (nth i lays []) c e * gsum norm (nth i lays []) c2 e))
        = rdot W f / N * rsum c2).
      { rewrite rsum_sumn, Hc2, <- sumn_scal.
        transitivity (sumn (nfun lays) (fun k => sumn (length W) (fun i => nth k c2 0 * (nth i W 0 * (kl_ratio mask (nth i f 0) (gsum norm (nth i lays []) c e) *
           basis_fn norm (kind (nth i lays []) k) (nth k e 0) (away (nth i lays []) k)))))).
        - rewrite sumn_swap. apply sumn_ext. intros i Hi.
          rewrite kl_ratio_kept by (rewrite <- nth_values by lia; apply Hk; lia).
          rewrite gsum_sumn with (c := c2) by (rewrite ?Hll; auto; lia). rewrite Hll by auto.
          rewrite <- !sumn_scal. apply sumn_ext. intros k Hkk. ring.
        - apply sumn_ext. intros k Hkk. rewrite sumn_scal, <- (HA k Hkk). unfold avg1. cbv zeta. ring. }
      rewrite E.
      assert (rdot W f / N * rsum c2 <= rdot W f / N * N) by (apply Rmult_le_compat_l; lra).
      replace (rdot W f / N * N) with (rdot W f) in H0 by (field; lra). lra.
Qed.

Lemma fixed_expons fp W f lays mask N c e uc c1 :
  fpi_setting fp W f true lays mask N -> nonneg W -> positive f -> supported W f lays (nfun lays) ->
  sized lays c e -> positive c -> positive e ->
  all_above mask f (values true lays c e) ->
  update_params fp (map Fin c) (map Fin e) uc true = Ok (c1, map Fin e) ->
  forall k, (k < nfun lays)%nat ->
    is_derive (fun t : R => kl_sum W f (values true lays c (upd e k t))) (nth k e 0) 0.
Proof.
  intros Hs HW Hpf Hsup Hsz Hpc Hpe Hk H k Hkb.
  destruct (setting_facts _ _ _ _ _ _ _ Hs) as [m [Hft Hme Hlm Hnz Hne Hv]].
  destruct Hsz as [Hc He]. destruct Hs as [_ Hf Hl Hm HN].
  assert (HB : forall j, (j < nfun lays)%nat -> 0 < avg2 mask W f true lays c e j).
  { intros j Hj. eapply avg2_pos; eauto. now apply positive_nonneg. }
  assert (Hlam : rdot W f / N <> 0).
  { unfold Rdiv. apply Rmult_integral_contrapositive_currified; auto. now apply Rinv_neq_0_compat. }
  rewrite (update_fin fp W f m mask true lays (nfun lays) (rdot W f / N) c e uc true) in H
    by (auto; try (now apply positive_nonneg); try (now rewrite orb_true_r); intros _ j Hj; apply Rgt_not_eq; apply HB; auto).
  injection H as _ H. apply map_Fin_inj in H.
  assert (Hek : 0 < nth k e 0) by (apply positive_nth; auto; lia).
  pose proof (kl_grad_e m true lays (nfun lays) mask W f c e k Hv Hf Hl Hne Hpf Hc He Hm Hk Hkb (fun _ => Hek)) as D.
  refine (eq_ind _ (fun l : R => is_derive _ _ l) D 0 _). clear D. cbv beta iota.
  pose proof (nth_upd_e mask W f true lays c e k ltac:(lia)) as Ek. rewrite H in Ek.
    specialize (HB k Hkb).
    assert (E2 : half_power (kind (nth 0 lays []) k) * avg1 mask W f true lays c e k = nth k e 0 * avg2 mask W f true lays c e k).
    { rewrite Ek at 1. field. lra. }
    rewrite E2. field. lra.
Qed.

(** Without normalisation the divergence still has slope [c_k B_k > 0] in every exponent. *)
Lemma unnormalised_slope fp W f lays mask N c e :
  fpi_setting fp W f false lays mask N -> nonneg W -> positive f -> supported W f lays (nfun lays) ->
  sized lays c e -> positive c -> all_above mask f (values false lays c e) ->
  forall k, (k < nfun lays)%nat -> exists d, 0 < d /\ is_derive (fun t : R => kl_sum W f (values false lays c (upd e k t))) (nth k e 0) d.
Proof.
  intros Hs HW Hpf Hsup Hsz Hpc Hk k Hkb.
  destruct (setting_facts _ _ _ _ _ _ _ Hs) as [m [Hft Hme Hlm Hnz Hne Hv]].
  destruct Hsz as [Hc He]. destruct Hs as [_ Hf Hl Hm HN].
  assert (HB : 0 < avg2 mask W f false lays c e k) by (eapply avg2_pos; eauto; now apply positive_nonneg).
  assert (0 < nth k c 0) by (apply positive_nth; auto; lia).
  eexists. split; [|apply (kl_grad_e m false lays (nfun lays) mask W f c e k); auto; discriminate].
  cbn [Rminus]. assert (0 < nth k c 0 * avg2 mask W f false lays c e k) by now apply Rmult_lt_0_compat. lra.
Qed.
