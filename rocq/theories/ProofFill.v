(** Updates of the fixed point iteration with masked points (C104). *)
From Coquelicot Require Import Coquelicot.
From Coq Require Import Reals List ZArith Lia Lra Bool.
From Verif Require Import XR SpecDens SpecMeas SpecGrid ModelDens ModelMeas ModelGrid ModelFit Lists ProofDens
  ProofDeriv ProofMeas SpecFit ProofFitView ProofFit ProofEM ProofFPI ProofFPI2 ProofFPI3 SpecFill.
Import ListNotations.
Local Open Scope R_scope.

Lemma visible_kept mask f g : visible mask f g = true <-> kept mask f g.
Proof.
  unfold visible, kept. destruct (Rlt_dec mask g), (Rlt_dec (Rabs f * / 2 ^ 1022) (Rabs g)); split; intros H; try discriminate; tauto.
Qed.
Lemma visible_ratio mask f g : kl_ratio mask f g = if visible mask f g then f / g else 1.
Proof. unfold kl_ratio, visible. destruct (Rlt_dec mask g); auto. destruct (Rlt_dec _ _); auto. Qed.
Lemma visible_pos mask f g : 0 <= mask -> visible mask f g = true -> 0 < g.
Proof. intros H V. apply visible_kept in V. destruct V. lra. Qed.
Lemma masked_le mask f g : 0 <= g -> visible mask f g = false -> g <= Rmax mask (Rabs f * / 2 ^ 1022).
Proof.
  intros Hg. unfold visible. destruct (Rlt_dec mask g).
  - destruct (Rlt_dec _ _) as [|n]; [discriminate|]. intros _. rewrite (Rabs_pos_eq g) in n by auto.
    apply Rle_trans with (Rabs f * / 2 ^ 1022); [now apply Rnot_lt_le|apply Rmax_r].
  - intros _. apply Rle_trans with mask; [lra|apply Rmax_l].
Qed.

Lemma parts mask W f g v : length v = length W ->
  open_part mask W f g v + masked_part mask W f g v = rdot W v.
Proof.
  intros H. unfold open_part, masked_part. rewrite <- sumn_plus, rdot_sumn by auto.
  apply sumn_ext. intros i Hi. destruct (visible _ _ _); ring.
Qed.

(** Sum of the new coefficients. *)
Lemma sum_fill m norm lays nb mask W f c e :
  vfacts m norm lays nb -> length lays = length W -> length f = length W ->
  length c = nb -> length e = nb -> 0 <= mask ->
  let g := values norm lays c e in
  sumn nb (fun k => nth k c 0 * avg1 mask W f norm lays c e k) = open_part mask W f g f + masked_part mask W f g g.
Proof.
  intros Hv HlW Hf Hc He Hm g. unfold avg1. cbv zeta.
  transitivity (sumn nb (fun k => sumn (length W) (fun i => nth i W 0 * (kl_ratio mask (nth i f 0) (nth i g 0) *
     (nth k c 0 * basis_fn norm (kind (nth i lays []) k) (nth k e 0) (away (nth i lays []) k)))))).
  { apply sumn_ext. intros k Hkk. rewrite <- sumn_scal. apply sumn_ext. intros i Hi.
    unfold g. rewrite nth_values by lia. ring. }
  rewrite sumn_swap. unfold open_part, masked_part. rewrite <- sumn_plus. apply sumn_ext. intros i Hi.
  rewrite (sumn_ext nb _ (fun k => (nth i W 0 * kl_ratio mask (nth i f 0) (nth i g 0)) *
     (nth k c 0 * basis_fn norm (kind (nth i lays []) k) (nth k e 0) (away (nth i lays []) k))))
    by (intros; ring).
  rewrite sumn_scal.
  assert (Hl : length (nth i lays []) = nb) by (eapply vf_len; eauto; apply nth_In; lia).
  rewrite <- Hl at 1. rewrite <- gsum_sumn by lia. unfold g in *. rewrite <- nth_values by lia.
  rewrite visible_ratio. destruct (visible _ _ _) eqn:V; [|ring].
  apply visible_pos in V; auto. field. lra.
Qed.

Lemma upd_fill m norm lays nb mask W f c e lam :
  vfacts m norm lays nb -> length lays = length W -> length f = length W ->
  length c = nb -> length e = nb -> 0 <= mask -> lam <> 0 ->
  let g := values norm lays c e in
  rsum (upd_c mask W f norm lays lam c e) = (rdot W f + (masked_part mask W f g g - masked_part mask W f g f)) / lam.
Proof.
  intros Hv HlW Hf Hc He Hm Hz g. rewrite <- (parts mask W f g f Hf).
  replace (open_part mask W f g f + masked_part mask W f g f + (masked_part mask W f g g - masked_part mask W f g f))
    with (open_part mask W f g f + masked_part mask W f g g) by ring.
  unfold g. rewrite rsum_sumn, upd_c_length, Hc, <- (sum_fill m norm lays nb mask W f c e) by auto.
  unfold Rdiv. rewrite Rmult_comm, <- sumn_scal. apply sumn_ext. intros k Hkk.
  rewrite nth_upd_c by lia. unfold Rdiv. ring.
Qed.

Lemma fill_sum fp W f norm lays mask N c e ue c1 e1 :
  fpi_setting fp W f norm lays mask N -> sized lays c e -> nonneg c -> (norm = true -> positive e) ->
  update_params fp (map Fin c) (map Fin e) true ue = Ok (c1, e1) ->
  let g := values norm lays c e in
  exists c', c1 = map Fin c' /\ length c' = nfun lays /\
    rsum c' = N + N / quad W f * (masked_part mask W f g g - masked_part mask W f g f).
Proof.
  intros Hs [Hc He] Hnc Hpe H g. destruct (setting_facts _ _ _ _ _ _ _ Hs) as [m [Hft Hme Hlm Hnz Hne Hv]].
  destruct Hs as [_ Hf Hl Hm HN].
  assert (Hlam : rdot W f / N <> 0).
  { unfold Rdiv. apply Rmult_integral_contrapositive_currified; auto. now apply Rinv_neq_0_compat. }
  rewrite (update_gen fp W f m mask norm lays (nfun lays) (rdot W f / N) c e true ue) in H by auto.
  injection H as <- <-. eexists. split; [reflexivity|]. split; [now rewrite upd_c_length|].
  unfold g, quad. rewrite (upd_fill m norm lays (nfun lays)) by auto. field. auto.
Qed.

(** The excess is at most what the mask hides. *)
Lemma masked_cap mask W f g : length f = length W -> nonneg W -> nonneg g ->
  masked_part mask W f g g <= masked_part mask W f g (mask_cap mask f) /\ 0 <= masked_part mask W f g g.
Proof.
  intros Hf HW Hg. unfold masked_part. split.
  - apply sumn_le. intros i Hi. destruct (visible _ _ _) eqn:V; [lra|].
    apply Rmult_le_compat_l; [now apply nonneg_nth|]. unfold mask_cap.
    rewrite (nth_indep (map _ f) 0 (Rmax mask (Rabs 0 * / 2 ^ 1022))) by (rewrite map_length; lia).
    rewrite (map_nth (fun x => Rmax mask (Rabs x * / 2 ^ 1022))). apply masked_le; auto. now apply nonneg_nth.
  - apply sumn_nonneg. intros i Hi. destruct (visible _ _ _); [lra|].
    apply Rmult_le_pos; now apply nonneg_nth.
Qed.
Lemma masked_nonneg mask W f g v : nonneg W -> nonneg v -> 0 <= masked_part mask W f g v.
Proof.
  intros HW Hv. unfold masked_part. apply sumn_nonneg. intros i Hi. destruct (visible _ _ _); [lra|].
  apply Rmult_le_pos; now apply nonneg_nth.
Qed.

Lemma fill_excess fp W f norm lays mask N c e ue c1 e1 :
  fpi_setting fp W f norm lays mask N -> 0 < N -> nonneg W -> nonneg f -> sized lays c e -> nonneg c ->
  (norm = true -> positive e) ->
  update_params fp (map Fin c) (map Fin e) true ue = Ok (c1, e1) ->
  let g := values norm lays c e in
  exists c', c1 = map Fin c' /\
    N - N / quad W f * masked_part mask W f g f <= rsum c' <= N + N / quad W f * masked_part mask W f g (mask_cap mask f).
Proof.
  intros Hs HN0 HW Hnf Hsz Hnc Hpe H g.
  destruct (fill_sum _ _ _ _ _ _ _ _ _ _ _ _ Hs Hsz Hnc Hpe H) as (c' & E & _ & R). fold g in R.
  destruct (setting_facts _ _ _ _ _ _ _ Hs) as [m [Hft Hme Hlm Hnz Hne Hv]].
  destruct Hs as [_ Hf Hl Hm HN], Hsz as [Hc He].
  assert (Hg : nonneg g) by (eapply values_nonneg; eauto).
  destruct (masked_cap mask W f g Hf HW Hg) as [M1 M2].
  pose proof (masked_nonneg mask W f g f HW Hnf) as M3.
  assert (Hd : 0 < rdot W f).
  { assert (0 <= rdot W f); [|lra]. rewrite rdot_sumn by auto. apply sumn_nonneg. intros i Hi.
    apply Rmult_le_pos; now apply nonneg_nth. }
  assert (Hq : 0 < N / quad W f) by (apply Rdiv_lt_0_compat; auto).
  exists c'. split; auto. rewrite R. split.
  - assert (N / quad W f * 0 <= N / quad W f * masked_part mask W f g g) by (apply Rmult_le_compat_l; lra). lra.
  - assert (N / quad W f * masked_part mask W f g g <= N / quad W f * masked_part mask W f g (mask_cap mask f))
      by (apply Rmult_le_compat_l; lra).
    assert (0 <= N / quad W f * masked_part mask W f g f) by (apply Rmult_le_pos; lra). lra.
Qed.

(** ** One update *)
Section EM.
Variables (m : gmodel) (lays : list (list (bool * R))) (nb : nat) (mask : R) (W f c e c' e' : list R).
Hypothesis Hv : vfacts m true lays nb.
Hypothesis HlW : length lays = length W.
Hypothesis Hf : length f = length W.
Hypothesis Hne : lays <> [].
Hypothesis Hc : length c = nb.
Hypothesis He : length e = nb.
Hypothesis Hc' : length c' = nb.
Hypothesis He' : length e' = nb.
Hypothesis Hm : 0 <= mask.
Hypothesis HW : nonneg W.
Hypothesis Hpf : positive f.
Hypothesis Hpc : positive c.
Hypothesis Hpe : positive e.
Hypothesis Hpc' : positive c'.
Hypothesis Hpe' : positive e'.

Let g0 := values true lays c e.
Let A k := avg1 mask W f true lays c e k.
Let B k := avg2 mask W f true lays c e k.
Let P k := half_power (kind (nth 0 lays []) k).
Let gain (c e : list R) :=
  kl_open mask W f g0 (values true lays c e) - masked_part mask W f g0 (values true lays c e).

Lemma fill_bound :
  gain c' e' +
  sumn nb (fun k => nth k c 0 * (A k * (ln (nth k c' 0 / nth k c 0) + P k * ln (nth k e' 0 / nth k e 0)) -
                                 (nth k e' 0 - nth k e 0) * B k))
  <= gain c e.
Proof.
  assert (HL : forall c e, length (values true lays c e) = length W) by (intros; unfold values; now rewrite map_length).
  set (u := fun i k => nth k c 0 * basis_fn true (kind (nth i lays []) k) (nth k e 0) (away (nth i lays []) k)).
  set (v := fun i k => nth k c' 0 * basis_fn true (kind (nth i lays []) k) (nth k e' 0) (away (nth i lays []) k)).
  assert (Hin : forall i, (i < length W)%nat -> In (nth i lays []) lays) by (intros; apply nth_In; lia).
  assert (Hll : forall i, (i < length W)%nat -> length (nth i lays []) = nb).
  { intros. eapply vf_len; eauto. }
  assert (Eg : forall i, (i < length W)%nat -> nth i g0 0 = sumn nb (u i)).
  { intros i Hi. unfold g0. rewrite nth_values, gsum_sumn, (Hll i Hi) by (rewrite ?Hll; auto; lia). reflexivity. }
  assert (Eh : forall i, (i < length W)%nat -> nth i (values true lays c' e') 0 = sumn nb (v i)).
  { intros i Hi. rewrite nth_values, gsum_sumn, (Hll i Hi) by (rewrite ?Hll; auto; lia). reflexivity. }
  set (L := fun i k => ln (nth k c' 0 / nth k c 0) + P k * ln (nth k e' 0 / nth k e 0) -
                       (nth k e' 0 - nth k e 0) * away (nth i lays []) k ^ 2).
  assert (Hu : forall i k, (k < nb)%nat -> 0 <= u i k).
  { intros i k Hkk. apply Rmult_le_pos; [|apply basis_fn_nonneg]. apply nonneg_nth. now apply positive_nonneg. }
  assert (Hvk : forall i k, (k < nb)%nat -> 0 <= v i k).
  { intros i k Hkk. apply Rmult_le_pos; [|apply basis_fn_nonneg]. apply nonneg_nth. now apply positive_nonneg. }
  assert (HLk : forall i k, (i < length W)%nat -> (k < nb)%nat -> 0 < u i k -> 0 < v i k /\ L i k = ln (v i k / u i k)).
  { intros i k Hi Hkk Huk. unfold u in Huk.
    assert (Hck : 0 < nth k c 0) by (apply positive_nth; auto; lia).
    assert (Hck' : 0 < nth k c' 0) by (apply positive_nth; auto; lia).
    assert (Hek : 0 < nth k e 0) by (apply positive_nth; auto; lia).
    assert (Hek' : 0 < nth k e' 0) by (apply positive_nth; auto; lia).
    assert (Hb : 0 < basis_fn true (kind (nth i lays []) k) (nth k e 0) (away (nth i lays []) k)).
    { pose proof (basis_fn_nonneg true (kind (nth i lays []) k) (nth k e 0) (away (nth i lays []) k)) as Hnn.
      destruct Hnn as [|E]; auto. rewrite <- E in Huk. lra. }
    destruct (basis_ln _ _ (nth k e' 0) _ Hek Hek' Hb) as [Hb' Eb].
    split; [unfold v; now apply Rmult_lt_0_compat|].
    unfold v, u, L.
    set (b := basis_fn true (kind (nth i lays []) k) (nth k e 0) (away (nth i lays []) k)) in *.
    set (b' := basis_fn true (kind (nth i lays []) k) (nth k e' 0) (away (nth i lays []) k)) in *.
    replace (nth k c' 0 * b' / (nth k c 0 * b)) with (nth k c' 0 / nth k c 0 * (b' / b)) by (field; lra).
    rewrite ln_mult, Eb by (apply Rdiv_lt_0_compat; auto).
    unfold P. rewrite (vf_kind _ _ _ _ Hv k (nth 0 lays []) (nth i lays [])); auto; [ring|].
    apply nth_In. destruct lays; simpl; [congruence|lia]. }
  assert (E : sumn nb (fun k => nth k c 0 * (A k * (ln (nth k c' 0 / nth k c 0) + P k * ln (nth k e' 0 / nth k e 0)) -
                                 (nth k e' 0 - nth k e 0) * B k)) =
     sumn (length W) (fun i => nth i W 0 * (kl_ratio mask (nth i f 0) (nth i g0 0) * sumn nb (fun k => u i k * L i k)))).
  { transitivity (sumn (length W) (fun i => sumn nb (fun k => nth i W 0 * (kl_ratio mask (nth i f 0) (nth i g0 0) * (u i k * L i k))))).
    2:{ apply sumn_ext. intros i Hi. rewrite <- !sumn_scal. reflexivity. }
    rewrite sumn_swap. apply sumn_ext. intros k Hkk. unfold A, B, avg1, avg2. cbv zeta.
    rewrite (Rmult_comm (sumn _ _) (_ + _)), <- !sumn_scal, <- sumn_minus, <- sumn_scal.
    apply sumn_ext. intros i Hi. unfold g0. rewrite nth_values by lia. unfold L, u. ring. }
  unfold gain. rewrite E. unfold kl_open, open_part, masked_part. fold g0. rewrite <- !sumn_minus, <- sumn_plus. apply sumn_le.
  intros i Hi. rewrite !(nth_map2 kl_fn f _ i 0 0 0) by (unfold g0; rewrite ?HL; lia).
  rewrite visible_ratio, Eh by auto.
  assert (HWi : 0 <= nth i W 0) by now apply nonneg_nth.
  destruct (visible mask (nth i f 0) (nth i g0 0)) eqn:V.
  - apply visible_pos in V; auto. rewrite Eg in V |- * by auto.
    assert (Hfi : 0 < nth i f 0) by (apply positive_nth; auto; lia).
    assert (Hhi : 0 < sumn nb (v i)).
    { destruct (Rlt_dec 0 (sumn nb (v i))) as [|Hn]; auto. exfalso.
      assert (sumn nb (u i) <= 0); [|lra]. rewrite <- (sumn_zero nb (fun _ => 0)) by auto.
      apply sumn_le. intros k Hkk. destruct (Rlt_dec 0 (u i k)) as [Hp|]; [|lra].
      destruct (HLk i k Hi Hkk Hp) as [Hp' _]. exfalso. apply Hn. apply sumn_pos; [now apply Hvk|exists k; auto]. }
    pose proof (mix_jensen nb (u i) (v i) (L i) (Hu i) (Hvk i) V Hhi (fun k => HLk i k Hi)) as J.
    rewrite (sumn_ext nb _ (fun k => / sumn nb (u i) * (u i k * L i k))) in J by (intros; unfold Rdiv; ring).
    rewrite sumn_scal, ln_div in J by auto.
    unfold kl_fn. rewrite !ln_div by auto.
    apply (Rmult_le_compat_l (nth i W 0 * nth i f 0)) in J; [|apply Rmult_le_pos; lra].
    unfold Rdiv. lra.
  - rewrite Eg by auto. assert (J : sumn nb (fun k => u i k * L i k) <= sumn nb (v i) - sumn nb (u i)).
    { rewrite <- sumn_minus. apply sumn_le. intros k Hkk. destruct (Rlt_dec 0 (u i k)) as [Hp|Hn].
      - destruct (HLk i k Hi Hkk Hp) as [Hp' ->].
        pose proof (ln_le_sub (v i k / u i k) ltac:(now apply Rdiv_lt_0_compat)) as Hle.
        apply (Rmult_le_compat_l (u i k)) in Hle; [|lra].
        replace (u i k * (v i k / u i k - 1)) with (v i k - u i k) in Hle by (field; lra). auto.
      - assert (Hz : u i k = 0) by (pose proof (Hu i k Hkk); lra). rewrite Hz. pose proof (Hvk i k Hkk). lra. }
    apply (Rmult_le_compat_l (nth i W 0)) in J; [|auto]. lra.
Qed.

Lemma fill_em (uc ue : bool) lam :
  0 < lam -> supported W f lays nb ->
  c' = (if uc then upd_c mask W f true lays lam c e else c) ->
  e' = (if ue then upd_e mask W f true lays c e else e) ->
  energy true mask W f lam lays g0 c' e' <= energy true mask W f lam lays g0 c e /\
  (energy true mask W f lam lays g0 c' e' = energy true mask W f lam lays g0 c e -> c' = c /\ e' = e).
Proof.
  intros Hl Hs Ec Ee.
  assert (Hnf : nonneg f) by now apply positive_nonneg.
  assert (HA : forall k, (k < nb)%nat -> 0 < A k) by (intros; eapply avg1_pos; eauto).
  assert (HB : forall k, (k < nb)%nat -> 0 < B k) by (intros; eapply avg2_pos; eauto).
  assert (Hcp : forall k, (k < nb)%nat -> 0 < nth k c 0) by (intros; apply positive_nth; auto; lia).
  assert (Hep : forall k, (k < nb)%nat -> 0 < nth k e 0) by (intros; apply positive_nth; auto; lia).
  set (T1 := fun k => nth k c 0 * (A k * ln (nth k c' 0 / nth k c 0))).
  set (D := fun k => lam * (nth k c' 0 - nth k c 0)).
  set (T2 := fun k => nth k c 0 * (A k * (P k * ln (nth k e' 0 / nth k e 0)) - (nth k e' 0 - nth k e 0) * B k)).
  assert (EB := fill_bound).
  rewrite (sumn_ext nb _ (fun k => T1 k + T2 k)) in EB by (intros; unfold T1, T2; ring).
  rewrite sumn_plus in EB.
  assert (H1 : forall k, (k < nb)%nat -> D k <= T1 k /\ (nth k c' 0 <> nth k c 0 -> D k < T1 k)).
  { intros k Hkk. destruct uc.
    - exact (em_c_part lays nb mask W f c e c' e' HlW Hf Hc He Hc' He' Hpc Hpc' lam Hl Ec k Hkk).
    - unfold D, T1. rewrite Ec. unfold Rdiv at 1 2. rewrite Rinv_r by (specialize (Hcp k Hkk); lra).
      rewrite ln_1. split; [right; ring|]. intros Hn. congruence. }
  assert (H2 : forall k, (k < nb)%nat -> 0 <= T2 k /\ (nth k e' 0 <> nth k e 0 -> 0 < T2 k)).
  { intros k Hkk. specialize (Hcp k Hkk). destruct ue.
    - destruct (em_e_part lays nb mask W f c e c' e' HlW Hf Hc He Hc' He' Hpe Hpe' HA HB Ee k Hkk) as [Q1 Q2]. unfold T2. split.
      + apply Rmult_le_pos; [lra|]. exact Q1.
      + intros Hn. apply Rmult_lt_0_compat; auto.
    - unfold T2. rewrite Ee. unfold Rdiv at 1 2. rewrite Rinv_r by (specialize (Hep k Hkk); lra).
      rewrite ln_1. split; [right; ring|]. intros Hn. congruence. }
  assert (H3 : sumn nb D = lam * rsum c' - lam * rsum c).
  { unfold D. rewrite sumn_scal, sumn_minus. rewrite <- Hc' at 1. rewrite <- Hc. rewrite <- !rsum_sumn. ring. }
  assert (H4 : sumn nb D <= sumn nb T1) by (apply sumn_le; intros; now apply H1).
  assert (H5 : 0 <= sumn nb T2) by (apply sumn_nonneg; intros; now apply H2).
  unfold energy. unfold gain in EB.
  split; [lra|]. intros Eq.
  assert (H6 : sumn nb T1 <= sumn nb D) by lra.
  assert (H7 : sumn nb T2 <= 0) by lra.
  split.
  - apply nth_ext with (d := 0) (d' := 0); [lia|]. intros k Hkk. rewrite Hc' in Hkk.
    destruct (Req_dec (nth k c' 0) (nth k c 0)) as [|Hn]; auto.
    pose proof (sumn_eq_le nb D T1 ltac:(intros; now apply H1) H6 k Hkk).
    destruct (H1 k Hkk) as [_ Q]. specialize (Q Hn). lra.
  - apply nth_ext with (d := 0) (d' := 0); [lia|]. intros k Hkk. rewrite He' in Hkk.
    destruct (Req_dec (nth k e' 0) (nth k e 0)) as [|Hn]; auto.
    assert (sumn nb T2 <= sumn nb (fun _ => 0)) by (rewrite (sumn_zero nb (fun _ => 0)); auto; lra).
    pose proof (sumn_eq_le nb (fun _ => 0) T2 ltac:(intros; now apply H2) H k Hkk).
    destruct (H2 k Hkk) as [_ Q]. specialize (Q Hn). simpl in *. lra.
Qed.
End EM.

Lemma fill_step fp W f lays mask N c e uc ue :
  fpi_setting fp W f true lays mask N -> 0 < N -> nonneg W -> positive f ->
  supported W f lays (nfun lays) ->
  sized lays c e -> positive c -> positive e -> uc || ue = true ->
  let g := values true lays c e in
  exists c' e', update_params fp (map Fin c) (map Fin e) uc ue = Ok (map Fin c', map Fin e') /\
    energy true mask W f (quad W f / N) lays g c' e' <= energy true mask W f (quad W f / N) lays g c e /\
    (energy true mask W f (quad W f / N) lays g c' e' = energy true mask W f (quad W f / N) lays g c e -> c' = c /\ e' = e).
Proof.
  intros Hs HN0 HW Hpf Hsup Hsz Hpc Hpe Hu g.
  destruct (step_positive _ _ _ _ _ _ _ c e uc ue Hs HN0 HW Hsup Hsz Hpc Hpe Hu)
    as (c' & e' & E & Hsz' & Hpc' & Hpe' & Ec & Ee).
  exists c', e'. split; auto.
  destruct (setting_facts _ _ _ _ _ _ _ Hs) as [m [Hft Hme Hlm Hnz Hne Hv]].
  destruct Hs as [_ Hf Hl Hm HN]. destruct Hsz as [Hc He], Hsz' as [Hc' He'].
  assert (Hd : 0 < rdot W f) by (apply (supported_dot W f lays (nfun lays)); auto; [now apply positive_nonneg|eapply vf_pos; eauto]).
  assert (Hlam : 0 < rdot W f / N) by now apply Rdiv_lt_0_compat.
  exact (fill_em m lays (nfun lays) mask W f c e c' e' Hv Hl Hf Hne Hc He Hc' He' Hm HW Hpf Hpc Hpe Hpc' Hpe'
    uc ue (rdot W f / N) Hlam Hsup Ec Ee).
Qed.

(** ** Along a run *)
Lemma part_same mask W f g h v : length f = length W -> same_mask mask f g h ->
  open_part mask W f g v = open_part mask W f h v /\ masked_part mask W f g v = masked_part mask W f h v.
Proof.
  intros Hf H. unfold open_part, masked_part. split; apply sumn_ext; intros i Hi; rewrite H by lia; auto.
Qed.
Lemma energy_same mask W f lam lays g h c e : length f = length W -> same_mask mask f g h ->
  energy true mask W f lam lays g c e = energy true mask W f lam lays h c e.
Proof.
  intros Hf H. unfold energy, kl_open.
  destruct (part_same mask W f g h (map2 kl_fn f (values true lays c e)) Hf H) as [-> _].
  destruct (part_same mask W f g h (values true lays c e) Hf H) as [_ ->]. reflexivity.
Qed.

(** What a run reports. *)
Lemma fill_reported fp W f lays mask N c e oc oe maxiter th r :
  fpi_setting fp W f true lays mask N -> 0 < N -> nonneg W -> positive f ->
  supported W f lays (nfun lays) -> sized lays c e -> positive c -> positive e ->
  fpi_run fp (VArr (A1 (map Fin c))) (VArr (A1 (map Fin e))) oc oe maxiter th = Ok r ->
  exists F, r_fun r = map Fin F /\
    (forall j, (j < length F)%nat -> exists cj ej,
       iterate fp oc oe (S j) (map Fin c) (map Fin e) = Ok (map Fin cj, map Fin ej) /\
       nth j F 0 = kl_open mask W f (values true lays cj ej) (values true lays cj ej)).
Proof.
  intros Hs HN0 HW Hpf Hsup Hsz Hpc Hpe Hr.
  destruct (run_consistent _ _ _ _ _ _ _ _ Hr) as (c1 & e1 & E1 & E2 & Hn & Hp & Hi & Hrows).
  injection E1 as <-. injection E2 as <-.
  set (n := length (r_fun r)) in *.
  assert (Hu : (0 < n)%nat -> oc || oe = true).
  { intros H0. destruct (Hrows 0%nat H0) as (cj & ej & Q & _). cbn [iterate bind fst snd] in Q.
    destruct oc, oe; auto. discriminate. }
  destruct (setting_facts _ _ _ _ _ _ _ Hs) as [m [Hft Hme Hlm Hnz Hne Hv]].
  pose proof (fs_lenl _ _ _ _ _ _ _ Hs) as Hl. pose proof (fs_mask _ _ _ _ _ _ _ Hs) as Hm.
  pose proof (fs_lenf _ _ _ _ _ _ _ Hs) as Hf.
  assert (HE : forall j, (j < n)%nat -> exists cj ej,
     iterate fp oc oe (S j) (map Fin c) (map Fin e) = Ok (map Fin cj, map Fin ej) /\
     nth j (r_fun r) NaN = Fin (kl_open mask W f (values true lays cj ej) (values true lays cj ej))).
  { intros j Hj. specialize (Hu ltac:(lia)).
    destruct (iterate_positive _ _ _ _ _ _ _ c e oc oe (S j) Hs HN0 HW Hsup Hsz Hpc Hpe Hu)
      as (cj & ej & Q & [S1 S2] & P1 & P2).
    exists cj, ej. split; auto.
    destruct (Hrows j Hj) as (cj' & ej' & Q' & G & L). rewrite Q in Q'. injection Q' as <- <-.
    destruct (goodness_total (fp_fit fp) W f m mask true lays (nfun lays) cj ej Hft Hv Hl Hne S1 S2
      (fun _ => P2) Hm Hpf (positive_nonneg _ P1)) as (mx & v & G' & _ & Lv & HV).
    rewrite G in G'. injection G' as G'. rewrite L, G'. cbn. f_equal.
    unfold kl_open, open_part. unfold quad. rewrite rdot_sumn by lia. apply sumn_ext. intros i Hi'.
    destruct (HV i ltac:(lia)) as [V1 V2].
    rewrite (nth_map2 kl_fn f (values true lays cj ej) i 0 0 0) by (unfold values; rewrite ?map_length; lia).
    destruct (visible mask (nth i f 0) (nth i (values true lays cj ej) 0)) eqn:V.
    - rewrite V1; auto. now apply visible_kept.
    - rewrite V2; [ring|]. intros K. apply visible_kept in K. congruence. }
  set (F := map (fun x => match x with Fin v => v | _ => 0 end) (r_fun r)).
  assert (LF : length F = n) by (unfold F; now rewrite map_length).
  assert (NF : forall j, (j < n)%nat -> exists cj ej,
     iterate fp oc oe (S j) (map Fin c) (map Fin e) = Ok (map Fin cj, map Fin ej) /\
     nth j F 0 = kl_open mask W f (values true lays cj ej) (values true lays cj ej)).
  { intros j Hj. destruct (HE j Hj) as (cj & ej & Q & L). exists cj, ej. split; auto.
    unfold F. pose proof (map_nth (fun x => match x with Fin v => v | _ => 0 end) (r_fun r) NaN j) as M.
    cbv beta iota in M. rewrite M, L. reflexivity. }
  exists F. split.
  - apply nth_ext with (d := NaN) (d' := Fin 0); [now rewrite map_length, LF|].
    intros j Hj. destruct (HE j Hj) as (cj & ej & Q & L). destruct (NF j Hj) as (cj' & ej' & Q' & L').
    rewrite (map_nth Fin), L, L'. rewrite Q in Q'. injection Q' as Q1 Q2.
    apply map_Fin_inj in Q1, Q2. now subst.
  - intros j Hj. apply NF. lia.
Qed.

(** Energy along the iterates, while the same points stay masked. *)
Lemma fill_iterates fp W f lays mask N c e uc ue i j :
  fpi_setting fp W f true lays mask N -> 0 < N -> nonneg W -> positive f ->
  supported W f lays (nfun lays) ->
  sized lays c e -> positive c -> positive e -> uc || ue = true ->
  let g0 := values true lays c e in
  (forall k ck ek, (k <= j)%nat -> iterate fp uc ue k (map Fin c) (map Fin e) = Ok (map Fin ck, map Fin ek) ->
     same_mask mask f (values true lays ck ek) g0) ->
  (i <= j)%nat ->
  exists ci ei cj ej,
    iterate fp uc ue i (map Fin c) (map Fin e) = Ok (map Fin ci, map Fin ei) /\
    iterate fp uc ue j (map Fin c) (map Fin e) = Ok (map Fin cj, map Fin ej) /\
    energy true mask W f (quad W f / N) lays g0 cj ej <= energy true mask W f (quad W f / N) lays g0 ci ei.
Proof.
  intros Hs HN0 HW Hpf Hsup Hsz Hpc Hpe Hu g0. induction j as [|j IH]; intros Hk Hij.
  - replace i with 0%nat by lia. exists c, e, c, e. repeat split. lra.
  - destruct (Nat.eq_dec i (S j)) as [->|Hn].
    + destruct (iterate_positive _ _ _ _ _ _ _ c e uc ue (S j) Hs HN0 HW Hsup Hsz Hpc Hpe Hu)
        as (cj & ej & Q & _). exists cj, ej, cj, ej. repeat split; auto. lra.
    + destruct IH as (ci & ei & cj & ej & Q1 & Q2 & Hle); [|lia|].
      { intros k ck ek Hkj. apply Hk. lia. }
      destruct (iterate_positive _ _ _ _ _ _ _ c e uc ue j Hs HN0 HW Hsup Hsz Hpc Hpe Hu)
        as (cj' & ej' & Q & Hszj & P1 & P2).
      rewrite Q2 in Q. injection Q as A1 A2. apply map_Fin_inj in A1, A2. subst cj' ej'.
      destruct (fill_step fp W f lays mask N cj ej uc ue Hs HN0 HW Hpf Hsup Hszj P1 P2 Hu) as (c2 & e2 & U & H1 & _).
      exists ci, ei, c2, e2. split; auto. split.
      * cbn [iterate]. rewrite Q2. cbn [bind fst snd]. auto.
      * pose proof (fs_lenf _ _ _ _ _ _ _ Hs) as Hf. specialize (Hk j cj ej ltac:(lia) Q2).
        rewrite !(energy_same mask W f _ lays _ g0 _ _ Hf Hk) in H1. lra.
Qed.

(** The reported divergence rises above an earlier value by no more than twice what the mask hides. *)
Lemma fill_run fp W f lays mask N c e oc oe maxiter th r :
  fpi_setting fp W f true lays mask N -> 0 < N -> nonneg W -> positive f ->
  supported W f lays (nfun lays) -> sized lays c e -> positive c -> positive e ->
  fpi_run fp (VArr (A1 (map Fin c))) (VArr (A1 (map Fin e))) oc oe maxiter th = Ok r ->
  let g0 := values true lays c e in
  (forall k ck ek, (k <= length (r_fun r))%nat ->
     iterate fp oc oe k (map Fin c) (map Fin e) = Ok (map Fin ck, map Fin ek) ->
     same_mask mask f (values true lays ck ek) g0) ->
  exists F, r_fun r = map Fin F /\
    forall i j, (i <= j < length F)%nat ->
      nth j F 0 <= nth i F 0 + 2 * masked_part mask W f g0 (mask_cap mask f).
Proof.
  intros Hs HN0 HW Hpf Hsup Hsz Hpc Hpe Hr g0 Hk.
  destruct (fill_reported _ _ _ _ _ _ _ _ _ _ _ _ _ Hs HN0 HW Hpf Hsup Hsz Hpc Hpe Hr) as (F & EF & HF).
  exists F. split; auto. intros i j Hij.
  assert (LF : length (r_fun r) = length F) by (rewrite EF; apply map_length).
  assert (Hu : oc || oe = true).
  { destruct (run_consistent _ _ _ _ _ _ _ _ Hr) as (c1 & e1 & _ & _ & _ & _ & _ & Hrows).
    destruct (Hrows 0%nat) as (cj & ej & Q & _); [lia|]. cbn [iterate bind fst snd] in Q.
    destruct oc, oe; auto. discriminate. }
  destruct (setting_facts _ _ _ _ _ _ _ Hs) as [m [Hft Hme Hlm Hnz Hne Hv]].
  pose proof (fs_lenf _ _ _ _ _ _ _ Hs) as Hf. pose proof (fs_N _ _ _ _ _ _ _ Hs) as HN.
  assert (Hd : 0 < rdot W f) by (apply (supported_dot W f lays (nfun lays)); auto; [now apply positive_nonneg|eapply vf_pos; eauto]).
  set (lam := quad W f / N). set (M := masked_part mask W f g0). set (C := M (mask_cap mask f)).
  assert (Hlam : 0 < lam) by (unfold lam; apply Rdiv_lt_0_compat; auto).
  (* masked part of any iterate *)
  assert (HM : forall k ck ek, (k <= length F)%nat ->
     iterate fp oc oe k (map Fin c) (map Fin e) = Ok (map Fin ck, map Fin ek) ->
     0 <= M (values true lays ck ek) <= C /\
     kl_open mask W f (values true lays ck ek) (values true lays ck ek) = kl_open mask W f g0 (values true lays ck ek)).
  { intros k ck ek Hkl Q.
    destruct (iterate_positive _ _ _ _ _ _ _ c e oc oe k Hs HN0 HW Hsup Hsz Hpc Hpe Hu)
      as (ck' & ek' & Q' & [S1 S2] & P1 & _).
    rewrite Q in Q'. injection Q' as A1 A2. apply map_Fin_inj in A1, A2. subst ck' ek'.
    assert (Hg : nonneg (values true lays ck ek)) by (eapply values_nonneg; eauto; now apply positive_nonneg).
    pose proof (Hk k ck ek ltac:(lia) Q) as SM.
    destruct (masked_cap mask W f _ Hf HW Hg) as [M1 M2]. unfold M, C.
    destruct (part_same mask W f _ g0 (values true lays ck ek) Hf SM) as [_ E1].
    destruct (part_same mask W f _ g0 (mask_cap mask f) Hf SM) as [_ E2].
    rewrite <- E1. unfold M. rewrite <- E2. split; [lra|]. unfold kl_open. now apply part_same. }
  (* sum of the coefficients after an update *)
  assert (HS : forall k, (k < length F)%nat -> exists ck ek cn en,
     iterate fp oc oe k (map Fin c) (map Fin e) = Ok (map Fin ck, map Fin ek) /\
     iterate fp oc oe (S k) (map Fin c) (map Fin e) = Ok (map Fin cn, map Fin en) /\
     (oc = true -> lam * rsum cn = lam * N + (M (values true lays ck ek) - M f)) /\ (oc = false -> cn = c)).
  { intros k Hkl.
    destruct (iterate_positive _ _ _ _ _ _ _ c e oc oe k Hs HN0 HW Hsup Hsz Hpc Hpe Hu)
      as (ck & ek & Q & Hszk & P1 & P2).
    destruct (iterate_positive _ _ _ _ _ _ _ c e oc oe (S k) Hs HN0 HW Hsup Hsz Hpc Hpe Hu)
      as (cn & en & Q2 & _ & P3 & P4).
    exists ck, ek, cn, en. split; auto. split; auto. split.
    - intros ->. assert (U := Q2). cbn [iterate] in U. rewrite Q in U. cbn [bind fst snd] in U.
      destruct (fill_sum _ _ _ _ _ _ _ _ _ _ _ _ Hs Hszk (positive_nonneg _ P1) (fun _ => P2) U) as (c2 & E2 & _ & R2).
      apply map_Fin_inj in E2. subst c2.
      pose proof (Hk k ck ek ltac:(lia) Q) as SM.
      destruct (part_same mask W f _ g0 (values true lays ck ek) Hf SM) as [_ E3].
      destruct (part_same mask W f _ g0 f Hf SM) as [_ E4]. rewrite E3, E4 in R2. fold (M (values true lays ck ek)) in R2.
      rewrite R2. unfold lam, M. field. split; [auto|unfold quad; exact Hnz].
    - intros ->. destruct (iterate_fixed _ _ _ _ _ _ _ Q2) as [A _]. specialize (A eq_refl). cbn in A.
      now apply map_Fin_inj in A. }
  destruct (HF i ltac:(lia)) as (ci & ei & Qi & ->). destruct (HF j ltac:(lia)) as (cj & ej & Qj & ->).
  destruct (HM (S i) ci ei ltac:(lia) Qi) as [Mi ->]. destruct (HM (S j) cj ej ltac:(lia) Qj) as [Mj ->].
  destruct (HS i ltac:(lia)) as (ci0 & ei0 & ci1 & ei1 & Qi0 & Qi1 & Si & Ti).
  destruct (HS j ltac:(lia)) as (cj0 & ej0 & cj1 & ej1 & Qj0 & Qj1 & Sj & Tj).
  rewrite Qi in Qi1. injection Qi1 as A1 A2. apply map_Fin_inj in A1, A2. subst ci1 ei1.
  rewrite Qj in Qj1. injection Qj1 as A1 A2. apply map_Fin_inj in A1, A2. subst cj1 ej1.
  destruct (HM i ci0 ei0 ltac:(lia) Qi0) as [Mi0 _]. destruct (HM j cj0 ej0 ltac:(lia) Qj0) as [Mj0 _].
  destruct (fill_iterates fp W f lays mask N c e oc oe (S i) (S j) Hs HN0 HW Hpf Hsup Hsz Hpc Hpe Hu)
    as (c3 & e3 & c4 & e4 & Q3 & Q4 & Hle); [|lia|].
  { intros k ck ek Hkj. apply Hk. lia. }
  rewrite Qi in Q3. injection Q3 as A1 A2. apply map_Fin_inj in A1, A2. subst c3 e3.
  rewrite Qj in Q4. injection Q4 as A1 A2. apply map_Fin_inj in A1, A2. subst c4 e4.
  unfold energy in Hle. fold lam g0 in Hle. fold (M (values true lays ci ei)) (M (values true lays cj ej)) in Hle.
  fold C. destruct oc.
  - specialize (Si eq_refl). specialize (Sj eq_refl). lra.
  - assert (lam * rsum ci = lam * rsum cj) by (now rewrite (Ti eq_refl), (Tj eq_refl)). lra.
Qed.

(** ** Unchanged coefficients *)
Lemma fill_fixed fp W f norm lays mask N c e ue e1 :
  fpi_setting fp W f norm lays mask N -> 0 < N -> nonneg W -> positive f ->
  sized lays c e -> positive c -> (norm = true -> positive e) ->
  update_params fp (map Fin c) (map Fin e) true ue = Ok (map Fin c, e1) ->
  let g := values norm lays c e in
  forall c2, length c2 = nfun lays -> positive (values norm lays c2 e) ->
    energy norm mask W f (quad W f / N) lays g c e <= energy norm mask W f (quad W f / N) lays g c2 e.
Proof.
  intros Hs HN0 HW Hpf Hsz Hpc Hpe H g c2 Hc2 Hp2.
  destruct (setting_facts _ _ _ _ _ _ _ Hs) as [m [Hft Hme Hlm Hnz Hne Hv]].
  destruct Hsz as [Hc He]. destruct Hs as [_ Hf Hl Hm HN].
  assert (Hd : 0 < rdot W f).
  { destruct (rdot_nonneg W f HW (positive_nonneg _ Hpf)); auto. congruence. }
  assert (Hlam : 0 < rdot W f / N) by now apply Rdiv_lt_0_compat.
  rewrite (update_gen fp W f m mask norm lays (nfun lays) (rdot W f / N) c e true ue) in H
    by (auto; try lra; now apply positive_nonneg).
  assert (HA : forall k, (k < nfun lays)%nat -> avg1 mask W f norm lays c e k = rdot W f / N).
  { intros k Hkb. assert (E : upd_c mask W f norm lays (rdot W f / N) c e = c).
    { apply map_Fin_inj. apply (f_equal (fun z => match z with Ok p => fst p | _ => [] end)) in H. exact H. }
    pose proof (nth_upd_c mask W f norm lays (rdot W f / N) c e k ltac:(lia)) as Ek. rewrite E in Ek.
    assert (0 < nth k c 0) by (apply positive_nth; auto; lia).
    apply Rmult_eq_reg_l with (nth k c 0 / (rdot W f / N)).
    - transitivity (nth k c 0 * avg1 mask W f norm lays c e k / (rdot W f / N)); [field; lra|].
      rewrite <- Ek. field. lra.
    - apply Rgt_not_eq. now apply Rdiv_lt_0_compat. }
  assert (Hll : forall i, (i < length W)%nat -> length (nth i lays []) = nfun lays).
  { intros i Hi. eapply vf_len; eauto. apply nth_In. lia. }
  assert (HL : forall c, length (values norm lays c e) = length W) by (intros; unfold values; now rewrite map_length).
  set (h := values norm lays c2 e) in *.
  (* integral of the quotient times another model *)
  assert (HQ : forall d, length d = nfun lays ->
    sumn (length W) (fun i => nth i W 0 * (kl_ratio mask (nth i f 0) (nth i g 0) * nth i (values norm lays d e) 0)) =
    rdot W f / N * rsum d).
  { intros d Hdl. rewrite rsum_sumn, Hdl, <- sumn_scal.
    rewrite (sumn_ext (nfun lays) _ (fun k => sumn (length W) (fun i => nth i W 0 * (kl_ratio mask (nth i f 0) (nth i g 0) *
       (nth k d 0 * basis_fn norm (kind (nth i lays []) k) (nth k e 0) (away (nth i lays []) k)))))).
    - rewrite sumn_swap. apply sumn_ext. intros i Hi. rewrite nth_values, gsum_sumn, (Hll i Hi) by (rewrite ?Hll; auto; lia).
      rewrite <- !sumn_scal. reflexivity.
    - intros k Hkb. rewrite <- (HA k Hkb). unfold avg1. cbv zeta. rewrite Rmult_comm, <- sumn_scal. apply sumn_ext. intros i Hi.
      unfold g. rewrite nth_values by lia. ring. }
  pose proof (HQ c Hc) as Q1. pose proof (HQ c2 Hc2) as Q2. fold g in Q1. fold h in Q2.
  unfold energy. fold g h. unfold quad. rewrite <- Q1, <- Q2. unfold kl_open, open_part, masked_part.
  rewrite <- !sumn_plus, <- !sumn_minus. apply sumn_le. intros i Hi.
  rewrite !(nth_map2 kl_fn f _ i 0 0 0) by (unfold g, h; rewrite ?HL; lia).
  rewrite visible_ratio. assert (HWi : 0 <= nth i W 0) by now apply nonneg_nth.
  destruct (visible mask (nth i f 0) (nth i g 0)) eqn:V; [|lra].
  apply visible_pos in V; auto.
  assert (Hfi : 0 < nth i f 0) by (apply positive_nth; auto; lia).
  assert (Hhi : 0 < nth i h 0) by (apply positive_nth; auto; unfold h; rewrite HL; lia).
  rewrite !Rminus_0_r, <- !Rmult_plus_distr_l. apply Rmult_le_compat_l; auto.
  unfold kl_fn. rewrite !ln_div by auto.
  assert (L : ln (nth i h 0 / nth i g 0) <= nth i h 0 / nth i g 0 - 1) by (apply ln_le_sub; now apply Rdiv_lt_0_compat).
  rewrite ln_div in L by auto. apply Rmult_le_compat_l with (r := nth i f 0) in L; [|lra].
  replace (nth i f 0 / nth i g 0 * nth i h 0) with (nth i f 0 * (nth i h 0 / nth i g 0)) by (field; lra).
  replace (nth i f 0 / nth i g 0 * nth i g 0) with (nth i f 0) by (field; lra). lra.
Qed.
