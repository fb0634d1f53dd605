(** A run whose divergence threshold is positive stops by itself (C89). *)
From Coquelicot Require Import Coquelicot.
From Coq Require Import Reals List ZArith Lia Lra Bool.
From Verif Require Import XR SpecDens SpecMeas SpecGrid ModelDens ModelMeas ModelGrid ModelFit Lists ProofDens
  ProofDeriv ProofMeas SpecFit SpecStop SpecConv ProofFitView ProofFit ProofEM ProofFPI ProofFPI2 ProofFPI3 ProofFPI5 ProofConv
  ProofConv2.
Import ListNotations.
Local Open Scope R_scope.

(** ** Values of a normalized function off its center *)
Lemma power_exp_bound q a r : 0 < q -> 0 < a -> r <> 0 -> Rpower a q * exp (- a * r ^ 2) <= exp (q * (ln (q / r ^ 2) - 1)).
Proof.
  intros Hq Ha Hr. unfold Rpower. rewrite <- exp_plus.
  assert (R2 : 0 < r ^ 2) by (pose proof (Rsqr_pos_lt r Hr) as H; unfold Rsqr in H; simpl; lra).
  assert (P : 0 < a * r ^ 2 / q) by (apply Rdiv_lt_0_compat; auto; now apply Rmult_lt_0_compat).
  pose proof (ln_le_sub _ P) as L.
  rewrite ln_div, ln_mult in L by (auto; now apply Rmult_lt_0_compat). rewrite ln_div by auto.
  apply (Rmult_le_compat_l q) in L; [|lra].
  replace (q * (a * r ^ 2 / q - 1)) with (a * r ^ 2 - q) in L by (field; lra).
  assert (E : q * ln a + - a * r ^ 2 <= q * (ln q - ln (r ^ 2) - 1)) by lra.
  destruct E as [E|E]; [left; now apply exp_increasing|rewrite E; lra].
Qed.

Lemma basis_bounded p r : p = true \/ r <> 0 -> exists M, 0 <= M /\ forall a, 0 < a -> basis_fn true p a r <= M.
Proof.
  intros H. destruct (Req_dec r 0) as [->|Hr].
  - destruct H as [-> |H]; [|congruence]. exists 0. split; [lra|]. intros a Ha. unfold basis_fn. simpl. right. ring.
  - assert (PP := Rpower_pos PI (3/2)). destruct p.
    + exists (2/3 / Rpower PI (3/2) * r ^ 2 * exp (5/2 * (ln (5/2 / r ^ 2) - 1))).
      assert (0 <= 2/3 / Rpower PI (3/2) * r ^ 2).
      { apply Rmult_le_pos; [|apply pow2_ge_0]. left. apply Rdiv_lt_0_compat; lra. }
      split; [apply Rmult_le_pos; auto; left; apply exp_pos|]. intros a Ha.
      pose proof (power_exp_bound (5/2) a r ltac:(lra) Ha Hr) as B.
      unfold basis_fn, norm_const.
      match goal with |- ?x <= _ => replace x with (2/3 / Rpower PI (3/2) * r ^ 2 * (Rpower a (5/2) * exp (- a * r ^ 2))) by (field; lra) end.
      now apply Rmult_le_compat_l.
    + exists (/ Rpower PI (3/2) * exp (3/2 * (ln (3/2 / r ^ 2) - 1))).
      assert (0 <= / Rpower PI (3/2)) by (left; now apply Rinv_0_lt_compat).
      split; [apply Rmult_le_pos; auto; left; apply exp_pos|]. intros a Ha.
      pose proof (power_exp_bound (3/2) a r ltac:(lra) Ha Hr) as B.
      unfold basis_fn. rewrite norm_const_s by auto.
      match goal with |- ?x <= _ => replace x with (/ Rpower PI (3/2) * (Rpower a (3/2) * exp (- a * r ^ 2))) by (field; lra) end.
      now apply Rmult_le_compat_l.
Qed.

Lemma common_bound (P : nat -> R -> Prop) n : (forall i x y, P i x -> x <= y -> P i y) ->
  (forall i, (i < n)%nat -> exists M, 0 <= M /\ P i M) -> exists M, 0 <= M /\ forall i, (i < n)%nat -> P i M.
Proof.
  intros Hm. induction n as [|n IH]; intros H; [exists 0; split; [lra|intros; lia]|].
  destruct IH as (M & HM & HP); [intros; apply H; lia|]. destruct (H n ltac:(lia)) as (M2 & HM2 & HP2).
  exists (Rmax M M2). split; [eapply Rle_trans; [exact HM|apply Rmax_l]|].
  intros i Hi. destruct (Nat.eq_dec i n) as [->|Hn]; [eapply Hm; [exact HP2|apply Rmax_r]|].
  eapply Hm; [apply HP; lia|apply Rmax_l].
Qed.

(** Lower bound of the divergence over all admissible parameters. *)
Lemma kl_bounded fp W f lays mask N S e0 oe :
  fpi_setting fp W f true lays mask N -> 0 < N -> nonneg W -> positive f -> (oe = true -> off_center W lays) -> positive e0 ->
  length e0 = nfun lays -> 0 <= S ->
  exists B, forall c e, sized lays c e -> positive c -> positive e -> (oe = false -> e = e0) -> rsum c <= S ->
    all_above mask f (values true lays c e) -> B <= kl_sum W f (values true lays c e).
Proof.
  intros Hs HN0 HW Hpf Hoff Hpe0 He0 HS.
  destruct (facts fp W f true lays mask N e0 Hs HN0 HW Hpf He0) as (Hd & _ & Hf & Hl & Hm & Hll & _).
  set (nb := nfun lays) in *.
  assert (BD : exists M, 0 <= M /\ forall i, (i < length W)%nat -> forall k, (k < nb)%nat -> forall e, length e = nb -> positive e -> (oe = false -> e = e0) ->
     nth i W 0 * basis_fn true (kind (nth i lays []) k) (nth k e 0) (away (nth i lays []) k) <= M).
  { apply (common_bound (fun i M => forall k, (k < nb)%nat -> forall e, length e = nb -> positive e -> (oe = false -> e = e0) ->
     nth i W 0 * basis_fn true (kind (nth i lays []) k) (nth k e 0) (away (nth i lays []) k) <= M)).
    - intros i x y H Hxy k Hk e H1 H2 H3. eapply Rle_trans; [apply H; auto|auto].
    - intros i Hi. assert (Wi : 0 <= nth i W 0) by now apply nonneg_nth.
      apply (common_bound (fun k M => forall e, length e = nb -> positive e -> (oe = false -> e = e0) ->
        nth i W 0 * basis_fn true (kind (nth i lays []) k) (nth k e 0) (away (nth i lays []) k) <= M)).
      + intros k x y H Hxy e H1 H2 H3. eapply Rle_trans; [apply H; auto|auto].
      + intros k Hk. destruct oe.
        * destruct (Hoff eq_refl i k Hi Hk) as [E|E].
          -- exists 0. split; [lra|]. intros. rewrite E. lra.
          -- destruct (basis_bounded (kind (nth i lays []) k) (away (nth i lays []) k) E) as (M & HM & HB).
             exists (nth i W 0 * M). split; [now apply Rmult_le_pos|]. intros e H1 H2 _.
             apply Rmult_le_compat_l; auto. apply HB. apply positive_nth; auto. lia.
        * exists (nth i W 0 * basis_fn true (kind (nth i lays []) k) (nth k e0 0) (away (nth i lays []) k)).
          split; [apply Rmult_le_pos; auto; apply basis_fn_nonneg|]. intros e _ _ H3. rewrite H3 by auto. lra. }
  destruct BD as (M & HM & HB). exists (rdot W f - INR (length W) * (M * S)).
  intros c e [Hc He] Hpc Hpe Hee Hsum Hk.
  rewrite kl_sum_sumn, rdot_sumn by (auto; unfold values; rewrite map_length; auto).
  apply Rle_trans with (sumn (length W) (fun i => nth i W 0 * nth i f 0 - M * S)).
  { rewrite sumn_minus, sumn_const. lra. }
  apply sumn_le. intros i Hi. assert (Wi : 0 <= nth i W 0) by now apply nonneg_nth.
  assert (Hgi : 0 < nth i (values true lays c e) 0) by (apply (kept_nz mask (nth i f 0)); auto; apply Hk; lia).
  assert (Hfi : 0 < nth i f 0) by (apply positive_nth; auto; lia).
  pose proof (kl_fn_ge _ _ Hfi Hgi) as L. apply (Rmult_le_compat_l _ _ _ Wi) in L.
  assert (G : nth i W 0 * nth i (values true lays c e) 0 <= M * S); [|lra].
  rewrite nth_values, gsum_sumn, (Hll i Hi) by (rewrite ?Hll; auto; lia). rewrite <- sumn_scal.
  apply Rle_trans with (sumn nb (fun k => M * nth k c 0)).
  - apply sumn_le. intros k Hkk. assert (0 < nth k c 0) by (apply positive_nth; auto; fold nb in Hc; lia).
    specialize (HB i Hi k Hkk e He Hpe Hee).
    match goal with |- ?w * (?c * ?b) <= _ => replace (w * (c * b)) with (w * b * c) by ring end.
    apply Rmult_le_compat_r; [lra|exact HB].
  - rewrite sumn_scal. fold nb in Hc. rewrite <- Hc, <- rsum_sumn. now apply Rmult_le_compat_l.
Qed.

(** ** C89 *)
Lemma run_bounded fp W f lays mask N c e oc oe eps :
  fpi_setting fp W f true lays mask N -> 0 < N -> nonneg W -> positive f ->
  supported W f lays (nfun lays) -> sized lays c e -> positive c -> positive e -> oc || oe = true ->
  (oe = true -> off_center W lays) -> 0 < eps ->
  (forall j cj ej, iterate fp oc oe j (map Fin c) (map Fin e) = Ok (map Fin cj, map Fin ej) ->
     all_above mask f (values true lays cj ej)) ->
  exists n0, forall maxiter th r, th_d th = Fin eps ->
    fpi_run fp (VArr (A1 (map Fin c))) (VArr (A1 (map Fin e))) oc oe maxiter th = Ok r ->
    (length (r_fun r) <= n0)%nat /\ ((Z.of_nat n0 < maxiter)%Z -> r_success r = true).
Proof.
  intros Hs HN0 HW Hpf Hsup Hsz Hpc Hpe Hu Hoff Heps Hk.
  assert (IT : forall j, exists p, iterate fp oc oe j (map Fin c) (map Fin e) = Ok (map Fin (fst p), map Fin (snd p)) /\
     sized lays (fst p) (snd p) /\ positive (fst p) /\ positive (snd p)).
  { intros j. destruct (iterate_positive _ _ _ _ _ _ _ c e oc oe j Hs HN0 HW Hsup Hsz Hpc Hpe Hu) as (cj & ej & I & S1 & P1 & P2).
    exists (cj, ej). auto. }
  assert (SUM : forall j cj ej, iterate fp oc oe j (map Fin c) (map Fin e) = Ok (map Fin cj, map Fin ej) -> rsum cj <= Rmax N (rsum c)).
  { intros j cj ej I. destruct oc.
    - destruct j as [|j].
      + cbn [iterate] in I. injection I as X _. apply map_Fin_inj in X. subst cj. apply Rmax_r.
      + destruct (IT j) as ([c1 e1] & I1 & S1 & P1 & P2). cbn [fst snd] in *. cbn [iterate] in I. rewrite I1 in I. cbn [bind fst snd] in I.
        destruct (coeffs_sum _ _ _ _ _ _ _ c1 e1 oe _ _ Hs S1 (positive_nonneg _ P1) (fun _ => P2) (Hk _ _ _ I1) I) as (c' & Ec & _ & Es).
        apply map_Fin_inj in Ec. subst c'. rewrite Es. apply Rmax_l.
    - destruct (iterate_fixed _ _ _ _ _ _ _ I) as [E _]. specialize (E eq_refl). cbn [fst] in E. apply map_Fin_inj in E. subst cj. apply Rmax_r. }
  destruct (kl_bounded fp W f lays mask N (Rmax N (rsum c)) e oe Hs HN0 HW Hpf Hoff Hpe (proj2 Hsz)) as (B & HB).
  { apply Rle_trans with N; [lra|apply Rmax_l]. }
  destruct (IT 1%nat) as ([c1 e1] & I1 & S1 & P11 & P12). cbn [fst snd] in *.
  set (D1 := kl_sum W f (values true lays c1 e1)).
  destruct (archimed ((D1 - B) / eps)) as [AR _].
  set (z := up ((D1 - B) / eps)) in *.
  assert (LB : forall j cj ej, iterate fp oc oe j (map Fin c) (map Fin e) = Ok (map Fin cj, map Fin ej) -> B <= kl_sum W f (values true lays cj ej)).
  { intros j cj ej I. destruct (IT j) as ([cj' ej'] & I' & S' & P1 & P2). cbn [fst snd] in *. rewrite I in I'. injection I' as X Y.
    apply map_Fin_inj in X, Y. subst cj' ej'. apply HB; auto; [|eapply SUM; eauto|eapply Hk; eauto].
    intros ->. destruct (iterate_fixed _ _ _ _ _ _ _ I) as [_ E]. specialize (E eq_refl). cbn [snd] in E. now apply map_Fin_inj in E. }
  exists (Z.to_nat z + 2)%nat. intros maxiter th r Hth Hr.
  destruct (run_drop fp W f true lays mask N c e oc oe maxiter th r eps Hs HN0 HW Hpf Hsup Hsz Hpc Hpe Hu Hr Hth (fun j cj ej _ => Hk j cj ej)) as [Dr Sc].
  assert (LEN : (length (r_fun r) <= Z.to_nat z + 2)%nat); [|split; auto; intros; apply Sc; lia].
  apply Nat.le_ngt. intros LT. set (n := length (r_fun r)) in *.
  assert (GO : forall m, (1 <= m)%nat -> (m < n)%nat -> exists cm em, iterate fp oc oe m (map Fin c) (map Fin e) = Ok (map Fin cm, map Fin em) /\
     kl_sum W f (values true lays cm em) <= D1 - (INR m - 1) * eps).
  { induction m as [|m IH]; intros H1 H2; [lia|]. destruct (Nat.eq_dec m 0) as [->|Hm].
    - exists c1, e1. split; auto. cbn [INR]. fold D1. lra.
    - destruct (IH ltac:(lia) ltac:(lia)) as (cm & em & Im & Lm).
      destruct (iterate_decreases fp W f lays mask N c e oc oe (S m) Hs HN0 HW Hpf Hsup Hsz Hpc Hpe Hu) as (ca & ea & cb & eb & Ia & Ib & _ & _ & _ & _ & LD).
      + intros; eapply Hk; eauto.
      + lia.
      + lia.
      + replace (S m - 1)%nat with m in Ia by lia. rewrite Im in Ia. injection Ia as X Y. apply map_Fin_inj in X, Y. subst ca ea.
        exists cb, eb. split; auto. specialize (Dr m cm em cb eb ltac:(lia) H2 Im Ib). rewrite Rabs_left1 in Dr by lra. rewrite S_INR. lra. }
  destruct (GO (n - 1)%nat ltac:(lia) ltac:(lia)) as (cm & em & Im & Lm). specialize (LB _ _ _ Im).
  assert (Q : (INR (n - 1) - 1) * eps <= D1 - B) by lra.
  assert (Q2 : INR (n - 1) - 1 <= (D1 - B) / eps).
  { apply Rmult_le_reg_r with eps; auto. unfold Rdiv. rewrite Rmult_assoc, Rinv_l by lra. lra. }
  assert (Q3 : INR (n - 1) - 1 < IZR z) by lra.
  assert (D0 : 0 <= (D1 - B) / eps).
  { apply Rmult_le_pos; [|left; now apply Rinv_0_lt_compat]. specialize (HB c1 e1 S1 P11 P12).
    assert (B <= D1); [|lra]. apply HB; [|eapply SUM; eauto|eapply Hk; eauto].
    intros ->. destruct (iterate_fixed _ _ _ _ _ _ _ I1) as [_ E]. specialize (E eq_refl). cbn [snd] in E. now apply map_Fin_inj in E. }
  assert (Z0 : (0 < z)%Z) by (apply lt_IZR; simpl; lra).
  rewrite INR_IZR_INZ in Q3. replace (Z.of_nat (n - 1)) with (Z.of_nat n - 1)%Z in Q3 by lia. rewrite minus_IZR in Q3.
  assert (IZR (Z.of_nat n) < IZR (z + 2)) by (rewrite plus_IZR; lra). apply lt_IZR in H. lia.
Qed.
