(** Convergence of the fixed point iteration for the coefficients (C88). *)
From Coquelicot Require Import Coquelicot.
From Coq Require Import Reals List ZArith Lia Lra Bool.
From Verif Require Import XR SpecDens SpecMeas SpecGrid ModelDens ModelMeas ModelGrid ModelFit Lists ProofDens
  ProofDeriv ProofMeas SpecFit SpecStop ProofFitView ProofFit ProofEM ProofFPI ProofFPI2 ProofFPI3 ProofFPI5.
Import ListNotations.
Local Open Scope R_scope.

(** ** Inequalities about mixtures *)

Section Mix.
Variables (n nb : nat) (w f : nat -> R) (b : nat -> nat -> R) (lam N : R).
Hypothesis Hw : forall i, (i < n)%nat -> 0 <= w i.
Hypothesis Hf : forall i, (i < n)%nat -> 0 < f i.
Hypothesis Hb : forall i k, (i < n)%nat -> (k < nb)%nat -> 0 <= b i k.
Hypothesis Hlam : 0 < lam.
Let Q := sumn n (fun i => w i * f i).
Hypothesis HQ : Q = lam * N.

Definition mixed (c : nat -> R) (i : nat) : R := sumn nb (fun k => c k * b i k).
Definition mean (c : nat -> R) (k : nat) : R := sumn n (fun i => w i * (f i / mixed c i * b i k)).
(** Share of the k-th function in the density. *)
Definition share (c : nat -> R) (k : nat) : R := sumn n (fun i => w i * (f i / mixed c i * (c k * b i k))).

Lemma share_sum c : (forall i, (i < n)%nat -> 0 < mixed c i) -> sumn nb (share c) = Q.
Proof.
  intros Hm. unfold share. rewrite sumn_swap. apply sumn_ext. intros i Hi.
  transitivity (sumn nb (fun k => (w i * (f i / mixed c i)) * (c k * b i k))); [apply sumn_ext; intros; ring|].
  rewrite sumn_scal. fold (mixed c i). field. specialize (Hm i Hi). lra.
Qed.

Lemma share_nonneg c k : (k < nb)%nat -> (forall i, (i < n)%nat -> 0 < mixed c i) -> 0 <= c k -> 0 <= share c k.
Proof.
  intros Hk Hm Hc. unfold share. apply sumn_nonneg. intros i Hi. apply Rmult_le_pos; auto.
  apply Rmult_le_pos; [|apply Rmult_le_pos; auto]. left. apply Rdiv_lt_0_compat; auto.
Qed.

(** Distance to any other mixture is paid for by the next change of the coefficients. *)
Lemma five_point c c2 :
  (forall i, (i < n)%nat -> 0 < mixed c i) -> (forall i, (i < n)%nat -> 0 < mixed c2 i) ->
  (forall k, (k < nb)%nat -> 0 <= c2 k) -> sumn nb c2 <= N -> (forall k, (k < nb)%nat -> 0 < mean c k) ->
  sumn n (fun i => w i * (f i * ln (mixed c2 i / mixed c i))) <= sumn nb (fun k => share c2 k * ln (mean c k / lam)).
Proof.
  intros Hm Hm2 Hc2 Hs HA.
  set (t := fun i k => w i * (f i / mixed c2 i * (c2 k * b i k))).
  assert (E1 : sumn n (fun i => w i * (f i * ln (mixed c2 i / mixed c i))) =
     sumn n (fun i => sumn nb (fun k => t i k * ln (mixed c2 i / mixed c i)))).
  { apply sumn_ext. intros i Hi. specialize (Hm2 i Hi).
    transitivity (sumn nb (fun k => (w i * (f i / mixed c2 i) * ln (mixed c2 i / mixed c i)) * (c2 k * b i k))).
    - rewrite sumn_scal. fold (mixed c2 i). field. lra.
    - apply sumn_ext. intros. unfold t. ring. }
  assert (E2 : sumn nb (fun k => share c2 k * ln (mean c k / lam)) =
     sumn n (fun i => sumn nb (fun k => t i k * ln (mean c k / lam)))).
  { rewrite <- (sumn_swap nb n (fun k i => t i k * ln (mean c k / lam))). apply sumn_ext. intros k Hk.
    unfold share. rewrite Rmult_comm, <- sumn_scal. apply sumn_ext. intros. unfold t. ring. }
  assert (E3 : sumn n (fun i => sumn nb (fun k => t i k)) = Q).
  { rewrite <- (sumn_swap nb n (fun k i => t i k)). rewrite <- (share_sum c2) by auto. reflexivity. }
  assert (E4 : sumn n (fun i => sumn nb (fun k => lam * c2 k / mean c k * (w i * (f i / mixed c i * b i k)))) = lam * sumn nb c2).
  { rewrite <- (sumn_swap nb n (fun k i => lam * c2 k / mean c k * (w i * (f i / mixed c i * b i k)))).
    rewrite <- sumn_scal. apply sumn_ext. intros k Hk. rewrite sumn_scal. fold (mean c k). specialize (HA k Hk). field. lra. }
  rewrite E1, E2.
  apply Rle_trans with (sumn n (fun i => sumn nb (fun k => t i k * ln (mean c k / lam)) +
     (sumn nb (fun k => lam * c2 k / mean c k * (w i * (f i / mixed c i * b i k))) - sumn nb (fun k => t i k)))).
  2:{ rewrite sumn_plus, sumn_minus, E3, E4, HQ. assert (lam * sumn nb c2 <= lam * N) by (apply Rmult_le_compat_l; lra). lra. }
  apply sumn_le. intros i Hi. rewrite <- sumn_minus, <- sumn_plus. apply sumn_le. intros k Hk.
  specialize (Hm i Hi). specialize (Hm2 i Hi). specialize (HA k Hk).
  assert (Ht : 0 <= t i k).
  { unfold t. apply Rmult_le_pos; auto. apply Rmult_le_pos; [left; apply Rdiv_lt_0_compat; auto|apply Rmult_le_pos; auto]. }
  assert (P : 0 < mixed c2 i * lam / (mixed c i * mean c k)).
  { apply Rdiv_lt_0_compat; now apply Rmult_lt_0_compat. }
  pose proof (ln_le_sub _ P) as L.
  replace (ln (mixed c2 i * lam / (mixed c i * mean c k))) with (ln (mixed c2 i / mixed c i) - ln (mean c k / lam)) in L.
  2:{ rewrite !ln_div by (auto; now apply Rmult_lt_0_compat). rewrite !ln_mult by auto. ring. }
  apply (Rmult_le_compat_l (t i k)) in L; auto.
  assert (EQ : t i k * (mixed c2 i * lam / (mixed c i * mean c k) - 1) =
     lam * c2 k / mean c k * (w i * (f i / mixed c i * b i k)) - t i k) by (unfold t; field; lra).
  rewrite EQ in L. lra.
Qed.

(** An update lowers the divergence. *)
Lemma mix_descends c c' :
  (forall k, (k < nb)%nat -> 0 < c k) -> (forall k, (k < nb)%nat -> 0 < c' k) ->
  (forall i, (i < n)%nat -> 0 < mixed c i) -> (forall i, (i < n)%nat -> 0 < mixed c' i) ->
  (forall k, (k < nb)%nat -> lam * c' k = c k * mean c k) -> sumn nb c <= sumn nb c' ->
  0 <= sumn n (fun i => w i * (f i * ln (mixed c' i / mixed c i))).
Proof.
  intros Hc Hc' Hm Hm' HE Hs.
  apply Rle_trans with (sumn nb (fun k => lam * (c' k - c k))).
  { rewrite sumn_scal, sumn_minus. apply Rmult_le_pos; lra. }
  apply Rle_trans with (sumn nb (fun k => lam * (c' k * ln (c' k / c k)))).
  { apply sumn_le. intros k Hk. apply Rmult_le_compat_l; [lra|]. apply (kl_fn_ge (c' k) (c k)); auto. }
  apply Rle_trans with (sumn n (fun i => w i * (f i * sumn nb (fun k => c k * b i k / mixed c i * ln (c' k / c k))))).
  - right. transitivity (sumn nb (fun k => sumn n (fun i => w i * (f i * (c k * b i k / mixed c i * ln (c' k / c k)))))).
    + apply sumn_ext. intros k Hk. rewrite <- Rmult_assoc, HE by auto. unfold mean.
      rewrite (Rmult_comm (c k)), Rmult_assoc, Rmult_comm, <- sumn_scal. apply sumn_ext. intros. unfold Rdiv. ring.
    + rewrite sumn_swap. apply sumn_ext. intros i Hi. rewrite <- !sumn_scal. reflexivity.
  - apply sumn_le. intros i Hi. apply Rmult_le_compat_l; auto. apply Rmult_le_compat_l; [left; auto|].
    specialize (Hm i Hi). specialize (Hm' i Hi).
    apply (mix_jensen nb (fun k => c k * b i k) (fun k => c' k * b i k) (fun k => ln (c' k / c k))); auto.
    + intros k Hk. apply Rmult_le_pos; auto. left; auto.
    + intros k Hk. apply Rmult_le_pos; auto. left; auto.
    + intros k Hk Hp. specialize (Hc k Hk). specialize (Hc' k Hk).
      assert (0 < b i k).
      { destruct (Hb i k Hi Hk) as [|E]; auto. rewrite <- E in Hp. lra. }
      split; [now apply Rmult_lt_0_compat|]. f_equal. field. lra.
Qed.
End Mix.

Lemma le_total l k : positive l -> (k < length l)%nat -> nth k l 0 <= rsum l.
Proof.
  intros H. revert k. induction H as [|x l Hx Hl IH]; intros k Hk; [simpl in Hk; lia|].
  assert (0 <= rsum l) by (clear - Hl; induction Hl; unfold rsum in *; cbn [fold_right]; lra).
  change (rsum (x :: l)) with (x + rsum l). destruct k as [|k]; cbn [nth]; [lra|]. simpl in Hk.
  specialize (IH k ltac:(lia)). lra.
Qed.

Lemma sumn_const n x : sumn n (fun _ => x) = INR n * x.
Proof.
  induction n as [|n IH]; [unfold sumn; cbn; ring|].
  unfold sumn in *. rewrite seq_S, map_app, rsum_app, IH, S_INR. unfold rsum. cbn [map fold_right]. ring.
Qed.

(** ** The iterates as lists of real numbers *)
Section Run.
Variables (fp : fpi) (W f : list R) (norm : bool) (lays : list (list (bool * R))) (mask N : R) (e : list R).
Hypothesis Hs : fpi_setting fp W f norm lays mask N.
Hypothesis HN0 : 0 < N.
Hypothesis HW : nonneg W.
Hypothesis Hpf : positive f.
Hypothesis Hsup : supported W f lays (nfun lays).
Hypothesis He : length e = nfun lays.
Hypothesis Hpe : positive e.

Let nb := nfun lays.
Let lam := rdot W f / N.
Let bas i k := basis_fn norm (kind (nth i lays []) k) (nth k e 0) (away (nth i lays []) k).
Let wt i := nth i W 0.
Let fv i := nth i f 0.
Let D c := kl_sum W f (values norm lays c e).
Let above c := all_above mask f (values norm lays c e).

Fixpoint upds (n : nat) (c : list R) : list R :=
  match n with O => c | S m => upd_c mask W f norm lays (rdot W f / N) (upds m c) e end.

Lemma upds_iterate n c : length c = nb -> positive c ->
  iterate fp true false n (map Fin c) (map Fin e) = Ok (map Fin (upds n c), map Fin e) /\
  length (upds n c) = nb /\ positive (upds n c).
Proof.
  intros Hc Hp. induction n as [|n (I1 & I2 & I3)]; [auto|]. cbn [iterate upds]. rewrite I1. cbn [bind fst snd].
  destruct (step_positive _ _ _ _ _ _ _ (upds n c) e true false Hs HN0 HW Hsup (conj I2 He) I3 Hpe eq_refl)
    as (c' & e' & E & [H1 H2] & H3 & H4 & Ec & Ee).
  cbv iota in Ec, Ee. subst c' e'. auto.
Qed.

Lemma facts : 0 < rdot W f /\ 0 < lam /\ length f = length W /\ length lays = length W /\ 0 <= mask /\
  (forall i, (i < length W)%nat -> length (nth i lays []) = nb) /\ exists m, vfacts m norm lays nb.
Proof.
  destruct (setting_facts _ _ _ _ _ _ _ Hs) as [m [Hft Hme Hlm Hnz Hne Hv]].
  destruct Hs as [_ Hf Hl Hm HN].
  assert (Hd : 0 < rdot W f).
  { destruct (rdot_nonneg W f HW (positive_nonneg _ Hpf)); auto. congruence. }
  repeat split; auto.
  - now apply Rdiv_lt_0_compat.
  - intros i Hi. eapply vf_len; eauto. apply nth_In. lia.
  - exists m. auto.
Qed.

Lemma mixed_value c i : (i < length W)%nat -> length c = nb ->
  nth i (values norm lays c e) 0 = mixed nb bas (fun k => nth k c 0) i.
Proof.
  intros Hi Hc. destruct facts as (_ & _ & Hf & Hl & _ & Hll & _).
  rewrite nth_values, gsum_sumn, (Hll i Hi) by (rewrite ?Hll; auto; unfold nb in *; lia). reflexivity.
Qed.
Lemma mixed_pos c : above c -> length c = nb -> forall i, (i < length W)%nat -> 0 < mixed nb bas (fun k => nth k c 0) i.
Proof.
  intros Ha Hc i Hi. destruct facts as (_ & _ & Hf & Hl & Hm & _). rewrite <- mixed_value by auto.
  eapply kept_nz; eauto. apply Ha. lia.
Qed.
Lemma mean_avg c k : above c -> length c = nb ->
  mean (length W) nb wt fv bas (fun k => nth k c 0) k = avg1 mask W f norm lays c e k.
Proof.
  intros Ha Hc. destruct facts as (_ & _ & Hf & Hl & Hm & _). unfold mean, avg1. cbv zeta.
  apply sumn_ext. intros i Hi. rewrite <- mixed_value, nth_values by (auto; lia).
  rewrite kl_ratio_kept; [reflexivity|]. rewrite <- nth_values by lia. apply Ha. lia.
Qed.
Lemma kl_diff c c2 : length c = nb -> length c2 = nb ->
  (forall i, (i < length W)%nat -> 0 < mixed nb bas (fun k => nth k c 0) i) ->
  (forall i, (i < length W)%nat -> 0 < mixed nb bas (fun k => nth k c2 0) i) ->
  D c - D c2 = sumn (length W) (fun i => wt i * (fv i * ln (mixed nb bas (fun k => nth k c2 0) i / mixed nb bas (fun k => nth k c 0) i))).
Proof.
  intros Hc Hc2 P P2. destruct facts as (_ & _ & Hf & Hl & Hm & _).
  unfold D. rewrite !kl_sum_sumn by (auto; unfold values; rewrite map_length; auto).
  rewrite <- sumn_minus. apply sumn_ext. intros i Hi. rewrite !mixed_value by auto.
  unfold kl_fn, wt, fv. specialize (P i Hi). specialize (P2 i Hi).
  assert (0 < nth i f 0) by (apply positive_nth; auto; lia). rewrite !ln_div by auto. ring.
Qed.

Lemma base_hyps :
  (forall i, (i < length W)%nat -> 0 <= wt i) /\ (forall i, (i < length W)%nat -> 0 < fv i) /\
  (forall i k, (i < length W)%nat -> (k < nb)%nat -> 0 <= bas i k) /\
  sumn (length W) (fun i => wt i * fv i) = lam * N.
Proof.
  destruct facts as (_ & _ & Hf & _). repeat split.
  - intros. now apply nonneg_nth.
  - intros. apply positive_nth; auto. lia.
  - intros. apply basis_fn_nonneg.
  - unfold wt, fv. rewrite <- rdot_sumn by auto. unfold lam. field. lra.
Qed.

Lemma mean_pos c k : above c -> length c = nb -> (k < nb)%nat -> 0 < avg1 mask W f norm lays c e k.
Proof.
  intros Ha Hc Hk. destruct facts as (_ & _ & Hf & Hl & Hm & _ & m & Hv).
  eapply avg1_pos; eauto. now apply positive_nonneg.
Qed.

(** Weight of the k-th function in the comparison mixture. *)
Definition part (c2 : list R) (k : nat) : R := share (length W) nb wt fv bas (fun k => nth k c2 0) k.

Definition rival (c2 : list R) : Prop :=
  length c2 = nb /\ nonneg c2 /\ rsum c2 <= N /\ positive (values norm lays c2 e).

Lemma rival_mixed c2 : rival c2 -> forall i, (i < length W)%nat -> 0 < mixed nb bas (fun k => nth k c2 0) i.
Proof.
  intros (H1 & _ & _ & H) i Hi. rewrite <- mixed_value by auto. apply positive_nth; auto.
  unfold values. rewrite map_length. destruct facts as (_ & _ & _ & Hl & _). lia.
Qed.
Lemma part_nonneg c2 k : rival c2 -> (k < nb)%nat -> 0 <= part c2 k.
Proof.
  intros H Hk. destruct base_hyps as (B1 & B2 & B3 & B4). unfold part. apply share_nonneg; auto.
  - now apply rival_mixed.
  - apply nonneg_nth. apply H.
Qed.
Lemma part_sum c2 : rival c2 -> sumn nb (part c2) = rdot W f.
Proof.
  intros H. destruct base_hyps as (B1 & B2 & B3 & B4). destruct facts as (_ & _ & Hf & _). unfold part.
  rewrite share_sum by now apply rival_mixed. now rewrite rdot_sumn by auto.
Qed.

Lemma step_gap c c2 : above c -> length c = nb -> positive c -> rival c2 ->
  D c - D c2 <= sumn nb (fun k => part c2 k * (ln (nth k (upd_c mask W f norm lays lam c e) 0) - ln (nth k c 0))).
Proof.
  intros Ha Hc Hp Hr. destruct base_hyps as (B1 & B2 & B3 & B4). destruct facts as (_ & Hlam & _).
  destruct Hr as (R1 & R2 & R3 & R4). assert (Hr : rival c2) by (repeat split; auto).
  rewrite kl_diff by first [assumption | now apply mixed_pos | now apply rival_mixed].
  eapply Rle_trans; [apply (five_point (length W) nb wt fv bas lam N B1 B2 B3 Hlam B4 (fun k => nth k c 0) (fun k => nth k c2 0))|].
  - now apply mixed_pos.
  - now apply rival_mixed.
  - intros k Hk. now apply nonneg_nth.
  - rewrite <- R1, <- rsum_sumn. exact R3.
  - intros k Hk. rewrite mean_avg by auto. now apply mean_pos.
  - right. apply sumn_ext. intros k Hk. fold (part c2 k). f_equal. rewrite mean_avg, nth_upd_c by (auto; lia).
    assert (P1 : 0 < nth k c 0) by (apply positive_nth; auto; lia). assert (P2 := mean_pos c k Ha Hc Hk).
    rewrite !ln_div by (auto; now apply Rmult_lt_0_compat). rewrite ln_mult by auto. ring.
Qed.

Lemma upd_total c : above c -> length c = nb -> rsum (upd_c mask W f norm lays lam c e) = N.
Proof.
  intros Ha Hc. destruct facts as (Hd & Hlam & Hf & Hl & Hm & _ & m & Hv).
  rewrite (upd_c_sum m norm lays nb) by auto. unfold lam. field. lra.
Qed.

Lemma step_down c : above c -> length c = nb -> positive c -> rsum c <= N ->
  above (upd_c mask W f norm lays lam c e) -> D (upd_c mask W f norm lays lam c e) <= D c.
Proof.
  intros Ha Hc Hp Hsum Ha'. destruct base_hyps as (B1 & B2 & B3 & B4). destruct facts as (Hd & Hlam & Hf & Hl & Hm & _ & m & Hv).
  set (c' := upd_c mask W f norm lays lam c e) in *.
  assert (Hc' : length c' = nb) by (unfold c'; now rewrite upd_c_length).
  assert (Hp' : positive c') by (unfold c'; eapply upd_c_pos; eauto; now apply positive_nonneg).
  assert (G : 0 <= D c - D c'); [|lra].
  rewrite kl_diff by first [assumption | now apply mixed_pos].
  apply (mix_descends (length W) nb wt fv bas lam B1 B2 B3 Hlam).
  - intros. apply positive_nth; auto. lia.
  - intros. apply positive_nth; auto. lia.
  - now apply mixed_pos.
  - now apply mixed_pos.
  - intros k Hk. rewrite mean_avg by auto. unfold c'. rewrite nth_upd_c by lia. field. lra.
  - rewrite <- Hc at 1. rewrite <- Hc'. rewrite <- !rsum_sumn. unfold c' at 1. rewrite upd_total; auto.
Qed.

Lemma gaps_sum n c c2 : length c = nb -> positive c -> rival c2 -> (forall j, (j <= n)%nat -> above (upds j c)) ->
  sumn (S n) (fun j => D (upds j c) - D c2) <= sumn nb (fun k => part c2 k * (ln (nth k (upds (S n) c) 0) - ln (nth k c 0))).
Proof.
  intros Hc Hp Hr Ha. induction n as [|n IH].
  - unfold sumn at 1. cbn [seq map]. unfold rsum. cbn [fold_right]. rewrite Rplus_0_r. apply (step_gap c c2); auto. apply (Ha 0%nat). lia.
  - unfold sumn at 1. rewrite seq_S, map_app, rsum_app. cbn [map]. fold (sumn (S n) (fun j => D (upds j c) - D c2)).
    rewrite Nat.add_0_l. assert (E : rsum [D (upds (S n) c) - D c2] = D (upds (S n) c) - D c2) by (unfold rsum; cbn [fold_right]; ring).
    rewrite E. destruct (upds_iterate (S n) c Hc Hp) as (_ & L & P).
    pose proof (step_gap (upds (S n) c) c2 (Ha (S n) (le_n _)) L P Hr) as G.
    specialize (IH (fun j Hj => Ha j ltac:(lia))).
    eapply Rle_trans; [apply Rplus_le_compat; [exact IH|exact G]|]. right. rewrite <- sumn_plus. apply sumn_ext.
    intros k Hk. change (upds (S (S n)) c) with (upd_c mask W f norm lays lam (upds (S n) c) e). ring.
Qed.

Lemma upds_sum n c : length c = nb -> positive c -> above (upds n c) -> rsum (upds (S n) c) = N.
Proof. intros Hc Hp Ha. cbn [upds]. apply upd_total; auto. apply (upds_iterate n c Hc Hp). Qed.

Lemma upds_down n c : length c = nb -> positive c -> rsum c <= N -> (forall j, (j <= S n)%nat -> above (upds j c)) ->
  D (upds (S n) c) <= D (upds n c).
Proof.
  intros Hc Hp Hsum Ha. destruct (upds_iterate n c Hc Hp) as (_ & L & P). cbn [upds].
  assert (S1 : rsum (upds n c) <= N).
  { destruct n as [|n]; [exact Hsum|]. right. apply upds_sum; auto. }
  apply step_down; auto. apply (Ha (S n)). lia.
Qed.
Lemma upds_mono n c : length c = nb -> positive c -> rsum c <= N -> (forall j, (j <= n)%nat -> above (upds j c)) ->
  forall j, (j <= n)%nat -> D (upds n c) <= D (upds j c).
Proof.
  intros Hc Hp Hsum. induction n as [|n IH]; intros Ha j Hj.
  - replace j with 0%nat by lia. lra.
  - destruct (Nat.eq_dec j (S n)) as [->|Hn]; [lra|].
    eapply Rle_trans; [apply upds_down; auto|]. apply IH; [intros; apply Ha; lia|lia].
Qed.

Lemma gap_limit n c c2 a : length c = nb -> positive c -> rival c2 -> (forall j, (j <= n)%nat -> above (upds j c)) ->
  0 < a -> Forall (Rle a) c ->
  sumn (S n) (fun j => D (upds j c) - D c2) <= rdot W f * ln (N / a).
Proof.
  intros Hc Hp Hr Ha Ha0 Hac. eapply Rle_trans; [now apply gaps_sum|].
  rewrite <- (part_sum c2) by auto. rewrite Rmult_comm, <- sumn_scal. apply sumn_le. intros k Hk.
  rewrite Rmult_comm. apply Rmult_le_compat_r; [now apply part_nonneg|].
  destruct (upds_iterate (S n) c Hc Hp) as (_ & L & P).
  assert (P1 : 0 < nth k (upds (S n) c) 0) by (apply positive_nth; auto; lia).
  assert (L1 : nth k (upds (S n) c) 0 <= N).
  { rewrite <- (upds_sum n c) by auto. apply le_total; auto. lia. }
  assert (A1 : a <= nth k c 0) by (rewrite Forall_forall in Hac; apply Hac, nth_In; lia).
  rewrite ln_div by auto.
  assert (ln (nth k (upds (S n) c) 0) <= ln N) by (destruct L1 as [L1| ->]; [left; now apply ln_increasing|lra]).
  assert (ln a <= ln (nth k c 0)) by (destruct A1 as [A1| ->]; [left; now apply ln_increasing|lra]).
  lra.
Qed.

Lemma rate n c c2 a : length c = nb -> positive c -> rsum c <= N -> rival c2 -> (forall j, (j <= n)%nat -> above (upds j c)) ->
  0 < a -> Forall (Rle a) c ->
  INR (S n) * (D (upds n c) - D c2) <= rdot W f * ln (N / a).
Proof.
  intros Hc Hp Hsum Hr Ha Ha0 Hac. eapply Rle_trans; [|now apply (gap_limit n c c2 a)].
  rewrite <- sumn_const. apply sumn_le. intros j Hj.
  pose proof (upds_mono n c Hc Hp Hsum Ha j ltac:(lia)). lra.
Qed.
End Run.
