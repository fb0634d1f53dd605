(** Convergence of the coefficients themselves (C94). *)
From Coquelicot Require Import Coquelicot.
From Coq Require Import Reals List ZArith Lia Lra Bool ConstructiveEpsilon.
From Verif Require Import XR SpecDens SpecMeas SpecGrid ModelDens ModelMeas ModelGrid ModelFit Lists ProofDens
  ProofDeriv ProofMeas SpecFit SpecStop ProofFitView ProofFit ProofEM ProofFPI ProofFPI2 ProofFPI3 ProofFPI5 ProofConv ProofConv2.
Import ListNotations.
Local Open Scope R_scope.

(** ** Sequences *)
Lemma find_close (u : nat -> R) (l : R) : ValAdh u l -> forall m eps, 0 < eps -> { p | (m <= p)%nat /\ Rabs (u p - l) < eps }.
Proof.
  intros H m eps He. apply constructive_indefinite_ground_description_nat.
  - intros p. destruct (le_dec m p) as [L|L]; [|right; tauto]. destruct (Rlt_dec (Rabs (u p - l)) eps); [left; auto|right; tauto].
  - destruct (H (fun x => Rabs (x - l) < eps) m) as (p & A & B); [|exists p; auto].
    exists (mkposreal eps He). intros x X. exact X.
Qed.

Lemma adherent_sub (u : nat -> R) (l : R) : ValAdh u l ->
  exists phi, (forall n, (phi n < phi (S n))%nat) /\ is_lim_seq (fun n => u (phi n)) l.
Proof.
  intros H.
  assert (P : forall n, 0 < / INR (S n)) by (intros; apply Rinv_0_lt_compat, lt_0_INR; lia).
  set (nxt := fun m n => proj1_sig (find_close u l H m (/ INR (S n)) (P n))).
  set (phi := fix phi n := match n with O => nxt O O | S k => nxt (S (phi k)) (S k) end).
  exists phi. split.
  - intros n. change (phi (S n)) with (nxt (S (phi n)) (S n)). unfold nxt. destruct (find_close _ _ _ _ _ _) as (p & A & B). cbn. lia.
  - assert (B : forall n, Rabs (u (phi n) - l) < / INR (S n)).
    { intros [|n]; [change (phi O) with (nxt O O)|change (phi (S n)) with (nxt (S (phi n)) (S n))]; unfold nxt;
      destruct (find_close _ _ _ _ _ _) as (p & A & B); exact B. }
    apply is_lim_seq_spec. intros [eps He]. cbn. destruct (archimed_cor1 eps He) as (n0 & A & C).
    exists n0. intros n Hn. eapply Rlt_trans; [apply B|]. eapply Rle_lt_trans; [|exact A].
    apply Rinv_le_contravar; [now apply lt_0_INR|]. apply le_INR. lia.
Qed.

Lemma mono_sub phi : (forall n, (phi n < phi (S n))%nat) -> forall n, (n <= phi n)%nat.
Proof. intros H n. induction n as [|n IH]; [lia|]. specialize (H n). lia. Qed.

Lemma bounded_sub nb (u : nat -> nat -> R) M : (forall t k, (k < nb)%nat -> 0 <= u t k <= M) ->
  exists phi l, (forall n, (phi n < phi (S n))%nat) /\ forall k, (k < nb)%nat -> is_lim_seq (fun n => u (phi n) k) (Finite (l k)).
Proof.
  induction nb as [|nb IH]; intros H; [exists (fun n => n), (fun _ => 0); split; [auto|lia]|].
  destruct IH as (p1 & l & I1 & L1); [intros; apply H; lia|].
  destruct (Bolzano_Weierstrass (fun n => u (p1 n) nb) (fun x => 0 <= x <= M)) as (x & A).
  { apply compact_P3. } { intros; apply H; lia. }
  destruct (adherent_sub _ _ A) as (p2 & I2 & L2).
  exists (fun n => p1 (p2 n)), (fun k => if Nat.eqb k nb then x else l k).
  assert (J : forall a b, (a < b)%nat -> (p1 a < p1 b)%nat).
  { intros a b Hab. induction Hab; [apply I1|]. specialize (I1 m). lia. }
  split; [intros; apply J, I2|]. intros k Hk. destruct (Nat.eqb_spec k nb) as [->|Hn]; [exact L2|].
  apply (is_lim_seq_subseq (fun n => u (p1 n) k) (l k) p2); [now apply eventually_subseq|]. apply L1. lia.
Qed.

Lemma sumn_lim n (F : nat -> nat -> R) (l : nat -> R) : (forall k, (k < n)%nat -> is_lim_seq (fun t => F t k) (Finite (l k))) ->
  is_lim_seq (fun t => sumn n (F t)) (Finite (sumn n l)).
Proof.
  assert (S : forall m g, sumn (S m) g = sumn m g + g m).
  { intros m g. unfold sumn. rewrite seq_S, map_app, rsum_app. unfold rsum. cbn [map fold_right]. rewrite Nat.add_0_l. ring. }
  induction n as [|n IH]; intros H.
  - apply is_lim_seq_ext with (fun _ => 0); [reflexivity|]. apply is_lim_seq_const.
  - rewrite S. apply is_lim_seq_ext with (fun t => sumn n (F t) + F t n); [intros; now rewrite S|].
    apply is_lim_seq_plus'; [apply IH; intros; apply H; lia|apply H; lia].
Qed.

Lemma ln_lim (u : nat -> R) (l : R) : 0 < l -> is_lim_seq u l -> is_lim_seq (fun n => ln (u n)) (ln l).
Proof.
  intros Hl H. apply (is_lim_seq_continuous ln u l); auto.
  apply continuity_pt_filterlim. apply (ex_derive_continuous ln l). exists (/ l). now apply is_derive_ln.
Qed.

Lemma descending_lim (d : nat -> R) phi (l : R) : (forall n, d (S n) <= d n) -> (forall n, (phi n < phi (S n))%nat) ->
  is_lim_seq (fun n => d (phi n)) l -> is_lim_seq d l /\ forall n, l <= d n.
Proof.
  intros H I L. assert (M : forall m n, (m <= n)%nat -> d n <= d m).
  { intros m n Hn. induction Hn; [lra|]. specialize (H m0). lra. }
  assert (B : forall n, l <= d n).
  { intros n. apply (is_lim_seq_le_loc (fun m => d (phi m)) (fun _ => d n) l (d n)); [|exact L|apply is_lim_seq_const].
    exists n. intros m Hm. apply M. pose proof (mono_sub _ I m). lia. }
  split; auto. apply is_lim_seq_spec. intros eps. apply is_lim_seq_spec in L. destruct (L eps) as (m & Hm).
  specialize (Hm m (le_n _)). exists (phi m). intros n Hn. specialize (M _ _ Hn). specialize (B n).
  apply Rabs_def2 in Hm. apply Rabs_def1; lra.
Qed.

Lemma squeeze_zero (d s : nat -> R) (l C : R) : 0 <= C -> is_lim_seq s 0 -> (forall n, (d n - l) ^ 2 <= C * s n) -> is_lim_seq d l.
Proof.
  intros HC Hs H. apply is_lim_seq_spec. intros [eps He]. cbn [pos]. apply is_lim_seq_spec in Hs.
  assert (Q : 0 < eps ^ 2 / (C + 1)) by (apply Rdiv_lt_0_compat; [apply pow_lt; auto|lra]).
  destruct (Hs (mkposreal _ Q)) as (n0 & Hn0). cbn [pos] in Hn0. exists n0. intros n Hn. specialize (Hn0 n Hn). specialize (H n).
  rewrite Rminus_0_r in Hn0. apply Rabs_def2 in Hn0. destruct Hn0 as [Hn0 _].
  assert (X : (d n - l) ^ 2 < eps ^ 2).
  { eapply Rle_lt_trans; [exact H|]. eapply Rle_lt_trans; [apply Rmult_le_compat_l; [exact HC|left; exact Hn0]|].
    replace (C * (eps ^ 2 / (C + 1))) with (eps ^ 2 - eps ^ 2 / (C + 1)) by (field; lra). lra. }
  rewrite <- !Rsqr_pow2 in X. apply Rsqr_lt_abs_0 in X. rewrite (Rabs_right eps) in X by lra. exact X.
Qed.

Lemma sumn_member n F k : (forall i, (i < n)%nat -> 0 <= F i) -> (k < n)%nat -> F k <= sumn n F.
Proof.
  revert F k. induction n as [|n IH]; intros F k H Hk; [lia|]. rewrite ProofFitView.sumn_S.
  assert (0 <= F 0%nat) by (apply H; lia). assert (0 <= sumn n (fun i => F (S i))) by (apply sumn_nonneg; intros; apply H; lia).
  destruct k as [|k]; [lra|]. specialize (IH (fun i => F (S i)) k ltac:(intros; apply H; lia) ltac:(lia)). cbv beta in IH. lra.
Qed.

(** ** Divergences of non-negative numbers *)
Lemma root_gap a b : 0 <= a -> 0 < b -> (sqrt a - sqrt b) ^ 2 <= a * ln (a / b) - a + b.
Proof.
  intros Ha Hb. destruct (Req_dec a 0) as [->|Hn].
  - rewrite sqrt_0. replace ((0 - sqrt b) ^ 2) with (sqrt b * sqrt b) by ring. rewrite sqrt_sqrt by lra. lra.
  - assert (Pa : 0 < a) by lra. assert (Qa := sqrt_lt_R0 a Pa). assert (Qb := sqrt_lt_R0 b Hb).
    assert (Ea : a = sqrt a * sqrt a) by (rewrite sqrt_sqrt; lra). assert (Eb : b = sqrt b * sqrt b) by (rewrite sqrt_sqrt; lra).
    set (p := sqrt a) in *. set (q := sqrt b) in *. rewrite Ea, Eb.
    assert (L := ln_le_sub (q / p) ltac:(apply Rdiv_lt_0_compat; auto)).
    replace (ln (p * p / (q * q))) with (- (2 * ln (q / p))).
    2:{ rewrite !ln_div by (auto; nra). rewrite !ln_mult by auto. ring. }
    apply (Rmult_le_compat_l (p * p)) in L; [|nra].
    replace (p * p * (q / p - 1)) with (p * q - p * p) in L by (field; lra). nra.
Qed.

Lemma root_diff a b M : 0 <= a <= M -> 0 <= b <= M -> (a - b) ^ 2 <= 4 * M * (sqrt a - sqrt b) ^ 2.
Proof.
  intros Ha Hb. assert (Qa := sqrt_pos a). assert (Qb := sqrt_pos b).
  assert (Ea : sqrt a * sqrt a = a) by (apply sqrt_sqrt; lra). assert (Eb : sqrt b * sqrt b = b) by (apply sqrt_sqrt; lra).
  set (p := sqrt a) in *. set (q := sqrt b) in *. replace (a - b) with ((p - q) * (p + q)) by (rewrite <- Ea, <- Eb; ring).
  rewrite Rpow_mult_distr, Rmult_comm. apply Rmult_le_compat_r; [apply pow2_ge_0|].
  assert ((p - q) ^ 2 >= 0) by (apply Rle_ge, pow2_ge_0). nra.
Qed.

(** An update lowers the divergence by the change of the coefficients at least. *)
Lemma mix_gain n nb w f b lam c c' :
  (forall i, (i < n)%nat -> 0 <= w i) -> (forall i, (i < n)%nat -> 0 < f i) ->
  (forall i k, (i < n)%nat -> (k < nb)%nat -> 0 <= b i k) -> 0 < lam ->
  (forall k, (k < nb)%nat -> 0 < c k) -> (forall k, (k < nb)%nat -> 0 < c' k) ->
  (forall i, (i < n)%nat -> 0 < mixed nb b c i) -> (forall i, (i < n)%nat -> 0 < mixed nb b c' i) ->
  (forall k, (k < nb)%nat -> lam * c' k = c k * mean n nb w f b c k) ->
  sumn nb (fun k => lam * (c' k * ln (c' k / c k))) <= sumn n (fun i => w i * (f i * ln (mixed nb b c' i / mixed nb b c i))).
Proof.
  intros Hw Hf Hb Hlam Hc Hc' Hm Hm' HE.
  apply Rle_trans with (sumn n (fun i => w i * (f i * sumn nb (fun k => c k * b i k / mixed nb b c i * ln (c' k / c k))))).
  - right. transitivity (sumn nb (fun k => sumn n (fun i => w i * (f i * (c k * b i k / mixed nb b c i * ln (c' k / c k)))))).
    + apply sumn_ext. intros k Hk. rewrite <- Rmult_assoc, HE by auto. unfold mean.
      rewrite (Rmult_comm (c k)), Rmult_assoc, Rmult_comm, <- sumn_scal. apply sumn_ext. intros. unfold Rdiv. ring.
    + rewrite sumn_swap. apply sumn_ext. intros i Hi. rewrite <- !sumn_scal. reflexivity.
  - apply sumn_le. intros i Hi. apply Rmult_le_compat_l; auto. apply Rmult_le_compat_l; [left; auto|].
    specialize (Hm i Hi). specialize (Hm' i Hi).
    apply (mix_jensen nb (fun k => c k * b i k) (fun k => c' k * b i k) (fun k => ln (c' k / c k))); auto.
    + intros k Hk. apply Rmult_le_pos; auto. left; auto.
    + intros k Hk. apply Rmult_le_pos; auto. left; auto.
    + intros k Hk Hp. specialize (Hc k Hk). specialize (Hc' k Hk).
      assert (0 < b i k).
      { destruct (Hb i k Hi Hk) as [|E]; auto. rewrite <- E in Hp. lra. }
      split; [now apply Rmult_lt_0_compat|]. f_equal. field. lra.
Qed.

(** ** The limit of the iterates *)
Section Limit.
Variables (fp : fpi) (W f : list R) (norm : bool) (lays : list (list (bool * R))) (mask N : R) (e c : list R).
Hypothesis Hs : fpi_setting fp W f norm lays mask N.
Hypothesis HN0 : 0 < N.
Hypothesis HW : nonneg W.
Hypothesis Hpf : positive f.
Hypothesis Hsup : supported W f lays (nfun lays).
Hypothesis He : length e = nfun lays.
Hypothesis Hpe : positive e.
Hypothesis Hc : length c = nfun lays.
Hypothesis Hp : positive c.
Hypothesis Hsum : rsum c = N.

Let nb := nfun lays.
Let lam := rdot W f / N.
Let bas i k := basis_fn norm (kind (nth i lays []) k) (nth k e 0) (away (nth i lays []) k).
Let wt i := nth i W 0.
Let fv i := nth i f 0.
Let D c := kl_sum W f (values norm lays c e).
Let up t := upds W f norm lays mask N e t c.
Let u t k := nth k (up t) 0.
Hypothesis Hall : forall t, all_above mask f (values norm lays (up t) e).

Lemma up_facts t : length (up t) = nb /\ positive (up t) /\ rsum (up t) = N.
Proof.
  destruct (upds_iterate fp W f norm lays mask N e Hs HN0 HW Hsup He Hpe t c Hc Hp) as (_ & A & B).
  split; [exact A|]. split; [exact B|]. destruct t as [|t]; [exact Hsum|].
  apply (upds_sum fp); auto. apply (Hall t).
Qed.
Lemma u_pos t k : (k < nb)%nat -> 0 < u t k.
Proof. intros Hk. destruct (up_facts t) as (A & B & _). apply positive_nth; auto. lia. Qed.
Lemma u_le t k : (k < nb)%nat -> u t k <= N.
Proof. intros Hk. destruct (up_facts t) as (A & B & S). rewrite <- S. apply le_total; auto. lia. Qed.
Lemma u_sum t : sumn nb (u t) = N.
Proof. destruct (up_facts t) as (A & B & S). rewrite <- S, rsum_sumn, A. reflexivity. Qed.

Lemma lam_pos : 0 < lam.
Proof. apply (facts fp W f norm lays mask N e Hs HN0 HW Hpf He). Qed.
Lemma mixed_large t i : (i < length W)%nat -> fv i * / 2 ^ 1022 <= mixed nb bas (u t) i.
Proof.
  intros Hi. destruct (facts fp W f norm lays mask N e Hs HN0 HW Hpf He) as (_ & _ & Hf & Hl & Hm & _).
  destruct (up_facts t) as (A & B & _).
  assert (K := Hall t i ltac:(lia)). destruct K as [K1 K2].
  rewrite (mixed_value fp W f norm lays mask N e Hs HN0 HW Hpf He (up t) i Hi A) in K1, K2.
  fold nb bas in K1, K2. change (fun k => nth k (up t) 0) with (u t) in K1, K2.
  rewrite Rabs_right in K2 by (left; apply positive_nth; auto; lia). rewrite (Rabs_right (mixed nb bas (u t) i)) in K2 by lra. left. exact K2.
Qed.
Lemma floor_pos i : (i < length W)%nat -> 0 < fv i * / 2 ^ 1022.
Proof.
  intros Hi. destruct (facts fp W f norm lays mask N e Hs HN0 HW Hpf He) as (_ & _ & Hf & _).
  apply Rmult_lt_0_compat; [apply positive_nth; auto; lia|]. apply Rinv_0_lt_compat, pow_lt. lra.
Qed.
Lemma u_step t k : (k < nb)%nat -> lam * u (S t) k = u t k * mean (length W) nb wt fv bas (u t) k.
Proof.
  intros Hk. destruct (up_facts t) as (A & B & _). assert (L := lam_pos).
  assert (E := mean_avg fp W f norm lays mask N e Hs HN0 HW Hpf He (up t) k (Hall t) A).
  fold nb bas wt fv in E. change (fun k => nth k (up t) 0) with (u t) in E. rewrite E.
  unfold u at 1. change (up (S t)) with (upd_c mask W f norm lays lam (up t) e). rewrite nth_upd_c by lia.
  unfold u. field. lra.
Qed.
Lemma D_step t : sumn nb (fun k => lam * (u (S t) k * ln (u (S t) k / u t k))) <= D (up t) - D (up (S t)).
Proof.
  destruct (base_hyps fp W f norm lays mask N e Hs HN0 HW Hpf He) as (B1 & B2 & B3 & B4). fold nb bas wt fv in B1, B2, B3.
  destruct (up_facts t) as (A & B & _). destruct (up_facts (S t)) as (A' & B' & _).
  assert (M : forall t i, (i < length W)%nat -> 0 < mixed nb bas (u t) i).
  { intros t' i Hi. eapply Rlt_le_trans; [apply floor_pos; eauto|]. now apply mixed_large. }
  unfold D. rewrite (kl_diff fp W f norm lays mask N e Hs HN0 HW Hpf He); auto; try (apply M).
  apply mix_gain; auto; try (apply M); try (intros; now apply u_pos); try apply lam_pos. apply u_step.
Qed.
Lemma sums_diff t s : sumn nb (fun k => u s k - u t k) = 0.
Proof. rewrite sumn_minus, !u_sum. ring. Qed.
Lemma D_moves t k : (k < nb)%nat -> (u (S t) k - u t k) ^ 2 <= 4 * N / lam * (D (up t) - D (up (S t))).
Proof.
  intros Hk. assert (L := lam_pos). eapply Rle_trans; [apply (root_diff _ _ N)|].
  - split; [left; now apply u_pos|now apply u_le].
  - split; [left; now apply u_pos|now apply u_le].
  - replace (4 * N / lam * (D (up t) - D (up (S t)))) with (4 * N * ((D (up t) - D (up (S t))) / lam)) by (field; lra).
    apply Rmult_le_compat_l; [lra|]. apply Rmult_le_reg_l with lam; auto.
    replace (lam * ((D (up t) - D (up (S t))) / lam)) with (D (up t) - D (up (S t))) by (field; lra).
    eapply Rle_trans; [|apply D_step].
    apply Rle_trans with (sumn nb (fun k => lam * (sqrt (u (S t) k) - sqrt (u t k)) ^ 2)).
    + apply (sumn_member nb (fun k => lam * (sqrt (u (S t) k) - sqrt (u t k)) ^ 2)); auto.
      intros j Hj. apply Rmult_le_pos; [lra|apply pow2_ge_0].
    + apply Rle_trans with (sumn nb (fun k => lam * (u (S t) k * ln (u (S t) k / u t k)) - lam * (u (S t) k - u t k))).
      * apply sumn_le. intros j Hj. rewrite <- Rmult_minus_distr_l. apply Rmult_le_compat_l; [lra|].
        assert (G := root_gap (u (S t) j) (u t j) ltac:(left; now apply u_pos) ltac:(now apply u_pos)). lra.
      * rewrite sumn_minus. rewrite (sumn_scal nb lam (fun k => u (S t) k - u t k)), sums_diff. lra.
Qed.
Lemma D_down t : D (up (S t)) <= D (up t).
Proof. apply (upds_down fp); auto; [lra|]. intros j _. apply (Hall j). Qed.

Lemma limit_exists : exists cl,
  length cl = nb /\ nonneg cl /\ rsum cl = N /\ positive (values norm lays cl e) /\
  (forall c2, rival norm lays N e c2 -> D cl <= D c2) /\
  (forall k, (k < nb)%nat -> is_lim_seq (fun t => u t k) (nth k cl 0)) /\
  (forall k, (k < nb)%nat -> nth k cl 0 * mean (length W) nb wt fv bas (fun k => nth k cl 0) k = lam * nth k cl 0).
Proof.
  assert (Lp := lam_pos).
  destruct (facts fp W f norm lays mask N e Hs HN0 HW Hpf He) as (_ & _ & Hf & Hl & Hm & _).
  destruct (bounded_sub nb u N) as (phi & l & Hphi & Hlim).
  { intros t k Hk. split; [left; now apply u_pos|now apply u_le]. }
  set (cl := map l (seq 0 nb)).
  assert (Lcl : length cl = nb) by (unfold cl; now rewrite map_length, seq_length).
  assert (Ncl : forall k, (k < nb)%nat -> nth k cl 0 = l k).
  { intros k Hk. unfold cl. rewrite (nth_indep _ 0 (l 0%nat)) by (now rewrite map_length, seq_length).
    rewrite map_nth, seq_nth by auto. reflexivity. }
  assert (Pcl : forall k, (k < nb)%nat -> 0 <= l k).
  { intros k Hk. apply (is_lim_seq_le (fun _ => 0) (fun n => u (phi n) k) 0 (l k)); [|apply is_lim_seq_const|now apply Hlim].
    intros n. left. now apply u_pos. }
  assert (Ncl0 : nonneg cl).
  { apply Forall_forall. intros x Hx. apply (In_nth _ _ 0) in Hx. destruct Hx as (k & Hk & <-). rewrite Lcl in Hk. rewrite Ncl; auto. }
  assert (Scl : sumn nb l = N).
  { assert (A := sumn_lim nb (fun n k => u (phi n) k) l Hlim).
    assert (B : is_lim_seq (fun n => sumn nb (fun k => u (phi n) k)) N).
    { apply is_lim_seq_ext with (fun _ => N); [|apply is_lim_seq_const]. intros n. symmetry. apply u_sum. }
    apply is_lim_seq_unique in A. apply is_lim_seq_unique in B. rewrite A in B. now injection B. }
  assert (Scl' : rsum cl = N).
  { rewrite rsum_sumn, Lcl, <- Scl. apply sumn_ext. intros k Hk. now apply Ncl. }
  assert (El : forall i, mixed nb bas (fun k => nth k cl 0) i = mixed nb bas l i).
  { intros i. apply sumn_ext. intros k Hk. now rewrite Ncl. }
  assert (Ml : forall i, is_lim_seq (fun n => mixed nb bas (u (phi n)) i) (mixed nb bas l i)).
  { intros i. apply (sumn_lim nb (fun n k => u (phi n) k * bas i k) (fun k => l k * bas i k)). intros k Hk.
    apply is_lim_seq_mult'; [now apply Hlim|apply is_lim_seq_const]. }
  assert (Mp : forall i, (i < length W)%nat -> 0 < mixed nb bas l i).
  { intros i Hi. eapply Rlt_le_trans; [apply floor_pos; eauto|].
    apply (is_lim_seq_le (fun _ => fv i * / 2 ^ 1022) (fun n => mixed nb bas (u (phi n)) i) (fv i * / 2 ^ 1022) (mixed nb bas l i)); auto.
    - intros n. now apply mixed_large.
    - apply is_lim_seq_const. }
  assert (Mu : forall t i, (i < length W)%nat -> 0 < mixed nb bas (u t) i).
  { intros t i Hi. eapply Rlt_le_trans; [apply floor_pos; eauto|]. now apply mixed_large. }
  assert (Vcl : positive (values norm lays cl e)).
  { apply Forall_forall. intros x Hx. apply (In_nth _ _ 0) in Hx. destruct Hx as (i & Hi & <-).
    unfold values in Hi. rewrite map_length in Hi.
    rewrite (mixed_value fp W f norm lays mask N e Hs HN0 HW Hpf He cl i ltac:(lia) Lcl). fold nb bas. rewrite El. apply Mp. lia. }
  assert (Rcl : rival norm lays N e cl) by (split; [exact Lcl|]; split; [exact Ncl0|]; split; [lra|exact Vcl]).
  assert (Dd : forall t, D (up t) - D cl = sumn (length W) (fun i => wt i * (fv i * ln (mixed nb bas l i / mixed nb bas (u t) i)))).
  { intros t. destruct (up_facts t) as (A & B & _). unfold D.
    rewrite (kl_diff fp W f norm lays mask N e Hs HN0 HW Hpf He); auto.
    - apply sumn_ext. intros i Hi. fold nb bas. now rewrite El.
    - apply Mu.
    - intros i Hi. fold nb bas. rewrite El. now apply Mp. }
  assert (Dlim : is_lim_seq (fun n => D (up (phi n)) - D cl) 0).
  { replace 0 with (sumn (length W) (fun i => wt i * (fv i * ln (mixed nb bas l i / mixed nb bas l i)))).
    - eapply is_lim_seq_ext; [intros n; symmetry; apply Dd|].
      apply (sumn_lim (length W) (fun n i => wt i * (fv i * ln (mixed nb bas l i / mixed nb bas (u (phi n)) i)))). intros i Hi.
      assert (P := Mp i Hi).
      apply is_lim_seq_mult'; [apply is_lim_seq_const|]. apply is_lim_seq_mult'; [apply is_lim_seq_const|].
      apply ln_lim; [now apply Rdiv_lt_0_compat|]. apply is_lim_seq_div'; [apply is_lim_seq_const|apply Ml|lra].
    - apply sumn_zero. intros i Hi. specialize (Mp i Hi). replace (mixed nb bas l i / mixed nb bas l i) with 1 by (field; lra). rewrite ln_1. ring. }
  destruct (descending_lim (fun t => D (up t) - D cl) phi 0) as (Dl & Dge); auto.
  { intros n. pose proof (D_down n). cbv beta. lra. }
  (* the limit is a fixed point *)
  assert (Gap : is_lim_seq (fun t => D (up t) - D (up (S t))) 0).
  { apply is_lim_seq_ext with (fun t => (D (up t) - D cl) - (D (up (S t)) - D cl)); [intros; ring|].
    replace 0 with (0 - 0) by ring. apply is_lim_seq_minus'; [exact Dl|]. apply (is_lim_seq_incr_1 (fun t => D (up t) - D cl)). exact Dl. }
  assert (Mv : forall k, (k < nb)%nat -> is_lim_seq (fun t => u (S t) k - u t k) 0).
  { intros k Hk. apply (squeeze_zero _ (fun t => D (up t) - D (up (S t))) 0 (4 * N / lam)); auto.
    - apply Rmult_le_pos; [lra|]. left. now apply Rinv_0_lt_compat.
    - intros t. rewrite Rminus_0_r. now apply D_moves. }
  assert (Fix : forall k, (k < nb)%nat -> l k * mean (length W) nb wt fv bas l k = lam * l k).
  { intros k Hk.
    assert (A : is_lim_seq (fun n => lam * u (S (phi n)) k) (lam * l k)).
    { apply is_lim_seq_mult'; [apply is_lim_seq_const|].
      apply is_lim_seq_ext with (fun n => (u (S (phi n)) k - u (phi n) k) + u (phi n) k); [intros; ring|].
      replace (l k) with (0 + l k) by ring. apply is_lim_seq_plus'; [|now apply Hlim].
      apply (is_lim_seq_subseq (fun t => u (S t) k - u t k) 0 phi); [now apply eventually_subseq|]. now apply Mv. }
    assert (B : is_lim_seq (fun n => lam * u (S (phi n)) k) (l k * mean (length W) nb wt fv bas l k)).
    { eapply is_lim_seq_ext; [intros n; symmetry; now apply u_step|].
      apply is_lim_seq_mult'; [now apply Hlim|].
      apply (sumn_lim (length W) (fun n i => wt i * (fv i / mixed nb bas (u (phi n)) i * bas i k))
        (fun i => wt i * (fv i / mixed nb bas l i * bas i k))). intros i Hi. assert (P := Mp i Hi).
      apply is_lim_seq_mult'; [apply is_lim_seq_const|]. apply is_lim_seq_mult'; [|apply is_lim_seq_const].
      apply is_lim_seq_div'; [apply is_lim_seq_const|apply Ml|lra]. }
    apply is_lim_seq_unique in A. apply is_lim_seq_unique in B. rewrite A in B. now injection B. }
  (* the divergence from the limit never grows *)
  set (Psi := fun t => sumn nb (fun k => l k * ln (u t k))).
  set (Top := sumn nb (fun k => l k * ln (l k))).
  assert (Part : forall k, (k < nb)%nat -> part W f norm lays e cl k = lam * l k).
  { intros k Hk. rewrite <- Fix by auto. unfold part, share, mean. fold nb bas wt fv. rewrite Ncl by auto.
    rewrite <- sumn_scal. apply sumn_ext. intros i Hi. rewrite El. change (basis_fn norm (kind (nth i lays []) k) (nth k e 0) (away (nth i lays []) k)) with (bas i k). fold (wt i) (fv i). ring. }
  assert (Up : forall t, 0 <= Psi (S t) - Psi t).
  { intros t. apply Rmult_le_reg_l with lam; auto. rewrite Rmult_0_r.
    destruct (up_facts t) as (A & B & _).
    assert (G := step_gap fp W f norm lays mask N e Hs HN0 HW Hpf Hsup He (up t) cl (Hall t) A B Rcl).
    fold nb lam in G. change (kl_sum W f (values norm lays (up t) e)) with (D (up t)) in G.
    change (kl_sum W f (values norm lays cl e)) with (D cl) in G.
    eapply Rle_trans; [apply Dge with (n := t)|]. eapply Rle_trans; [exact G|]. right. unfold Psi.
    rewrite <- sumn_minus, <- sumn_scal. apply sumn_ext. intros k Hk. rewrite Part by auto.
    change (upd_c mask W f norm lays lam (up t) e) with (up (S t)). unfold u. ring. }
  assert (PsiL : is_lim_seq (fun n => Top - Psi (phi n)) 0).
  { replace 0 with (Top - Top) by ring. apply is_lim_seq_minus'; [apply is_lim_seq_const|].
    apply (sumn_lim nb (fun n k => l k * ln (u (phi n) k)) (fun k => l k * ln (l k))). intros k Hk.
    destruct (Req_dec (l k) 0) as [Z|Z].
    - rewrite Z. apply is_lim_seq_ext with (fun _ => 0 * ln 0); [intros; ring|]. apply is_lim_seq_const.
    - apply is_lim_seq_mult'; [apply is_lim_seq_const|]. apply ln_lim; [specialize (Pcl k Hk); lra|]. now apply Hlim. }
  destruct (descending_lim (fun t => Top - Psi t) phi 0) as (Pl & _); auto.
  { intros n. specialize (Up n). cbv beta. lra. }
  assert (Cv : forall k, (k < nb)%nat -> is_lim_seq (fun t => u t k) (l k)).
  { intros k Hk. apply (squeeze_zero _ (fun t => Top - Psi t) (l k) (4 * N)); auto; [lra|]. intros t.
    assert (Bu : 0 <= u t k <= N) by (split; [left; now apply u_pos|now apply u_le]).
    assert (Bl : 0 <= l k <= N).
    { split; auto. rewrite <- Scl. now apply sumn_member. }
    replace ((u t k - l k) ^ 2) with ((l k - u t k) ^ 2) by ring.
    eapply Rle_trans; [now apply (root_diff _ _ N)|]. apply Rmult_le_compat_l; [lra|].
    eapply Rle_trans; [apply (sumn_member nb (fun k => (sqrt (l k) - sqrt (u t k)) ^ 2)); auto; intros; apply pow2_ge_0|].
    apply Rle_trans with (sumn nb (fun k => (l k * ln (l k) - l k * ln (u t k)) - (l k - u t k))).
    - apply sumn_le. intros j Hj. assert (Pu := u_pos t j Hj). assert (G := root_gap (l j) (u t j) (Pcl j Hj) Pu).
      destruct (Req_dec (l j) 0) as [Z|Z]; [rewrite Z in *; lra|]. rewrite ln_div in G by (specialize (Pcl j Hj); lra). lra.
    - right. rewrite !sumn_minus, Scl, u_sum. unfold Top, Psi. ring. }
  exists cl. split; [exact Lcl|]. split; [exact Ncl0|]. split; [exact Scl'|]. split; [exact Vcl|]. split; [|split].
  - intros c2 R2. apply le_epsilon. intros eps Heps. destruct R2 as (R1 & R2 & R3 & R4).
    destruct (coeffs_limit fp W f norm lays mask N c e Hs HN0 HW Hpf Hsup (conj Hc He) Hp Hpe ltac:(lra)) with (eps := eps) as (n0 & H0); auto.
    { intros j cj Hj. destruct (upds_iterate fp W f norm lays mask N e Hs HN0 HW Hsup He Hpe j c Hc Hp) as (I & _ & _).
      rewrite I in Hj. injection Hj as Hj. apply map_Fin_inj in Hj. rewrite <- Hj. apply Hall. }
    destruct (H0 n0 (le_n _)) as (cn & I & Q).
    destruct (upds_iterate fp W f norm lays mask N e Hs HN0 HW Hsup He Hpe n0 c Hc Hp) as (I' & _ & _).
    rewrite I' in I. injection I as I. apply map_Fin_inj in I. subst cn. specialize (Q c2 R1 R2 R3 R4). specialize (Dge n0). cbv beta in Dge.
    unfold D in *. fold (up n0) in Q. lra.
  - intros k Hk. rewrite Ncl by auto. now apply Cv.
  - intros k Hk. rewrite Ncl by auto. rewrite <- Fix by auto. f_equal.
    apply sumn_ext. intros i Hi. now rewrite El.
Qed.
End Limit.
