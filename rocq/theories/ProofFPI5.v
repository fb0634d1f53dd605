(** When an FPI run stops, and which arguments it rejects (C47, C48). *)
From Coq Require Import Reals List ZArith Lia Lra Bool.
From Verif Require Import XR SpecFit SpecStop ModelDens ModelMeas ModelFit Lists ProofFPI2.
Import ListNotations.
Local Open Scope R_scope.

Lemma trace_value f oc oe c e s n j : trace_ok f oc oe c e s n -> (j < n)%nat -> value_at f oc oe c e (S j) (nth j (st_fun s) NaN).
Proof. intros T Hj. destruct (to_rows _ _ _ _ _ _ _ T j Hj) as (cj & ej & A & B & C). exists cj, ej, (nth j (st_perf s) []). auto. Qed.

Lemma trace_moved f oc oe c e s n : trace_ok f oc oe c e s n -> moved f oc oe c e n (st_dc s) (st_de s) (st_dd s).
Proof.
  intros T. pose proof T as T'. destruct T as [T1 T2 T3 T4 T5 T6 Tz T7]. destruct n as [|n]; cbn [moved].
  - destruct (Tz eq_refl). auto.
  - destruct (T6 ltac:(lia)) as (cp & ep & I & C1 & C2). replace (S n - 1)%nat with n in I by lia.
    exists cp, ep, (st_cs s), (st_es s). do 4 (split; [assumption|]). destruct n as [|n]; [exact T7|].
    cbn [Nat.leb] in T7. replace (S (S n) - 1)%nat with (S n) in T7 by lia. replace (S (S n) - 2)%nat with n in T7 by lia.
    exists (nth n (st_fun s) NaN), (nth (S n) (st_fun s) NaN). split; [|split; [|exact T7]]; apply (trace_value _ _ _ _ _ _ _ _ T'); lia.
Qed.

Lemma go_unfinished th maxiter s n : st_niter s = Z.of_nat n ->
  go_on th maxiter s = true <-> unfinished th (st_dc s) (st_de s) (st_dd s) /\ (Z.of_nat n < maxiter)%Z.
Proof.
  intros E. unfold go_on, unfinished. rewrite E, !andb_true_iff, orb_true_iff, Z.ltb_lt. tauto.
Qed.

Lemma loop_all f oc oe th maxiter c e fuel : forall s n s',
  trace_ok f oc oe c e s n -> (Z.of_nat n + Z.of_nat fuel = Z.max maxiter 0)%Z ->
  fpi_loop f oc oe th maxiter fuel s = Ok s' ->
  exists n', trace_ok f oc oe c e s' n' /\ go_on th maxiter s' = false /\ (n <= n')%nat /\
    forall j, (n <= j < n')%nat -> exists sj, trace_ok f oc oe c e sj j /\ go_on th maxiter sj = true.
Proof.
  induction fuel as [|k IH]; intros s n s' Ht Hn H.
  - injection H as <-. exists n. split; auto. split; [|split; [lia|intros; lia]].
    apply not_true_iff_false. rewrite (go_unfinished _ _ _ _ (to_iter _ _ _ _ _ _ _ Ht)). lia.
  - cbn [fpi_loop] in H. destruct (go_on th maxiter s) eqn:Eg.
    + destruct (fpi_step f oc oe s) as [s1|] eqn:Es; [|discriminate]. cbn [bind] in H.
      destruct (IH s1 (S n) s') as (n' & A & B & C & D); auto; [eapply step_trace; eauto|lia|].
      exists n'. split; auto. split; auto. split; [lia|]. intros j Hj.
      destruct (Nat.eq_dec j n) as [->|]; [exists s; auto|apply D; lia].
    + injection H as <-. exists n. split; auto. split; auto. split; [lia|intros; lia].
Qed.

Lemma run_stops f c e oc oe maxiter th r :
  fpi_run f (VArr (A1 c)) (VArr (A1 e)) oc oe maxiter th = Ok r ->
  let n := length (r_fun r) in
  (forall j, (j < n)%nat -> (Z.of_nat j < maxiter)%Z /\ exists dc de dd, moved f oc oe c e j dc de dd /\ unfinished th dc de dd) /\
  exists dc de dd, moved f oc oe c e n dc de dd /\ ((Z.of_nat n < maxiter)%Z -> ~ unfinished th dc de dd) /\
    (r_success r = false <-> dd = NaN \/ (Z.of_nat n = maxiter /\ xltb (th_d th) dd = true)).
Proof.
  unfold fpi_run. intros H.
  destruct (Z.eqb_spec (Z.of_nat (length c)) (g_nbasis (ft_model (fp_fit f)))) as [H1|H1]; [|discriminate]. cbn [negb] in H.
  destruct (Z.eqb_spec (Z.of_nat (length e)) (g_nbasis (ft_model (fp_fit f)))) as [H2|H2]; [|discriminate]. cbn [negb] in H.
  destruct (fpi_loop _ _ _ _ _ _ _) as [s|] eqn:E; [|discriminate]. cbn [bind] in H. injection H as <-.
  destruct (loop_all f oc oe th maxiter c e (Z.to_nat maxiter) _ 0%nat s (init_trace f oc oe c e) ltac:(lia) E) as (n & T & G & _ & D).
  cbn [r_fun r_success]. rewrite (to_fun _ _ _ _ _ _ _ T). split.
  - intros j Hj. destruct (D j ltac:(lia)) as (sj & Tj & Gj). apply (go_unfinished _ _ _ j (to_iter _ _ _ _ _ _ _ Tj)) in Gj.
    split; [tauto|]. exists (st_dc sj), (st_de sj), (st_dd sj). split; [now apply trace_moved|tauto].
  - exists (st_dc s), (st_de s), (st_dd s). split; [now apply trace_moved|]. pose proof (to_iter _ _ _ _ _ _ _ T) as TI. split.
    + intros Hn U. apply not_true_iff_false in G. apply G. apply (go_unfinished _ _ _ n TI). auto.
    + rewrite negb_false_iff, orb_true_iff, andb_true_iff, Z.eqb_eq, TI.
      assert (N : xisnan (st_dd s) = true <-> st_dd s = NaN) by (destruct (st_dd s); cbn; split; congruence). rewrite N.
      intuition.
Qed.

Lemma run_stops_when f c e oc oe maxiter th r :
  fpi_run f (VArr (A1 c)) (VArr (A1 e)) oc oe maxiter th = Ok r ->
  let n := length (r_fun r) in
  (forall j, (j < n)%nat -> (Z.of_nat j < maxiter)%Z /\ exists dc de dd, moved f oc oe c e j dc de dd /\ unfinished th dc de dd) /\
  exists dc de dd, moved f oc oe c e n dc de dd /\ ((Z.of_nat n < maxiter)%Z -> ~ unfinished th dc de dd).
Proof. intros H. destruct (run_stops _ _ _ _ _ _ _ _ H) as (A & dc & de & dd & B & C & _). split; [exact A|]. exists dc, de, dd. auto. Qed.
Lemma run_flag f c e oc oe maxiter th r :
  fpi_run f (VArr (A1 c)) (VArr (A1 e)) oc oe maxiter th = Ok r ->
  let n := length (r_fun r) in
  exists dc de dd, moved f oc oe c e n dc de dd /\
    (r_success r = false <-> dd = NaN \/ (Z.of_nat n = maxiter /\ xltb (th_d th) dd = true)).
Proof. intros H. destruct (run_stops _ _ _ _ _ _ _ _ H) as (_ & dc & de & dd & B & _ & C). exists dc, de, dd. auto. Qed.

(** Arguments. *)
Lemma run_rejects f c0 e0 oc oe maxiter th :
  ((forall a, c0 <> VArr a) \/ (forall a, e0 <> VArr a) -> fpi_run f c0 e0 oc oe maxiter th = Raise TypeError) /\
  (forall a b, c0 = VArr a -> e0 = VArr b ->
     (forall c, a = A1 c -> Z.of_nat (length c) <> g_nbasis (ft_model (fp_fit f))) \/
     (forall e, b = A1 e -> Z.of_nat (length e) <> g_nbasis (ft_model (fp_fit f))) ->
     fpi_run f c0 e0 oc oe maxiter th = Raise ValueError).
Proof.
  split.
  - intros [H|H].
    + destruct c0; try reflexivity. exfalso. eapply H; reflexivity.
    + destruct e0; try (destruct c0; reflexivity). exfalso. eapply H; reflexivity.
  - intros a b -> -> H. cbn [fpi_run]. destruct a as [c|d c]; [|reflexivity].
    destruct (Z.eqb_spec (Z.of_nat (length c)) (g_nbasis (ft_model (fp_fit f)))) as [H1|H1]; [|reflexivity]. cbn [negb].
    destruct b as [e|d e]; [|reflexivity].
    destruct (Z.eqb_spec (Z.of_nat (length e)) (g_nbasis (ft_model (fp_fit f)))) as [H2|H2]; [|reflexivity].
    exfalso. destruct H as [H|H]; [exact (H c eq_refl H1)|exact (H e eq_refl H2)].
Qed.
