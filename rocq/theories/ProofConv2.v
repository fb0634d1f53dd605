(** How fast the coefficient iteration converges, and when runs stop (C88, C89). *)
From Coquelicot Require Import Coquelicot.
From Coq Require Import Reals List ZArith Lia Lra Bool.
From Verif Require Import XR SpecDens SpecMeas SpecGrid ModelDens ModelMeas ModelGrid ModelFit Lists ProofDens
  ProofDeriv ProofMeas SpecFit SpecStop ProofFitView ProofFit ProofEM ProofFPI ProofFPI2 ProofFPI3 ProofFPI5 ProofConv.
Import ListNotations.
Local Open Scope R_scope.

(** ** C88 *)
Lemma coeffs_rate fp W f norm lays mask N c e n a :
  fpi_setting fp W f norm lays mask N -> 0 < N -> nonneg W -> positive f ->
  supported W f lays (nfun lays) -> sized lays c e -> positive c -> positive e -> rsum c <= N ->
  0 < a -> Forall (Rle a) c ->
  (forall j cj, (j <= n)%nat -> iterate fp true false j (map Fin c) (map Fin e) = Ok (map Fin cj, map Fin e) ->
     all_above mask f (values norm lays cj e)) ->
  exists cn, iterate fp true false n (map Fin c) (map Fin e) = Ok (map Fin cn, map Fin e) /\
    forall c2, length c2 = nfun lays -> nonneg c2 -> rsum c2 <= N -> positive (values norm lays c2 e) ->
      kl_sum W f (values norm lays cn e) - kl_sum W f (values norm lays c2 e) <= quad W f * ln (N / a) / INR (S n).
Proof.
  intros Hs HN0 HW Hpf Hsup [Hc He] Hpc Hpe Hsum Ha Hac Hk.
  assert (I : forall j, iterate fp true false j (map Fin c) (map Fin e) = Ok (map Fin (upds W f norm lays mask N e j c), map Fin e)).
  { intros j. apply upds_iterate; auto. }
  eexists. split; [apply I|]. intros c2 R1 R2 R3 R4.
  assert (P : 0 < INR (S n)) by (apply lt_0_INR; lia).
  apply Rmult_le_reg_l with (INR (S n)); auto.
  replace (INR (S n) * (quad W f * ln (N / a) / INR (S n))) with (rdot W f * ln (N / a)) by (unfold quad; field; lra).
  apply rate with (fp := fp) (mask := mask); auto.
  - repeat split; auto.
  - intros j Hj. apply (Hk j); auto.
Qed.

Lemma coeffs_limit fp W f norm lays mask N c e :
  fpi_setting fp W f norm lays mask N -> 0 < N -> nonneg W -> positive f ->
  supported W f lays (nfun lays) -> sized lays c e -> positive c -> positive e -> rsum c <= N ->
  (forall j cj, iterate fp true false j (map Fin c) (map Fin e) = Ok (map Fin cj, map Fin e) ->
     all_above mask f (values norm lays cj e)) ->
  forall eps, 0 < eps -> exists n0, forall n, (n0 <= n)%nat ->
  exists cn, iterate fp true false n (map Fin c) (map Fin e) = Ok (map Fin cn, map Fin e) /\
    forall c2, length c2 = nfun lays -> nonneg c2 -> rsum c2 <= N -> positive (values norm lays c2 e) ->
      kl_sum W f (values norm lays cn e) <= kl_sum W f (values norm lays c2 e) + eps.
Proof.
  intros Hs HN0 HW Hpf Hsup Hsz Hpc Hpe Hsum Hk eps Heps.
  assert (exists a, 0 < a /\ Forall (Rle a) c) as (a & Ha & Hac).
  { clear - Hpc. induction Hpc as [|x c Hx Hc (a & Ha & H)]; [exists 1; split; [lra|constructor]|].
    exists (Rmin x a). split; [now apply Rmin_glb_lt|]. constructor; [apply Rmin_l|].
    eapply Forall_impl; [|exact H]. intros y Hy. pose proof (Rmin_r x a). cbv beta. lra. }
  set (C := quad W f * ln (N / a)).
  destruct (archimed_cor1 (eps / (Rabs C + 1))) as (n0 & H0 & H1).
  { apply Rdiv_lt_0_compat; auto. pose proof (Rabs_pos C). lra. }
  exists n0. intros n Hn.
  destruct (coeffs_rate fp W f norm lays mask N c e n a) as (cn & I & R); auto. { intros; eapply Hk; eauto. }
  exists cn. split; auto. intros c2 R1 R2 R3 R4. specialize (R c2 R1 R2 R3 R4). fold C in R.
  assert (P0 : 0 < INR n0) by (apply lt_0_INR; lia).
  assert (P : INR n0 <= INR (S n)) by (apply le_INR; lia).
  assert (PC := Rabs_pos C).
  assert (Q : C / INR (S n) <= eps); [|lra].
  apply Rmult_le_reg_r with (INR (S n)); [lra|]. unfold Rdiv at 1. rewrite Rmult_assoc, Rinv_l, Rmult_1_r by lra.
  apply (Rmult_lt_compat_r (INR n0)) in H0; auto. rewrite Rinv_l in H0 by lra.
  apply (Rmult_lt_compat_r (Rabs C + 1)) in H0; [|lra].
  replace (eps / (Rabs C + 1) * INR n0 * (Rabs C + 1)) with (eps * INR n0) in H0 by (field; lra).
  pose proof (Rle_abs C). assert (eps * INR n0 <= eps * INR (S n)) by (apply Rmult_le_compat_l; lra). lra.
Qed.

(** ** The changes of the divergence along a run *)
Lemma value_fin fp W f norm lays mask N c e oc oe j cj ej v :
  fpi_setting fp W f norm lays mask N -> positive f -> sized lays cj ej -> positive ej ->
  all_above mask f (values norm lays cj ej) ->
  iterate fp oc oe j (map Fin c) (map Fin e) = Ok (map Fin cj, map Fin ej) ->
  value_at fp oc oe (map Fin c) (map Fin e) j v -> v = Fin (kl_sum W f (values norm lays cj ej)).
Proof.
  intros Hs Hpf [S1 S2] Hpe Hk I (c' & e' & g & I' & G & ->). rewrite I in I'. injection I' as <- <-.
  destruct (setting_facts _ _ _ _ _ _ _ Hs) as [m [Hft Hme Hlm Hnz Hne Hv]].
  pose proof (fs_lenl _ _ _ _ _ _ _ Hs) as Hl. pose proof (fs_mask _ _ _ _ _ _ _ Hs) as Hm.
  destruct (goodness_kept (fp_fit fp) W f m mask norm lays (nfun lays) cj ej Hft Hv Hl Hne S1 S2
    (fun _ => Hpe) Hm Hpf Hk) as (mx & _ & G').
  rewrite G in G'. injection G' as ->. reflexivity.
Qed.

Lemma run_drop fp W f norm lays mask N c e oc oe maxiter th r eps :
  fpi_setting fp W f norm lays mask N -> 0 < N -> nonneg W -> positive f ->
  supported W f lays (nfun lays) -> sized lays c e -> positive c -> positive e -> oc || oe = true ->
  fpi_run fp (VArr (A1 (map Fin c))) (VArr (A1 (map Fin e))) oc oe maxiter th = Ok r ->
  th_d th = Fin eps ->
  (forall j cj ej, (j <= length (r_fun r))%nat ->
     iterate fp oc oe j (map Fin c) (map Fin e) = Ok (map Fin cj, map Fin ej) ->
     all_above mask f (values norm lays cj ej)) ->
  (forall j c1 e1 c2 e2, (1 <= j)%nat -> (S j < length (r_fun r))%nat ->
    iterate fp oc oe j (map Fin c) (map Fin e) = Ok (map Fin c1, map Fin e1) ->
    iterate fp oc oe (S j) (map Fin c) (map Fin e) = Ok (map Fin c2, map Fin e2) ->
    eps < Rabs (kl_sum W f (values norm lays c2 e2) - kl_sum W f (values norm lays c1 e1))) /\
  ((Z.of_nat (length (r_fun r)) < maxiter)%Z -> r_success r = true).
Proof.
  intros Hs HN0 HW Hpf Hsup Hsz Hpc Hpe Hu Hr Hth Hk.
  assert (VF : forall j v, (j <= length (r_fun r))%nat -> value_at fp oc oe (map Fin c) (map Fin e) j v -> exists x, v = Fin x).
  { intros j v Hj V. destruct (iterate_positive _ _ _ _ _ _ _ c e oc oe j Hs HN0 HW Hsup Hsz Hpc Hpe Hu) as (cj & ej & I & S1 & P1 & P2).
    eexists. eapply value_fin; eauto. }
  destruct (run_stops _ _ _ _ _ _ _ _ Hr) as (U & dc & de & dd & Mv & _ & Fl).
  split.
  - intros j c1 e1 c2 e2 Hj1 Hj I1 I2. destruct (U (S j) Hj) as (_ & dc' & de' & dd' & (cp & ep & cn & en & _ & _ & _ & _ & M) & _ & T).
    destruct j as [|j]; [lia|]. destruct M as (u & v & Vu & Vv & ->).
    destruct (iterate_positive _ _ _ _ _ _ _ c e oc oe (S j) Hs HN0 HW Hsup Hsz Hpc Hpe Hu) as (c1' & e1' & I1' & S1 & P11 & P12).
    destruct (iterate_positive _ _ _ _ _ _ _ c e oc oe (S (S j)) Hs HN0 HW Hsup Hsz Hpc Hpe Hu) as (c2' & e2' & I2' & S2 & P21 & P22).
    rewrite I1 in I1'. injection I1' as X1 X2. apply map_Fin_inj in X1, X2. subst c1' e1'.
    rewrite I2 in I2'. injection I2' as X1 X2. apply map_Fin_inj in X1, X2. subst c2' e2'.
    rewrite (value_fin _ _ _ _ _ _ _ _ _ _ _ _ _ _ u Hs Hpf S1 P12 (Hk (S j) _ _ ltac:(lia) I1) I1 Vu) in T.
    rewrite (value_fin _ _ _ _ _ _ _ _ _ _ _ _ _ _ v Hs Hpf S2 P22 (Hk (S (S j)) _ _ ltac:(lia) I2) I2 Vv) in T.
    rewrite Hth in T. cbn in T. unfold rltb in T. destruct (Rlt_dec _ _) as [L|] in T; [|discriminate]. exact L.
  - intros Hn. destruct (r_success r) eqn:E; auto. exfalso. assert (E1 := proj1 Fl eq_refl). destruct E1 as [E1|[E1 _]]; [|lia]. subst dd.
    destruct (length (r_fun r)) as [|n] eqn:En; cbn [moved] in Mv; [now destruct Mv as (_ & _ & M)|].
    destruct Mv as (cp & ep & cn & en & _ & _ & _ & _ & M). destruct n as [|n]; [discriminate|].
    destruct M as (u & v & Vu & Vv & M). destruct (VF (S n) u) as [x ->]; [lia|auto|]. destruct (VF (S (S n)) v) as [y ->]; [lia|auto|].
    discriminate.
Qed.

(** Steps of more than [eps]. *)
Lemma steep (F : nat -> R) eps m : (forall j, (1 <= j)%nat -> (S j <= m)%nat -> eps <= F j - F (S j)) ->
  forall j, (1 <= j)%nat -> (j <= m)%nat -> INR (m - j) * eps <= F j - F m.
Proof.
  intros H j Hj Hm. remember (m - j)%nat as d eqn:Ed. revert j Hj Hm Ed. induction d as [|d IH]; intros j Hj Hm Ed.
  - replace j with m by lia. cbn [INR]. lra.
  - specialize (IH (S j) ltac:(lia) ltac:(lia) ltac:(lia)). specialize (H j Hj ltac:(lia)). rewrite S_INR. lra.
Qed.
Lemma sumn_S n F : sumn (S n) F = F 0%nat + sumn n (fun k => F (S k)).
Proof. unfold sumn. cbn [seq map]. rewrite <- seq_shift, map_map. reflexivity. Qed.
Lemma tri m : sumn m (fun k => INR (m - S k)) = INR m * (INR m - 1) / 2.
Proof.
  induction m as [|m IH]; [unfold sumn; cbn; field|]. rewrite sumn_S.
  replace (S m - 1)%nat with m by lia.
  rewrite (sumn_ext m (fun k => INR (S m - S (S k))) (fun k => INR (m - S k))) by (intros; f_equal; lia).
  rewrite IH, S_INR. field.
Qed.

Lemma coeffs_stop fp W f norm lays mask N c e maxiter th r a eps :
  fpi_setting fp W f norm lays mask N -> 0 < N -> nonneg W -> positive f ->
  supported W f lays (nfun lays) -> sized lays c e -> positive c -> positive e -> rsum c <= N ->
  0 < a -> Forall (Rle a) c ->
  fpi_run fp (VArr (A1 (map Fin c))) (VArr (A1 (map Fin e))) true false maxiter th = Ok r ->
  th_d th = Fin eps -> 0 < eps ->
  (forall j cj, (j <= length (r_fun r))%nat -> iterate fp true false j (map Fin c) (map Fin e) = Ok (map Fin cj, map Fin e) ->
     all_above mask f (values norm lays cj e)) ->
  let n := INR (length (r_fun r)) in
  (n - 2) * (n + 1) * eps <= 2 * quad W f * ln (N / a) /\
  ((Z.of_nat (length (r_fun r)) < maxiter)%Z -> r_success r = true).
Proof.
  intros Hs HN0 HW Hpf Hsup Hsz Hpc Hpe Hsum Ha Hac Hr Hth Heps Hk. cbv zeta.
  assert (INJ : forall j cj ej, iterate fp true false j (map Fin c) (map Fin e) = Ok (map Fin cj, map Fin ej) -> ej = e).
  { intros j cj ej I. destruct (iterate_fixed _ _ _ _ _ _ _ I) as [_ E]. specialize (E eq_refl). cbn [snd] in E. now apply map_Fin_inj. }
  assert (Hk' : forall j cj ej, (j <= length (r_fun r))%nat ->
     iterate fp true false j (map Fin c) (map Fin e) = Ok (map Fin cj, map Fin ej) ->
     all_above mask f (values norm lays cj ej)).
  { intros j cj ej Hj I. pose proof (INJ _ _ _ I). subst ej. eapply Hk; eauto. }
  destruct (run_drop fp W f norm lays mask N c e true false maxiter th r eps Hs HN0 HW Hpf Hsup Hsz Hpc Hpe eq_refl Hr Hth Hk') as [Dr Sc].
  split; [|exact Sc]. destruct Hsz as [Hc He].
  set (n := length (r_fun r)) in *. set (X := fun j => upds W f norm lays mask N e j c).
  assert (I : forall j, iterate fp true false j (map Fin c) (map Fin e) = Ok (map Fin (X j), map Fin e)).
  { intros j. unfold X. apply (upds_iterate fp); auto. }
  assert (AB : forall j, (j <= n)%nat -> all_above mask f (values norm lays (X j) e)) by (intros j Hj; apply (Hk j); auto).
  set (F := fun j => kl_sum W f (values norm lays (X j) e)).
  destruct (facts fp W f norm lays mask N e Hs HN0 HW Hpf He) as (Hd & _ & Hf & Hl & _ & _ & mm & Hv).
  assert (LN : 0 <= rdot W f * ln (N / a)).
  { assert (Hnb := vf_pos _ _ _ _ Hv). destruct Hac as [|x c' Hx Hac]; [cbn in Hc; lia|].
    apply Rmult_le_pos; [lra|].
    assert (a <= N). { pose proof (le_total (x :: c') 0 Hpc ltac:(simpl; lia)). cbn [nth] in H. lra. }
    rewrite <- ln_1. assert (1 <= N / a) as [L| <-]; [|left; apply ln_increasing; lra|lra].
    apply Rmult_le_reg_r with a; auto. unfold Rdiv. rewrite Rmult_assoc, Rinv_l by lra. lra. }
  destruct (le_lt_dec n 1) as [Hn|Hn].
  { assert (n = 0%nat \/ n = 1%nat) as [-> | ->] by lia; cbn [INR]; unfold quad; nra. }
  destruct n as [|m]; [lia|]. assert (Hm : (1 <= m)%nat) by lia.
  assert (MONO := upds_mono fp W f norm lays mask N e Hs HN0 HW Hpf Hsup He Hpe).
  assert (ST : forall j, (1 <= j)%nat -> (S j <= m)%nat -> eps <= F j - F (S j)).
  { intros j Hj Hj2. specialize (Dr j (X j) e (X (S j)) e Hj ltac:(lia) (I j) (I (S j))).
    pose proof (MONO (S j) c Hc Hpc Hsum (fun i Hi => AB i ltac:(lia)) j ltac:(lia)) as L.
    change (F (S j) <= F j) in L. change (eps < Rabs (F (S j) - F j)) in Dr.
    rewrite Rabs_left1 in Dr by lra. lra. }
  pose proof (steep F eps m ST) as SP.
  assert (RV : rival norm lays N e (X m)).
  { destruct m as [|m']; [lia|].
    assert (L := upds_iterate fp W f norm lays mask N e Hs HN0 HW Hsup He Hpe (S m') c Hc Hpc).
    destruct L as (_ & L1 & L2). split; [exact L1|]. split; [now apply positive_nonneg|]. split.
    - right. apply (upds_sum fp W f norm lays mask N e Hs HN0 HW Hpf Hsup He Hpe m' c Hc Hpc). apply AB. lia.
    - apply all_nth_Forall. unfold values at 1. rewrite map_length. intros i Hi.
      eapply kept_nz; [exact (fs_mask _ _ _ _ _ _ _ Hs)|]. apply (AB (S m') ltac:(lia)). lia. }
  pose proof (gap_limit fp W f norm lays mask N e Hs HN0 HW Hpf Hsup He Hpe m c (X m) a Hc Hpc RV (fun j Hj => AB j ltac:(lia)) Ha Hac) as GL.
  change (sumn (S m) (fun j => F j - F m) <= rdot W f * ln (N / a)) in GL.
  rewrite sumn_S in GL.
  assert (B0 : (INR m - 1) * eps <= F 0%nat - F m).
  { specialize (SP 1%nat (le_n _) Hm). rewrite minus_INR in SP by lia. cbn [INR] in SP.
    pose proof (MONO 1%nat c Hc Hpc Hsum (fun i Hi => AB i ltac:(lia)) 0%nat ltac:(lia)) as L.
    change (F 1%nat <= F 0%nat) in L. lra. }
  assert (B1 : INR m * (INR m - 1) / 2 * eps <= sumn m (fun k => F (S k) - F m)).
  { rewrite <- tri, Rmult_comm, <- sumn_scal. apply sumn_le. intros k Hk2. rewrite Rmult_comm. apply SP; lia. }
  rewrite S_INR. unfold quad. nra.
Qed.
