(** Limit of the coefficient iteration, and that it does not depend on the start (C94). *)
From Coquelicot Require Import Coquelicot.
From Coq Require Import Reals List ZArith Lia Lra Bool.
From Verif Require Import XR SpecDens SpecMeas SpecGrid ModelDens ModelMeas ModelGrid ModelFit Lists ProofDens
  ProofDeriv ProofMeas SpecFit SpecStop ProofFitView ProofFit ProofEM ProofFPI ProofFPI2 ProofFPI3 ProofFPI5 ProofConv ProofConv2 ProofConv5.
Import ListNotations.
Local Open Scope R_scope.

Lemma upds_start W f norm lays mask N e n c : upds W f norm lays mask N e n (upds W f norm lays mask N e 1 c) = upds W f norm lays mask N e (S n) c.
Proof. induction n as [|n IH]; [reflexivity|]. cbn [upds] in *. now rewrite IH. Qed.

Lemma all_close nb (u : nat -> nat -> R) (l : nat -> R) : (forall k, (k < nb)%nat -> is_lim_seq (fun t => u t k) (l k)) ->
  forall eps, 0 < eps -> exists n0, forall n, (n0 <= n)%nat -> forall k, (k < nb)%nat -> Rabs (u n k - l k) < eps.
Proof.
  intros H eps He. induction nb as [|nb IH]; [exists 0%nat; lia|].
  destruct IH as (n1 & H1); [intros; apply H; lia|].
  assert (L := H nb (le_n _)). apply is_lim_seq_spec in L. destruct (L (mkposreal eps He)) as (n2 & H2). cbn [pos] in H2.
  exists (max n1 n2). intros n Hn k Hk. destruct (Nat.eq_dec k nb) as [->|]; [apply H2; lia|apply H1; lia].
Qed.

(** What the iterates of a start tend to. *)
Lemma coeffs_converge fp W f norm lays mask N c e :
  fpi_setting fp W f norm lays mask N -> 0 < N -> nonneg W -> positive f ->
  supported W f lays (nfun lays) -> sized lays c e -> positive c -> positive e ->
  (forall j cj, iterate fp true false j (map Fin c) (map Fin e) = Ok (map Fin cj, map Fin e) ->
     all_above mask f (values norm lays cj e)) ->
  exists cl, length cl = nfun lays /\ nonneg cl /\ rsum cl = N /\ positive (values norm lays cl e) /\
    (forall c2, length c2 = nfun lays -> nonneg c2 -> rsum c2 <= N -> positive (values norm lays c2 e) ->
       kl_sum W f (values norm lays cl e) <= kl_sum W f (values norm lays c2 e)) /\
    (forall eps, 0 < eps -> exists n0, forall n, (n0 <= n)%nat ->
       exists cn, iterate fp true false n (map Fin c) (map Fin e) = Ok (map Fin cn, map Fin e) /\
         forall k, (k < nfun lays)%nat -> Rabs (nth k cn 0 - nth k cl 0) < eps).
Proof.
  intros Hs HN0 HW Hpf Hsup [Hc He] Hpc Hpe Hk.
  assert (I : forall j, iterate fp true false j (map Fin c) (map Fin e) = Ok (map Fin (upds W f norm lays mask N e j c), map Fin e) /\
     length (upds W f norm lays mask N e j c) = nfun lays /\ positive (upds W f norm lays mask N e j c)).
  { intros j. now apply (upds_iterate fp). }
  assert (A : forall j, all_above mask f (values norm lays (upds W f norm lays mask N e j c) e)).
  { intros j. apply (Hk j). apply I. }
  set (c1 := upds W f norm lays mask N e 1 c).
  destruct (limit_exists fp W f norm lays mask N e c1) as (cl & L1 & L2 & L3 & L4 & L5 & L6 & _); auto; try apply I.
  - apply (upds_sum fp W f norm lays mask N e Hs HN0 HW Hpf Hsup He Hpe 0 c Hc Hpc (A 0%nat)).
  - intros t. unfold c1. rewrite upds_start. apply A.
  - exists cl. split; [exact L1|]. split; [exact L2|]. split; [exact L3|]. split; [exact L4|]. split.
    + intros c2 R1 R2 R3 R4. apply L5. repeat split; auto.
    + intros eps Heps. destruct (all_close _ _ _ L6 eps Heps) as (n0 & H0). exists (S n0). intros n Hn.
      destruct n as [|n]; [lia|]. eexists. split; [apply I|]. intros k Hk'. specialize (H0 n ltac:(lia) k Hk'). cbv beta in H0.
      unfold c1 in H0. now rewrite upds_start in H0.
Qed.

(** Coefficients of least divergence give one density where it counts. *)
Lemma best_density fp W f norm lays mask N c c' e :
  fpi_setting fp W f norm lays mask N -> 0 < N -> nonneg W -> positive f -> length e = nfun lays ->
  rival norm lays N e c -> rival norm lays N e c' ->
  (forall c2, rival norm lays N e c2 -> kl_sum W f (values norm lays c e) <= kl_sum W f (values norm lays c2 e)) ->
  (forall c2, rival norm lays N e c2 -> kl_sum W f (values norm lays c' e) <= kl_sum W f (values norm lays c2 e)) ->
  forall i, (i < length W)%nat -> 0 < nth i W 0 -> nth i (values norm lays c e) 0 = nth i (values norm lays c' e) 0.
Proof.
  intros Hs HN0 HW Hpf He R R' B B' i Hi Pw.
  destruct (facts fp W f norm lays mask N e Hs HN0 HW Hpf He) as (_ & _ & Hf & Hl & Hm & _).
  assert (M := rival_mixed fp W f norm lays mask N e Hs HN0 HW Hpf He _ R).
  assert (M' := rival_mixed fp W f norm lays mask N e Hs HN0 HW Hpf He _ R').
  set (nb := nfun lays) in *. destruct R as (R1 & R2 & R3 & R4). destruct R' as (R1' & R2' & R3' & R4').
  set (cm := map (fun k => (nth k c 0 + nth k c' 0) / 2) (seq 0 nb)).
  assert (Lm : length cm = nb) by (unfold cm; now rewrite map_length, seq_length).
  assert (Nm : forall k, (k < nb)%nat -> nth k cm 0 = (nth k c 0 + nth k c' 0) / 2).
  { intros k Hk. unfold cm. set (h := fun k => (nth k c 0 + nth k c' 0) / 2).
    rewrite (nth_indep _ 0 (h 0%nat)) by (now rewrite map_length, seq_length). rewrite map_nth, seq_nth by auto. reflexivity. }
  set (bas := fun i k => basis_fn norm (kind (nth i lays []) k) (nth k e 0) (away (nth i lays []) k)) in *.
  assert (Em : forall j, mixed nb bas (fun k => nth k cm 0) j = (mixed nb bas (fun k => nth k c 0) j + mixed nb bas (fun k => nth k c' 0) j) / 2).
  { intros j. unfold mixed. rewrite <- sumn_plus. unfold Rdiv. rewrite Rmult_comm, <- sumn_scal. apply sumn_ext. intros k Hk.
    rewrite Nm by auto. field. }
  assert (Mm : forall j, (j < length W)%nat -> 0 < mixed nb bas (fun k => nth k cm 0) j).
  { intros j Hj. rewrite Em. specialize (M j Hj). specialize (M' j Hj). lra. }
  assert (Rm : rival norm lays N e cm).
  { split; [exact Lm|]. split; [|split].
    - apply Forall_forall. intros x Hx. unfold cm in Hx. apply in_map_iff in Hx. destruct Hx as (k & <- & Hk). apply in_seq in Hk.
      assert (0 <= nth k c 0) by (apply nonneg_nth; auto). assert (0 <= nth k c' 0) by (apply nonneg_nth; auto). lra.
    - rewrite rsum_sumn, Lm. rewrite rsum_sumn in R3, R3'. rewrite R1 in R3. rewrite R1' in R3'. fold nb in R3, R3'.
      assert (E : sumn nb (fun k => nth k cm 0) = (sumn nb (fun k => nth k c 0) + sumn nb (fun k => nth k c' 0)) / 2).
      { rewrite <- sumn_plus. unfold Rdiv. rewrite Rmult_comm, <- sumn_scal. apply sumn_ext. intros k Hk. rewrite Nm by auto. field. }
      rewrite E. lra.
    - apply Forall_forall. intros x Hx. apply (In_nth _ _ 0) in Hx. destruct Hx as (j & Hj & <-).
      unfold values in Hj. rewrite map_length in Hj.
      rewrite (mixed_value fp W f norm lays mask N e Hs HN0 HW Hpf He cm j ltac:(lia) Lm). apply Mm. lia. }
  assert (G1 := B cm Rm). assert (G2 := B' cm Rm).
  assert (K1 := kl_diff fp W f norm lays mask N e Hs HN0 HW Hpf He c cm R1 Lm M Mm).
  assert (K2 := kl_diff fp W f norm lays mask N e Hs HN0 HW Hpf He c' cm R1' Lm M' Mm).
  fold nb in K1, K2. fold bas in K1, K2.
  set (g := fun j => mixed nb bas (fun k => nth k c 0) j) in *. set (g' := fun j => mixed nb bas (fun k => nth k c' 0) j) in *.
  assert (T : forall j, (j < length W)%nat -> 0 <= nth j W 0 * (nth j f 0 * (2 * ln ((g j + g' j) / 2) - ln (g j) - ln (g' j)))).
  { intros j Hj. apply Rmult_le_pos; [now apply nonneg_nth|]. apply Rmult_le_pos; [left; apply positive_nth; auto; lia|].
    assert (P := M j Hj). assert (P' := M' j Hj). fold (g j) in P. fold (g' j) in P'.
    replace (2 * ln ((g j + g' j) / 2)) with (ln ((g j + g' j) / 2 * ((g j + g' j) / 2))) by (rewrite ln_mult by lra; ring).
    assert (ln (g j * g' j) <= ln ((g j + g' j) / 2 * ((g j + g' j) / 2))); [|rewrite ln_mult in H by auto; lra].
    destruct (Req_dec (g j) (g' j)) as [E|E]; [right; f_equal; rewrite E; field|]. left. apply ln_increasing; [now apply Rmult_lt_0_compat|].
    assert (0 < (g j - g' j) ^ 2) by (apply pow2_gt_0; lra). nra. }
  assert (Z : sumn (length W) (fun j => nth j W 0 * (nth j f 0 * (2 * ln ((g j + g' j) / 2) - ln (g j) - ln (g' j)))) <= 0).
  { apply Rle_trans with ((kl_sum W f (values norm lays c e) - kl_sum W f (values norm lays cm e)) +
      (kl_sum W f (values norm lays c' e) - kl_sum W f (values norm lays cm e))); [|lra].
    rewrite K1, K2, <- sumn_plus. right. apply sumn_ext. intros j Hj. rewrite Em.
    assert (P := M j Hj). assert (P' := M' j Hj). fold (g j) in P. fold (g' j) in P'. fold (g j) (g' j).
    rewrite !ln_div by lra. ring. }
  rewrite !(mixed_value fp W f norm lays mask N e Hs HN0 HW Hpf He) by auto. fold nb. fold bas. fold (g i) (g' i).
  assert (P := M i Hi). assert (P' := M' i Hi). fold (g i) in P. fold (g' i) in P'.
  destruct (Req_dec (g i) (g' i)) as [E|E]; [exact E|exfalso].
  assert (S := sumn_member _ _ i T Hi). cbv beta in S.
  assert (F : 0 < nth i f 0) by (apply positive_nth; auto; lia).
  assert (0 < 2 * ln ((g i + g' i) / 2) - ln (g i) - ln (g' i)).
  { replace (2 * ln ((g i + g' i) / 2)) with (ln ((g i + g' i) / 2 * ((g i + g' i) / 2))) by (rewrite ln_mult by lra; ring).
    assert (ln (g i * g' i) < ln ((g i + g' i) / 2 * ((g i + g' i) / 2))); [|rewrite ln_mult in H by auto; lra].
    apply ln_increasing; [now apply Rmult_lt_0_compat|]. assert (0 < (g i - g' i) ^ 2) by (apply pow2_gt_0; lra). nra. }
  assert (0 < nth i W 0 * (nth i f 0 * (2 * ln ((g i + g' i) / 2) - ln (g i) - ln (g' i)))) by (apply Rmult_lt_0_compat; auto; now apply Rmult_lt_0_compat).
  lra.
Qed.

(** The fitted densities of two starts approach each other. *)
Lemma same_density fp W f norm lays mask N c c' e :
  fpi_setting fp W f norm lays mask N -> 0 < N -> nonneg W -> positive f ->
  supported W f lays (nfun lays) -> sized lays c e -> positive c -> sized lays c' e -> positive c' -> positive e ->
  (forall j cj, iterate fp true false j (map Fin c) (map Fin e) = Ok (map Fin cj, map Fin e) ->
     all_above mask f (values norm lays cj e)) ->
  (forall j cj, iterate fp true false j (map Fin c') (map Fin e) = Ok (map Fin cj, map Fin e) ->
     all_above mask f (values norm lays cj e)) ->
  exists g, length g = length W /\ forall b eps, 0 < eps -> exists n0, forall n, (n0 <= n)%nat ->
    exists cn, iterate fp true false n (map Fin (if b : bool then c else c')) (map Fin e) = Ok (map Fin cn, map Fin e) /\
      forall i, (i < length W)%nat -> 0 < nth i W 0 -> Rabs (nth i (values norm lays cn e) 0 - nth i g 0) < eps.
Proof.
  intros Hs HN0 HW Hpf Hsup Hsz Hpc Hsz' Hpc' Hpe Hk Hk'.
  destruct (coeffs_converge fp W f norm lays mask N c e) as (cl & L1 & L2 & L3 & L4 & L5 & L6); auto.
  destruct (coeffs_converge fp W f norm lays mask N c' e) as (cl' & L1' & L2' & L3' & L4' & L5' & L6'); auto.
  assert (He : length e = nfun lays) by apply Hsz.
  destruct (facts fp W f norm lays mask N e Hs HN0 HW Hpf He) as (_ & _ & Hf & Hl & Hm & _).
  assert (U := best_density fp W f norm lays mask N cl cl' e Hs HN0 HW Hpf He).
  assert (U1 : forall i, (i < length W)%nat -> 0 < nth i W 0 -> nth i (values norm lays cl e) 0 = nth i (values norm lays cl' e) 0).
  { apply U; [repeat split; auto; lra|repeat split; auto; lra| |]; intros c2 (R1 & R2 & R3 & R4); auto. }
  exists (values norm lays cl e). split; [unfold values; now rewrite map_length|]. intros b eps Heps.
  set (nb := nfun lays) in *.
  set (bas := fun i k => basis_fn norm (kind (nth i lays []) k) (nth k e 0) (away (nth i lays []) k)).
  set (C := sumn (length W) (fun i => sumn nb (bas i))).
  assert (Pb : forall i k, 0 <= bas i k) by (intros; apply basis_fn_nonneg).
  assert (Pi : forall i, 0 <= sumn nb (bas i)) by (intros; apply sumn_nonneg; auto).
  assert (PC : 0 <= C) by (apply sumn_nonneg; auto).
  assert (Q : 0 < eps / (C + 1)) by (apply Rdiv_lt_0_compat; lra).
  assert (X : exists x, (x = cl \/ x = cl') /\ length x = nb /\ exists n0, forall n, (n0 <= n)%nat ->
     exists cn, iterate fp true false n (map Fin (if b then c else c')) (map Fin e) = Ok (map Fin cn, map Fin e) /\
       forall k, (k < nb)%nat -> Rabs (nth k cn 0 - nth k x 0) < eps / (C + 1)).
  { destruct b; [exists cl|exists cl']; auto. }
  destruct X as (x & Ex & Lx & n0 & H0). exists n0. intros n Hn. destruct (H0 n Hn) as (cn & I & K). exists cn. split; [exact I|].
  intros i Hi Pw.
  assert (V : nth i (values norm lays cl e) 0 = nth i (values norm lays x e) 0) by (destruct Ex as [-> | ->]; auto).
  assert (Lcn : length cn = nb).
  { assert (Hb : sized lays (if b then c else c') e /\ positive (if b then c else c')) by (destruct b; auto). destruct Hb as ((Hb1 & _) & Hb2).
    destruct (upds_iterate fp W f norm lays mask N e Hs HN0 HW Hsup He Hpe n _ Hb1 Hb2) as (I' & A & _).
    rewrite I' in I. injection I as I. apply map_Fin_inj in I. now rewrite <- I. }
  rewrite V. rewrite !(mixed_value fp W f norm lays mask N e Hs HN0 HW Hpf He) by auto. fold nb. fold bas. unfold mixed. rewrite <- sumn_minus.
  assert (E : Rabs (sumn nb (fun k => nth k cn 0 * bas i k - nth k x 0 * bas i k)) <= eps / (C + 1) * sumn nb (bas i)).
  { apply Rabs_le. split.
    - rewrite <- Ropp_mult_distr_l_reverse, <- sumn_scal. apply sumn_le. intros k Hk2. specialize (K k Hk2). apply Rabs_def2 in K. specialize (Pb i k). nra.
    - rewrite <- sumn_scal. apply sumn_le. intros k Hk2. specialize (K k Hk2). apply Rabs_def2 in K. specialize (Pb i k). nra. }
  eapply Rle_lt_trans; [exact E|].
  assert (sumn nb (bas i) <= C) by (apply (sumn_member (length W) (fun i => sumn nb (bas i))); auto).
  apply Rle_lt_trans with (eps / (C + 1) * C); [apply Rmult_le_compat_l; lra|].
  replace (eps / (C + 1) * C) with (eps - eps / (C + 1)) by (field; lra). lra.
Qed.
