(** Properties C88, C89, C94: convergence of the fixed point iteration. *)
From Coq Require Import Reals List ZArith Lia Lra Bool.
From Verif Require Import XR SpecDens SpecMeas SpecFit SpecStop SpecConv ModelDens ModelMeas ModelFit
  ProofFit ProofEM ProofFPI2 ProofFPI3 ProofFPI4 ProofFitEx ProofConv2 ProofConv3 ProofConv4 ProofConv6.
Import ListNotations.
Local Open Scope R_scope.

(** ** C88 *)
(** After n coefficient updates the divergence exceeds that of any other coefficients by at most
    (integral of the density) * ln (N / least starting coefficient) / (n + 1). *)
Theorem C88_rate : forall fp W f norm lays mask N c e n a,
  fpi_setting fp W f norm lays mask N -> 0 < N -> nonneg W -> positive f ->
  supported W f lays (nfun lays) -> sized lays c e -> positive c -> positive e -> rsum c <= N ->
  0 < a -> Forall (Rle a) c ->
  (forall j cj, (j <= n)%nat -> iterate fp true false j (map Fin c) (map Fin e) = Ok (map Fin cj, map Fin e) ->
     all_above mask f (values norm lays cj e)) ->
  exists cn, iterate fp true false n (map Fin c) (map Fin e) = Ok (map Fin cn, map Fin e) /\
    forall c2, length c2 = nfun lays -> nonneg c2 -> rsum c2 <= N -> positive (values norm lays c2 e) ->
      kl_sum W f (values norm lays cn e) - kl_sum W f (values norm lays c2 e) <= quad W f * ln (N / a) / INR (S n).
Proof. exact coeffs_rate. Qed.
Print Assumptions C88_rate.

(** So the divergence tends to the least possible one. *)
Theorem C88_limit : forall fp W f norm lays mask N c e,
  fpi_setting fp W f norm lays mask N -> 0 < N -> nonneg W -> positive f ->
  supported W f lays (nfun lays) -> sized lays c e -> positive c -> positive e -> rsum c <= N ->
  (forall j cj, iterate fp true false j (map Fin c) (map Fin e) = Ok (map Fin cj, map Fin e) ->
     all_above mask f (values norm lays cj e)) ->
  forall eps, 0 < eps -> exists n0, forall n, (n0 <= n)%nat ->
  exists cn, iterate fp true false n (map Fin c) (map Fin e) = Ok (map Fin cn, map Fin e) /\
    forall c2, length c2 = nfun lays -> nonneg c2 -> rsum c2 <= N -> positive (values norm lays c2 e) ->
      kl_sum W f (values norm lays cn e) <= kl_sum W f (values norm lays c2 e) + eps.
Proof. exact coeffs_limit. Qed.
Print Assumptions C88_limit.

(** How many iterations a run can take, and success when the limit allows more. *)
Theorem C88_stops : forall fp W f norm lays mask N c e maxiter th r a eps,
  fpi_setting fp W f norm lays mask N -> 0 < N -> nonneg W -> positive f ->
  supported W f lays (nfun lays) -> sized lays c e -> positive c -> positive e -> rsum c <= N ->
  0 < a -> Forall (Rle a) c ->
  fpi_run fp (VArr (A1 (map Fin c))) (VArr (A1 (map Fin e))) true false maxiter th = Ok r ->
  th_d th = Fin eps -> 0 < eps ->
  (forall j cj, (j <= length (r_fun r))%nat -> iterate fp true false j (map Fin c) (map Fin e) = Ok (map Fin cj, map Fin e) ->
     all_above mask f (values norm lays cj e)) ->
  let n := INR (length (r_fun r)) in
  (n - 2) * (n + 1) * eps <= 2 * quad W f * ln (N / a) /\
  ((Z.of_nat (length (r_fun r)) < maxiter)%Z -> r_success r = true).
Proof. exact coeffs_stop. Qed.
Print Assumptions C88_stops.

(** Two functions with exponents pi and 12/5: whatever the coefficients, the model values stay above the mask. *)
Lemma mix_above c : length c = 2%nat -> nonneg c -> rsum c = 1 -> all_above nan_mask [1; 1] (values true two_lays c [PI; 12/5]).
Proof.
  destruct c as [|x [|y [|? ?]]]; try discriminate. intros _ Hn Hs i Hi. cbn [length] in Hi.
  unfold rsum in Hs. cbn [fold_right] in Hs.
  assert (Hx : 0 <= x) by (inversion Hn; auto). assert (Hy : 0 <= y) by (inversion Hn as [|? ? _ Hn2]; inversion Hn2; auto).
  rewrite nth_values by (cbn; lia). rewrite two_lay by auto.
  replace (nth i [1; 1] 0) with 1 by (destruct i as [|[|i]]; auto; lia).
  change (gsum true (lay_atom 2 0 (two_r i)) [x; y] [PI; 12/5]) with
    (x * basis_fn true false PI (two_r i) + (y * basis_fn true false (12/5) (two_r i) + 0)).
  apply (kept_more 1 (exp (- (4)))); [left; apply exp_pos| |apply kept_exp; lra].
  pose proof (two_large PI i (or_introl eq_refl) Hi). pose proof (two_large (12/5) i (or_intror eq_refl) Hi). nra.
Qed.

Lemma mix_any c0 j cj : length c0 = 2%nat -> nonneg c0 -> rsum c0 = 1 -> iterate two_fpi true false j (map Fin c0) (map Fin [PI; 12/5]) = Ok (map Fin cj, map Fin [PI; 12/5]) ->
  all_above nan_mask [1; 1] (values true two_lays cj [PI; 12/5]).
Proof.
  intros L0 N0 S0. assert (Pe : positive [PI; 12/5]) by (constructor; [apply PI_RGT_0|constructor; [lra|constructor]]).
  assert (K : exists c, iterate two_fpi true false j (map Fin c0) (map Fin [PI; 12/5]) = Ok (map Fin c, map Fin [PI; 12/5]) /\
    length c = 2%nat /\ nonneg c /\ rsum c = 1).
  { induction j as [|j (c & I & L & Hn & Hs)].
    - exists c0. auto.
    - cbn [iterate]. rewrite I. cbn [bind fst snd].
      destruct (update_formula two_fpi _ _ _ _ _ _ c [PI; 12/5] true false two_setting) as (c' & e' & E & [L1 L2] & Hc & He);
        [split; auto|auto|auto|reflexivity|discriminate|].
      destruct (coeffs_sum two_fpi _ _ _ _ _ _ c [PI; 12/5] false _ _ two_setting (conj L eq_refl) Hn (fun _ => Pe) (mix_above c L Hn Hs) E)
        as (c2 & Ec & _ & Hs2). apply map_Fin_inj in Ec. subst c2.
      assert (Ee : e' = [PI; 12/5]).
      { destruct e' as [|u [|v [|? ?]]]; try discriminate. pose proof (He 0%nat ltac:(cbn; lia)). pose proof (He 1%nat ltac:(cbn; lia)).
        cbn [nth] in *. congruence. }
      subst e'. exists c'. split; auto. split; auto. split; auto.
      apply all_nth_Forall. intros k Hk. rewrite L1 in Hk. rewrite Hc by auto.
      assert (Hk2 : (k < 2)%nat) by exact Hk.
      destruct (ProofFPI2.setting_facts _ _ _ _ _ _ _ two_setting) as [m [Hft Hme Hlm Hnz Hne Hv]].
      apply Rmult_le_pos; [apply Rmult_le_pos; [now apply nonneg_nth|]|].
      + left. eapply avg1_pos; eauto; [apply mask_nonneg|apply two_nonneg|apply positive_nonneg, two_positive|apply two_supported].
      + left. apply Rinv_0_lt_compat. unfold quad, rdot, rsum. cbn. lra. }
  destruct K as (c & I & L & Hn & Hs). intros I2. rewrite I in I2. injection I2 as I2. apply map_Fin_inj in I2. subst cj. now apply mix_above.
Qed.

Lemma mix_iterates j cj : iterate two_fpi true false j (map Fin [1/3; 2/3]) (map Fin [PI; 12/5]) = Ok (map Fin cj, map Fin [PI; 12/5]) ->
  all_above nan_mask [1; 1] (values true two_lays cj [PI; 12/5]).
Proof. apply mix_any; [reflexivity|apply positive_nonneg, two_positive|unfold rsum; cbn; lra]. Qed.

Lemma mix_facts : positive [PI; 12/5] /\ rsum [1/3; 2/3] <= 1 /\ Forall (Rle (1/3)) [1/3; 2/3] /\ quad two_W [1; 1] = 1/2.
Proof.
  split; [constructor; [apply PI_RGT_0|constructor; [lra|constructor]]|]. split; [unfold rsum; cbn; lra|].
  split; [repeat constructor; lra|]. unfold quad, rdot, rsum. cbn. lra.
Qed.

(** After 99 updates the divergence is within ln 3 / 200 of the best. *)
Example C88_example : exists cn,
  iterate two_fpi true false 99 (map Fin [1/3; 2/3]) (map Fin [PI; 12/5]) = Ok (map Fin cn, map Fin [PI; 12/5]) /\
  forall c2, length c2 = 2%nat -> nonneg c2 -> rsum c2 <= 1 -> positive (values true two_lays c2 [PI; 12/5]) ->
    kl_sum two_W [1; 1] (values true two_lays cn [PI; 12/5]) <= kl_sum two_W [1; 1] (values true two_lays c2 [PI; 12/5]) + ln 3 / 200.
Proof.
  destruct mix_facts as (F1 & F2 & F3 & F4).
  destruct (C88_rate two_fpi two_W [1; 1] true two_lays nan_mask 1 [1/3; 2/3] [PI; 12/5] 99 (1/3)) as (cn & I & H); auto;
    [apply two_setting|lra|apply two_nonneg|apply two_positive|apply two_supported|apply two_sized|apply two_positive|lra
    |intros j cj _ Hj; exact (mix_iterates j cj Hj)|].
  exists cn. split; auto. intros c2 A1 A2 A3 A4. specialize (H c2 A1 A2 A3 A4). rewrite F4 in H.
  replace (1 / (1/3)) with 3 in H by field. replace (INR 100) with 100 in H by (rewrite INR_IZR_INZ; reflexivity). lra.
Qed.

(** With the default thresholds the run takes fewer than 1500 iterations, so a limit of 1500 means success. *)
Example C88_stops_example : forall maxiter r,
  fpi_run two_fpi (VArr (A1 (map Fin [1/3; 2/3]))) (VArr (A1 (map Fin [PI; 12/5]))) true false maxiter default_thr = Ok r ->
  (length (r_fun r) < 1500)%nat /\ ((1500 <= maxiter)%Z -> r_success r = true).
Proof.
  intros maxiter r Hr. destruct mix_facts as (F1 & F2 & F3 & F4).
  destruct (C88_stops two_fpi two_W [1; 1] true two_lays nan_mask 1 [1/3; 2/3] [PI; 12/5] maxiter default_thr r (1/3) (1 / 10 ^ 6)) as [B S]; auto;
    [apply two_setting|lra|apply two_nonneg|apply two_positive|apply two_supported|apply two_sized|apply two_positive|lra|lra
    |intros j cj _ Hj; exact (mix_iterates j cj Hj)|].
  rewrite F4 in B. replace (1 / (1/3)) with 3 in B by field.
  assert (L3 : ln 3 <= 2) by (pose proof (ProofMeas.ln_le_sub 3 ltac:(lra)); lra).
  assert (N : (length (r_fun r) < 1500)%nat); [|split; auto; intros; apply S; lia].
  apply INR_lt. replace (INR 1500) with 1500 by (rewrite INR_IZR_INZ; reflexivity).
  set (n := INR (length (r_fun r))) in *. destruct (Rlt_le_dec n 1500) as [|G]; auto. exfalso.
  assert ((n - 2) * (n + 1) <= 2 * 10 ^ 6); [|nra].
  apply Rmult_le_reg_r with (1 / 10 ^ 6); [apply Rdiv_lt_0_compat; lra|].
  replace (2 * 10 ^ 6 * (1 / 10 ^ 6)) with 2 by (field; lra). lra.
Qed.

(** ** C89 *)
(** Normalized functions, a positive threshold for the divergence, no counting point on a nucleus when
    exponents are optimized: the number of iterations is bounded independently of the limit. *)
Theorem C89_stops_partial : forall fp W f lays mask N c e oc oe eps,
  fpi_setting fp W f true lays mask N -> 0 < N -> nonneg W -> positive f ->
  supported W f lays (nfun lays) -> sized lays c e -> positive c -> positive e -> oc || oe = true ->
  (oe = true -> off_center W lays) -> 0 < eps ->
  (forall j cj ej, iterate fp oc oe j (map Fin c) (map Fin e) = Ok (map Fin cj, map Fin ej) ->
     all_above mask f (values true lays cj ej)) ->
  exists n0, forall maxiter th r, th_d th = Fin eps ->
    fpi_run fp (VArr (A1 (map Fin c))) (VArr (A1 (map Fin e))) oc oe maxiter th = Ok r ->
    (length (r_fun r) <= n0)%nat /\ ((Z.of_nat n0 < maxiter)%Z -> r_success r = true).
Proof. exact run_bounded. Qed.
Print Assumptions C89_stops_partial.

Example C89_example : exists n0, forall maxiter r,
  fpi_run two_fpi (VArr (A1 (map Fin [1/3; 2/3]))) (VArr (A1 (map Fin [PI; PI]))) true true maxiter default_thr = Ok r ->
  (length (r_fun r) <= n0)%nat /\ ((Z.of_nat n0 < maxiter)%Z -> r_success r = true).
Proof.
  destruct (C89_stops_partial two_fpi two_W [1; 1] two_lays nan_mask 1 [1/3; 2/3] [PI; PI] true true (1 / 10 ^ 6)) as (n0 & H); auto;
    [apply two_setting|lra|apply two_nonneg|apply two_positive|apply two_supported|apply two_sized|apply two_positive
    |apply two_pos_e, PI_RGT_0| |apply Rdiv_lt_0_compat; lra|intros j cj ej Hj; exact (two_iterate_above j cj ej true Hj)|].
  - intros _ i k Hi Hk. right. right. cbn in Hi, Hk. rewrite two_lay by auto. destruct i as [|[|i]]; [| |lia];
      (destruct k as [|[|k]]; [| |lia]); cbn; lra.
  - exists n0. intros maxiter r. now apply H.
Qed.

(** With a point on the nucleus it is not: here the larger exponent grows more than a thousandfold in every
    update and each limit is used up without success. *)
Theorem C89_on_center_refuted : exists fp W f lays mask N c e,
  fpi_setting fp W f true lays mask N /\ 0 < N /\ nonneg W /\ positive f /\
  supported W f lays (nfun lays) /\ sized lays c e /\ positive c /\ positive e /\
  (forall j cj ej, iterate fp false true j (map Fin c) (map Fin e) = Ok (map Fin cj, map Fin ej) ->
     all_above mask f (values true lays cj ej)) /\
  forall maxiter, (0 < maxiter)%Z -> exists r a b,
    fpi_run fp (VArr (A1 (map Fin c))) (VArr (A1 (map Fin e))) false true maxiter default_thr = Ok r /\
    Z.of_nat (length (r_fun r)) = maxiter /\ r_success r = false /\ r_exps r = map Fin [a; b] /\ 3000 * 1000 ^ Z.to_nat maxiter <= a.
Proof.
  assert (P : forall x y : R, 0 < x -> 0 < y -> positive [x; y]) by (intros; constructor; [auto|constructor; [auto|constructor]]).
  exists core_fpi, core_W, [1; 1], core_lays, nan_mask, 2, [1; 1], [3000; 2].
  split; [exact core_setting|]. split; [lra|]. split; [apply positive_nonneg, P; lra|]. split; [apply P; lra|].
  split; [exact core_supported|]. split; [split; reflexivity|]. split; [apply P; lra|]. split; [apply P; lra|].
  split; [|exact core_endless].
  intros j cj ej H. destruct (core_iterates j) as (a & b & I & _ & Hb). assert (X := eq_trans (eq_sym H) I). injection X as X Y.
  apply (map_Fin_inj cj [1; 1]) in X. apply (map_Fin_inj ej [a; b]) in Y. subst. now apply core_above.
Qed.
Print Assumptions C89_on_center_refuted.

(** ** C94 *)
(** The coefficients themselves converge, and their limit is best. *)
Theorem C94_converges : forall fp W f norm lays mask N c e,
  fpi_setting fp W f norm lays mask N -> 0 < N -> nonneg W -> positive f ->
  supported W f lays (nfun lays) -> sized lays c e -> positive c -> positive e ->
  (forall j cj, iterate fp true false j (map Fin c) (map Fin e) = Ok (map Fin cj, map Fin e) ->
     all_above mask f (values norm lays cj e)) ->
  exists cl, length cl = nfun lays /\ nonneg cl /\ rsum cl = N /\ positive (values norm lays cl e) /\
    (forall c2, length c2 = nfun lays -> nonneg c2 -> rsum c2 <= N -> positive (values norm lays c2 e) ->
       kl_sum W f (values norm lays cl e) <= kl_sum W f (values norm lays c2 e)) /\
    (forall eps, 0 < eps -> exists n0, forall n, (n0 <= n)%nat ->
       exists cn, iterate fp true false n (map Fin c) (map Fin e) = Ok (map Fin cn, map Fin e) /\
         forall k, (k < nfun lays)%nat -> Rabs (nth k cn 0 - nth k cl 0) < eps).
Proof. exact coeffs_converge. Qed.
Print Assumptions C94_converges.

(** Whatever the two starts, the fitted densities tend to one density wherever the weight is positive. *)
Theorem C94_one_density : forall fp W f norm lays mask N c c' e,
  fpi_setting fp W f norm lays mask N -> 0 < N -> nonneg W -> positive f ->
  supported W f lays (nfun lays) -> sized lays c e -> positive c -> sized lays c' e -> positive c' -> positive e ->
  (forall j cj, iterate fp true false j (map Fin c) (map Fin e) = Ok (map Fin cj, map Fin e) ->
     all_above mask f (values norm lays cj e)) ->
  (forall j cj, iterate fp true false j (map Fin c') (map Fin e) = Ok (map Fin cj, map Fin e) ->
     all_above mask f (values norm lays cj e)) ->
  exists g, length g = length W /\ forall b eps, 0 < eps -> exists n0, forall n, (n0 <= n)%nat ->
    exists cn, iterate fp true false n (map Fin (if b : bool then c else c')) (map Fin e) = Ok (map Fin cn, map Fin e) /\
      forall i, (i < length W)%nat -> 0 < nth i W 0 -> Rabs (nth i (values norm lays cn e) 0 - nth i g 0) < eps.
Proof. exact same_density. Qed.
Print Assumptions C94_one_density.

(** The starts (1/3, 2/3) and (9/10, 1/10) end in the same density, to any accuracy, and the first in best coefficients. *)
Example C94_example :
  (exists cl, length cl = 2%nat /\ nonneg cl /\ rsum cl = 1 /\ forall eps, 0 < eps -> exists n cn,
     iterate two_fpi true false n (map Fin [1/3; 2/3]) (map Fin [PI; 12/5]) = Ok (map Fin cn, map Fin [PI; 12/5]) /\
     Rabs (nth 0 cn 0 - nth 0 cl 0) < eps /\ Rabs (nth 1 cn 0 - nth 1 cl 0) < eps) /\
  (exists g, forall eps, 0 < eps -> exists n cn cn',
     iterate two_fpi true false n (map Fin [1/3; 2/3]) (map Fin [PI; 12/5]) = Ok (map Fin cn, map Fin [PI; 12/5]) /\
     iterate two_fpi true false n (map Fin [9/10; 1/10]) (map Fin [PI; 12/5]) = Ok (map Fin cn', map Fin [PI; 12/5]) /\
     Rabs (nth 0 (values true two_lays cn [PI; 12/5]) 0 - nth 0 g 0) < eps /\
     Rabs (nth 0 (values true two_lays cn' [PI; 12/5]) 0 - nth 0 g 0) < eps).
Proof.
  destruct mix_facts as (F1 & F2 & F3 & F4).
  assert (P1 : positive [9/10; 1/10]) by (repeat constructor; lra).
  assert (I1 : forall j cj, iterate two_fpi true false j (map Fin [9/10; 1/10]) (map Fin [PI; 12/5]) = Ok (map Fin cj, map Fin [PI; 12/5]) ->
     all_above nan_mask [1; 1] (values true two_lays cj [PI; 12/5])).
  { intros j cj. apply mix_any; [reflexivity|now apply positive_nonneg|unfold rsum; cbn; lra]. }
  split.
  - destruct (C94_converges two_fpi two_W [1; 1] true two_lays nan_mask 1 [1/3; 2/3] [PI; 12/5]) as (cl & A1 & A2 & A3 & _ & _ & A4); auto;
      [apply two_setting|lra|apply two_nonneg|apply two_positive|apply two_supported|apply two_sized|apply two_positive|exact mix_iterates|].
    exists cl. repeat split; auto. intros eps He. destruct (A4 eps He) as (n0 & H0). destruct (H0 n0 (le_n _)) as (cn & I & K).
    exists n0, cn. repeat split; auto; apply K; cbn; lia.
  - destruct (C94_one_density two_fpi two_W [1; 1] true two_lays nan_mask 1 [1/3; 2/3] [9/10; 1/10] [PI; 12/5]) as (g & _ & A); auto;
      [apply two_setting|lra|apply two_nonneg|apply two_positive|apply two_supported|apply two_sized|apply two_positive|split; reflexivity|exact mix_iterates|].
    exists g. intros eps He. destruct (A true eps He) as (n0 & H0). destruct (A false eps He) as (n1 & H1).
    destruct (H0 (max n0 n1) ltac:(lia)) as (cn & I & K). destruct (H1 (max n0 n1) ltac:(lia)) as (cn' & I' & K').
    exists (max n0 n1), cn, cn'. repeat split; auto; [apply K|apply K']; cbn; try lia; lra.
Qed.
