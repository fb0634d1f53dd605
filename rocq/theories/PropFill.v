(** Property C104: updates of the fixed point iteration with masked points. *)
From Coquelicot Require Import Coquelicot.
From Coq Require Import Reals List ZArith Lia Lra Bool.
From Verif Require Import XR SpecDens SpecMeas SpecGrid ModelDens ModelMeas ModelGrid ModelFit SpecFit Lists ProofFitView ProofFPI2 ProofFPI3 ProofFPI4 ProofFitEx
  PropMask SpecFill ProofFill.
Import ListNotations.
Local Open Scope R_scope.

(** At a masked point the density is replaced by the model: the new coefficients sum to [N] plus a share of the
    difference between model and density there.  Nothing is assumed about which points are masked. *)
Theorem C104_sum : forall fp W f norm lays mask N c e ue c1 e1,
  fpi_setting fp W f norm lays mask N -> sized lays c e -> nonneg c -> (norm = true -> positive e) ->
  update_params fp (map Fin c) (map Fin e) true ue = Ok (c1, e1) ->
  let g := values norm lays c e in
  exists c', c1 = map Fin c' /\ length c' = nfun lays /\
    rsum c' = N + N / quad W f * (masked_part mask W f g g - masked_part mask W f g f).
Proof. exact fill_sum. Qed.
Print Assumptions C104_sum.

(** So the sum is too small by at most the density lost, and too large by at most what the mask can hide. *)
Theorem C104_excess : forall fp W f norm lays mask N c e ue c1 e1,
  fpi_setting fp W f norm lays mask N -> 0 < N -> nonneg W -> nonneg f -> sized lays c e -> nonneg c ->
  (norm = true -> positive e) ->
  update_params fp (map Fin c) (map Fin e) true ue = Ok (c1, e1) ->
  let g := values norm lays c e in
  exists c', c1 = map Fin c' /\
    N - N / quad W f * masked_part mask W f g f <= rsum c' <= N + N / quad W f * masked_part mask W f g (mask_cap mask f).
Proof. exact fill_excess. Qed.
Print Assumptions C104_excess.

(** Every update lowers the divergence over the used points, plus the multiplier times the sum of the coefficients,
    less the integral of the model over the masked points; it stays the same only for unchanged parameters. *)
Theorem C104_step : forall fp W f lays mask N c e uc ue,
  fpi_setting fp W f true lays mask N -> 0 < N -> nonneg W -> positive f ->
  supported W f lays (nfun lays) ->
  sized lays c e -> positive c -> positive e -> uc || ue = true ->
  let g := values true lays c e in
  exists c' e', update_params fp (map Fin c) (map Fin e) uc ue = Ok (map Fin c', map Fin e') /\
    energy true mask W f (quad W f / N) lays g c' e' <= energy true mask W f (quad W f / N) lays g c e /\
    (energy true mask W f (quad W f / N) lays g c' e' = energy true mask W f (quad W f / N) lays g c e -> c' = c /\ e' = e).
Proof. exact fill_step. Qed.
Print Assumptions C104_step.

(** Coefficients that an update leaves unchanged are the best ones for these exponents, normalized or not. *)
Theorem C104_fixed : forall fp W f norm lays mask N c e ue e1,
  fpi_setting fp W f norm lays mask N -> 0 < N -> nonneg W -> positive f ->
  sized lays c e -> positive c -> (norm = true -> positive e) ->
  update_params fp (map Fin c) (map Fin e) true ue = Ok (map Fin c, e1) ->
  let g := values norm lays c e in
  forall c2, length c2 = nfun lays -> positive (values norm lays c2 e) ->
    energy norm mask W f (quad W f / N) lays g c e <= energy norm mask W f (quad W f / N) lays g c2 e.
Proof. exact fill_fixed. Qed.
Print Assumptions C104_fixed.

(** The values reported by a run are the divergences over the points each iterate uses. *)
Theorem C104_reported : forall fp W f lays mask N c e oc oe maxiter th r,
  fpi_setting fp W f true lays mask N -> 0 < N -> nonneg W -> positive f ->
  supported W f lays (nfun lays) -> sized lays c e -> positive c -> positive e ->
  fpi_run fp (VArr (A1 (map Fin c))) (VArr (A1 (map Fin e))) oc oe maxiter th = Ok r ->
  exists F, r_fun r = map Fin F /\
    (forall j, (j < length F)%nat -> exists cj ej,
       iterate fp oc oe (S j) (map Fin c) (map Fin e) = Ok (map Fin cj, map Fin ej) /\
       nth j F 0 = kl_open mask W f (values true lays cj ej) (values true lays cj ej)).
Proof. exact fill_reported. Qed.
Print Assumptions C104_reported.

(** While the same points stay masked, they never rise above an earlier one by more than twice what the mask can hide. *)
Theorem C104_run : forall fp W f lays mask N c e oc oe maxiter th r,
  fpi_setting fp W f true lays mask N -> 0 < N -> nonneg W -> positive f ->
  supported W f lays (nfun lays) -> sized lays c e -> positive c -> positive e ->
  fpi_run fp (VArr (A1 (map Fin c))) (VArr (A1 (map Fin e))) oc oe maxiter th = Ok r ->
  let g0 := values true lays c e in
  (forall k ck ek, (k <= length (r_fun r))%nat ->
     iterate fp oc oe k (map Fin c) (map Fin e) = Ok (map Fin ck, map Fin ek) ->
     same_mask mask f (values true lays ck ek) g0) ->
  exists F, r_fun r = map Fin F /\
    forall i j, (i <= j < length F)%nat ->
      nth j F 0 <= nth i F 0 + 2 * masked_part mask W f g0 (mask_cap mask f).
Proof. exact fill_run. Qed.
Print Assumptions C104_run.

(** Two normalized functions with exponents 16 pi on the points 1/2 (used) and 1 (masked); coefficients [a], [b]. *)
Lemma tight_value a b i : (i < 2)%nat ->
  nth i (values true two_lays [a; b] [16 * PI; 16 * PI]) 0 = (a + b) * basis_fn true false (16 * PI) (two_r i).
Proof.
  intros Hi. unfold values. rewrite (nth_indep _ 0 (gsum true [] [a; b] [16 * PI; 16 * PI])) by exact Hi.
  rewrite (map_nth (fun lay => gsum true lay [a; b] [16 * PI; 16 * PI])), two_lay by auto.
  change (a * basis_fn true false (16 * PI) (two_r i) + (b * basis_fn true false (16 * PI) (two_r i) + 0) =
          (a + b) * basis_fn true false (16 * PI) (two_r i)). ring.
Qed.
Lemma tight_visible a b : 1/2 <= a + b <= 1 ->
  visible nan_mask 1 (nth 0 (values true two_lays [a; b] [16 * PI; 16 * PI]) 0) = true /\
  visible nan_mask 1 (nth 1 (values true two_lays [a; b] [16 * PI; 16 * PI]) 0) = false.
Proof.
  intros H. destruct tight_values as (A & B & C). rewrite !tight_value by lia.
  assert (A1 : / (2 * 10 ^ 6) < (a + b) * basis_fn true false (16 * PI) (two_r 0)).
  { apply Rlt_le_trans with (1/2 * basis_fn true false (16 * PI) (two_r 0)); [lra|]. apply Rmult_le_compat_r; lra. }
  assert (C1 : (a + b) * basis_fn true false (16 * PI) (two_r 1) < nan_mask).
  { apply Rle_lt_trans with (1 * basis_fn true false (16 * PI) (two_r 1)); [|lra]. apply Rmult_le_compat_r; lra. }
  split.
  - apply visible_kept. split; [unfold nan_mask; lra|]. rewrite Rabs_R1, Rmult_1_l, Rabs_right by lra.
    apply Rlt_trans with (/ (2 * 10 ^ 6)); [|exact A1]. apply Rinv_lt_contravar.
    + apply Rmult_lt_0_compat; [lra|apply pow_lt; lra].
    + apply Rlt_le_trans with (2 ^ 21); [lra|]. apply Rle_pow; [lra|]. apply Nat.leb_le. vm_compute. reflexivity.
  - unfold visible. destruct (Rlt_dec _ _); [lra|reflexivity].
Qed.
Lemma tight_masked a b v w : 1/2 <= a + b <= 1 ->
  masked_part nan_mask two_W [1; 1] (values true two_lays [a; b] [16 * PI; 16 * PI]) [v; w] = 1/4 * w.
Proof.
  intros H. destruct (tight_visible a b H) as [V1 V2]. unfold masked_part, sumn, rsum. cbn [length two_W seq map fold_right].
  change (nth 0 [1; 1] 0) with 1. change (nth 1 [1; 1] 0) with 1. rewrite V1, V2. cbn. ring.
Qed.

(** One update of the coefficients: they are to sum to one, and sum to about 1/2. *)
Lemma tight_step a b : 0 < a -> 0 < b -> 1/2 <= a + b <= 1 -> exists a' b',
  update_params two_fpi (map Fin [a; b]) (map Fin [16 * PI; 16 * PI]) true false = Ok (map Fin [a'; b'], map Fin [16 * PI; 16 * PI]) /\
  0 < a' /\ 0 < b' /\ 1/2 <= a' + b' <= 1/2 + nan_mask.
Proof.
  intros Ha Hb Hab. pose proof PI_RGT_0. destruct tight_values as (_ & B & C).
  assert (Pe : positive [16 * PI; 16 * PI]) by (apply two_pos_e; lra).
  assert (Pc : positive [a; b]) by (constructor; [auto|constructor; [auto|constructor]]).
  destruct (step_positive _ _ _ _ _ _ _ [a; b] [16 * PI; 16 * PI] true false two_setting ltac:(lra) two_nonneg two_supported
    (two_sized _ _ _ _) Pc Pe eq_refl) as (c' & e' & E & [L1 L2] & P1 & P2 & _ & Ee). cbv iota in Ee. subst e'.
  destruct (C104_sum _ _ _ _ _ _ _ [a; b] _ _ _ _ two_setting (two_sized _ _ _ _) ltac:(apply ProofFit.positive_nonneg, Pc) (fun _ => Pe) E) as (c2 & E2 & _ & S).
  apply ProofFPI3.map_Fin_inj in E2. subst c2.
  destruct c' as [|a' [|b' [|]]]; try discriminate L1. exists a', b'.
  inversion P1 as [|x l Pa' P3]; subst. inversion P3 as [|y l' Pb' _]; subst.
  split; auto. split; auto. split; auto.
  rewrite (tight_masked a b 1 1 Hab) in S.
  assert (EV : values true two_lays [a; b] [16 * PI; 16 * PI] =
     [nth 0 (values true two_lays [a; b] [16 * PI; 16 * PI]) 0; nth 1 (values true two_lays [a; b] [16 * PI; 16 * PI]) 0]) by reflexivity.
  rewrite EV in S at 2. rewrite (tight_masked a b _ _ Hab), tight_value in S by lia.
  unfold quad, rdot, two_W, rsum in S. cbn [map2 fold_right] in S.
  assert (Q : 0 <= (a + b) * basis_fn true false (16 * PI) (two_r 1) <= nan_mask).
  { split; [apply Rmult_le_pos; lra|]. apply Rle_trans with (1 * basis_fn true false (16 * PI) (two_r 1)); [apply Rmult_le_compat_r; lra|lra]. }
  replace (1 / (1 / 4 * 1 + (1 / 4 * 1 + 0))) with 2 in S by field. assert (0 < nan_mask) by (unfold nan_mask; lra). lra.
Qed.

(** So the sum of the coefficients after an update need not be near the prescribed number. *)
Theorem C104_misses : exists fp W f lays mask N c e c',
  fpi_setting fp W f true lays mask N /\ sized lays c e /\ positive c /\ positive e /\ positive W /\ positive f /\
  0 < mask <= / 10 ^ 12 /\ N = 1 /\ rsum c = 1 /\
  update_params fp (map Fin c) (map Fin e) true false = Ok (map Fin c', map Fin e) /\ rsum c' < 51 / 100.
Proof.
  pose proof PI_RGT_0. destruct (tight_step (1/3) (2/3)) as (a & b & E & _ & _ & S); try lra.
  exists two_fpi, two_W, [1; 1], two_lays, nan_mask, 1, [1/3; 2/3], [16 * PI; 16 * PI], [a; b].
  split; [apply two_setting|]. split; [apply two_sized|]. split; [apply two_positive|]. split; [apply two_pos_e; lra|].
  split; [unfold two_W; repeat constructor; lra|]. split; [apply two_positive|]. split; [unfold nan_mask; lra|]. split; [auto|].
  split; [unfold rsum; cbn; field|]. split; [exact E|]. unfold rsum. cbn. unfold nan_mask in S. lra.
Qed.
Print Assumptions C104_misses.

(** Coefficients that stay: their sum solves [s = 1/2 + s b / 2] with [b] the function at the masked point. *)
Example C104_fixed_example : exists a b, positive [a; b] /\
  update_params two_fpi (map Fin [a; b]) (map Fin [16 * PI; 16 * PI]) true false = Ok (map Fin [a; b], map Fin [16 * PI; 16 * PI]) /\
  visible nan_mask 1 (nth 1 (values true two_lays [a; b] [16 * PI; 16 * PI]) 0) = false /\
  forall c2, length c2 = 2%nat -> positive (values true two_lays c2 [16 * PI; 16 * PI]) ->
    energy true nan_mask two_W [1; 1] (quad two_W [1; 1] / 1) two_lays (values true two_lays [a; b] [16 * PI; 16 * PI]) [a; b] [16 * PI; 16 * PI] <=
    energy true nan_mask two_W [1; 1] (quad two_W [1; 1] / 1) two_lays (values true two_lays [a; b] [16 * PI; 16 * PI]) c2 [16 * PI; 16 * PI].
Proof.
  pose proof PI_RGT_0. destruct tight_values as (_ & B & C). assert (M : nan_mask < 1/10) by (unfold nan_mask; lra).
  set (q := basis_fn true false (16 * PI) (two_r 1)) in *. set (s := / (2 - q)).
  assert (Hs : 1/2 <= s <= 1).
  { unfold s. split; [replace (1/2) with (/ 2) by lra; apply Rinv_le_contravar; lra|]. rewrite <- Rinv_1. apply Rinv_le_contravar; lra. }
  assert (Es : s = 1/2 + s * q / 2) by (unfold s; field; lra).
  assert (Pe : positive [16 * PI; 16 * PI]) by (apply two_pos_e; lra).
  assert (Pc : positive [s / 3; 2 * s / 3]) by (constructor; [lra|constructor; [lra|constructor]]).
  assert (U : update_params two_fpi (map Fin [s / 3; 2 * s / 3]) (map Fin [16 * PI; 16 * PI]) true false =
    Ok (map Fin [s / 3; 2 * s / 3], map Fin [16 * PI; 16 * PI])).
  { destruct (step_positive _ _ _ _ _ _ _ [s / 3; 2 * s / 3] [16 * PI; 16 * PI] true false two_setting ltac:(lra) two_nonneg two_supported
      (two_sized _ _ _ _) Pc Pe eq_refl) as (c' & e' & E & [L1 L2] & _ & _ & Ec & Ee). cbv iota in Ec, Ee. subst e'.
    destruct (C104_sum _ _ _ _ _ _ _ [s / 3; 2 * s / 3] _ _ _ _ two_setting (two_sized _ _ _ _) ltac:(apply ProofFit.positive_nonneg, Pc) (fun _ => Pe) E) as (c2 & E2 & _ & S).
    apply ProofFPI3.map_Fin_inj in E2. subst c2.
    assert (A0 := ProofEM.nth_upd_c nan_mask two_W [1; 1] true two_lays (rdot two_W [1; 1] / 1) [s / 3; 2 * s / 3] [16 * PI; 16 * PI] 0 ltac:(cbn; lia)).
    assert (A1 := ProofEM.nth_upd_c nan_mask two_W [1; 1] true two_lays (rdot two_W [1; 1] / 1) [s / 3; 2 * s / 3] [16 * PI; 16 * PI] 1 ltac:(cbn; lia)).
    rewrite <- Ec in A0, A1.
    change (avg1 nan_mask two_W [1; 1] true two_lays [s / 3; 2 * s / 3] [16 * PI; 16 * PI] 1) with
      (avg1 nan_mask two_W [1; 1] true two_lays [s / 3; 2 * s / 3] [16 * PI; 16 * PI] 0) in A1.
    destruct c' as [|a' [|b' [|]]]; try discriminate L1. cbn [nth] in A0, A1.
    set (t := avg1 nan_mask two_W [1; 1] true two_lays [s / 3; 2 * s / 3] [16 * PI; 16 * PI] 0) in *. clearbody t. clear Ec.
    assert (Q : 1/2 <= s / 3 + 2 * s / 3 <= 1) by lra.
    rewrite (tight_masked _ _ 1 1 Q) in S.
    assert (EV : values true two_lays [s / 3; 2 * s / 3] [16 * PI; 16 * PI] =
       [nth 0 (values true two_lays [s / 3; 2 * s / 3] [16 * PI; 16 * PI]) 0; nth 1 (values true two_lays [s / 3; 2 * s / 3] [16 * PI; 16 * PI]) 0]) by reflexivity.
    rewrite EV in S at 2. rewrite (tight_masked _ _ _ _ Q), tight_value in S by lia. fold q in S.
    unfold quad, rdot, two_W, rsum in S. cbn [map2 fold_right] in S.
    replace (1 / (1 / 4 * 1 + (1 / 4 * 1 + 0))) with 2 in S by field.
    assert (A3 : b' = 2 * a') by (rewrite A0, A1; unfold Rdiv; ring).
    assert (a' = s / 3) by lra. assert (b' = 2 * s / 3) by lra. subst a' b'. rewrite E. congruence. }
  exists (s / 3), (2 * s / 3). split; [exact Pc|]. split; [exact U|]. split; [apply tight_visible; lra|].
  intros c2 L2 P2. apply (C104_fixed two_fpi two_W [1; 1] true two_lays nan_mask 1 [s / 3; 2 * s / 3] [16 * PI; 16 * PI] false (map Fin [16 * PI; 16 * PI]));
    auto; try lra; try apply two_setting; try apply two_nonneg; try apply two_positive; try apply two_sized.
Qed.

(** A run that keeps the second point masked, for every limit. *)
Example C104_example : forall maxiter, exists r F,
  fpi_run two_fpi (VArr (A1 (map Fin [1/3; 2/3]))) (VArr (A1 (map Fin [16 * PI; 16 * PI]))) true false maxiter default_thr = Ok r /\
  r_fun r = map Fin F /\ forall i j, (i <= j < length F)%nat -> nth j F 0 <= nth i F 0 + nan_mask / 2.
Proof.
  intros maxiter. pose proof PI_RGT_0. assert (Pe : positive [16 * PI; 16 * PI]) by (apply two_pos_e; lra).
  destruct (run_positive two_fpi two_W [1; 1] true two_lays nan_mask 1 [1/3; 2/3] [16 * PI; 16 * PI] true false maxiter default_thr)
    as (r & c' & e' & Hr & _); auto; try lra; try apply two_setting; try apply two_nonneg; try apply two_positive; try apply two_supported; try apply two_sized.
  assert (IT : forall k, exists a b, iterate two_fpi true false k (map Fin [1/3; 2/3]) (map Fin [16 * PI; 16 * PI]) =
     Ok (map Fin [a; b], map Fin [16 * PI; 16 * PI]) /\ 0 < a /\ 0 < b /\ 1/2 <= a + b <= 1).
  { induction k as [|k (a & b & E & Ha & Hb & Hab)]; [exists (1/3), (2/3); repeat split; lra|].
    destruct (tight_step a b Ha Hb Hab) as (a' & b' & E' & Ha' & Hb' & Hs). exists a', b'. cbn [iterate]. rewrite E. cbn [bind fst snd].
    split; auto. split; auto. split; auto. unfold nan_mask in Hs. lra. }
  destruct (C104_run two_fpi two_W [1; 1] two_lays nan_mask 1 [1/3; 2/3] [16 * PI; 16 * PI] true false maxiter default_thr r) as (F & EF & HF);
    auto; try lra; try apply two_setting; try apply two_nonneg; try apply two_positive; try apply two_supported; try apply two_sized.
  - intros k ck ek _ Q. destruct (IT k) as (a & b & E & _ & _ & Hab). rewrite E in Q. injection Q as Q1 Q2.
    assert (ck = [a; b]) by (apply ProofFPI3.map_Fin_inj; rewrite <- Q1; reflexivity).
    assert (ek = [16 * PI; 16 * PI]) by (apply ProofFPI3.map_Fin_inj; rewrite <- Q2; reflexivity). subst.
    destruct (tight_visible a b Hab) as [V1 V2]. destruct (tight_visible (1/3) (2/3) ltac:(lra)) as [V3 V4].
    intros i Hi. destruct i as [|[|i]]; [| |cbn in Hi; lia]; cbn [nth]; congruence.
  - exists r, F. split; [exact Hr|]. split; [exact EF|]. intros i j Hij. specialize (HF i j Hij).
    unfold mask_cap in HF. cbn [map] in HF. rewrite (tight_masked (1/3) (2/3)) in HF by lra.
    assert (/ 2 ^ 1022 <= nan_mask).
    { apply Rle_trans with (/ 2 ^ 100); [|unfold nan_mask; lra]. apply Rinv_le_contravar; [apply pow_lt; lra|].
      apply Rle_pow; [lra|]. apply Nat.leb_le. vm_compute. reflexivity. }
    rewrite Rabs_R1, Rmult_1_l, Rmax_left in HF by auto. lra.
Qed.
