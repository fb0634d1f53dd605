(** Properties C42-C52 and C76: fitting (/repo/bfit/fit.py). *)
From Coquelicot Require Import Coquelicot.
From Coq Require Import String.
From Coq Require Import Reals List ZArith Lia Lra Bool.
From Verif Require Import XR PyStr SpecDens SpecMeas SpecGrid ModelDens ModelMeas ModelGrid ModelFit Lists SpecFit SpecStop
  ProofFPI ProofFPI2 ProofFPI3 ProofFPI4 ProofFPI5 ProofScipy ProofScipy2 ProofScipy3 ProofFitEx ProofErr2.
Import ListNotations.
Local Open Scope R_scope.

(** ** C42 *)
(** Integration by a fit is the weighted sum. *)
Theorem C42_integrate : forall ft W f norm lays mask N y,
  fit_setting ft W f norm lays mask N ->
  length y = length W -> fit_integrate ft (map Fin y) = Ok (Fin (quad W y)).
Proof. exact integrate_meaning. Qed.
Print Assumptions C42_integrate.

(** The grids of the package give such weights; with [spherical] the factor 4 pi r^2 is included. *)
Theorem C42_radial_grids : forall x,
  exists W, length W = length x /\ (ascending x -> nonneg W) /\
  forall g, g = radial_grid (map Fin x) ->
    integrator (mkGridArg (Some (gr_points g)) (Some (gr_integrate g))) false W /\
    integrator (mkGridArg (Some (gr_points g)) (Some (gr_integrate g))) true
               (map2 (fun w r => w * (4 * PI * r ^ 2)) W x).
Proof. exact radial_integrator. Qed.
Print Assumptions C42_radial_grids.

Theorem C42_cubic_grids : forall o axes (n0 n1 n2 : nat) cg,
  cubic_init o axes (Z.of_nat n0) (Z.of_nat n1) (Z.of_nat n2) = Ok cg ->
  let g := cubic_grid cg in let W := repeat (Rabs (det3 axes)) (n0 * n1 * n2) in
  nonneg W /\ integrator (mkGridArg (Some (gr_points g)) (Some (gr_integrate g))) false W.
Proof. exact cubic_integrator. Qed.
Print Assumptions C42_cubic_grids.

(** The five entries. *)
Theorem C42_goodness : forall ft W f norm lays mask N c e,
  fit_setting ft W f norm lays mask N ->
  sized lays c e -> (norm = true -> positive e) -> positive f -> nonneg (values norm lays c e) ->
  let g := values norm lays c e in
  exists mx v, length v = length f /\
    goodness ft (map Fin c) (map Fin e) =
      Ok (map Fin [quad W g; quad W (map2 (fun x y => Rabs (x - y)) f g); mx; quad W (map2 sq_fn f g); quad W v]) /\
    is_max (map2 (fun x y => Rabs (x - y)) f g) mx /\
    (forall i, (i < length f)%nat ->
       (kept mask (nth i f 0) (nth i g 0) -> nth i v 0 = kl_fn (nth i f 0) (nth i g 0)) /\
       (~ kept mask (nth i f 0) (nth i g 0) -> nth i v 0 = 0)).
Proof. exact goodness_meaning. Qed.
Print Assumptions C42_goodness.

(** Signs, and what a perfect model gives. *)
Theorem C42_signs : forall ft W f norm lays mask N c e,
  fit_setting ft W f norm lays mask N ->
  sized lays c e -> (norm = true -> positive e) -> positive f -> nonneg (values norm lays c e) ->
  exists r, goodness ft (map Fin c) (map Fin e) = Ok (map Fin r) /\ length r = 5%nat /\
    (nonneg W -> 0 <= nth 0 r 0 /\ 0 <= nth 1 r 0 /\ 0 <= nth 2 r 0 /\ 0 <= nth 3 r 0) /\
    (nonneg W -> all_above mask f (values norm lays c e) -> quad W f - nth 0 r 0 <= nth 4 r 0) /\
    (values norm lays c e = f -> r = [quad W f; 0; 0; 0; 0]).
Proof. exact goodness_signs. Qed.
Print Assumptions C42_signs.

(** A negative model value replaces the last entry by the penalty. *)
Theorem C42_negative_model : forall ft W f norm lays mask N c e,
  fit_setting ft W f norm lays mask N ->
  sized lays c e -> (norm = true -> positive e) -> Exists (fun x => x < 0) (values norm lays c e) ->
  exists r, goodness ft (map Fin c) (map Fin e) = Ok (map Fin r) /\ length r = 5%nat /\
            nth 4 r 0 = 100000 * rsum W.
Proof. exact goodness_negative. Qed.
Print Assumptions C42_negative_model.

(** A density and a model of different sizes, on a grid whose integration raises ValueError
    only; on any grid when neither has size one. *)
Theorem C42_mismatch : forall ft c e out, g_evaluate (ft_model ft) (A1 c) (A1 e) false = Ok out ->
  length (fst out) <> length (ft_density ft) ->
  (length (fst out) <> 1%nat -> length (ft_density ft) <> 1%nat -> goodness ft c e = Raise ValueError) /\
  ((forall y x, fit_integrate ft y = Raise x -> x = ValueError) -> goodness ft c e = Raise ValueError).
Proof. exact goodness_mismatch. Qed.
Print Assumptions C42_mismatch.

Example C42_mismatch_example : let ft := mkFit two_grid [Fin 1] (GAtom two_atom) two_me false (Fin 1) (Fin 0) in
  (exists out, g_evaluate (ft_model ft) (A1 (map Fin [1; 1])) (A1 (map Fin [1; 2])) false = Ok out /\ length (fst out) <> length (ft_density ft)) /\
  (forall y x, fit_integrate ft y = Raise x -> x = ValueError).
Proof.
  cbv zeta. split; [eexists; split; [cbn; reflexivity|]; cbn; discriminate|].
  intros y x. unfold fit_integrate, integrate_with. cbn [ft_spherical ft_grid two_grid]. unfold two_grid, radial_grid. cbn [gr_integrate]. unfold radial_integrate.
  match goal with |- context [Nat.eqb ?a ?b] => destruct (Nat.eqb a b) end; congruence.
Qed.

Example C42_example :
  fit_setting two_fit two_W [1; 1] true two_lays nan_mask 1 /\ sized two_lays [1/3; 2/3] [PI; PI] /\
  positive [PI; PI] /\ positive [1; 1] /\ nonneg (values true two_lays [1/3; 2/3] [PI; PI]) /\ nonneg two_W /\
  all_above nan_mask [1; 1] (values true two_lays [1/3; 2/3] [PI; PI]) /\
  fit_integrate two_fit (map Fin [3; 5]) = Ok (Fin 2) /\
  Exists (fun x => x < 0) (values true two_lays [-1; 0] [PI; PI]).
Proof.
  pose proof PI_RGT_0. split; [apply two_fit_setting|]. split; [apply two_sized|]. split; [now apply two_pos_e|].
  split; [apply two_positive|]. split; [apply two_val_nonneg; auto|]. split; [apply two_nonneg|].
  split; [apply two_above; auto|]. split.
  - rewrite (C42_integrate _ _ _ _ _ _ _ [3; 5] two_fit_setting eq_refl). unfold quad, rsum. cbn. do 2 f_equal. field.
  - left. change (gsum true (lay_atom 2 0 (Rabs (1/2))) [-1; 0] [PI; PI] < 0).
    set (r := Rabs (1/2)). change (gsum true (lay_atom 2 0 r) [-1; 0] [PI; PI]) with
      (-1 * basis_fn true false PI r + (0 * basis_fn true false PI r + 0)).
    assert (0 < basis_fn true false PI r); [|lra].
    unfold basis_fn, norm_const. rewrite Rmult_1_r. apply Rmult_lt_0_compat; apply exp_pos.
Qed.

(** ** C43 *)
Theorem C43_sum : forall fp W f norm lays mask N c e ue c1 e1,
  fpi_setting fp W f norm lays mask N -> sized lays c e -> nonneg c ->
  (norm = true -> positive e) -> all_above mask f (values norm lays c e) ->
  update_params fp (map Fin c) (map Fin e) true ue = Ok (c1, e1) ->
  exists c', c1 = map Fin c' /\ length c' = nfun lays /\ rsum c' = N.
Proof. exact coeffs_sum. Qed.
Print Assumptions C43_sum.

Example C43_example :
  fpi_setting two_fpi two_W [1; 1] true two_lays nan_mask 1 /\ sized two_lays [1/3; 2/3] [PI; PI] /\
  nonneg [1/3; 2/3] /\ positive [PI; PI] /\ all_above nan_mask [1; 1] (values true two_lays [1/3; 2/3] [PI; PI]) /\
  update_params two_fpi (map Fin [1/3; 2/3]) (map Fin [PI; PI]) true true =
    Ok (map Fin [1/3; 2/3], map Fin [12/5; 12/5]) /\ rsum [1/3; 2/3] = 1.
Proof.
  split; [apply two_setting|]. split; [apply two_sized|]. split; [repeat constructor; lra|].
  split; [apply two_pos_e, PI_RGT_0|]. split; [apply two_above; auto|]. split; [apply two_update; auto|].
  unfold rsum. cbn. field.
Qed.

(** ** C44 *)
Theorem C44_iterates : forall fp W f norm lays mask N c e uc ue n,
  fpi_setting fp W f norm lays mask N -> 0 < N -> nonneg W -> supported W f lays (nfun lays) ->
  sized lays c e -> positive c -> positive e -> uc || ue = true ->
  exists c' e', iterate fp uc ue n (map Fin c) (map Fin e) = Ok (map Fin c', map Fin e') /\
    sized lays c' e' /\ positive c' /\ positive e'.
Proof. exact iterate_positive. Qed.
Print Assumptions C44_iterates.

(** Every run returns, with such parameters. *)
Theorem C44_run : forall fp W f norm lays mask N c e oc oe maxiter th,
  fpi_setting fp W f norm lays mask N -> 0 < N -> nonneg W -> positive f ->
  supported W f lays (nfun lays) -> oc || oe = true ->
  sized lays c e -> positive c -> positive e ->
  exists r c' e',
    fpi_run fp (VArr (A1 (map Fin c))) (VArr (A1 (map Fin e))) oc oe maxiter th = Ok r /\
    r_coeffs r = map Fin c' /\ r_exps r = map Fin e' /\ sized lays c' e' /\ positive c' /\ positive e'.
Proof. exact run_positive. Qed.
Print Assumptions C44_run.

Example C44_example :
  fpi_setting two_fpi two_W [1; 1] true two_lays nan_mask 1 /\ nonneg two_W /\ positive [1; 1] /\
  supported two_W [1; 1] two_lays (nfun two_lays) /\ sized two_lays [1/3; 2/3] [PI; PI] /\
  positive [1/3; 2/3] /\ positive [PI; PI] /\
  iterate two_fpi true true 7 (map Fin [1/3; 2/3]) (map Fin [PI; PI]) =
    Ok (map Fin [1/3; 2/3], map Fin [12/5; 12/5]).
Proof.
  split; [apply two_setting|]. split; [apply two_nonneg|]. split; [apply two_positive|].
  split; [apply two_supported|]. split; [apply two_sized|]. split; [apply two_positive|].
  split; [apply two_pos_e, PI_RGT_0|]. apply two_iterate.
Qed.

(** ** C45 *)
(** A step does not increase the divergence, and keeps it only at a fixed point. *)
Theorem C45_step : forall fp W f lays mask N c e uc ue,
  fpi_setting fp W f true lays mask N -> 0 < N -> nonneg W -> positive f ->
  supported W f lays (nfun lays) ->
  sized lays c e -> positive c -> positive e -> uc || ue = true ->
  all_above mask f (values true lays c e) ->
  (uc = true -> rsum c <= N) ->
  exists c' e', update_params fp (map Fin c) (map Fin e) uc ue = Ok (map Fin c', map Fin e') /\
    (all_above mask f (values true lays c' e') ->
     kl_sum W f (values true lays c' e') <= kl_sum W f (values true lays c e) /\
     (kl_sum W f (values true lays c' e') = kl_sum W f (values true lays c e) -> c' = c /\ e' = e)).
Proof. exact step_decreases. Qed.
Print Assumptions C45_step.

(** From the second step on no assumption on the coefficients is needed. *)
Theorem C45_iterates : forall fp W f lays mask N c e uc ue n,
  fpi_setting fp W f true lays mask N -> 0 < N -> nonneg W -> positive f ->
  supported W f lays (nfun lays) ->
  sized lays c e -> positive c -> positive e -> uc || ue = true ->
  (forall j cj ej, (j <= n)%nat ->
     iterate fp uc ue j (map Fin c) (map Fin e) = Ok (map Fin cj, map Fin ej) ->
     all_above mask f (values true lays cj ej)) ->
  (uc = true -> (n = 1)%nat -> rsum c <= N) ->
  (0 < n)%nat ->
  exists c1 e1 c2 e2,
    iterate fp uc ue (n - 1) (map Fin c) (map Fin e) = Ok (map Fin c1, map Fin e1) /\
    iterate fp uc ue n (map Fin c) (map Fin e) = Ok (map Fin c2, map Fin e2) /\
    sized lays c1 e1 /\ sized lays c2 e2 /\ positive c2 /\ positive e2 /\
    kl_sum W f (values true lays c2 e2) <= kl_sum W f (values true lays c1 e1).
Proof. exact iterate_decreases. Qed.
Print Assumptions C45_iterates.

(** The reported values result['fun']. *)
Theorem C45_run : forall fp W f lays mask N c e oc oe maxiter th r,
  fpi_setting fp W f true lays mask N -> 0 < N -> nonneg W -> positive f ->
  supported W f lays (nfun lays) -> sized lays c e -> positive c -> positive e ->
  fpi_run fp (VArr (A1 (map Fin c))) (VArr (A1 (map Fin e))) oc oe maxiter th = Ok r ->
  (forall j cj ej, (j <= length (r_fun r))%nat ->
     iterate fp oc oe j (map Fin c) (map Fin e) = Ok (map Fin cj, map Fin ej) ->
     all_above mask f (values true lays cj ej)) ->
  exists F, r_fun r = map Fin F /\
    (forall j, (j < length F)%nat -> exists cj ej,
       iterate fp oc oe (S j) (map Fin c) (map Fin e) = Ok (map Fin cj, map Fin ej) /\
       nth j F 0 = kl_sum W f (values true lays cj ej)) /\
    (forall j, (S j < length F)%nat -> nth (S j) F 0 <= nth j F 0) /\
    (rsum c <= N \/ oc = false -> (0 < length F)%nat -> nth 0 F 0 <= kl_sum W f (values true lays c e)).
Proof. exact run_monotone. Qed.
Print Assumptions C45_run.

Example C45_example : exists r F,
  fpi_run two_fpi (VArr (A1 (map Fin [1/3; 2/3]))) (VArr (A1 (map Fin [PI; PI]))) true true 5 default_thr = Ok r /\
  r_fun r = map Fin F /\ rsum [1/3; 2/3] <= 1 /\
  (forall j cj ej,
     iterate two_fpi true true j (map Fin [1/3; 2/3]) (map Fin [PI; PI]) = Ok (map Fin cj, map Fin ej) ->
     all_above nan_mask [1; 1] (values true two_lays cj ej)).
Proof.
  destruct (C44_run two_fpi two_W [1; 1] true two_lays nan_mask 1 [1/3; 2/3] [PI; PI] true true 5 default_thr)
    as (r & c' & e' & Hr & _); auto;
    [apply two_setting|lra|apply two_nonneg|apply two_positive|apply two_supported|apply two_sized|apply two_positive
    |apply two_pos_e, PI_RGT_0|].
  destruct (C45_run two_fpi two_W [1; 1] two_lays nan_mask 1 [1/3; 2/3] [PI; PI] true true 5 default_thr r)
    as (F & HF & _); auto;
    [apply two_setting|lra|apply two_nonneg|apply two_positive|apply two_supported|apply two_sized|apply two_positive
    |apply two_pos_e, PI_RGT_0|intros j cj ej _ Hj; exact (two_iterate_above j cj ej true Hj)|].
  exists r, F. split; auto. split; auto. split; [unfold rsum; cbn; lra|].
  intros j cj ej. apply two_iterate_above.
Qed.

(** ** C46 *)
(** Unchanged coefficients: right total, vanishing Lagrangian gradient, global minimum. *)
Theorem C46_coefficients : forall fp W f norm lays mask N c e ue e1,
  fpi_setting fp W f norm lays mask N -> 0 < N -> nonneg W -> positive f ->
  sized lays c e -> positive c -> (norm = true -> positive e) ->
  all_above mask f (values norm lays c e) ->
  update_params fp (map Fin c) (map Fin e) true ue = Ok (map Fin c, e1) ->
  rsum c = N /\ (forall k, (k < nfun lays)%nat ->
     is_derive (fun t : R => kl_sum W f (values norm lays (upd c k t) e) + quad W f / N * rsum (upd c k t))
       (nth k c 0) 0) /\ (forall c2, length c2 = nfun lays -> rsum c2 <= N ->
     positive (values norm lays c2 e) ->
     kl_sum W f (values norm lays c e) <= kl_sum W f (values norm lays c2 e)).
Proof. exact fixed_coeffs. Qed.
Print Assumptions C46_coefficients.

(** Unchanged exponents, normalized functions: the divergence has no slope. *)
Theorem C46_exponents : forall fp W f lays mask N c e uc c1,
  fpi_setting fp W f true lays mask N -> nonneg W -> positive f -> supported W f lays (nfun lays) ->
  sized lays c e -> positive c -> positive e ->
  all_above mask f (values true lays c e) ->
  update_params fp (map Fin c) (map Fin e) uc true = Ok (c1, map Fin e) ->
  forall k, (k < nfun lays)%nat ->
    is_derive (fun t : R => kl_sum W f (values true lays c (upd e k t))) (nth k e 0) 0.
Proof. exact fixed_expons. Qed.
Print Assumptions C46_exponents.

Example C46_example :
  update_params two_fpi (map Fin [1/3; 2/3]) (map Fin [12/5; 12/5]) true true =
    Ok (map Fin [1/3; 2/3], map Fin [12/5; 12/5]) /\
  all_above nan_mask [1; 1] (values true two_lays [1/3; 2/3] [12/5; 12/5]) /\
  fpi_setting two_fpi two_W [1; 1] true two_lays nan_mask 1 /\ supported two_W [1; 1] two_lays (nfun two_lays).
Proof.
  split; [apply two_update; auto|]. split; [apply two_above; auto|]. split; [apply two_setting|apply two_supported].
Qed.

(** Without normalization a fixed point of both updates still has a slope in the exponent: the
    formula of the update is only right for normalized functions, but is used for both. *)
Theorem C46_unnormalised_refuted : exists fp W f lays mask N c e d,
  fpi_setting fp W f false lays mask N /\ 0 < N /\ nonneg W /\ positive f /\ supported W f lays (nfun lays) /\
  sized lays c e /\ positive c /\ positive e /\ all_above mask f (values false lays c e) /\
  update_params fp (map Fin c) (map Fin e) true true = Ok (map Fin c, map Fin e) /\
  0 < d /\ is_derive (fun t : R => kl_sum W f (values false lays c (upd e 0 t))) (nth 0 e 0) d.
Proof.
  assert (P : forall x : R, 0 < x -> positive [x]) by (intros; constructor; [auto|constructor]).
  assert (P2 : positive [1; 1]) by (constructor; [lra|]; apply P; lra).
  assert (N2 : nonneg [1/2; 1/2]) by (constructor; [lra|constructor; [lra|constructor]]).
  destruct (unnormalised_slope flat_fpi [1/2; 1/2] [1; 1] flat_lays nan_mask 1 [1] [3/5]
    flat_setting N2 P2 flat_supported (conj eq_refl eq_refl) (P 1 ltac:(lra)) flat_above 0%nat ltac:(cbn; lia)) as (d & Hd & D).
  exists flat_fpi, [1/2; 1/2], [1; 1], flat_lays, nan_mask, 1, [1], [3/5], d.
  split; [exact flat_setting|]. split; [lra|]. split; [exact N2|]. split; [exact P2|]. split; [exact flat_supported|].
  split; [split; reflexivity|]. split; [apply P; lra|]. split; [apply P; lra|]. split; [exact flat_above|].
  split; [exact flat_update|]. split; auto.
Qed.
Print Assumptions C46_unnormalised_refuted.

(** In fact the slope is positive everywhere, so no fixed point is stationary. *)
Theorem C46_unnormalised_slope : forall fp W f lays mask N c e,
  fpi_setting fp W f false lays mask N -> nonneg W -> positive f -> supported W f lays (nfun lays) ->
  sized lays c e -> positive c -> all_above mask f (values false lays c e) ->
  forall k, (k < nfun lays)%nat -> exists d, 0 < d /\ is_derive (fun t : R => kl_sum W f (values false lays c (upd e k t))) (nth k e 0) d.
Proof. exact unnormalised_slope. Qed.
Print Assumptions C46_unnormalised_slope.

(** ** C47 *)
Theorem C47_result : forall f c0 e0 oc oe maxiter th r,
  fpi_run f c0 e0 oc oe maxiter th = Ok r ->
  exists c e, c0 = VArr (A1 c) /\ e0 = VArr (A1 e) /\
    let n := length (r_fun r) in
    (Z.of_nat n <= Z.max maxiter 0)%Z /\ length (r_perf r) = n /\
    iterate f oc oe n c e = Ok (r_coeffs r, r_exps r) /\
    (forall j, (j < n)%nat -> exists cj ej,
       iterate f oc oe (S j) c e = Ok (cj, ej) /\
       goodness (fp_fit f) cj ej = Ok (nth j (r_perf r) []) /\
       nth j (r_fun r) NaN = last (nth j (r_perf r) []) NaN).
Proof. exact run_consistent. Qed.
Print Assumptions C47_result.

Theorem C47_fixed : forall f c0 e0 oc oe maxiter th r,
  fpi_run f c0 e0 oc oe maxiter th = Ok r ->
  (oc = false -> c0 = VArr (A1 (r_coeffs r))) /\ (oe = false -> e0 = VArr (A1 (r_exps r))).
Proof. exact run_fixed. Qed.
Print Assumptions C47_fixed.

(** The iterations happen while some change exceeds its threshold and the limit allows. *)
Theorem C47_stop : forall f c e oc oe maxiter th r,
  fpi_run f (VArr (A1 c)) (VArr (A1 e)) oc oe maxiter th = Ok r ->
  let n := length (r_fun r) in
  (forall j, (j < n)%nat -> (Z.of_nat j < maxiter)%Z /\ exists dc de dd, moved f oc oe c e j dc de dd /\ unfinished th dc de dd) /\
  exists dc de dd, moved f oc oe c e n dc de dd /\ ((Z.of_nat n < maxiter)%Z -> ~ unfinished th dc de dd).
Proof. exact run_stops_when. Qed.
Print Assumptions C47_stop.

(** Arguments that are not arrays, or not one number per function. *)
Theorem C47_rejects : forall f c0 e0 oc oe maxiter th,
  ((forall a, c0 <> VArr a) \/ (forall a, e0 <> VArr a) -> fpi_run f c0 e0 oc oe maxiter th = Raise TypeError) /\
  (forall a b, c0 = VArr a -> e0 = VArr b ->
     (forall c, a = A1 c -> Z.of_nat (length c) <> g_nbasis (ft_model (fp_fit f))) \/
     (forall e, b = A1 e -> Z.of_nat (length e) <> g_nbasis (ft_model (fp_fit f))) ->
     fpi_run f c0 e0 oc oe maxiter th = Raise ValueError).
Proof. exact run_rejects. Qed.
Print Assumptions C47_rejects.

(** Nothing to optimize: ValueError, when the loop is entered at all. *)
Theorem C47_nothing : forall f c e maxiter th,
  Z.of_nat (length c) = g_nbasis (ft_model (fp_fit f)) ->
  Z.of_nat (length e) = g_nbasis (ft_model (fp_fit f)) ->
  (th_c th <> PInf /\ th_c th <> NaN \/ th_e th <> PInf /\ th_e th <> NaN) ->
  th_d th <> PInf -> th_d th <> NaN -> (0 < maxiter)%Z ->
  fpi_run f (VArr (A1 c)) (VArr (A1 e)) false false maxiter th = Raise ValueError.
Proof. exact run_nothing. Qed.
Print Assumptions C47_nothing.

(** With a negative limit it is not. *)
Theorem C47_nothing_refuted : forall fp c e maxiter th,
  Z.of_nat (length c) = g_nbasis (ft_model (fp_fit fp)) ->
  Z.of_nat (length e) = g_nbasis (ft_model (fp_fit fp)) -> (maxiter < 0)%Z ->
  fpi_run fp (VArr (A1 c)) (VArr (A1 e)) false false maxiter th = Ok (mkFpiRes c e [] true []).
Proof. intros fp c e maxiter th. exact (run_negative fp c e false false maxiter th). Qed.
Print Assumptions C47_nothing_refuted.

Example C47_example : exists r,
  fpi_run two_fpi (VArr (A1 (map Fin [1/3; 2/3]))) (VArr (A1 (map Fin [PI; PI]))) false true 5 default_thr = Ok r /\
  r_coeffs r = map Fin [1/3; 2/3] /\ (length (r_fun r) <= 5)%nat /\
  fpi_run two_fpi (VArr (A1 (map Fin [1/3; 2/3]))) (VArr (A1 (map Fin [PI; PI]))) false false 5 default_thr = Raise ValueError.
Proof.
  destruct (C44_run two_fpi two_W [1; 1] true two_lays nan_mask 1 [1/3; 2/3] [PI; PI] false true 5 default_thr)
    as (r & c' & e' & Hr & _); auto;
    [apply two_setting|lra|apply two_nonneg|apply two_positive|apply two_supported|apply two_sized|apply two_positive
    |apply two_pos_e, PI_RGT_0|].
  exists r. split; auto. destruct (C47_fixed _ _ _ _ _ _ _ _ Hr) as [A _]. specialize (A eq_refl). injection A as A.
  split; [symmetry; exact A|]. split.
  - destruct (C47_result _ _ _ _ _ _ _ _ Hr) as (c & e & _ & _ & B & _). cbn [Z.max Z.compare] in B. lia.
  - apply C47_nothing; try reflexivity; try discriminate. left. split; discriminate.
Qed.

(** ** C48 *)
(** What success implies; nothing when a difference is NaN, and see the runs below. *)
Theorem C48_success_partial : forall f c0 e0 oc oe maxiter th r c e,
  fpi_run f c0 e0 oc oe maxiter th = Ok r -> r_success r = true -> (0 <= maxiter)%Z ->
  c0 = VArr (A1 c) -> e0 = VArr (A1 e) ->
  th_c th <> NaN -> th_e th <> NaN -> th_d th <> NaN -> th_d th <> PInf ->
  let n := length (r_fun r) in
  (n = 0%nat -> th_c th = PInf /\ th_e th = PInf /\ (0 < maxiter)%Z) /\
  ((0 < n)%nat -> exists cp ep dc de,
     iterate f oc oe (n - 1) c e = Ok (cp, ep) /\
     change (r_coeffs r) cp dc /\ change (r_exps r) ep de /\
     ((dc <> NaN -> de <> NaN -> xleb dc (th_c th) = true /\ xleb de (th_e th) = true) \/
      ((2 <= n)%nat /\
       xleb (xabs (xsub (nth (n - 1) (r_fun r) NaN) (nth (n - 2) (r_fun r) NaN))) (th_d th) = true))).
Proof. exact success_means. Qed.
Print Assumptions C48_success_partial.

(** Exactly when success is denied: the last change of the divergence is NaN, or the limit is used up with it above its threshold. *)
Theorem C48_flag : forall f c e oc oe maxiter th r,
  fpi_run f (VArr (A1 c)) (VArr (A1 e)) oc oe maxiter th = Ok r ->
  let n := length (r_fun r) in
  exists dc de dd, moved f oc oe c e n dc de dd /\
    (r_success r = false <-> dd = NaN \/ (Z.of_nat n = maxiter /\ xltb (th_d th) dd = true)).
Proof. exact run_flag. Qed.
Print Assumptions C48_flag.

Example C48_example : th_d default_thr <> PInf /\ exists r,
  fpi_run nan_fpi (VArr (A1 (map Fin [1]))) (VArr (A1 (map Fin [PI]))) true true 500 default_thr = Ok r /\
  r_success r = true /\ length (r_fun r) = 2%nat.
Proof. split; [discriminate|]. eexists. split; [exact nan_run|]. split; reflexivity. Qed.

(** Success with NaN parameters, on a legitimate problem with the default thresholds. *)
Theorem C48_nan_refuted : exists fp W f lays mask N c e r,
  fpi_setting fp W f true lays mask N /\ 0 < N /\ nonneg W /\ nonneg f /\ positive c /\ positive e /\
  fpi_run fp (VArr (A1 (map Fin c))) (VArr (A1 (map Fin e))) true true 500 default_thr = Ok r /\
  r_success r = true /\ r_coeffs r = [NaN] /\ r_exps r = [NaN].
Proof.
  exists nan_fpi, [1/2; 1/2], [1; 0], nan_lays, nan_mask, (1/2), [1], [PI]. eexists.
  split; [exact nan_setting|]. split; [lra|]. split; [repeat constructor; lra|]. split; [repeat constructor; lra|].
  split; [repeat constructor; lra|]. split; [repeat constructor; apply PI_RGT_0|]. split; [exact nan_run|].
  repeat split.
Qed.
Print Assumptions C48_nan_refuted.

(** A negative limit: success without a single iteration. *)
Theorem C48_negative_limit_refuted : forall fp c e oc oe maxiter th,
  Z.of_nat (length c) = g_nbasis (ft_model (fp_fit fp)) ->
  Z.of_nat (length e) = g_nbasis (ft_model (fp_fit fp)) -> (maxiter < 0)%Z ->
  fpi_run fp (VArr (A1 c)) (VArr (A1 e)) oc oe maxiter th = Ok (mkFpiRes c e [] true []).
Proof. exact run_negative. Qed.
Print Assumptions C48_negative_limit_refuted.

(** With [maxiter = 1] success is never reported for a run that did anything. *)
Theorem C48_one_iteration : forall fp c0 e0 oc oe th r,
  xltb (th_d th) PInf = true ->
  fpi_run fp c0 e0 oc oe 1 th = Ok r -> r_success r = false \/ r_fun r = [].
Proof. exact run_one. Qed.
Print Assumptions C48_one_iteration.

(** ** C49 *)
Theorem C49_gradient : forall s me W w f norm lays N a x c e,
  scipy_setting s me W w f norm lays N -> mode a x c e -> sized lays c e -> (norm = true -> positive e) ->
  all_smooth me f (values norm lays c e) ->
  exists obj d, scipy_func s (map Fin x) a = Ok (Fin obj, map Fin d) /\ length d = length x /\
    obj = quad W (map2 Rmult w (map2 (dev me) f (values norm lays c e))) /\
    forall k, (k < length x)%nat -> exists O : R -> R,
      locally (nth k x 0) (fun t => exists d', scipy_func s (map Fin (upd x k t)) a = Ok (Fin (O t), d')) /\
      is_derive O (nth k x 0) (nth k d 0).
Proof. exact func_gradient. Qed.
Print Assumptions C49_gradient.

(** Weights of another size than the density: one weight is used for every point, other sizes
    raise ValueError. *)
Theorem C49_one_weight : forall s w x a, sc_weights s = [w] ->
  scipy_func s x a = scipy_func (mkScipy (sc_fit s) (sc_slsqp s) (repeat w (length (ft_density (sc_fit s))))) x a.
Proof. exact one_weight. Qed.
Print Assumptions C49_one_weight.

Theorem C49_other_weights : forall s x a m dm kd, evaluate_model s x a = Ok (m, dm) ->
  measure_evaluate (ft_measure (sc_fit s)) (VArr (A1 (ft_density (sc_fit s)))) (VArr (A1 m)) (VBool true) = Ok kd ->
  snd kd <> None -> ~ agree (length (sc_weights s)) (length (ft_density (sc_fit s))) -> scipy_func s x a = Raise ValueError.
Proof. exact other_weights. Qed.
Print Assumptions C49_other_weights.

Example C49_weights_example : let s := mkScipy two_fit true [Fin 1; Fin 1; Fin 1] in
  exists m dm kd, evaluate_model s (map Fin [1; 2; 1; 2]) SBoth = Ok (m, dm) /\
    measure_evaluate (ft_measure (sc_fit s)) (VArr (A1 (ft_density (sc_fit s)))) (VArr (A1 m)) (VBool true) = Ok kd /\
    snd kd <> None /\ ~ agree (length (sc_weights s)) (length (ft_density (sc_fit s))).
Proof.
  cbv zeta. do 3 eexists. split; [cbn; reflexivity|]. split; [cbn; reflexivity|]. split.
  - cbn. unfold kl_values. destruct (existsb _ _); discriminate.
  - cbn. unfold agree. lia.
Qed.

Example C49_example :
  scipy_setting (two_scipy true) two_me two_W [1; 1] [1; 1] true two_lays 1 /\
  mode SBoth ([1/3; 2/3] ++ [PI; PI]) [1/3; 2/3] [PI; PI] /\ sized two_lays [1/3; 2/3] [PI; PI] /\
  positive [PI; PI] /\ all_smooth two_me [1; 1] (values true two_lays [1/3; 2/3] [PI; PI]).
Proof.
  split; [apply two_scipy_setting|]. split; [constructor|]. split; [apply two_sized|].
  split; [apply two_pos_e, PI_RGT_0|]. apply two_smooth; auto.
Qed.

(** ** C50 *)
(** The constraint function. *)
Theorem C50_value : forall s me W w f norm lays N a x c e,
  scipy_setting s me W w f norm lays N -> mode a x c e -> sized lays c e -> (norm = true -> positive e) ->
  const_norm s (map Fin x) a = Ok (Fin (N - quad W (values norm lays c e))).
Proof. exact const_value. Qed.
Print Assumptions C50_value.

(** It is what the optimizer gets with "slsqp", or when all parameters are optimized. *)
Theorem C50_used : forall s me W w f norm lays N c0 e0 oc oe maxiter tol pb x c e,
  scipy_setting s me W w f norm lays N ->
  scipy_problem s (map Fin c0) (map Fin e0) oc oe maxiter tol true = Ok pb ->
  sc_slsqp s = true \/ oc && oe = true ->
  mode (args_of oc oe (map Fin c0) (map Fin e0)) x c e -> sized lays c e -> (norm = true -> positive e) ->
  exists g, pb_cons pb = [g] /\ g (map Fin x) = Ok (Fin (N - quad W (values norm lays c e))).
Proof. exact constraint_ok. Qed.
Print Assumptions C50_used.

(** With "trust-constr" and one kind of parameters fixed the function handed over always raises. *)
Theorem C50_trust_constr_refuted : forall s me W w f norm lays N c0 e0 oc oe maxiter tol pb x,
  scipy_setting s me W w f norm lays N -> sc_slsqp s = false -> oc && oe = false ->
  scipy_problem s c0 e0 oc oe maxiter tol true = Ok pb -> length x = nfun lays ->
  exists g, pb_cons pb = [g] /\ g x = Raise ValueError.
Proof. exact trust_raises. Qed.
Print Assumptions C50_trust_constr_refuted.

(** So no optimizer that evaluates the constraint at the start returns a result. *)
Theorem C50_trust_constr_run_refuted : forall s me W w f norm lays N c0 e0 oc oe maxiter tol minimize,
  scipy_setting s me W w f norm lays N -> sc_slsqp s = false -> xorb oc oe = true ->
  length c0 = nfun lays -> length e0 = nfun lays ->
  (forall pb g y, In g (pb_cons pb) -> g (pb_x0 pb) = Raise y -> exists z, minimize pb = Raise z) ->
  exists z, scipy_run minimize s c0 e0 oc oe maxiter tol true = Raise z.
Proof. exact trust_never. Qed.
Print Assumptions C50_trust_constr_run_refuted.

Example C50_example :
  const_norm (two_scipy true) (map Fin [1/3; 2/3]) (SFixExpons (map Fin [PI; PI])) =
    Ok (Fin (1 - quad two_W (values true two_lays [1/3; 2/3] [PI; PI]))) /\
  (exists pb, scipy_problem (two_scipy false) (map Fin [1/3; 2/3]) (map Fin [PI; PI]) true false 100 (Fin 0) true = Ok pb) /\
  sc_slsqp (two_scipy false) = false /\ length (map Fin [1/3; 2/3]) = nfun two_lays.
Proof.
  split; [|split; [eexists; reflexivity|split; reflexivity]].
  apply (C50_value _ _ _ _ _ _ _ _ _ _ _ _ (two_scipy_setting true) (mode_coeffs [1/3; 2/3] [PI; PI]));
    [apply two_sized|intros _; apply two_pos_e, PI_RGT_0].
Qed.

(** ** C51 *)
(** The problem handed to the optimizer. *)
Theorem C51_problem : forall s c0 e0 oc oe maxiter tol wc pb,
  scipy_problem s c0 e0 oc oe maxiter tol wc = Ok pb ->
  oc || oe = true /\ pb_x0 pb = start_of oc oe c0 e0 /\
  (forall x, pb_fun pb x = scipy_func s x (args_of oc oe c0 e0)) /\
  pb_maxiter pb = maxiter /\ pb_tol pb = tol /\
  pb_lower pb = repeat (1 / 10 ^ 12)
    ((if oc && oe then 2 else 1) * Z.to_nat (g_nbasis (ft_model (sc_fit s))))%nat /\
  pb_cons pb = (if wc then [fun x => const_norm s x (if sc_slsqp s then args_of oc oe c0 e0 else SBoth)] else []).
Proof. exact problem_ok. Qed.
Print Assumptions C51_problem.

Theorem C51_nothing : forall s c0 e0 maxiter tol wc,
  scipy_problem s c0 e0 false false maxiter tol wc = Raise ValueError.
Proof. exact problem_fails. Qed.
Print Assumptions C51_nothing.

(** Fixed parameters under an unknown name. *)
Theorem C51_unknown_args : forall s x,
  scipy_func s x SBad = Raise ValueError /\ const_norm s x SBad = Raise ValueError.
Proof. split; reflexivity. Qed.
Print Assumptions C51_unknown_args.

(** The result, whatever the optimizer does. *)
Theorem C51_result : forall minimize s c0 e0 oc oe maxiter tol wc r,
  scipy_run minimize s c0 e0 oc oe maxiter tol wc = Ok r ->
  exists pb o, scipy_problem s c0 e0 oc oe maxiter tol wc = Ok pb /\ minimize pb = Ok o /\
    q_fun r = o_fun o /\ q_success r = o_success o /\ q_msg r = o_msg o /\ q_jac r = o_jac o /\
    goodness (sc_fit s) (q_coeffs r) (q_exps r) = Ok (q_perf r) /\
    (oc = true -> oe = true -> (0 <= g_nbasis (ft_model (sc_fit s)))%Z ->
       q_coeffs r ++ q_exps r = o_x o /\
       (length (o_x o) = 2 * Z.to_nat (g_nbasis (ft_model (sc_fit s))) ->
        length (q_coeffs r) = Z.to_nat (g_nbasis (ft_model (sc_fit s))))%nat) /\
    (oc = true -> oe = false -> q_coeffs r = o_x o /\ q_exps r = e0) /\
    (oc = false -> oe = true -> q_coeffs r = c0 /\ q_exps r = o_x o).
Proof. exact run_faithful. Qed.
Print Assumptions C51_result.

(** The bounds. *)
Theorem C51_bounds : forall minimize s c0 e0 oc oe maxiter tol wc r pb o,
  scipy_run minimize s c0 e0 oc oe maxiter tol wc = Ok r ->
  scipy_problem s c0 e0 oc oe maxiter tol wc = Ok pb -> minimize pb = Ok o ->
  Forall2 (fun b x => xleb (Fin b) x = true) (pb_lower pb) (o_x o) ->
  (oc = true -> Forall (fun x => xleb (Fin (1 / 10 ^ 12)) x = true) (q_coeffs r)) /\
  (oe = true -> Forall (fun x => xleb (Fin (1 / 10 ^ 12)) x = true) (q_exps r)).
Proof. exact run_bounds. Qed.
Print Assumptions C51_bounds.

Example C51_example : exists r,
  scipy_run (fun pb => Ok (mkOpt (pb_x0 pb) (Fin 7) true [Fin 0] "done"%string)) (two_scipy true)
    (map Fin [1/3; 2/3]) (map Fin [PI; PI]) true true 100 (Fin 0) true = Ok r /\
  q_coeffs r = map Fin [1/3; 2/3] /\ q_exps r = map Fin [PI; PI] /\ q_fun r = Fin 7.
Proof.
  destruct (C42_goodness two_fit two_W [1; 1] true two_lays nan_mask 1 [1/3; 2/3] [PI; PI]) as (mx & v & _ & G & _);
    [apply two_fit_setting|apply two_sized|intros _; apply two_pos_e, PI_RGT_0|apply two_positive|apply two_val_nonneg; auto|].
  eexists. split; [|split; [|split]].
  - unfold scipy_run. cbn [scipy_problem andb orb bind pb_x0 o_x two_scipy sc_fit].
    change (py_slice None (Some (g_nbasis (ft_model two_fit))) (map Fin [1/3; 2/3] ++ map Fin [PI; PI])) with (map Fin [1/3; 2/3]).
    change (py_slice (Some (g_nbasis (ft_model two_fit))) None (map Fin [1/3; 2/3] ++ map Fin [PI; PI])) with (map Fin [PI; PI]).
    rewrite G. cbn [bind]. reflexivity.
  - reflexivity.
  - reflexivity.
  - reflexivity.
Qed.

(** The documented default measure is a class, not an object, and never accepted. *)
Theorem C51_default_measure_refuted : forall ga density model method weights n0 sph mask s,
  scipy_init ga density model MClass method weights n0 sph mask <> Ok s.
Proof. exact default_measure_fails. Qed.
Print Assumptions C51_default_measure_refuted.

(** ** C52 *)
Theorem C52_base_accepts : forall ga density model me n0 sph mask,
  (exists ft, base_init ga density model me n0 sph mask = Ok ft) <->
  Forall (fun x => xltb x (Fin 0) = false) density /\
  (exists p I, ga_points ga = Some p /\ ga_integrate ga = Some I /\
     (sph = true -> ndim p = 1%nat) /\
     (n0 = None -> exists x, integrate_with sph (mkGrid p I) density = Ok x)).
Proof. exact base_accepts. Qed.
Print Assumptions C52_base_accepts.

Theorem C52_base_raises : forall ga density model me n0 sph mask,
  (Exists (fun x => xltb x (Fin 0) = true) density -> base_init ga density model me n0 sph mask = Raise ValueError) /\
  (Forall (fun x => xltb x (Fin 0) = false) density ->
   (ga_points ga = None \/ ga_integrate ga = None -> base_init ga density model me n0 sph mask = Raise AttributeError) /\
   (forall p I, ga_points ga = Some p -> ga_integrate ga = Some I -> ndim p <> 1%nat -> sph = true ->
      base_init ga density model me n0 sph mask = Raise ValueError)).
Proof. exact base_raises. Qed.
Print Assumptions C52_base_raises.

Theorem C52_fpi_accepts : forall ga density model mask n0 sph ft i,
  base_init ga density model (MKL mask (Fin 100000)) n0 sph mask = Ok ft ->
  fit_integrate ft density = Ok i ->
  let lm := xdiv i (ft_integral ft) in
  (lm = Fin 0 \/ lm = NaN -> fpi_init ga density model mask n0 sph = Raise RuntimeError) /\
  (lm <> Fin 0 -> lm <> NaN -> fpi_init ga density model mask n0 sph = Ok (mkFpi ft lm)).
Proof. exact fpi_accepts. Qed.
Print Assumptions C52_fpi_accepts.

Theorem C52_fpi_base : forall ga density model mask n0 sph x,
  base_init ga density model (MKL mask (Fin 100000)) n0 sph mask = Raise x ->
  fpi_init ga density model mask n0 sph = Raise x.
Proof. exact fpi_base_fails. Qed.
Print Assumptions C52_fpi_base.

Theorem C52_scipy_accepts : forall ga density model me method weights n0 sph mask,
  (exists s, scipy_init ga density model me method weights n0 sph mask = Ok s) <->
  exists pts m ft, ga_points ga = Some pts /\ points_differ pts (g_points model) = Ok false /\
    nlen pts = length density /\
    (lower method = "slsqp"%string \/ lower method = "trust-constr"%string) /\
    me = MInst m /\ base_init ga density model m n0 sph mask = Ok ft.
Proof. exact scipy_accepts. Qed.
Print Assumptions C52_scipy_accepts.

Theorem C52_scipy_raises : forall ga density model me method weights n0 sph mask,
  (ga_points ga = None -> scipy_init ga density model me method weights n0 sph mask = Raise AttributeError) /\
  (forall pts, ga_points ga = Some pts ->
    (points_differ pts (g_points model) = Ok true ->
       scipy_init ga density model me method weights n0 sph mask = Raise ValueError) /\
    (points_differ pts (g_points model) = Ok false ->
      (nlen pts <> length density ->
         scipy_init ga density model me method weights n0 sph mask = Raise ValueError) /\
      (nlen pts = length density ->
        (lower method <> "slsqp"%string -> lower method <> "trust-constr"%string ->
           scipy_init ga density model me method weights n0 sph mask = Raise ValueError) /\
        (lower method = "slsqp"%string \/ lower method = "trust-constr"%string ->
           (me = MClass \/ me = MNot ->
              scipy_init ga density model me method weights n0 sph mask = Raise TypeError) /\
           (forall m x, me = MInst m -> base_init ga density model m n0 sph mask = Raise x ->
              scipy_init ga density model me method weights n0 sph mask = Raise x))))).
Proof. exact scipy_raises. Qed.
Print Assumptions C52_scipy_raises.

(** Matching points. *)
Theorem C52_points : forall u v,
  length u = length v ->
  (points_differ (A1 (map Fin u)) (A1 (map Fin v)) = Ok false <->
   forall i, (i < length u)%nat -> Rabs (nth i u 0 - nth i v 0) <= 1 / 10 ^ 12).
Proof. exact points_same_1d. Qed.
Print Assumptions C52_points.

(** Arrays of any shapes: NumPy combines sizes that are equal or one. *)
Theorem C52_points_shapes : forall p q, rectangular p -> rectangular q ->
  (points_differ p q = Ok false <->
   agree (fst (shape2 p)) (fst (shape2 q)) /\ agree (snd (shape2 p)) (snd (shape2 q)) /\
   forall i j, (i < extent (fst (shape2 p)) (fst (shape2 q)))%nat -> (j < extent (snd (shape2 p)) (snd (shape2 q)))%nat ->
     xltb (Fin (1 / 10 ^ 12)) (xabs (xsub (entry p i j) (entry q i j))) = false).
Proof. exact points_same. Qed.
Print Assumptions C52_points_shapes.

Theorem C52_points_raise : forall p q x, points_differ p q = Raise x <->
  x = ValueError /\ ~ (agree (fst (shape2 p)) (fst (shape2 q)) /\ agree (snd (shape2 p)) (snd (shape2 q))).
Proof. exact points_raise. Qed.
Print Assumptions C52_points_raise.

Example C52_points_example : let u := A2 3 [[Fin 0; Fin 0; Fin 1]; [Fin 1; Fin 2; Fin 3]] in
  rectangular u /\ points_differ u u = Ok false /\
  points_differ u (A2 3 [[Fin 0; Fin 0; Fin 1]; [Fin 1; Fin 2; Fin 4]]) <> Ok false /\
  points_differ u (A2 2 [[Fin 0; Fin 0]; [Fin 1; Fin 2]]) = Raise ValueError.
Proof.
  cbv zeta. assert (R : rectangular (A2 3 [[Fin 0; Fin 0; Fin 1]; [Fin 1; Fin 2; Fin 3]])) by (repeat constructor).
  split; [exact R|]. split; [|split].
  - apply points_same; auto. cbn [shape2 fst snd length]. split; [left; auto|]. split; [left; auto|]. intros i j Hi Hj. unfold extent in Hi, Hj. cbn in Hi, Hj.
    cbn [entry slot Nat.eqb length]. destruct i as [|[|]]; [| |lia]; (destruct j as [|[|[|]]]; [| | |lia]); cbn [nth xsub xneg xadd xabs xltb];
      apply rltb_false; rewrite Rplus_opp_r, Rabs_R0; lra.
  - intros H. apply points_same in H; [|exact R|repeat constructor]. destruct H as (_ & _ & H). specialize (H 1%nat 2%nat).
    cbn [shape2 fst snd length extent Nat.eqb] in H. specialize (H ltac:(lia) ltac:(lia)).
    cbn [entry slot length Nat.eqb nth xsub xneg xadd xabs xltb] in H. rewrite rltb_true in H; [discriminate|]. rewrite Rabs_left by lra. lra.
  - reflexivity.
Qed.

(** So a grid with a single point is accepted for a model on several points, all at the place of
    that point, and conversely: the numbers of points are not compared.  Evaluating the objective
    then raises ValueError. *)
Theorem C52_single_point_refuted : forall (a : R) n,
  points_differ (A1 [Fin a]) (A1 (repeat (Fin a) n)) = Ok false /\
  points_differ (A1 (repeat (Fin a) n)) (A1 [Fin a]) = Ok false.
Proof. exact single_point. Qed.
Print Assumptions C52_single_point_refuted.

Example C52_single_point_example : exists m s,
  atomic_init (VArr (A1 [Fin 1; Fin 1])) VNone (VInt 1) (VInt 0) false = Ok m /\
  scipy_init (mkGridArg (Some (A1 [Fin 1])) (Some (fun y => Ok (xsum y)))) [Fin 1] (GAtom m) (MInst MSq) "slsqp" None
    (Some (Fin 1)) false (Fin 0) = Ok s /\
  scipy_func s [Fin 1; Fin 1] SBoth = Raise ValueError.
Proof.
  eexists. eexists. split; [reflexivity|]. split.
  - unfold scipy_init. cbn [ga_points].
    change (g_points (GAtom _)) with (A1 (repeat (Fin 1) 2)). rewrite (proj1 (single_point 1 2)). cbn [bind nlen length Nat.eqb negb].
    change (str_in (lower "slsqp") ["slsqp"; "trust-constr"]%string) with true. cbn [negb].
    unfold base_init. cbn [existsb xltb]. rewrite rltb_false by lra. reflexivity.
  - reflexivity.
Qed.

Example C52_example :
  (exists ft, base_init (mkGridArg (Some (gr_points two_grid)) (Some (gr_integrate two_grid))) (map Fin [1; 1])
     (GAtom two_atom) two_me (Some (Fin 1)) false (Fin nan_mask) = Ok ft) /\
  Exists (fun x => xltb x (Fin 0) = true) [Fin 1; Fin (-1)] /\
  (exists s, scipy_init (mkGridArg (Some (gr_points two_grid)) (Some (gr_integrate two_grid))) (map Fin [1; 1])
     (GAtom two_atom) (MInst two_me) "SLSQP"%string None (Some (Fin 1)) false (Fin nan_mask) = Ok s) /\
  lower "Newton"%string <> "slsqp"%string /\ lower "Newton"%string <> "trust-constr"%string.
Proof.
  split; [eexists; exact two_base|]. split; [right; left; apply rltb_true; lra|].
  split; [eexists; exact (two_scipy_init true)|]. split; discriminate.
Qed.

(** ** C76 *)
Theorem C76_update : forall fp W f norm lays mask N c e uc ue,
  fpi_setting fp W f norm lays mask N -> sized lays c e -> nonneg c ->
  (norm = true -> positive e) -> uc || ue = true ->
  (ue = true -> forall k, (k < nfun lays)%nat -> avg2 mask W f norm lays c e k <> 0) ->
  exists c' e',
    update_params fp (map Fin c) (map Fin e) uc ue = Ok (map Fin c', map Fin e') /\
    sized lays c' e' /\
    (forall k, (k < nfun lays)%nat ->
       nth k c' 0 = if uc then nth k c 0 * avg1 mask W f norm lays c e k / (quad W f / N) else nth k c 0) /\
    (forall k, (k < nfun lays)%nat ->
       nth k e' 0 = if ue then half_power (kind (hd [] lays) k) * avg1 mask W f norm lays c e k /
                               avg2 mask W f norm lays c e k
                    else nth k e 0).
Proof. exact update_formula. Qed.
Print Assumptions C76_update.

Example C76_example :
  avg1 nan_mask two_W [1; 1] true two_lays [1/3; 2/3] [PI; PI] 1 = 1/2 /\
  avg2 nan_mask two_W [1; 1] true two_lays [1/3; 2/3] [PI; PI] 1 = 5/16 /\
  (forall k, (k < nfun two_lays)%nat -> avg2 nan_mask two_W [1; 1] true two_lays [1/3; 2/3] [PI; PI] k <> 0) /\
  half_power (kind (hd [] two_lays) 1) * (1/2) / (5/16) = 12/5.
Proof.
  split; [apply two_avg1; auto; lia|]. split; [apply two_avg2; auto; lia|].
  split; [intros k Hk; rewrite two_avg2; auto; lra|]. unfold half_power. cbn. field.
Qed.
