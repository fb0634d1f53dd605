(** Property C110: functions that start alike, and the notebook /repo/examples/molecular_density.ipynb. *)
From Coquelicot Require Import Coquelicot.
From Coq Require Import Reals List ZArith Lia Lra Bool.
From Verif Require Import XR SpecDens SpecMeas SpecGrid ModelDens ModelMeas ModelGrid ModelFit Lists ProofDens ProofMeas ProofInit SpecFit SpecZero SpecScript3 SpecScript5
  ProofFPI ProofFPI2 ProofFPI3 ProofFPI4 ProofScipy ProofScipy2 ProofScipy3 ProofZero ProofFitEx ProofTwin.
Import ListNotations.
Local Open Scope R_scope.

(** ** C110 *)
(** Two functions of the same type on the same center with equal start exponents keep equal exponents, and the quotient of their
    coefficients never changes, whatever the thresholds and the number of iterations. *)
Theorem C110_twins : forall fp W f norm lays mask N c e uc ue maxiter th k l,
  fpi_setting fp W f norm lays mask N -> 0 < N -> nonneg W -> nan_passes (fp_fit fp) (length W) -> supported W f lays (nfun lays) -> uc || ue = true ->
  sized lays c e -> positive c -> positive e ->
  twins lays k l -> (k < nfun lays)%nat -> (l < nfun lays)%nat -> nth k e 0 = nth l e 0 ->
  exists r c' e', fpi_run fp (VArr (A1 (map Fin c))) (VArr (A1 (map Fin e))) uc ue maxiter th = Ok r /\
    r_coeffs r = map Fin c' /\ r_exps r = map Fin e' /\ sized lays c' e' /\ positive c' /\ positive e' /\
    nth k e' 0 = nth l e' 0 /\ nth k c' 0 / nth l c' 0 = nth k c 0 / nth l c 0.
Proof. exact run_twin. Qed.
Print Assumptions C110_twins.

(** The second of the two functions is of no use: the fit of the model without it, started with the sum of the two coefficients,
    goes through the same model values with the same sums of coefficients. *)
Theorem C110_merge : forall fp fp' W f norm lays mask N c e uc ue k l n,
  fpi_setting fp W f norm lays mask N -> fpi_setting fp' W f norm (map (without l) lays) mask N -> 0 < N -> nonneg W -> supported W f lays (nfun lays) ->
  sized lays c e -> positive c -> positive e -> uc || ue = true ->
  twins lays k l -> (k < nfun lays)%nat -> (l < nfun lays)%nat -> k <> l -> nth k e 0 = nth l e 0 ->
  exists c' e', iterate fp uc ue n (map Fin c) (map Fin e) = Ok (map Fin c', map Fin e') /\
    iterate fp' uc ue n (map Fin (merge k l c)) (map Fin (without l e)) = Ok (map Fin (merge k l c'), map Fin (without l e')) /\
    values norm (map (without l) lays) (merge k l c') (without l e') = values norm lays c' e' /\ rsum (merge k l c') = rsum c'.
Proof. exact iterate_merge. Qed.
Print Assumptions C110_merge.

(** The notebook on any points, any three nuclei and any nonnegative density and weights such that every nucleus sees a
    point of positive weight and density away from it: the run returns positive parameters after at most 15 iterations,
    the three functions on each hydrogen end with equal coefficients and equal exponents, the model has the values of a
    model with one function per hydrogen, and the column plotted as divergence (index 3) is the integral of the squared difference. *)
Theorem C110_notebook : forall rows A B C I W f,
  Forall (fun x => length x = 3%nat) (rows ++ [A; B; C]) -> length W = length rows -> length f = length rows -> quadrature I W -> nonneg W -> nonneg f ->
  (forall P, In P [A; B; C] -> exists i, (i < length W)%nat /\ 0 < nth i W 0 /\ 0 < nth i f 0 /\ dist (nth i rows []) P <> 0) ->
  let lays := three_lays water_basis rows A B C in
  exists fp r c e, fpi_setting fp W f true lays 0 (rdot W f) /\ 0 < rdot W f /\
    mol_notebook (A2 3 (map (map Fin) rows)) I (map Fin f) (A2 3 (map (map Fin) [A; B; C])) = Ok r /\
    r_coeffs r = map Fin c /\ r_exps r = map Fin e /\ length c = 16%nat /\ length e = 16%nat /\ positive c /\ positive e /\
    (forall k l, (10 <= k < 13 /\ 10 <= l < 13 \/ 13 <= k < 16 /\ 13 <= l < 16)%nat -> nth k e 0 = nth l e 0 /\ nth k c 0 = nth l c 0) /\
    (0 < length (r_perf r) <= 15)%nat /\
    row_of 0 W f (values true (three_lays [(7, 3); (1, 0); (1, 0)]%nat rows A B C) (merged_coeffs c) (merged_exps e)) (last (r_perf r) []) /\
    rsum c <= rdot W f + rdot W f / 2 ^ 1022.
Proof. exact water_runs. Qed.
Print Assumptions C110_notebook.

(** Weighted sums are quadratures. *)
Lemma weighted W : quadrature (fun y => Ok (xsum (map2 xmul (map Fin W) y))) W.
Proof.
  split.
  - intros y L. do 2 f_equal. unfold rdot, rsum. revert y L. induction W as [|a W IH]; intros [|b y] L; try discriminate; [reflexivity|]. cbn [map map2 fold_right xsum]. unfold xsum in IH. rewrite IH by (cbn in L; lia). reflexivity.
  - intros y L. eexists. split; [reflexivity|]. intros Hi. apply xsum_nan, map2_nan_r; [rewrite map_length; lia|exact Hi].
Qed.

Definition single_atom : atomic := mkAtomic (A1 [Fin (1/2); Fin 1]) [Fin 0] [Fin (1/2); Fin 1] 1 0 true.
Definition single_fpi : fpi := mkFpi (mkFit two_grid [Fin 1; Fin 1] (GAtom single_atom) two_me false (Fin 1) (Fin nan_mask)) (Fin (1/2)).
Lemma single_setting : fpi_setting single_fpi two_W [1; 1] true (map (without 1) two_lays) nan_mask 1.
Proof.
  constructor; auto; [|apply mask_nonneg]. exists (arg_of two_grid), false, (Some (Fin 1)), (GAtom single_atom). split; [exact two_integrator|]. split; [|split; [|reflexivity]].
  - change (views (GAtom single_atom) true (map (lay_atom 1 0) (map Rabs [1/2; 1]))). apply (views_atom (A1 (map Fin [1/2; 1])) VNone _ 1 0 true); [apply geom_1d_default|lia|].
    cbn. unfold single_atom. replace (Rabs (1/2 + - 0)) with (1/2) by (rewrite Rabs_right; lra). replace (Rabs (1 + - 0)) with 1 by (rewrite Rabs_right; lra). reflexivity.
  - assert (B : base_init (arg_of two_grid) (map Fin [1; 1]) (GAtom single_atom) two_me (Some (Fin 1)) false (Fin nan_mask) = Ok (fp_fit single_fpi))
      by (unfold base_init, arg_of; cbn [map existsb xltb ga_points ga_integrate]; rewrite !rltb_false by lra; reflexivity).
    destruct (fpi_accepts _ _ _ _ _ _ _ (Fin (1/2)) B) as [_ H].
    + unfold fit_integrate, integrate_with. cbn [ft_spherical ft_grid fp_fit single_fpi]. rewrite two_int by reflexivity. unfold rdot, rsum. cbn. do 2 f_equal. field.
    + cbn in H. rewrite reqb_false in H by lra. replace (1/2/1) with (1/2) in H by field. apply H; [|discriminate]. intros E. injection E. lra.
Qed.

(** Two s-type functions on one center (coefficients 1/3 and 2/3, exponents pi) against one; the notebook with one point. *)
Example C110_example :
  (fpi_setting two_fpi two_W [1; 1] true two_lays nan_mask 1 /\ fpi_setting single_fpi two_W [1; 1] true (map (without 1) two_lays) nan_mask 1 /\
   nan_passes two_fit (length two_W) /\ supported two_W [1; 1] two_lays (nfun two_lays) /\ twins two_lays 0 1 /\
   merge 0 1 [1/3; 2/3] = [1/3 + 2/3] /\ without 1 [PI; PI] = [PI]) /\
  (quadrature (fun y => Ok (xsum (map2 xmul (map Fin [1]) y))) [1] /\
   (forall P, In P [[0; 0; 0]; [1; 0; 0]; [0; 1; 0]] -> exists i, (i < 1)%nat /\ 0 < nth i [1] 0 /\ 0 < nth i [1] 0 /\ dist (nth i [[0; 0; 1]] []) P <> 0) /\
   exists r, mol_notebook (A2 3 (map (map Fin) [[0; 0; 1]])) (fun y => Ok (xsum (map2 xmul (map Fin [1]) y))) (map Fin [1]) (A2 3 (map (map Fin) [[0; 0; 0]; [1; 0; 0]; [0; 1; 0]])) = Ok r).
Proof.
  assert (D : forall P, In P [[0; 0; 0]; [1; 0; 0]; [0; 1; 0]] -> exists i, (i < 1)%nat /\ 0 < nth i [1] 0 /\ 0 < nth i [1] 0 /\ dist (nth i [[0; 0; 1]] []) P <> 0).
  { intros P I. exists 0%nat. split; [lia|]. split; [cbn; lra|]. split; [cbn; lra|]. apply Rgt_not_eq, sqrt_lt_R0. cbn [In] in I. destruct I as [<-|[<-|[<-|[]]]]; cbn; lra. }
  split.
  - split; [exact two_setting|]. split; [exact single_setting|]. split; [apply (radial_passes two_fit [Fin (1/2); Fin 1]); [reflexivity|cbn; lia]|]. split; [exact two_supported|].
    split; [|split; reflexivity]. intros lay I. unfold two_lays in I. cbn [map In] in I. destruct I as [<-|[<-|[]]]; split; reflexivity.
  - split; [apply weighted|]. split; [exact D|].
    destruct (C110_notebook [[0; 0; 1]] [0; 0; 0] [1; 0; 0] [0; 1; 0] _ [1] [1] ltac:(repeat constructor) eq_refl eq_refl (weighted [1]) ltac:(repeat constructor; lra) ltac:(repeat constructor; lra) D) as (fp & r & c & e & _ & _ & H & _).
    exists r. exact H.
Qed.
