(** Proofs about whole runs of the fixed point iteration (C42-C48). *)
From Coquelicot Require Import Coquelicot.
From Coq Require Import Reals List ZArith Lia Lra Bool.
From Verif Require Import XR SpecDens SpecMeas SpecGrid ModelDens ModelMeas ModelGrid ModelFit Lists ProofDens
  ProofDeriv ProofMeas ProofGrid ProofCubic SpecFit ProofFitView ProofFit ProofEM.
Import ListNotations.
Local Open Scope R_scope.

(** ** Grids as integrators (C42) *)

Definition arg_of (g : grid) : grid_arg := mkGridArg (Some (gr_points g)) (Some (gr_integrate g)).

Lemma radial_integrator pts : exists w, length w = length pts /\
  (ascending pts -> nonneg w) /\
  (forall y, length y = length pts -> rdot w y = trap pts y) /\
  integrator (arg_of (radial_grid (map Fin pts))) false w /\
  integrator (arg_of (radial_grid (map Fin pts))) true
    (map2 (fun w r => w * (4 * PI * r ^ 2)) w pts).
Proof.
  destruct (trap_quadrature pts) as (w & Hl & Hp & Hq). exists w. repeat split; auto.
  - intros y Hy. symmetry. auto.
  - apply int_plain. intros y Hy. cbn [radial_grid gr_integrate].
    rewrite integrate_ok by lia. now rewrite Hq by lia.
  - apply (int_sph pts _ w); [auto|]. intros y Hy. cbn [radial_grid gr_integrate].
    rewrite integrate_ok by lia. now rewrite Hq by lia.
Qed.

Lemma cubic_integrator o axes (n0 n1 n2 : nat) g :
  cubic_init o axes (Z.of_nat n0) (Z.of_nat n1) (Z.of_nat n2) = Ok g ->
  integrator (arg_of (cubic_grid g)) false (repeat (Rabs (det3 axes)) (n0 * n1 * n2)) /\
  nonneg (repeat (Rabs (det3 axes)) (n0 * n1 * n2)).
Proof.
  intros H. destruct (cubic_integral _ _ _ _ _ _ H) as [_ Hi]. split.
  - apply int_plain. intros y Hy. rewrite repeat_length in Hy. cbn [cubic_grid gr_integrate].
    rewrite Hi by auto. now rewrite rdot_repeat by auto.
  - apply Forall_forall. intros x Hx. apply repeat_spec in Hx. subst. apply Rabs_pos.
Qed.

(** ** goodness_of_fit (C42) *)

Lemma fold_xmax_fin l : forall a, exists x, fold_left xmax (map Fin l) (Fin a) = Fin x /\
  (x = a \/ In x l) /\ a <= x /\ forall y, In y l -> y <= x.
Proof.
  induction l as [|b l IH]; intros a.
  - exists a. simpl. repeat split; auto; try lra. intros y [].
  - cbn [map fold_left]. assert (E : exists z, xmax (Fin a) (Fin b) = Fin z /\ (z = a \/ z = b) /\ a <= z /\ b <= z).
    { unfold xmax. cbn [xltb]. unfold rltb. destruct (Rlt_dec a b).
      - exists b. repeat split; auto; lra.
      - exists a. repeat split; auto; lra. }
    destruct E as (z & -> & Hz & H1 & H2). destruct (IH z) as (x & -> & Hx & H3 & H4).
    exists x. repeat split; auto; try lra.
    + destruct Hx as [E|Hx]; [subst x|right; now right].
      destruct Hz as [E|E]; subst z; [now left|right; now left].
    + intros y [E|Hy]; [subst; lra|auto].
Qed.
Lemma np_max_fin l : l <> [] -> exists x, np_max (map Fin l) = Ok (Fin x) /\ is_max l x.
Proof.
  destruct l as [|a l]; [congruence|]. intros _. unfold np_max. cbn [map xmaxl].
  destruct (fold_xmax_fin l a) as (x & -> & H1 & H2 & H3). exists x. split; auto. split.
  - destruct H1 as [E|E]; [subst; now left|now right].
  - intros y [E|Hy]; [subst; auto|auto].
Qed.

Lemma rdot_nonneg w v : nonneg w -> nonneg v -> 0 <= rdot w v.
Proof.
  unfold nonneg. intros H. revert v. induction H as [|x w Hx H IH]; intros [|y v] Hv;
    try (unfold rdot; simpl; lra).
  unfold rdot in *. cbn [map2]. rewrite rsum_cons. inversion Hv; subst.
  specialize (IH v H3). assert (0 <= x * y) by now apply Rmult_le_pos. lra.
Qed.

Lemma abs_diff_fin f g : length f = length g ->
  abs_diff (map Fin f) (map Fin g) = Ok (map Fin (map2 (fun x y => Rabs (x - y)) f g)).
Proof.
  intros H. unfold abs_diff. rewrite bcast_same by now rewrite !map_length. f_equal.
  now apply (map2_fin (fun x y => xabs (xsub x y))).
Qed.

(** The list goodness_of_fit returns for given model values. *)
Definition measures (W f g v : list R) (mx : R) : list xr :=
  map Fin [quad W g; quad W (map2 (fun x y => Rabs (x - y)) f g); mx; quad W (map2 sq_fn f g); quad W v].

Lemma goodness_gen ft W f m mask norm lays nb c e v :
  fitok ft W f m mask -> vfacts m norm lays nb -> length lays = length W -> lays <> [] ->
  length c = nb -> length e = nb -> (norm = true -> positive e) ->
  measure_evaluate (MKL (Fin mask) (Fin 100000)) (VArr (A1 (map Fin f)))
    (VArr (A1 (map Fin (values norm lays c e)))) (VBool false) = Ok (map Fin v, None) ->
  length v = length f ->
  exists mx, is_max (map2 (fun x y => Rabs (x - y)) f (values norm lays c e)) mx /\
    goodness ft (map Fin c) (map Fin e) = Ok (measures W f (values norm lays c e) v mx).
Proof.
  intros Hft Hv HlW Hne Hc He Hpe Hkl Hlv. pose proof (fo_len _ _ _ _ _ Hft) as Hf.
  set (g := values norm lays c e) in *.
  assert (Hg : length g = length W) by (unfold g, values; rewrite map_length; auto).
  assert (HWn : W <> []).
  { intros E. rewrite E in HlW. destruct lays; [congruence|discriminate]. }
  assert (Hdn : map2 (fun x y => Rabs (x - y)) f g <> []).
  { destruct W; [congruence|]. destruct f; [discriminate|]. destruct g; [discriminate|]. discriminate. }
  destruct (np_max_fin _ Hdn) as (mx & Hmx & Hmax). exists mx. split; auto.
  unfold goodness. rewrite (fo_model _ _ _ _ _ Hft), (vf_eval _ _ _ _ Hv) by auto. cbn [bind fst].
  fold g. rewrite (fo_dens _ _ _ _ _ Hft), abs_diff_fin by lia. cbn [bind].
  rewrite !(fo_int _ _ _ _ _ Hft) by (rewrite ?map2_length; lia). cbn [bind].
  rewrite Hmx. cbn [bind].
  destruct (sq_value f g false) as (d & -> & _); [lia|]. cbn [bind fst].
  rewrite !(fo_int _ _ _ _ _ Hft) by (rewrite ?map2_length; lia). cbn [bind].
  rewrite (fo_mask _ _ _ _ _ Hft), Hkl. cbn [bind fst].
  rewrite !(fo_int _ _ _ _ _ Hft) by lia. reflexivity.
Qed.

Lemma all_above_kept mask f g : length f = length g -> positive f -> all_above mask f g -> all_kept mask f g.
Proof.
  intros H1 H2 H3. split; auto. intros i Hi. split; [now apply positive_nth|now apply H3].
Qed.

Lemma goodness_kept ft W f m mask norm lays nb c e :
  fitok ft W f m mask -> vfacts m norm lays nb -> length lays = length W -> lays <> [] ->
  length c = nb -> length e = nb -> (norm = true -> positive e) ->
  0 <= mask -> positive f -> all_above mask f (values norm lays c e) ->
  exists mx, is_max (map2 (fun x y => Rabs (x - y)) f (values norm lays c e)) mx /\
    goodness ft (map Fin c) (map Fin e) =
      Ok (measures W f (values norm lays c e) (map2 kl_fn f (values norm lays c e)) mx).
Proof.
  intros Hft Hv HlW Hne Hc He Hpe Hm Hpf Hk. pose proof (fo_len _ _ _ _ _ Hft) as Hf.
  assert (length (values norm lays c e) = length W) by (unfold values; rewrite map_length; auto).
  eapply goodness_gen; eauto.
  - apply kl_api_kept; auto. apply all_above_kept; auto. lia.
  - rewrite map2_length. lia.
Qed.
