(** Greedy objects on cubic grids. *)
From Coquelicot Require Import Coquelicot.
From Coq Require Import String.
From Coq Require Import Reals List ZArith Bool Lia Lra.
From Verif Require Import XR PyStr SpecDens SpecMeas SpecGrid SpecFit SpecGreedy ModelDens ModelMeas ModelGrid ModelFit ModelGreedy Lists ProofDens ProofGrid ProofCubic ProofGreedy5 ProofGreedyEx2 ProofFit ProofErr5.
Import ListNotations.
Local Open Scope R_scope.

Section Cubic.
Context (o : vec) (axes : mat) (n0 n1 n2 : nat) (g : cubic) (f : list R).
Context (G : cubic_init o axes (Z.of_nat n0) (Z.of_nat n1) (Z.of_nat n2) = Ok g) (D : det3 axes <> 0) (P : positive f) (L : length f = (n0 * n1 * n2)%nat) (Ne : f <> []).
Let ga := mkGridArg (Some (gr_points (cubic_grid g))) (Some (gr_integrate (cubic_grid g))).
Let rows := map (fun '(x, y, z) => [Fin x; Fin y; Fin z]) (cg_points g).

Lemma rows_length : length rows = (n0 * n1 * n2)%nat.
Proof. destruct (cubic_enum o axes n0 n1 n2) as (g' & G' & Lg & _). rewrite G in G'. injection G' as <-. unfold rows. now rewrite map_length. Qed.
Lemma f_sum : 0 < rsum f.
Proof.
  destruct f as [|x l]; [congruence|]. inversion P; subst. rewrite rsum_cons. enough (0 <= rsum l) by lra. clear - H2.
  induction H2; [cbn; lra|]. rewrite rsum_cons. lra.
Qed.
Lemma f_integral : gr_integrate (cubic_grid g) (map Fin f) = Ok (Fin (Rabs (det3 axes) * rsum f)).
Proof. cbn [cubic_grid gr_integrate]. exact (proj2 (cubic_integral o axes n0 n1 n2 g G) f L). Qed.
Lemma cubic_base m me mask : base_init ga (map Fin f) m me None false mask =
  Ok (mkFit (cubic_grid g) (map Fin f) m me false (Fin (Rabs (det3 axes) * rsum f)) mask).
Proof.
  unfold base_init. rewrite no_negative by (apply Forall_forall; intros z Iz; apply Rlt_le; exact (proj1 (Forall_forall _ _) P z Iz)).
  cbn [ga ga_points ga_integrate]. rewrite andb_false_r. unfold integrate_with. cbn [gr_integrate] . rewrite f_integral. reflexivity.
Qed.

Lemma kl_cubic gt lt li gi mask : exists gk, greedy_kl_init ga (map Fin f) "pick-one" gt lt li gi mask None false = Ok (gk, PickOne) /\
  forall rand ch ob F d mx extra fuel, 0 < F ->
  greedy_run (kl_strategy gk rand) ch ob (VFloat (Fin F)) d mx extra fuel = Some (Raise ValueError).
Proof.
  assert (I : exists gk, greedy_kl_init ga (map Fin f) "pick-one" gt lt li gi mask None false = Ok (gk, PickOne)).
  { unfold greedy_kl_init. cbn [ga ga_points cubic_grid gr_points atomic_init as_integral as_int Z.ltb Z.compare Z.add Z.eqb check_center bind radii_of].
    unfold fpi_init. fold (cubic_grid g). fold ga. rewrite cubic_base. cbn [bind]. unfold fit_integrate, integrate_with. cbn [ft_spherical ft_grid ft_integral]. rewrite f_integral. cbn [bind].
    set (q := Rabs (det3 axes) * rsum f). assert (Q : q <> 0). { unfold q. apply Rgt_not_eq, Rmult_lt_0_compat; [now apply Rabs_pos_lt|apply f_sum]. }
    cbn [xdiv]. rewrite (reqb_false _ _ Q). replace (q / q) with 1 by (field; exact Q). cbn [xeqb xisnan]. rewrite reqb_false by lra. cbn [orb bind]. eexists. reflexivity. }
  destruct I as (gk & I). exists gk. split; [exact I|]. intros.
  apply (kl_init_space _ _ _ _ _ _ _ _ _ _ _ _ 3 rows I eq_refl). cbn [xleb]. apply rleb_false; lra.
Qed.

Lemma same_points (l : list vec) : points_differ (A2 3 (map (fun '(x, y, z) => [Fin x; Fin y; Fin z]) l)) (A2 3 (map (fun '(x, y, z) => [Fin x; Fin y; Fin z]) l)) = Ok false.
Proof.
  unfold points_differ. cbn [as_rows]. rewrite !fits_refl. cbn [andb]. rewrite stretch_same by reflexivity. f_equal. induction l as [|[[x y] z] l IH]; [reflexivity|]. cbn [map map2 existsb]. rewrite IH, stretch_same by reflexivity. cbn [map2 existsb].
  assert (F : forall t, far (Fin t) (Fin t) = false). { intros t. unfold far. cbn [xsub xadd xneg xabs xltb]. apply rltb_false. rewrite Rplus_opp_r, Rabs_R0. enough (0 < / 10 ^ 12) by lra. apply Rinv_0_lt_compat, pow_lt. lra. }
  now rewrite !F.
Qed.

Lemma ls_cubic lt gt norm n wc li gi : exists gl, greedy_ls_init ga (map Fin f) "pick-one" lt gt "slsqp" norm (Some n) wc li gi false = Ok (gl, PickOne) /\
  forall nnls minimize rand, (length f <> 1)%nat -> (length f <> 3)%nat ->
  forall ch ob F d mx extra fuel, 0 < F ->
  greedy_run (ls_strategy gl nnls minimize rand) ch ob (VFloat (Fin F)) d mx extra fuel = Some (Raise ValueError).
Proof.
  assert (I : exists gl, greedy_ls_init ga (map Fin f) "pick-one" lt gt "slsqp" norm (Some n) wc li gi false = Ok (gl, PickOne)).
  { unfold greedy_ls_init. cbn [ga ga_points cubic_grid gr_points atomic_init as_integral as_int Z.ltb Z.compare Z.add Z.eqb check_center bind radii_of].
    unfold scipy_init. cbn [ga ga_points cubic_grid gr_points g_points a_points]. rewrite same_points. cbn [bind]. fold rows. cbn [nlen]. rewrite rows_length, map_length, L, Nat.eqb_refl. cbn [negb].
    change (str_in (lower "slsqp") ["slsqp"; "trust-constr"]%string) with true. cbn [negb].
    unfold base_init. rewrite no_negative by (apply Forall_forall; intros z Iz; apply Rlt_le; exact (proj1 (Forall_forall _ _) P z Iz)). cbn [ga ga_points ga_integrate]. rewrite andb_false_r. cbn [bind]. eexists. reflexivity. }
  destruct I as (gl & I). exists gl. split; [exact I|]. intros.
  pose proof rows_length as R. apply (ls_init_space _ _ _ _ _ _ _ _ _ _ _ _ _ _ 3 rows I eq_refl); try lia. cbn [xleb]. apply rleb_false; lra.
Qed.
End Cubic.
