(** Shipped atoms on uniform grids (C111). *)
From Coq Require Import Reals.
From Coquelicot Require Import Coquelicot.
From Coq Require Import String Ascii List Bool Arith ZArith Lia Lra.
From Verif Require Import XR PyStr PyText SpecParse ProofText ModelParse SpecFile ModelSlater SpecDens SpecMeas SpecGrid SpecSlater ProofSlater ModelLoad SpecLoad ProofLoad ProofOver SpecKin ProofKin
  ProofConf ProofConf2 ProofFile ProofFile2 ProofCheck DataSlater SpecShipped ProofShipped ProofNames ProofElec ModelDens ModelGrid ModelFit ProofGrid SpecFit ProofFit ProofFPI2 SpecZero ProofZero SpecSteps ProofSteps ProofGridElec.
Import ListNotations.
Local Open Scope R_scope.

Lemma shipped_subs fl d e f s fuel : reads_decimals fl -> In (d, e, f) data_names -> (d, e) <> (Cation, "cs"%string) -> same_name (str s) (str e) -> (100 <= fuel)%nat ->
  exists data L, slater_atoms fl data_files (Some s) (folder_eqb d Anion) (folder_eqb d Cation) fuel = Some (Ok data) /\
    describes (atom_of data) L /\ Forall valid L /\ Forall (fun s => 0 <= s_occ s) L /\
    Rabs (rsum (map (fun s => s_occ s * orb_norm s) L) - IZR (electron_number d e)) <= 5 / 10 ^ 7 * IZR (electron_number d e).
Proof.
  intros Hf I Nc S Hl. destruct (shipped_loads_full fl (val fl) (val_ok fl Hf) d e f s I Nc S fuel Hl) as (C & ps & data & F & Cf & Sl & R & T & Bo & D & h & Ih & _ & Eh).
  assert (Nr : near 5 C). { rewrite Eh. apply near_blocks; auto. exact (proj1 (file_near_ok _ Ih)). }
  destruct Nr as (Fi & Po & Nn). destruct (subs_exist _ C ps Bo Fi) as (L & FL). assert (De := loaded _ _ _ _ _ Bo D R FL). assert (V := subs_valid _ _ _ Po FL). assert (O := subs_occ _ _ _ FL). specialize (Nn ps L FL).
  exists data, L. split; auto. split; auto. split; auto. split; auto.
  assert (Ez : IZR (electron_number d e) = rsum (map s_occ L)).
  { rewrite <- T. destruct De as (Oc & _). rewrite <- Oc. cbn [atom_of at_occ]. clear. induction (sd_occ data) as [|z zs IH]; auto. cbn [map]. change (SpecParse.zsum (z :: zs)) with (z + SpecParse.zsum zs)%Z. change (rsum (?a :: ?b)) with (a + rsum b). rewrite plus_IZR. now rewrite IH. }
  rewrite Ez. clear -Nn O. induction L as [|x L IH].
  - cbn. rewrite Rminus_0_r, Rabs_R0. lra.
  - inversion Nn; inversion O; subst. specialize (IH H2 H6). cbn [map]. change (rsum (?a :: ?b)) with (a + rsum b).
    set (A := rsum (map (fun s => (s_occ s * orb_norm s)) L)) in *. set (B := rsum (map s_occ L)) in *.
    replace (s_occ x * orb_norm x + A - (s_occ x + B)) with (s_occ x * (orb_norm x - 1) + (A - B)) by ring.
    eapply Rle_trans; [apply Rabs_triang|]. rewrite Rabs_mult, (Rabs_pos_eq (s_occ x)) by auto.
    assert (Q : s_occ x * Rabs (orb_norm x - 1) <= s_occ x * (5 / 10 ^ 7)) by (apply Rmult_le_compat_l; auto). lra.
Qed.
Lemma shipped_positive d e f : In (d, e, f) data_names -> (0 < electron_number d e)%Z.
Proof.
  intros I. assert (K : forallb (fun x => Z.ltb 0 (electron_number (fst (fst x)) (snd (fst x)))) data_names = true) by (vm_compute; reflexivity).
  rewrite forallb_forall in K. apply K in I. now apply Z.ltb_lt in I.
Qed.

Lemma rho_nonneg L r : Forall (fun s => 0 <= s_occ s) L -> 0 <= rho L r.
Proof.
  intros O. unfold rho, rho_w. apply Rmult_le_pos; [|left; apply Rinv_0_lt_compat; pose proof PI_RGT_0; lra].
  induction O as [|s L H O IH]; [unfold rsum; cbn; lra|]. cbn [map]. change (rsum (?a :: ?b)) with (a + rsum b). apply Rplus_le_le_0_compat; [apply Rmult_le_pos; [exact H|apply pow2_ge_0]|exact IH].
Qed.
(** Positive quadrature, on a uniform grid. *)
Lemma atom_grid a L N0 tol : describes a L -> Forall valid L -> Rabs (rsum (map (fun s => s_occ s * orb_norm s) L) - N0) <= tol ->
  forall eps, 0 < eps -> exists b0, 0 < b0 /\ forall b, b0 <= b -> exists n0 : Z, (1 < n0)%Z /\ forall n, (n0 <= n)%Z ->
    let pts := equispaced 0 b (Z.to_nat n) in
    uniform_init (VInt n) (VFloat (Fin 0)) (VFloat (Fin b)) = Ok (map Fin pts) /\ strictly_ascending pts /\ (2 <= length pts)%nat /\
    Rabs (trap pts (map (fun r => 4 * PI * r ^ 2 * rho L r) pts) - N0) < tol + eps.
Proof.
  intros D V Ht eps He. destruct (uniform_limit (fun r => 4 * PI * r ^ 2 * rho L r) _ (fun b Hb => tame_rho b L Hb V) (rho_integral L V) eps He) as (b0 & B0 & H).
  exists b0. split; auto. intros b Hb. destruct (H b Hb) as (n0 & N1 & Hn). exists n0. split; auto. intros n Hn'. cbv zeta.
  split; [apply uniform_ok; try reflexivity; [lia|lra]|]. split; [apply equispaced_asc; lra|]. split; [rewrite equispaced_length; lia|].
  specialize (Hn n Hn'). set (T := trap _ _) in *. set (N := rsum _) in *. replace (T - N0) with ((T - N) + (N - N0)) by ring. eapply Rle_lt_trans; [apply Rabs_triang|]. lra.
Qed.
Lemma grid_electrons fl d e f s fuel : reads_decimals fl -> In (d, e, f) data_names -> (d, e) <> (Cation, "cs"%string) -> same_name (str s) (str e) -> (100 <= fuel)%nat ->
  exists data (g : R -> R), slater_atoms fl data_files (Some s) (folder_eqb d Anion) (folder_eqb d Cation) fuel = Some (Ok data) /\
    (forall pts, atomic_density (atom_of data) (A1 (map Fin pts)) MTotal = Ok (map Fin (map g pts))) /\
    forall eps, 0 < eps -> exists b0, 0 < b0 /\ forall b, b0 <= b -> exists n0 : Z, forall n, (n0 <= n)%Z ->
      exists pts Q, uniform_init (VInt n) (VFloat (Fin 0)) (VFloat (Fin b)) = Ok (map Fin pts) /\
        radial_integrate (map Fin pts) (A1 (map Fin (map (fun r => 4 * PI * r ^ 2 * g r) pts))) = Ok (Fin Q) /\
        Rabs (Q - IZR (electron_number d e)) < 5 / 10 ^ 7 * IZR (electron_number d e) + eps.
Proof.
  intros Hf I Nc S Hl. destruct (shipped_subs fl d e f s fuel Hf I Nc S Hl) as (data & L & E & D & V & O & B). exists data, (rho L). split; auto.
  split; [intros pts; now apply density_total|]. intros eps He. destruct (atom_grid _ _ _ _ D V B eps He) as (b0 & B0 & H). exists b0. split; auto. intros b Hb.
  destruct (H b Hb) as (n0 & _ & Hn). exists n0. intros n Hn'. destruct (Hn n Hn') as (U & As & L2 & Q). set (pts := equispaced 0 b (Z.to_nat n)) in *.
  exists pts, (trap pts (map (fun r => 4 * PI * r ^ 2 * rho L r) pts)). split; auto. split; auto. apply integrate_ok. now rewrite map_length.
Qed.

Lemma fit_electrons fl d e f s fuel : reads_decimals fl -> In (d, e, f) data_names -> (d, e) <> (Cation, "cs"%string) -> same_name (str s) (str e) -> (100 <= fuel)%nat ->
  exists data (g : R -> R), slater_atoms fl data_files (Some s) (folder_eqb d Anion) (folder_eqb d Cation) fuel = Some (Ok data) /\
    (forall pts, atomic_density (atom_of data) (A1 (map Fin pts)) MTotal = Ok (map Fin (map g pts))) /\
    forall eps, 0 < eps -> exists b0, 0 < b0 /\ forall b, b0 <= b -> exists n0 : Z, forall n, (n0 <= n)%Z ->
      exists pts, uniform_init (VInt n) (VFloat (Fin 0)) (VFloat (Fin b)) = Ok (map Fin pts) /\
        forall ns np mask, (0 < ns + np)%nat -> 0 <= mask ->
        exists fp, fpi_steps (map Fin pts) (map Fin (map g pts)) (Z.of_nat ns) (Z.of_nat np) true true (Fin mask) = Ok fp /\
          forall c x oe maxiter th, length c = (ns + np)%nat -> length x = (ns + np)%nat -> positive c -> positive x ->
          exists r c' x', fpi_run fp (VArr (A1 (map Fin c))) (VArr (A1 (map Fin x))) true oe maxiter th = Ok r /\
            r_coeffs r = map Fin c' /\ r_exps r = map Fin x' /\ positive c' /\ positive x' /\
            (r_fun r <> [] ->
             (forall c1 x1, iterate fp true oe (length (r_fun r) - 1) (map Fin c) (map Fin x) = Ok (map Fin c1, map Fin x1) ->
                all_above mask (map g pts) (values true (map (lay_atom ns np) pts) c1 x1)) ->
             Rabs (rsum c' - IZR (electron_number d e)) < 5 / 10 ^ 7 * IZR (electron_number d e) + eps).
Proof.
  intros Hf I Nc S Hl. destruct (shipped_subs fl d e f s fuel Hf I Nc S Hl) as (data & L & E & D & V & O & B). pose proof (shipped_positive d e f I) as P. apply IZR_lt in P. set (Ne := IZR (electron_number d e)) in *.
  exists data, (rho L). split; auto.
  split; [intros pts; now apply density_total|]. intros eps He. destruct (atom_grid _ _ _ _ D V B (Rmin eps (Ne / 2)) ltac:(apply Rmin_pos; lra)) as (b0 & B0 & H). exists b0. split; auto. intros b Hb.
  destruct (H b Hb) as (n0 & N1 & Hn). exists n0. intros n Hn'. destruct (Hn n Hn') as (U & As & L2 & Q). clear H Hn. cbv zeta in *. set (pts := equispaced 0 b (Z.to_nat n)) in *.
  exists pts. split; auto. intros ns np mask Hn Hm.
  assert (Pt : map Rabs pts = pts). { rewrite <- (map_id pts) at 2. apply map_ext_in. intros r Hr. apply Rabs_pos_eq. apply (equispaced_range 0 b (Z.to_nat n)); [lra|exact Hr]. }
  assert (Tr : trap pts (map (fun r => 4 * PI * r ^ 2 * rho L r) pts) = 4 * PI * trap pts (map2 (fun r y => r ^ 2 * y) pts (map (rho L) pts))).
  { rewrite <- trap_scale. f_equal. clear. induction pts as [|r pts IH]; [reflexivity|]. cbn [map map2]. rewrite IH. f_equal. ring. }
  pose proof (Rmin_l eps (Ne / 2)). pose proof (Rmin_r eps (Ne / 2)). pose proof PI_RGT_0. apply Rabs_def2 in Q. destruct Q as [Q1 Q2].
  assert (Su : substantial pts (map (rho L) pts)). { unfold substantial. apply (Rmult_lt_reg_l (4 * PI)); [lra|]. rewrite <- Tr, Rmult_0_r. lra. }
  destruct (steps_ready pts (map (rho L) pts) ns np true true mask) as (fp & W & Ef & [Hs Hp Hw Hsup Hnan Hnb] & Hq); auto.
  { clear -As. unfold ascending, strictly_ascending in *. induction As as [|a l Hs IH Hd]; constructor; auto. inversion Hd; constructor. lra. }
  { now rewrite map_length. }
  { apply Forall_forall. intros y Hy. apply in_map_iff in Hy. destruct Hy as (r & <- & _). now apply rho_nonneg. }
  rewrite Pt in *. exists fp. split; auto. intros c x oe maxiter th Lc Lx Pc Px.
  destruct (ProofZero.run_zero _ _ _ _ _ _ _ c x true oe maxiter th Hs Hp Hw Hnan Hsup eq_refl) as (r & c' & x' & Hr & A & A' & [C1 C2] & Dp & F & _); auto; [split; lia|].
  exists r, c', x'. do 5 (split; [assumption|]). intros Nr Hk.
  destruct (run_consistent _ _ _ _ _ _ _ _ Hr) as (c0 & x0 & E1 & E2 & _ & _ & It & _). injection E1 as <-. injection E2 as <-.
  destruct (length (r_fun r)) as [|k] eqn:Lr; [destruct (r_fun r); [congruence|discriminate]|].
  replace (Datatypes.S k - 1)%nat with k in Hk by lia.
  destruct (iterate_positive _ _ _ _ _ _ _ c x true oe k Hs Hp Hw Hsup) as (c1 & x1 & Ek & Sz & P1 & P2); auto; [split; lia|].
  cbn [iterate] in It. rewrite Ek in It. cbn [bind fst snd] in It.
  assert (N1' : nonneg c1) by (eapply Forall_impl; [|exact P1]; cbv beta; intros; lra).
  destruct (coeffs_sum _ _ _ _ _ _ _ c1 x1 oe _ _ Hs Sz N1' (fun _ => P2) (Hk c1 x1 Ek) It) as (c2 & G1 & _ & G2).
  rewrite A in G1. apply ProofGrid.map_Fin_inj in G1. subst c2. rewrite G2, Hq, <- Tr by reflexivity. apply Rabs_def1; lra.
Qed.
