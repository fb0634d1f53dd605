(** Property C111: the density of a shipped atom on a uniform grid, and what a fit of it keeps
    (/repo/bfit/grid.py, density.py, fit.py together).  [fl] is the reading of numbers. *)
From Coq Require Import Reals.
From Coquelicot Require Import Coquelicot.
From Coq Require Import String Ascii List Bool Arith ZArith Lia Lra.
From Verif Require Import XR PyStr PyText ModelParse SpecParse SpecFile SpecShipped DataSlater ModelSlater SpecDens SpecMeas SpecGrid SpecSlater ModelLoad SpecLoad ModelGrid ModelFit SpecFit SpecSteps
  ProofElec ProofGridElec2.
Import ListNotations.
Local Open Scope R_scope.

(** On a uniform grid from 0 that is long enough and has points enough, 4 pi r^2 times the density of a
    shipped atom or ion integrates to its number of electrons, up to the rounding of the file and [eps]. *)
Theorem C111_grid : forall fl d e f s fuel, reads_decimals fl ->
  In (d, e, f) data_names -> (d, e) <> (Cation, "cs"%string) -> same_name (str s) (str e) -> (100 <= fuel)%nat ->
  exists data (g : R -> R), slater_atoms fl data_files (Some s) (folder_eqb d Anion) (folder_eqb d Cation) fuel = Some (Ok data) /\
    (forall pts, atomic_density (atom_of data) (A1 (map Fin pts)) MTotal = Ok (map Fin (map g pts))) /\
    forall eps, 0 < eps -> exists b0, 0 < b0 /\ forall b, b0 <= b -> exists n0 : Z, forall n, (n0 <= n)%Z ->
      exists pts Q, uniform_init (VInt n) (VFloat (Fin 0)) (VFloat (Fin b)) = Ok (map Fin pts) /\
        radial_integrate (map Fin pts) (A1 (map Fin (map (fun r => 4 * PI * r ^ 2 * g r) pts))) = Ok (Fin Q) /\
        Rabs (Q - IZR (electron_number d e)) < 5 / 10 ^ 7 * IZR (electron_number d e) + eps.
Proof. exact grid_electrons. Qed.
Print Assumptions C111_grid.

(** The four steps of README with such a grid, normalized functions and spherical integration: every run that
    makes an update whose model is not masked anywhere returns coefficients, hence (C07) a model, with the
    number of electrons of the atom up to the same error. *)
Theorem C111_fit : forall fl d e f s fuel, reads_decimals fl ->
  In (d, e, f) data_names -> (d, e) <> (Cation, "cs"%string) -> same_name (str s) (str e) -> (100 <= fuel)%nat ->
  exists data (g : R -> R), slater_atoms fl data_files (Some s) (folder_eqb d Anion) (folder_eqb d Cation) fuel = Some (Ok data) /\
    (forall pts, atomic_density (atom_of data) (A1 (map Fin pts)) MTotal = Ok (map Fin (map g pts))) /\
    forall eps, 0 < eps -> exists b0, 0 < b0 /\ forall b, b0 <= b -> exists n0 : Z, forall n, (n0 <= n)%Z ->
      exists pts, uniform_init (VInt n) (VFloat (Fin 0)) (VFloat (Fin b)) = Ok (map Fin pts) /\
        forall ns np mask, (0 < ns + np)%nat -> 0 <= mask ->
        exists fp, fpi_steps (map Fin pts) (map Fin (map g pts)) (Z.of_nat ns) (Z.of_nat np) true true (Fin mask) = Ok fp /\
          forall c x oe maxiter th, length c = (ns + np)%nat -> length x = (ns + np)%nat -> positive c -> positive x ->
          exists r c' x', fpi_run fp (VArr (A1 (map Fin c))) (VArr (A1 (map Fin x))) true oe maxiter th = Ok r /\
            r_coeffs r = map Fin c' /\ r_exps r = map Fin x' /\ positive c' /\ positive x' /\
            (r_fun r <> [] ->
             (forall c1 x1, iterate fp true oe (length (r_fun r) - 1) (map Fin c) (map Fin x) = Ok (map Fin c1, map Fin x1) ->
                all_above mask (map g pts) (values true (map (lay_atom ns np) pts) c1 x1)) ->
             Rabs (rsum c' - IZR (electron_number d e)) < 5 / 10 ^ 7 * IZR (electron_number d e) + eps).
Proof. exact fit_electrons. Qed.
Print Assumptions C111_fit.

(** Beryllium with four electrons; a model that is masked nowhere. *)
Example C111_example : exists fl, reads_decimals fl /\ In (Neutral, "be"%string, be_neutral) data_names /\
  same_name (str "Be") (str "be") /\ electron_number Neutral "be" = 4%Z /\
  all_above 0 [1; 1/2] (values true (map (lay_atom 1 0) [0; 1]) [1] [PI]).
Proof.
  exists read_decimal. split; [exact read_decimal_ok|]. split; [unfold data_names; cbn [In]; tauto|]. split; [reflexivity|]. split; [reflexivity|].
  assert (V : forall r, gsum true (lay_atom 1 0 r) [1] [PI] = exp (- PI * r ^ 2)).
  { intros r. cbn. unfold basis_fn, norm_const. replace (PI / PI) with 1 by (field; apply PI_neq0). unfold Rpower. rewrite ln_1, Rmult_0_r, exp_0. cbn. ring. }
  assert (Two : 0 < / 2 ^ 1022 <= / 2 ^ 10). { split; [apply Rinv_0_lt_compat, pow_lt; lra|]. apply Rinv_le_contravar; [apply pow_lt; lra|apply Rle_pow; [lra|lia]]. }
  intros i Hi. unfold values. cbn [map]. rewrite !V.
  assert (K : / 1024 < exp (- PI)).
  { rewrite exp_Ropp. apply Rinv_lt_contravar; [apply Rmult_lt_0_compat; [apply exp_pos|lra]|].
    apply Rle_lt_trans with (exp (1 + 1 + 1 + 1)).
    - destruct PI_4 as [P|P]; [left; apply exp_increasing; lra|right; f_equal; lra].
    - rewrite !exp_plus. pose proof exp_le_3 as E3. pose proof (exp_pos 1) as E0. set (x := exp 1) in *.
      assert (x * x <= 9) by nra. assert (0 < x * x) by nra. nra. }
  replace (2 ^ 10) with 1024 in Two by ring.
  destruct i as [|[|i]]; [| |cbn in Hi; lia]; cbn [nth]; split.
  - apply exp_pos.
  - rewrite !Rabs_pos_eq by (try (left; apply exp_pos); lra). replace (- PI * 0 ^ 2) with 0 by ring. rewrite exp_0. lra.
  - apply exp_pos.
  - rewrite !Rabs_pos_eq by (try (left; apply exp_pos); lra). replace (- PI * 1 ^ 2) with (- PI) by ring. lra.
Qed.
