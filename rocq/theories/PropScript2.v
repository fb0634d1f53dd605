(** Property C103: the fits of /repo/examples/table/table_3.py and table_4.py set up what they describe and
    end with a result for every element of the exponent file, whatever the optimizer does within its bounds. *)
From Coq Require Import Reals.
From Coquelicot Require Import Coquelicot.
From Coq Require Import String Ascii List ZArith Lia Lra Bool Sorted.
From Verif Require Import XR PyStr PyText ModelParse SpecParse SpecDens SpecMeas SpecGrid SpecSlater ModelDens ModelMeas ModelGrid ModelFit ModelSlater ModelLoad SpecLoad SpecFile SpecElem SpecTar
  DataSlater DataTar SpecUgbs DataUgbs ProofUgbs SpecFit ProofSlater SpecZero SpecScript SpecScript2 ProofTable2 ProofTable3.
Import ListNotations.
Local Open Scope R_scope.

(** Any element whose file is loaded, any exponents, any Clenshaw grid, any measure: the fitting object has the
    trapezoidal weights with 4 pi r^2, the density of the element and the Gaussian functions on the grid; the
    integral to be kept is that of the density on the grid; the start is the one documented. *)
Theorem C103_setup : forall fl ugbs files (e : string) (z nc nd : Z) (extra : list R) (me : measure) (norm : bool) (fuel : nat) data L d (es ep : list R),
  slater_atoms fl files (Some e) false false fuel = Some (Ok data) -> describes (atom_of data) L -> Forall valid L ->
  Forall (fun s => 0 <= s_occ s) L ->
  get_ugbs_exponents fl ugbs (Some e) = Ok d -> dget (str "S") d = Some (map Fin es) -> dget (str "P") d = Some (map Fin ep) ->
  (0 < length es + length ep)%nat -> (0 < z)%Z -> (0 <= nc)%Z -> (3 <= nd)%Z ->
  let n := (length es + length ep)%nat in
  let c0 := repeat (IZR z / INR n) n in
  let e0 := map (fun x => x * 2) (es ++ ep) in
  exists S pts W, clenshaw_init (VInt z) (VInt nc) (VInt nd) (EList (map Fin extra)) (VBool true) = Ok (map Fin pts) /\
    ascending pts /\ (2 <= length pts)%nat /\ spherical_weights pts W /\
    scipy_setting S me W (repeat 1 (length pts)) (map (rho L) pts) norm (map (lay_atom (length es) (length ep)) (map Rabs pts))
      (quad W (map (rho L) pts)) /\
    ft_grid (sc_fit S) = radial_grid (map Fin pts) /\ ft_mask (sc_fit S) = Fin (/ 10 ^ 18) /\ sc_slsqp S = true /\
    nfun (map (lay_atom (length es) (length ep)) (map Rabs pts)) = n /\
    slsqp_setup fl ugbs files e z nc nd (map Fin extra) me norm fuel = Some (Ok (S, map Fin c0, map Fin e0)).
Proof. exact setup_ok. Qed.
Print Assumptions C103_setup.

(** With an optimizer that returns a vector within the bounds the round ends; the halves of the vector are the
    coefficients and exponents, and the row of measures is that of the model with them.  The last is NaN exactly
    when the density is zero at a point where the model is not masked. *)
Theorem C103_run : forall minimize fl ugbs files (e : string) (z nc nd : Z) (extra : list R) (me : measure) (norm cons : bool) (fuel : nat) data L d (es ep : list R),
  slater_atoms fl files (Some e) false false fuel = Some (Ok data) -> describes (atom_of data) L -> Forall valid L ->
  Forall (fun s => 0 <= s_occ s) L ->
  get_ugbs_exponents fl ugbs (Some e) = Ok d -> dget (str "S") d = Some (map Fin es) -> dget (str "P") d = Some (map Fin ep) ->
  (0 < length es + length ep)%nat -> (0 < z)%Z -> (0 <= nc)%Z -> (3 <= nd)%Z -> keeps_bounds minimize ->
  exists r pts W c e1 mx x, slsqp_fit minimize fl ugbs files e z nc nd (map Fin extra) me norm cons fuel = Some (Ok r) /\
    clenshaw_init (VInt z) (VInt nc) (VInt nd) (EList (map Fin extra)) (VBool true) = Ok (map Fin pts) /\ spherical_weights pts W /\
    q_coeffs r = map Fin c /\ q_exps r = map Fin e1 /\ length c = (length es + length ep)%nat /\ length e1 = (length es + length ep)%nat /\
    Forall (fun y => 1 / 10 ^ 12 <= y) (c ++ e1) /\
    let f := map (rho L) pts in
    let g := values norm (map (lay_atom (length es) (length ep)) (map Rabs pts)) c e1 in
    q_perf r = [Fin (quad W g); Fin (quad W (map2 (fun x y => Rabs (x - y)) f g)); Fin mx; Fin (quad W (map2 sq_fn f g)); x] /\
    is_max (map2 (fun x y => Rabs (x - y)) f g) mx /\
    ((exists i, bare_zero (/ 10 ^ 18) f g i) -> x = NaN) /\ ((forall i, ~ bare_zero (/ 10 ^ 18) f g i) -> exists y, x = Fin y).
Proof. exact run_ok. Qed.
Print Assumptions C103_run.

(** The archived files and the shipped exponents, every element of the exponent file: the start has the number
    of electrons as sum of the coefficients and lies within the bounds of the optimizer.  C49, C50 and C102
    give the objective, its gradient and the constraint of these fitting objects. *)
Theorem C103_tables : forall fl rest s n e ns fuel, reads_decimals fl -> reads_scientific fl ->
  element s n -> In (e, ns) ugbs_sizes -> same_name (str s) (str e) -> (100 <= fuel)%nat ->
  exists data L pts W S3 S4 c0 e0, slater_atoms fl (archive_files rest) (Some s) false false fuel = Some (Ok data) /\
    describes (atom_of data) L /\ Forall (fun s => 0 <= s_occ s) L /\
    clenshaw_init (VInt (Z.of_nat n)) (VInt 10000) (VInt 899) (EList (map Fin [50; 75; 100])) (VBool true) = Ok (map Fin pts) /\
    spherical_weights pts W /\
    (let lays := map (lay_atom (nth 0 ns 0%nat) (nth 1 ns 0%nat)) (map Rabs pts) in
     let f := map (rho L) pts in
     scipy_setting S3 (MKL (Fin (/ 10 ^ 18)) (Fin 100000)) W (repeat 1 (length pts)) f true lays (quad W f) /\
     scipy_setting S4 MSq W (repeat 1 (length pts)) f false lays (quad W f)) /\
    length c0 = (nth 0 ns 0 + nth 1 ns 0)%nat /\ length e0 = length c0 /\ rsum c0 = INR n /\
    Forall (fun y => 1 / 10 ^ 12 <= y) (c0 ++ e0) /\
    forall minimize,
      table_3 minimize fl (map str ygbs) (archive_files rest) s (Z.of_nat n) fuel =
        Some (scipy_run minimize S3 (map Fin c0) (map Fin e0) true true 10000 (Fin (/ 10 ^ 14)) true) /\
      table_4 minimize fl (map str ygbs) (archive_files rest) s (Z.of_nat n) fuel =
        Some (scipy_run minimize S4 (map Fin c0) (map Fin e0) true true 10000 (Fin (/ 10 ^ 14)) false).
Proof. exact tables_34. Qed.
Print Assumptions C103_tables.

(** The scripts end. *)
Theorem C103_scripts : forall minimize fl rest s n e ns fuel, reads_decimals fl -> reads_scientific fl ->
  element s n -> In (e, ns) ugbs_sizes -> same_name (str s) (str e) -> (100 <= fuel)%nat -> keeps_bounds minimize ->
  exists r c e1 r' c' e', table_3 minimize fl (map str ygbs) (archive_files rest) s (Z.of_nat n) fuel = Some (Ok r) /\
    table_4 minimize fl (map str ygbs) (archive_files rest) s (Z.of_nat n) fuel = Some (Ok r') /\
    q_coeffs r = map Fin c /\ q_exps r = map Fin e1 /\ q_coeffs r' = map Fin c' /\ q_exps r' = map Fin e' /\
    length c = (nth 0 ns 0 + nth 1 ns 0)%nat /\ length e1 = length c /\ length c' = length c /\ length e' = length c /\
    Forall (fun y => 1 / 10 ^ 12 <= y) (c ++ e1 ++ c' ++ e') /\ length (q_perf r) = 5%nat /\ length (q_perf r') = 5%nat.
Proof. exact scripts_34. Qed.
Print Assumptions C103_scripts.

(** The names and numbers of the loops are those of elements of the exponent file. *)
Theorem C103_names : forall s z, In (s, z) table_34_atoms ->
  exists n e ns, z = Z.of_nat n /\ element s n /\ In (e, ns) ugbs_sizes /\ same_name (str s) (str e).
Proof. exact named_34. Qed.
Print Assumptions C103_names.

(** The objective of table_4 is the integral of the squared difference, with its gradient, for all parameters. *)
Theorem C103_least_squares : forall S W f norm lays N c e,
  scipy_setting S MSq W (repeat 1 (length f)) f norm lays N -> SpecFit.sized lays c e -> (norm = true -> positive e) ->
  exists d, scipy_func S (map Fin (c ++ e)) SBoth = Ok (Fin (quad W (map2 sq_fn f (values norm lays c e))), map Fin d) /\
    length d = length (c ++ e) /\
    forall k, (k < length (c ++ e))%nat -> exists O : R -> R,
      locally (nth k (c ++ e) 0) (fun t => exists d', scipy_func S (map Fin (upd (c ++ e) k t)) SBoth = Ok (Fin (O t), d')) /\
      is_derive O (nth k (c ++ e) 0) (nth k d 0).
Proof. exact least_squares. Qed.
Print Assumptions C103_least_squares.

(** An optimizer that returns the bounds, iodine. *)
Definition C103_lazy (pb : problem) : res opt_result := Ok (mkOpt (map Fin (pb_lower pb)) (Fin 0) false [] "lazy"%string).
Lemma C103_lazy_keeps : keeps_bounds C103_lazy.
Proof.
  intros pb. exists (mkOpt (map Fin (pb_lower pb)) (Fin 0) false [] "lazy"%string), (pb_lower pb). split; [reflexivity|]. split; [reflexivity|].
  induction (pb_lower pb); constructor; [apply Rle_refl|assumption].
Qed.
Example C103_example : element "i" 53 /\ In ("I"%string, [30; 22; 16; 0]%nat) ugbs_sizes /\ In ("i"%string, 53%Z) table_34_atoms /\
  exists r c e1, table_3 C103_lazy read_number (map str ygbs) (archive_files []) "i" 53 100 = Some (Ok r) /\
    q_coeffs r = map Fin c /\ q_exps r = map Fin e1 /\ length c = 52%nat /\ length e1 = 52%nat.
Proof.
  assert (E : element "i" 53) by (split; [lia|]; exists "I"%string; split; reflexivity).
  assert (U : In ("I"%string, [30; 22; 16; 0]%nat) ugbs_sizes) by (apply (nth_error_In _ 52); reflexivity).
  split; [exact E|]. split; [exact U|]. split; [apply (nth_error_In _ 8); reflexivity|].
  destruct (C103_scripts C103_lazy read_number [] "i" 53 "I" [30; 22; 16; 0]%nat 100 read_number_decimals read_number_scientific E U eq_refl (Nat.le_refl 100) C103_lazy_keeps)
    as (r & c & e1 & _ & _ & _ & R & _ & A & B & _ & _ & C & D & _).
  exists r, c, e1. split; [exact R|]. split; [exact A|]. split; [exact B|]. split; [exact C|]. rewrite D. exact C.
Qed.
