(** Property C105: the fits of /repo/examples/atomdb_db.py end for any density given to them, with the errors
    they describe, and so does the fit of /repo/examples/atomic_density.ipynb on the data of the package. *)
From Coq Require Import Reals.
From Coq Require Import String Ascii List ZArith Lia Lra Bool Sorted.
From Verif Require Import XR PyStr PyText ModelParse SpecParse SpecDens SpecMeas SpecGrid SpecSlater ModelDens ModelMeas ModelGrid ModelFit ModelSlater ModelLoad SpecLoad SpecFile SpecElem SpecTar
  Lists DataSlater DataTar SpecUgbs DataUgbs ProofUgbs SpecFit SpecZero SpecSteps SpecScript SpecScript2 SpecScript3 ProofGrid ProofScript ProofTable4.
Import ListNotations.
Local Open Scope R_scope.

(** Any element of the exponent file, any Clenshaw grid without further points, any finite values [v] of the
    density, negative ones included: if something is left to fit after the negative values are replaced by zero,
    the round ends.  The stored coefficients and exponents are positive, those of the s-type functions apart from those of the
    p-type functions; the stored row holds the measures of the model with the stored parameters. *)
Theorem C105_atomdb : forall fl dens s n e ns nc nd (pts v : list R), reads_decimals fl -> reads_scientific fl ->
  element s n -> In (e, ns) ugbs_sizes -> same_name (str s) (str e) -> (0 <= nc)%Z -> (0 <= nd)%Z ->
  clenshaw_init (VInt (Z.of_nat n)) (VInt nc) (VInt nd) ENone (VBool true) = Ok (map Fin pts) ->
  dens (map Fin pts) = map Fin v -> length v = length pts ->
  let f := map (Rmax 0) v in
  let k := (nth 0 ns 0 + nth 1 ns 0)%nat in
  let lays := map (lay_atom (nth 0 ns 0%nat) (nth 1 ns 0%nat)) (map Rabs pts) in
  substantial pts f ->
  exists fp W r c0 e0 c e1 row errs,
    spherical_weights pts W /\ fpi_setting fp W f true lays (/ 10 ^ 18) (INR n) /\ supported W f lays k /\
    nan_passes (fp_fit fp) (length W) /\
    length c0 = k /\ length e0 = k /\ positive c0 /\ positive e0 /\ rsum c0 = INR n /\
    fpi_run fp (VArr (A1 (map Fin c0))) (VArr (A1 (map Fin e0))) true true 10000
      (mkThr (Fin (/ 10 ^ 6)) (Fin (/ 10 ^ 6)) (Fin (/ 10 ^ 14))) = Ok r /\
    r_coeffs r = map Fin c /\ r_exps r = map Fin e1 /\ length c = k /\ length e1 = k /\ positive c /\ positive e1 /\
    last (r_perf r) [] = row /\ row_of (/ 10 ^ 18) W f (values true lays c e1) row /\
    errors_of W f (values true lays c e1) row errs /\
    atomdb_fit fl (map str ygbs) dens s (Z.of_nat n) nc nd =
      Ok (mkEntry (map Fin (firstn (nth 0 ns 0%nat) c)) (map Fin (firstn (nth 0 ns 0%nat) e1))
                  (map Fin (skipn (nth 0 ns 0%nat) c)) (map Fin (skipn (nth 0 ns 0%nat) e1)) row (r_success r) errs).
Proof. exact atomdb_elements. Qed.
Print Assumptions C105_atomdb.

(** The names and numbers of the loop. *)
Theorem C105_atoms : forall s z, In (s, z) atomdb_atoms ->
  exists n e ns, z = Z.of_nat n /\ element s n /\ In (e, ns) ugbs_sizes /\ same_name (str s) (str e).
Proof. exact named_atomdb. Qed.
Print Assumptions C105_atoms.

(** The relative errors of this script and of table_1_and_2.py, for any density that is not negative and any row
    of measures: the first three divide by positive integrals and by the largest density; the last is NaN
    as soon as the density is zero at one point, whatever the fit. *)
Theorem C105_errors : forall pts W f row1 row2 row3 row0 x,
  spherical_weights pts W -> length f = length pts -> (2 <= length pts)%nat -> nonneg f -> 0 < quad W f ->
  exists M k, is_max f M /\ 0 < M /\ 0 < quad W (map (fun y => y * y) f) /\
    relative_errors (map Fin pts) (map Fin f) [row0; Fin row1; Fin row2; Fin row3; x] =
      Ok [Fin (row1 / quad W f); Fin (row2 / M); Fin (row3 / quad W (map (fun y => y * y) f)); xdiv x k] /\
    (In 0 f -> k = NaN) /\ (positive f -> k = Fin (quad W (map (fun y => y * ln y) f))).
Proof. exact errors_ok. Qed.
Print Assumptions C105_errors.

(** The notebook: the fit of beryllium ends with eight positive coefficients and exponents.  The value printed as
    "the integral of beryllium" is the trapezoid integral of the density without 4 pi r^2.  Every row of performance holds the
    integral, the distances, in column 3 (which is plotted as "Kullback-Leibler value") the integral of
    the squared difference, and the divergence in column 4.  The printed sum of the coefficients is 4 if no
    value of the last model but one was masked, and never exceeds 4 by more than 4 / 2^1022. *)
Theorem C105_notebook : forall fl rest fuel, reads_decimals fl -> (100 <= fuel)%nat ->
  exists L pts W fp r c e1,
    clenshaw_init (VInt 4) (VInt 400) (VInt 500) (EList (map Fin [25; 50; 75])) (VBool true) = Ok (map Fin pts) /\
    spherical_weights pts W /\
    let f := map (rho L) pts in
    let lays := map (lay_atom 5 3) (map Rabs pts) in
    Forall valid L /\ rsum (map s_occ L) = 4 /\ fpi_setting fp W f true lays 0 4 /\ supported W f lays 8 /\
    notebook fl (archive_files rest) fuel =
      Some (Ok (Fin (trap pts f), map Fin (values true lays notebook_c0 notebook_e0), r, map Fin (values true lays c e1))) /\
    r_coeffs r = map Fin c /\ r_exps r = map Fin e1 /\ length c = 8%nat /\ length e1 = 8%nat /\ positive c /\ positive e1 /\
    (1 <= length (r_perf r))%nat /\
    (forall j, (j < length (r_perf r))%nat -> exists cj ej,
       iterate fp true true (S j) (map Fin notebook_c0) (map Fin notebook_e0) = Ok (map Fin cj, map Fin ej) /\
       row_of 0 W f (values true lays cj ej) (nth j (r_perf r) [])) /\
    rsum c <= 4 + 4 / 2 ^ 1022 /\
    exists cp ep, update_params fp (map Fin cp) (map Fin ep) true true = Ok (map Fin c, map Fin e1) /\
      positive cp /\ positive ep /\
      ((forall i, (i < length f)%nat -> nth i f 0 / 2 ^ 1022 < nth i (values true lays cp ep) 0) -> rsum c = 4).
Proof. exact notebook_be. Qed.
Print Assumptions C105_notebook.

(** Chlorine with the density r - 12, which is negative at the origin: the round ends and the last error is NaN. *)
Definition C105_dens (pts : list xr) : list xr := map (fun r => xsub r (Fin 12)) pts.
Example C105_example : In ("Cl"%string, 17%Z) atomdb_atoms /\ In ("Cl"%string, [27; 19; 0; 0]%nat) ugbs_sizes /\
  exists en a b c, atomdb_fit read_number (map str ygbs) C105_dens "Cl" 17 10000 899 = Ok en /\
    length (en_coeffs_s en) = 27%nat /\ length (en_exps_p en) = 19%nat /\ en_errors en = [Fin a; Fin b; Fin c; NaN].
Proof.
  assert (U : In ("Cl"%string, [27; 19; 0; 0]%nat) ugbs_sizes) by (apply (nth_error_In _ 16); reflexivity).
  split; [apply (nth_error_In _ 7); reflexivity|]. split; [exact U|].
  assert (El : element "Cl" 17) by (split; [lia|]; exists "Cl"%string; split; reflexivity).
  assert (A1 : (0 < 17)%Z) by reflexivity. assert (A2 : (0 <= 10000)%Z) by discriminate. assert (A3 : (0 < 899)%Z) by reflexivity. assert (A4 : (3 * Z.of_nat 2 <= 899 + 3)%Z) by discriminate. assert (A5 : (0 <= 899)%Z) by discriminate.
  destruct (clenshaw_far 17 10000 899 true [] 2 A1 A2 A3 A4) as (pts & xs & E & Asc & Lx & Sx & Fx). rewrite <- clenshaw_none in E.
  assert (O : In 0 pts) by (apply (clenshaw_origin 17 10000 899); [exact A1|reflexivity|exact A5|exact E]).
  set (v := map (fun r => r - 12) pts). assert (Ev : C105_dens (map Fin pts) = map Fin v) by (unfold C105_dens, v; rewrite !map_map; reflexivity).
  assert (Lv : length v = length pts) by apply map_length.
  assert (Sub : substantial pts (map (Rmax 0) v)).
  { destruct xs as [|u [|w [|]]]; [discriminate Lx|discriminate Lx| |discriminate Lx]. inversion Fx as [|? ? [Iu Bu] F2]; subst. inversion F2 as [|? ? [Iw Bw] _]; subst. inversion Sx as [|? ? _ Hd]; subst. inversion Hd; subst.
    apply (substantial_at pts _ u); auto; [unfold v; now rewrite !map_length|unfold nonneg; rewrite Forall_map; apply Forall_forall; intros x _; apply Rmax_l|lra| |exists w; split; [exact Iw|lra]].
    intros i Hi Ei. unfold v. rewrite map_map, (nth_indep _ 0 (Rmax 0 (0 - 12))) by (rewrite map_length; exact Hi). rewrite (map_nth (fun x => Rmax 0 (x - 12))), Ei. rewrite Rmax_right; lra. }
  destruct (C105_atomdb read_number C105_dens "Cl" 17 "Cl" [27; 19; 0; 0]%nat 10000 899 pts v read_number_decimals read_number_scientific El U eq_refl A2 A5 E Ev Lv Sub)
    as (fp & W & r & c0 & e0 & c & e1 & row & errs & _ & _ & _ & _ & _ & _ & _ & _ & _ & _ & _ & _ & Lc & Le & _ & _ & _ & _ & (M & mx & x & y & _ & _ & _ & Er & Y & _) & R).
  eexists _, _, _, _. split; [exact R|]. cbn [en_coeffs_s en_exps_p en_errors nth]. cbn [nth] in Lc, Le. split; [rewrite map_length, firstn_length, Lc; reflexivity|]. split; [rewrite map_length, skipn_length, Le; reflexivity|].
  rewrite Er, Y; [reflexivity|]. unfold v. rewrite map_map. apply in_map_iff. exists 0. split; [rewrite Rmax_left; lra|exact O].
Qed.
Example C105_notebook_example : exists i g0 r g1 c, notebook read_number (archive_files []) 100 = Some (Ok (i, g0, r, g1)) /\ r_coeffs r = map Fin c /\ length c = 8%nat /\ positive c.
Proof.
  destruct (C105_notebook read_number [] 100 read_number_decimals (Nat.le_refl 100)) as (L & pts & W & fp & r & c & e1 & _ & _ & _ & _ & _ & _ & R & A & _ & B & _ & C & _).
  eexists _, _, r, _, c. split; [exact R|]. auto.
Qed.
