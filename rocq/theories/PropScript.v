(** Property C99: the fits of the example scripts (/repo/examples/table/table_1_and_2.py:32-57,
    /repo/examples/table/table_5.py:29-64) run to the end for every element of the exponent file, on the
    data of the package. *)
From Coq Require Import Reals.
From Coquelicot Require Import Coquelicot.
From Coq Require Import String Ascii List ZArith Lia Lra Bool Sorted.
From Verif Require Import XR PyStr PyText ModelParse SpecParse SpecDens SpecMeas SpecGrid SpecSlater ModelDens ModelMeas ModelGrid ModelFit ModelSlater ModelLoad SpecLoad SpecFile SpecElem SpecTar
  DataSlater DataTar SpecUgbs DataUgbs ProofUgbs SpecFit ProofSlater SpecZero SpecScript SpecScript2 SpecScript3 ProofScript ProofTable ProofTable2 ProofTable4.
Import ListNotations.
Local Open Scope R_scope.

(** A density is zero at fewer points than the quantum numbers of one of its occupied subshells add up to. *)
Theorem C99_zeros : forall L s xs, Forall (fun s => 0 <= s_occ s) L -> In s L -> 0 < s_occ s -> valid s -> leading s ->
  strictly_ascending xs -> Forall (fun r => rho L r = 0) xs -> (length xs < size s)%nat.
Proof. exact density_zeros. Qed.
Print Assumptions C99_zeros.

(** The same for the kinetic energy density. *)
Theorem C99_kinetic_zeros : forall (dphi : subshell -> R -> R) L s xs, Forall (fun s => 0 <= s_occ s) L -> In s L -> 0 < s_occ s ->
  valid s -> leading s -> strictly_ascending xs ->
  Forall (fun r => r <> 0 /\ is_derive (phi s) r (dphi s r) /\ tau dphi L r = 0) xs -> (length xs < size s)%nat.
Proof. exact kinetic_zeros. Qed.
Print Assumptions C99_kinetic_zeros.

(** Any element whose file is loaded, any exponents, any Clenshaw grid with enough diffuse points, any factor
    above zero: the fit ends, with coefficients and exponents above zero and at least one row of measures. *)
Theorem C99_fit : forall fl ugbs files e z nc nd extra (kinetic origin : bool) factor total fuel data L s d es ep,
  slater_atoms fl files (Some e) false false fuel = Some (Ok data) -> describes (atom_of data) L -> Forall valid L ->
  Forall (fun s => 0 <= s_occ s) L -> In s L -> 0 < s_occ s -> leading s ->
  get_ugbs_exponents fl ugbs (Some e) = Ok d -> dget (str "S") d = Some (map Fin es) -> dget (str "P") d = Some (map Fin ep) ->
  positive es -> positive ep -> (0 < length es + length ep)%nat ->
  (0 < z)%Z -> (0 <= nc)%Z -> (3 * Z.of_nat (size s) <= nd)%Z -> 0 < factor -> match total with Some N => 0 < N | None => True end ->
  exists r c' e', table_fit fl ugbs files e z nc nd (map Fin extra) kinetic origin factor (option_map Fin total) fuel = Some (Ok r) /\
    r_coeffs r = map Fin c' /\ r_exps r = map Fin e' /\ length c' = (length es + length ep)%nat /\
    length e' = (length es + length ep)%nat /\ positive c' /\ positive e' /\ (1 <= length (r_perf r))%nat.
Proof. exact table_runs. Qed.
Print Assumptions C99_fit.

(** What the fits are, for any element whose file is loaded: the fitting object has the trapezoidal weights with 4 pi r^2, the
    chosen density, the mask value 1e-18 and the number of electrons or the integral of the density as its
    constraint; the start is the one documented; the last row of measures is that of the returned parameters. *)
Theorem C99_setup : forall fl ugbs files e z nc nd extra (kinetic origin : bool) factor total fuel data L s d es ep,
  slater_atoms fl files (Some e) false false fuel = Some (Ok data) -> describes (atom_of data) L ->
  Forall valid L -> Forall (fun s => 0 <= s_occ s) L -> In s L -> 0 < s_occ s -> leading s ->
  get_ugbs_exponents fl ugbs (Some e) = Ok d -> dget (str "S") d = Some (map Fin es) -> dget (str "P") d = Some (map Fin ep) -> positive es -> positive ep -> (0 < length es + length ep)%nat ->
  (0 < z)%Z -> (0 <= nc)%Z -> (3 * Z.of_nat (size s) <= nd)%Z -> 0 < factor -> match total with Some N => 0 < N | None => True end ->
  let n := (length es + length ep)%nat in
  exists pts f fp W N r c e1, clenshaw_init (VInt z) (VInt nc) (VInt nd) (EList (map Fin extra)) (VBool origin) = Ok (map Fin pts) /\
    (if kinetic then kinetic_energy (atom_of data) (A1 (map Fin pts)) = Ok (map Fin f) else f = map (rho L) pts) /\
  spherical_weights pts W /\
    let lays := map (lay_atom (length es) (length ep)) (map Rabs pts) in
    fpi_setting fp W f true lays (/ 10 ^ 18) N /\ N = match total with Some M => M | None => quad W f end /\
  supported W f lays n /\ nan_passes (fp_fit fp) (length W) /\
    fpi_run fp (VArr (A1 (map Fin (repeat (IZR z / INR n) n)))) (VArr (A1 (map Fin (map (fun x => x * factor) (es ++ ep))))) true true 10000 (mkThr (Fin (/ 10 ^ 6)) (Fin (/ 10 ^ 6)) (Fin (/ 10 ^ 14))) = Ok r /\
    table_fit fl ugbs files e z nc nd (map Fin extra) kinetic origin factor (option_map Fin total) fuel = Some (Ok r) /\
    r_coeffs r = map Fin c /\ r_exps r = map Fin e1 /\ row_of (/ 10 ^ 18) W f (values true lays c e1) (last (r_perf r) []).
Proof. exact table_setup. Qed.
Print Assumptions C99_setup.

(** table_1_and_2.py on the archived files and the shipped exponents. *)
Theorem C99_table_1 : forall fl rest s n e ns fuel,
  reads_decimals fl -> reads_scientific fl -> element s n -> In (e, ns) ugbs_sizes -> same_name (str s) (str e) ->
  (100 <= fuel)%nat ->
  let k := (nth 0 ns 0 + nth 1 ns 0)%nat in
  exists L data es ep d pts fp W r c e1, slater_atoms fl (archive_files rest) (Some s) false false fuel = Some (Ok data) /\
  describes (atom_of data) L /\
    get_ugbs_exponents fl (map str ygbs) (Some s) = Ok d /\ dget (str "S") d = Some (map Fin es) /\ dget (str "P") d = Some (map Fin ep) /\ length es = nth 0 ns 0%nat /\ length ep = nth 1 ns 0%nat /\
    clenshaw_init (VInt (Z.of_nat n)) (VInt 10000) (VInt 899) (EList (map Fin [50; 75; 100])) (VBool true) = Ok (map Fin pts) /\ spherical_weights pts W /\
    let lays := map (lay_atom (nth 0 ns 0%nat) (nth 1 ns 0%nat)) (map Rabs pts) in let f := map (rho L) pts in
    fpi_setting fp W f true lays (/ 10 ^ 18) (INR n) /\ supported W f lays k /\ nan_passes (fp_fit fp) (length W) /\
    fpi_run fp (VArr (A1 (map Fin (repeat (INR n / INR k) k)))) (VArr (A1 (map Fin (map (fun x => x * 2) (es ++ ep))))) true true 10000 (mkThr (Fin (/ 10 ^ 6)) (Fin (/ 10 ^ 6)) (Fin (/ 10 ^ 14))) = Ok r /\
    table_1 fl (map str ygbs) (archive_files rest) s (Z.of_nat n) fuel = Some (Ok r) /\
    r_coeffs r = map Fin c /\ r_exps r = map Fin e1 /\ row_of (/ 10 ^ 18) W f (values true lays c e1) (last (r_perf r) []).
Proof. exact table_1_setup. Qed.
Print Assumptions C99_table_1.

(** table_5.py. *)
Theorem C99_table_5 : forall fl rest s n e ns fuel,
  reads_decimals fl -> reads_scientific fl -> element s n -> In (e, ns) ugbs_sizes -> same_name (str s) (str e) ->
  (100 <= fuel)%nat ->
  let k := (nth 0 ns 0 + nth 1 ns 0)%nat in
  exists L data es ep d pts f fp W r c e1, slater_atoms fl (archive_files rest) (Some s) false false fuel = Some (Ok data) /\
  describes (atom_of data) L /\
    get_ugbs_exponents fl (map str ygbs) (Some s) = Ok d /\ dget (str "S") d = Some (map Fin es) /\ dget (str "P") d = Some (map Fin ep) /\ length es = nth 0 ns 0%nat /\ length ep = nth 1 ns 0%nat /\
    clenshaw_init (VInt (Z.of_nat n)) (VInt 10000) (VInt 899) (EList (map Fin [50; 75; 100])) (VBool false) = Ok (map Fin pts) /\ spherical_weights pts W /\
    let lays := map (lay_atom (nth 0 ns 0%nat) (nth 1 ns 0%nat)) (map Rabs pts) in 
    kinetic_energy (atom_of data) (A1 (map Fin pts)) = Ok (map Fin f) /\
    fpi_setting fp W f true lays (/ 10 ^ 18) (quad W f) /\ supported W f lays k /\ nan_passes (fp_fit fp) (length W) /\
    fpi_run fp (VArr (A1 (map Fin (repeat (INR n / INR k) k)))) (VArr (A1 (map Fin (map (fun x => x * (10 / 3)) (es ++ ep))))) true true 10000 (mkThr (Fin (/ 10 ^ 6)) (Fin (/ 10 ^ 6)) (Fin (/ 10 ^ 14))) = Ok r /\
    table_5 fl (map str ygbs) (archive_files rest) s (Z.of_nat n) fuel = Some (Ok r) /\
    r_coeffs r = map Fin c /\ r_exps r = map Fin e1 /\ row_of (/ 10 ^ 18) W f (values true lays c e1) (last (r_perf r) []).
Proof. exact table_5_setup. Qed.
Print Assumptions C99_table_5.

(** The archived files and the shipped exponents, every element of the exponent file. *)
Theorem C99_tables : forall fl rest s n e ns fuel, reads_decimals fl -> reads_scientific fl ->
  element s n -> In (e, ns) ugbs_sizes -> same_name (str s) (str e) -> (100 <= fuel)%nat ->
  exists r c e1 r' c' e', table_1 fl (map str ygbs) (archive_files rest) s (Z.of_nat n) fuel = Some (Ok r) /\
    table_5 fl (map str ygbs) (archive_files rest) s (Z.of_nat n) fuel = Some (Ok r') /\
    r_coeffs r = map Fin c /\ r_exps r = map Fin e1 /\ r_coeffs r' = map Fin c' /\ r_exps r' = map Fin e' /\
    length c = (nth 0 ns 0 + nth 1 ns 0)%nat /\ length e1 = length c /\ length c' = length c /\ length e' = length c /\
    positive c /\ positive e1 /\ positive c' /\ positive e' /\ (1 <= length (r_perf r))%nat /\ (1 <= length (r_perf r'))%nat.
Proof. exact tables. Qed.
Print Assumptions C99_tables.

(** The elements and atomic numbers of the scripts. *)
Theorem C99_scripts : forall fl rest s z fuel, reads_decimals fl -> reads_scientific fl -> (100 <= fuel)%nat ->
  (In (s, z) table_1_atoms -> exists r, table_1 fl (map str ygbs) (archive_files rest) s z fuel = Some (Ok r)) /\
  (In (s, z) table_5_atoms -> exists r, table_5 fl (map str ygbs) (archive_files rest) s z fuel = Some (Ok r)).
Proof. exact scripts. Qed.
Print Assumptions C99_scripts.

(** A density with two subshells: the bound is reached by the second, r e^(-r), alone.  Without a leading term
    a subshell can vanish everywhere. *)
Definition C99_one : subshell := mkSub 2 (-1) 0 [(1, 3, 1%nat); (1 / 2, 1, 1%nat); (-1, 1, 1%nat)].
Definition C99_two : subshell := mkSub 3 (-1) 1 [(1, 1, 2%nat)].
Definition C99_none : subshell := mkSub 3 (-1) 1 [(1, 1, 2%nat); (-1, 1, 2%nat)].
Example C99_example :
  (leading C99_one /\ valid C99_one /\ size C99_one = 3%nat /\ leading C99_two /\ valid C99_two /\ size C99_two = 2%nat) /\
  (rho [C99_two] 0 = 0 /\ forall r, rho [C99_none] r = 0) /\
  (element "rh" 45 /\ In ("Rh"%string, [32; 21; 17; 0]%nat) ugbs_sizes /\ In ("rh"%string, 45%Z) table_5_atoms /\ In ("xe"%string, 54%Z) table_1_atoms) /\
  reads_decimals read_number /\ reads_scientific read_number.
Proof.
  split; [|split; [|split]].
  - split; [exists [], 1, 3, 1%nat, [(1 / 2, 1, 1%nat); (-1, 1, 1%nat)]; split; [reflexivity|split; [lra|cbn; intros [H|[H|[]]]; lra]]|].
    split; [intros c z n; cbn; intros [H|[H|[H|[]]]]; injection H as <- <- <-; split; [lra|lia|lra|lia|lra|lia]|]. split; [reflexivity|].
    split; [exists [], 1, 1, 2%nat, []; split; [reflexivity|split; [lra|intros []]]|]. split; [intros c z n; cbn; intros [H|[]]; injection H as <- <- <-; split; [lra|lia]|reflexivity].
  - unfold rho, rho_w, phi, C99_two, C99_none, sto. cbn [map s_exp s_occ rsum fold_right]. split; [unfold rsum; cbn; lra|]. intros r. unfold rsum. cbn [fold_right].
    replace (1 * _ + _) with 0 by ring. unfold Rdiv. ring.
  - split; [split; [lia|]; exists "Rh"%string; split; reflexivity|]. split; [apply (nth_error_In _ 44); reflexivity|]. split; [unfold table_5_atoms; cbn [In]; tauto|]. apply (nth_error_In _ 53). reflexivity.
  - split; [exact read_number_decimals|exact read_number_scientific].
Qed.
