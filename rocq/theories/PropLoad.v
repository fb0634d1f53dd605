(** Properties C81-C84: from the data files to the densities (/repo/bfit/density.py:89-101 and
    the methods of the class).  [fl] is the reading of numbers. *)
From Coq Require Import Reals.
From Coquelicot Require Import Coquelicot.
From Coq Require Import String Ascii List Bool Arith ZArith Lia.
From Verif Require Import XR PyStr PyText ModelParse SpecParse SpecFile SpecShipped DataSlater ModelSlater SpecDens SpecSlater ModelLoad SpecLoad SpecKin ProofSlater ProofKin ProofElec.
Import ListNotations.
Local Open Scope R_scope.

(** * C81: a well-formed file gives the documented functions of its subshells *)

Theorem C81_file_to_functions : forall fl heavy C ps f fuel,
  file_lines fl heavy C f -> blocks_ok heavy (ct_blocks C) -> config_of heavy (ct_word C) ps ->
  Forall piece_ok ps -> distinct ps -> all_occupied C ps -> finite_blocks C -> positive_blocks C -> (length f < fuel)%nat ->
  exists d L, parse_slater fl heavy fuel f = Some (Ok d) /\ file_subs C ps L /\
    (forall pts, atomic_density (atom_of d) (A1 (map Fin pts)) MTotal = Ok (map Fin (map (rho L) pts))) /\
    (forall pts, exists g, derivative_density (atom_of d) (A1 (map Fin pts)) = Ok (map Fin g) /\ length g = length pts /\
       forall i, (i < length pts)%nat -> / 10 ^ 10 <= Rabs (nth i pts 0) -> is_derive (rho L) (nth i pts 0) (nth i g 0)) /\
    (forall pts, exists (dphi : subshell -> R -> R) t,
       kinetic_energy (atom_of d) (A1 (map Fin pts)) = Ok (map Fin t) /\ length t = length pts /\
       forall i, (i < length pts)%nat -> / 10 ^ 10 <= Rabs (nth i pts 0) ->
         nth i t 0 = tau dphi L (nth i pts 0) /\
         forall s, In s L -> is_derive (phi s) (nth i pts 0) (dphi s (nth i pts 0))) /\
    is_RInt_gen (fun r : R => 4 * PI * r ^ 2 * rho L r) (at_point 0) (Rbar_locally p_infty)
      (rsum (map (fun s => s_occ s * orb_norm s) L)).
Proof. exact file_methods. Qed.
Print Assumptions C81_file_to_functions.

(** The file of beryllium. *)
Example C81_example : forall fl, reads_decimals fl ->
  exists C, file_lines fl false C (map str be_neutral) /\ blocks_ok false (ct_blocks C) /\
    config_of false (ct_word C) [Sub 1 0 2; Sub 2 0 2] /\ distinct [Sub 1 0 2; Sub 2 0 2] /\
    all_occupied C [Sub 1 0 2; Sub 2 0 2] /\ finite_blocks C /\ positive_blocks C /\
    map (fun B => length (bl_rows B)) (ct_blocks C) = [8%nat] /\
    exists d L, parse_slater fl false 100 (map str be_neutral) = Some (Ok d) /\ file_subs C [Sub 1 0 2; Sub 2 0 2] L /\ length L = 2%nat.
Proof. exact be_methods. Qed.

(** * C82: the densities of the shipped atoms integrate to the number of electrons *)

(** Whatever atom or ion of the library loads. *)
Theorem C82_electrons : forall fl s anion cation fuel data, reads_decimals fl -> (100 <= fuel)%nat ->
  slater_atoms fl data_files (Some s) anion cation fuel = Some (Ok data) ->
  exists e (g : R -> R) N, same_name (str s) (str e) /\ In e (map fst atomic_numbers) /\
    (forall pts, atomic_density (atom_of data) (A1 (map Fin pts)) MTotal = Ok (map Fin (map g pts))) /\
    is_RInt_gen (fun r : R => 4 * PI * r ^ 2 * g r) (at_point 0) (Rbar_locally p_infty) N /\
    Rabs (N - IZR (electron_number (place anion cation) e)) <= 5 / 10 ^ 7 * IZR (electron_number (place anion cation) e).
Proof. exact loaded_electrons. Qed.
Print Assumptions C82_electrons.

(** Every file but that of the cesium cation loads. *)
Theorem C82_every_file : forall fl d e f s fuel, reads_decimals fl ->
  In (d, e, f) data_names -> (d, e) <> (Cation, "cs"%string) -> same_name (str s) (str e) -> (100 <= fuel)%nat ->
  exists data (g : R -> R) N,
    slater_atoms fl data_files (Some s) (folder_eqb d Anion) (folder_eqb d Cation) fuel = Some (Ok data) /\
    (forall pts, atomic_density (atom_of data) (A1 (map Fin pts)) MTotal = Ok (map Fin (map g pts))) /\
    is_RInt_gen (fun r : R => 4 * PI * r ^ 2 * g r) (at_point 0) (Rbar_locally p_infty) N /\
    Rabs (N - IZR (electron_number d e)) <= 5 / 10 ^ 7 * IZR (electron_number d e).
Proof. exact shipped_electrons. Qed.
Print Assumptions C82_every_file.

Example C82_example : exists fl, reads_decimals fl /\ In (Neutral, "ag"%string, ag_neutral) data_names /\
  same_name (str "Ag") (str "ag") /\ electron_number Neutral "ag" = 47%Z.
Proof.
  exists read_decimal. split; [exact read_decimal_ok|]. split; [unfold data_names; cbn [In]; tauto|]. split; reflexivity.
Qed.

(** * C83: integral of the kinetic energy density *)

Theorem C83_kinetic_integral : forall a L, describes a L -> Forall valid L ->
  exists dphi : subshell -> R -> R,
    (forall s r, In s L -> r <> 0 -> is_derive (phi s) r (dphi s r)) /\
    (forall pts, Forall (fun r => / 10 ^ 10 <= Rabs r) pts -> kinetic_energy a (A1 (map Fin pts)) = Ok (map Fin (map (tau dphi L) pts))) /\
    is_RInt_gen (fun r : R => 4 * PI * r ^ 2 * tau dphi L r) (at_point 0) (Rbar_locally p_infty)
      (rsum (map (fun s => s_occ s * orb_kin s) L)).
Proof. exact kinetic_integral. Qed.
Print Assumptions C83_kinetic_integral.

(** The elements that [orb_kin] adds up are the integrals they stand for. *)
Theorem C83_element : forall l z n z' n', 0 < z -> 0 < z' -> (1 <= n)%nat -> (1 <= n')%nat ->
  is_RInt_gen (fun r : R => / 2 * (r ^ 2 * (Derive (sto z n) r * Derive (sto z' n') r) + INR l * (INR l + 1) * (sto z n r * sto z' n' r)))
    (at_point 0) (Rbar_locally p_infty) (kin l z n z' n').
Proof. exact kin_element. Qed.
Print Assumptions C83_element.

(** Hydrogen: exact orbital, kinetic energy one half. *)
Example C83_example :
  let s := mkSub 1 (-1/2) 0 [(1, 1, 1%nat)] in
  let a := mkAtom [(1%nat, LS)] [1] [-1/2] (fun l => match l with LS => Some [1] | _ => None end)
             (fun l => match l with LS => Some [1%nat] | _ => None end) (fun o => match o with (1%nat, LS) => Some [1] | _ => None end) in
  describes a [s] /\ Forall valid [s] /\ rsum (map (fun s => s_occ s * orb_kin s) [s]) = 1 / 2.
Proof. exact hydrogen_kin. Qed.

(** * C84: the kinetic energy of the shipped atoms is that of their file *)

Theorem C84_kinetic_energy : forall fl s anion cation fuel data, reads_decimals fl -> (100 <= fuel)%nat ->
  slater_atoms fl data_files (Some s) anion cation fuel = Some (Ok data) ->
  exists T L (dphi : subshell -> R -> R) K, sd_T data = Fin T /\ 0 < T /\ describes (atom_of data) L /\
    (forall s r, In s L -> r <> 0 -> is_derive (phi s) r (dphi s r)) /\
    (forall pts, Forall (fun r => / 10 ^ 10 <= Rabs r) pts -> kinetic_energy (atom_of data) (A1 (map Fin pts)) = Ok (map Fin (map (tau dphi L) pts))) /\
    is_RInt_gen (fun r : R => 4 * PI * r ^ 2 * tau dphi L r) (at_point 0) (Rbar_locally p_infty) K /\
    Rabs (K - T) <= 5 / 10 ^ 7 * T.
Proof. exact loaded_kinetic. Qed.
Print Assumptions C84_kinetic_energy.

(** Silver loads. *)
Example C84_example : exists data T, slater_atoms read_decimal data_files (Some "Ag"%string) false false 100 = Some (Ok data) /\ sd_T data = Fin T /\ 0 < T.
Proof.
  destruct (shipped_kinetic read_decimal Neutral "ag" ag_neutral "Ag" 100 read_decimal_ok) as (data & T & L & dphi & K & H1 & H2 & H3 & _).
  - unfold data_names; cbn [In]; tauto.
  - discriminate.
  - reflexivity.
  - lia.
  - exists data, T. auto.
Qed.
