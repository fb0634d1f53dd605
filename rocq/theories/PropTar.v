(** Property C98: the archive of data files (/repo/bfit/data/data.tar) put in place of the folders
    (/repo/bfit/_slater.py:62-276, /repo/bfit/density.py:83-101).  [rest] is the part of the archived
    file anion/ag.an after its line 80. *)
From Coq Require Import Reals.
From Coquelicot Require Import Coquelicot.
From Coq Require Import String Ascii List Bool Arith ZArith Lia.
From Verif Require Import XR PyStr PyText ModelParse SpecParse SpecFile SpecShipped SpecElem SpecTar DataSlater DataTar ModelSlater SpecDens SpecSlater ModelLoad SpecLoad SpecKin ProofSlater ProofTar ProofTar2.
Import ListNotations.
Local Open Scope nat_scope.

(** Every neutral atom from hydrogen to lawrencium and every ion on offer, but the silver anion and the
    cesium cation, is loaded from a file in the layout and has the right number of electrons. *)
Theorem C98_loads_partial : forall fl val, (forall t, is_decimal t -> fl t = Ok (val t)) ->
  forall rest d s n, element s n -> offered d s -> (d, n) <> (Anion, 47) -> (d, n) <> (Cation, 55) ->
  forall heavy, (heavy = true <-> heavy_element s) -> forall fuel, 100 <= fuel ->
  exists f C ps data, archive_files rest d (lower s) = Some f /\ file_lines fl heavy C f /\ config_of heavy (ct_word C) ps /\
    slater_atoms fl (archive_files rest) (Some s) (folder_eqb d Anion) (folder_eqb d Cation) fuel = Some (Ok data) /\
    returned C ps data /\ zsum (sd_occ data) = ion_electrons d n.
Proof. exact archive_loads. Qed.
Print Assumptions C98_loads_partial.

(** They have positive exponents; the density is that of their subshells. *)
Theorem C98_functions_partial : forall fl, reads_decimals fl ->
  forall rest d s n, element s n -> offered d s -> (d, n) <> (Anion, 47) -> (d, n) <> (Cation, 55) ->
  forall fuel, 100 <= fuel ->
  exists data L, slater_atoms fl (archive_files rest) (Some s) (folder_eqb d Anion) (folder_eqb d Cation) fuel = Some (Ok data) /\
    describes (atom_of data) L /\ Forall valid L /\ rsum (map s_occ L) = IZR (ion_electrons d n) /\
    (forall pts, atomic_density (atom_of data) (A1 (map Fin pts)) MTotal = Ok (map Fin (map (rho L) pts))) /\
    is_RInt_gen (fun r : R => 4 * PI * r ^ 2 * rho L r)%R (at_point 0%R) (Rbar_locally p_infty)
                (rsum (map (fun s => s_occ s * orb_norm s)%R L)).
Proof. exact archive_functions. Qed.
Print Assumptions C98_functions_partial.

(** The archived file of the silver anion is an archive of the other anions: no data is returned,
    whatever follows line 80 and however numbers are read. *)
Theorem C98_silver_anion_refuted : forall fl rest s fuel data, element s 47 ->
  slater_atoms fl (archive_files rest) (Some s) true false fuel <> Some (Ok data).
Proof. exact tar_silver. Qed.
Print Assumptions C98_silver_anion_refuted.

Theorem C98_cesium_cation_refuted : forall fl val rest s fuel, (forall t, is_decimal t -> fl t = Ok (val t)) ->
  element s 55 -> slater_atoms fl (archive_files rest) (Some s) false true fuel = Some (Raise ValueError).
Proof. exact tar_cesium. Qed.
Print Assumptions C98_cesium_cation_refuted.

Example C98_example : length archive_names = 198 /\ element "u" 92 /\ offered Neutral "u" /\ heavy_element "u" /\
  element "Fe" 26 /\ offered Anion "Fe" /\ ion_electrons Anion 26 = 27%Z /\ element "AG" 47 /\ offered Anion "AG".
Proof.
  assert (U : element "u" 92) by (split; [lia|]; exists "U"%string; split; reflexivity).
  assert (F : element "Fe" 26) by (split; [lia|]; exists "Fe"%string; split; reflexivity).
  assert (A : element "AG" 47) by (split; [lia|]; exists "Ag"%string; split; reflexivity).
  split; [reflexivity|]. split; [exact U|]. split; [exact I|]. split; [exists 92; split; [exact U|lia]|]. split; [exact F|].
  split; [exists 26; split; [exact F|split; [lia|cbn [app In]; lia]]|]. split; [reflexivity|]. split; [exact A|]. exists 47. split; [exact A|split; [lia|cbn [app In]; lia]].
Qed.
