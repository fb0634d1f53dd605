(** Property C95: the fitted models in /repo/bfit/data/kl_fpi_results.json and
    /repo/bfit/data/kl_slsqp_results.json, read as in /repo/README.md. *)
From Coq Require Import Reals.
From Coquelicot Require Import Coquelicot.
From Coq Require Import Ascii String List ZArith Bool Lia Lra.
From Verif Require Import XR PyText SpecParse SpecJson ModelJson ProofJson SpecUgbs SpecFits DataFits SpecDens ModelDens ProofFits ProofFits2.
Import ListNotations.
Local Open Scope R_scope.

(** The reader accepts exactly the texts of the format and returns their values. *)
Theorem C95_reader : forall s j, json_load s = Some j <-> document s j.
Proof. exact json_load_spec. Qed.
Print Assumptions C95_reader.

Example C95_reader_example :
  json_load (str "{""a"": [1, -2.50e-3], ""b"" : {}} ") =
    Some (JObj [(str "a", JArr [JInt 1; JDec (-250) (-5)]); (str "b", JObj [])]) /\
  json_load (str "{""a"": [1, ]}") = None /\ json_load (str "01") = None.
Proof. repeat split; reflexivity. Qed.

(** Reading without rounding is one of the readings considered. *)
Example C95_reading : reads_floats dec.
Proof.
  intros m e _. replace (dec m e - dec m e) with 0 by lra. rewrite Rabs_R0.
  apply Rmult_le_pos; [apply Rabs_pos|]. left. apply Rinv_0_lt_compat, pow_lt. lra.
Qed.

(** The models fitted by the fixed point iteration: one for each element from hydrogen to xenon, with
    as many s- and p-type functions as the universal Gaussian basis set, positive coefficients and
    exponents, and coefficients that sum to the number of electrons within 2e-9. *)
Theorem C95_fpi : forall fl, reads_floats fl -> forall k name, nth_error fit_names k = Some name ->
  exists ns np c e,
    load_fit fl fpi_json name = Ok (JInt (Z.of_nat ns), JInt (Z.of_nat np), map Fin c, map Fin e) /\
    ugbs_counts k ns np /\ length c = (ns + np)%nat /\ length e = (ns + np)%nat /\
    Forall (fun a => 0 < a) c /\ Forall (fun a => 0 < a) e /\
    Rabs (rsum c - INR (S k)) <= 2 / 10 ^ 9.
Proof. exact fits_fpi. Qed.
Print Assumptions C95_fpi.

(** The models fitted by SLSQP: the same within 3e-5, except for xenon, whose coefficients miss the
    number of electrons by more than 1e-4. *)
Theorem C95_slsqp : forall fl, reads_floats fl -> forall k name, nth_error fit_names k = Some name ->
  exists ns np c e,
    load_fit fl slsqp_json name = Ok (JInt (Z.of_nat ns), JInt (Z.of_nat np), map Fin c, map Fin e) /\
    ugbs_counts k ns np /\ length c = (ns + np)%nat /\ length e = (ns + np)%nat /\
    Forall (fun a => 0 < a) c /\ Forall (fun a => 0 < a) e /\
    (k <> 53%nat -> Rabs (rsum c - INR (S k)) <= 3 / 10 ^ 5) /\
    (k = 53%nat -> 11 / 10 ^ 5 <= Rabs (rsum c - INR (S k)) <= 12 / 10 ^ 5).
Proof. exact fits_slsqp. Qed.
Print Assumptions C95_slsqp.

(** Other names raise KeyError; a file of which only a first part is left, and every text that is not in the
    format, raises ValueError. *)
Theorem C95_other_names : forall fl file name, file = fpi_json \/ file = slsqp_json -> ~ In name fit_names ->
  load_fit fl file name = Raise KeyError.
Proof. exact fits_unknown. Qed.
Print Assumptions C95_other_names.
Theorem C95_truncated : forall fl file p u name, file = fpi_json \/ file = slsqp_json -> file = p ++ u -> u <> [] ->
  load_fit fl p name = Raise ValueError.
Proof. exact fits_truncated. Qed.
Print Assumptions C95_truncated.
Theorem C95_invalid : forall fl file name, (forall j, ~ document file j) -> load_fit fl file name = Raise ValueError.
Proof. exact no_document. Qed.
Print Assumptions C95_invalid.

(** Parameters of such sizes and signs make a normalized model that evaluates on all radial points,
    is positive everywhere and integrates over space to the sum of the coefficients. *)
Theorem C95_density : forall k name ns np c e, nth_error fit_names k = Some name ->
  ugbs_counts k ns np -> length c = (ns + np)%nat -> length e = (ns + np)%nat ->
  Forall (fun a => 0 < a) c -> Forall (fun a => 0 < a) e ->
  exists g : R -> R,
    (forall rs, Forall (fun r => 0 <= r) rs -> exists m,
       atomic_init (VArr (A1 (map Fin rs))) VNone (VInt (Z.of_nat ns)) (VInt (Z.of_nat np)) true = Ok m /\
       atomic_evaluate m (A1 (map Fin c)) (A1 (map Fin e)) false = Ok (map Fin (map g rs), None)) /\
    (forall r, 0 <= r -> 0 < g r) /\
    is_RInt_gen (fun r => 4 * PI * r ^ 2 * g r) (at_point 0) (Rbar_locally p_infty) (rsum c).
Proof. exact fit_density. Qed.
Print Assumptions C95_density.

(** Beryllium, the example of README.md; names outside the table raise KeyError. *)
Example C95_example :
  nth_error fit_names 3 = Some "be"%string /\ ugbs_counts 3 25 0 /\
  json_index (JObj [(str "h", JInt 1); (str "h", JInt 2)]) "h" = Ok (JInt 2) /\
  json_index (JObj [(str "h", JInt 1)]) "H" = Raise KeyError /\
  ~ In "cs"%string fit_names /\ ~ In "Be"%string fit_names.
Proof.
  split; [reflexivity|]. split; [do 3 eexists; reflexivity|]. split; [reflexivity|]. split; [reflexivity|].
  assert (H : forallb (fun n => negb (String.eqb n "cs" || String.eqb n "Be")) fit_names = true) by reflexivity. rewrite forallb_forall in H.
  split; intros I; specialize (H _ I); discriminate.
Qed.
