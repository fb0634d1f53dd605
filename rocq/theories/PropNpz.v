(** Property C113: the fitted models in /repo/bfit/data/kl_fpi_results.npz and
    /repo/bfit/data/kl_slsqp_results.npz, read as in /repo/README.md:104-118. *)
From Coq Require Import Reals.
From Coq Require Import NArith ZArith List Bool Ascii String Lia Lra.
From Flocq Require Import IEEE754.Bits.
From Verif Require Import XR PyText ModelNpz SpecNpz SpecNpz2 DataNpz ProofNpz ProofNpz4 SpecBin SpecJson ModelJson SpecUgbs SpecFits DataFits SpecDens ProofNpz3.
Import ListNotations.
Local Open Scope R_scope.

(** Reading gives back what was saved: whatever arrays [np.savez] writes to an archive, each name gives its
    array, and every other name, without ".npy" added to one, raises KeyError. *)
Theorem C113_round_trip : forall l, savable l -> exists es,
  npz_open (savez l) = Some es /\
  (forall name a, In (name, a) l -> npz_get (savez l) es name = Some (Ok a)) /\
  (forall key, ~ In key (map fst l) -> (forall name, In name (map fst l) -> key <> (name ++ list_ascii_of_string ".npy")%list) ->
     npz_get (savez l) es key = Some (Raise KeyError)).
Proof. exact get_saved. Qed.
Print Assumptions C113_round_trip.

Definition two_arrays : list (text * nparray) :=
  [(list_ascii_of_string "n", mkArray Int64 false [3%N]); (list_ascii_of_string "c", mkArray Float64 true [4607182418800017408%N; 13830554455654793216%N])].
Example C113_round_trip_example :
  savable two_arrays /\ List.length (savez two_arrays) = 514%nat /\
  (exists es, npz_open (savez two_arrays) = Some es /\
     npz_get (savez two_arrays) es (list_ascii_of_string "c") = Some (Ok (mkArray Float64 true [4607182418800017408%N; 13830554455654793216%N])) /\
     npz_get (savez two_arrays) es (list_ascii_of_string "x") = Some (Raise KeyError)) /\
  int64 3 = 3%Z /\ float64 4607182418800017408 = Fin 1 /\ float64 13830554455654793216 = Fin (-1) /\
  crc32 (raw "123456789") = 3421780262%N.
Proof.
  assert (S : savable two_arrays).
  { split; [|split; [|split; [|split; reflexivity]]].
    - repeat constructor; cbn; intuition discriminate.
    - intros n [<-|[<-|[]]] [H|[H|[]]]; discriminate H.
    - repeat constructor; try discriminate; reflexivity. }
  assert (P : powerRZ 2 (-52) = / 4503599627370496) by (change (/ 2 ^ 52 = / 4503599627370496); now rewrite (pow_IZR 2 52)).
  split; [exact S|]. split; [vm_compute; reflexivity|]. split.
  - destruct (get_saved _ S) as (es & O & G & K). exists es. split; [exact O|]. split; [apply G; right; left; reflexivity|]. apply K.
    + intros [H|[H|[]]]; discriminate H.
    + intros n [<-|[<-|[]]]; discriminate.
  - split; [reflexivity|]. split; [|split; [|reflexivity]].
    + change (Fin (1 * IZR 4503599627370496 * powerRZ 2 (-52)) = Fin 1). rewrite P. f_equal. lra.
    + change (Fin (-1 * IZR 4503599627370496 * powerRZ 2 (-52)) = Fin (-1)). rewrite P. f_equal. lra.
Qed.

(** A word of 64 bits stands for the double with these bits. *)
Theorem C113_doubles : forall w, (w < 2 ^ 64)%N -> float64 w = double_value (b64_of_bits (Z.of_N w)).
Proof. exact float64_spec. Qed.
Print Assumptions C113_doubles.

Example C113_doubles_example : float64 9218868437227405312 = PInf /\ float64 18442240474082181120 = NInf /\
  float64 9221120237041090560 = NaN /\ float64 1 = Fin (powerRZ 2 (-1074)).
Proof.
  split; [reflexivity|]. split; [reflexivity|]. split; [reflexivity|]. change (Fin (1 * 1 * powerRZ 2 (-1074)) = Fin (powerRZ 2 (-1074))). now rewrite !Rmult_1_l.
Qed.

(** A damaged file: when one byte of an array is changed after it was saved, the array is not read any more,
    the others are. *)
Theorem C113_damaged : forall l1 v d l2, savable (l1 ++ v :: l2) ->
  with_data l1 v (npy (snd v)) l2 = savez (l1 ++ v :: l2) /\
  (one_byte_apart (npy (snd v)) d -> exists es, npz_open (with_data l1 v d l2) = Some es /\
     npz_get (with_data l1 v d l2) es (fst v) = None /\
     (forall name a, In (name, a) (l1 ++ l2) -> npz_get (with_data l1 v d l2) es name = Some (Ok a))).
Proof. intros l1 v d l2 S. split; [apply with_data_whole|now apply get_damaged]. Qed.
Print Assumptions C113_damaged.

Example C113_damaged_example :
  one_byte_apart (npy (mkArray Int64 false [3%N])) (npy (mkArray Int64 false [4%N])).
Proof.
  exists (firstn 128 (npy (mkArray Int64 false [3%N]))), 3%N, 4%N, (repeat 0%N 7).
  split; [vm_compute; reflexivity|]. split; [vm_compute; reflexivity|]. split; [discriminate|]. split; reflexivity.
Qed.

(** Both shipped files are what [np.savez] writes. *)
Theorem C113_written : forall file, file = fpi_npz \/ file = slsqp_npz -> exists l, savable l /\ file = savez l.
Proof. exact npz_written. Qed.
Print Assumptions C113_written.

(** The models fitted by the fixed point iteration, read from the .npz file: for each element from hydrogen to
    xenon the same numbers as in the JSON file with decimal numbers rounded to double precision, hence as many
    s- and p-type functions as the universal Gaussian basis set, positive coefficients and exponents, and
    coefficients that sum to the number of electrons within 2e-9. *)
Theorem C113_fpi : forall k name, nth_error fit_names k = Some name ->
  exists ws wp cw ew ns np c e,
    load_npz fpi_npz name =
      Some (Ok (mkArray Int64 false [ws], mkArray Int64 false [wp], mkArray Float64 true cw, mkArray Float64 true ew)) /\
    int64 ws = Z.of_nat ns /\ int64 wp = Z.of_nat np /\ map float64 cw = map Fin c /\ map float64 ew = map Fin e /\
    load_fit (fun m e => bin_rnd (-1074) 53 (dec m e)) fpi_json name =
      Ok (JInt (Z.of_nat ns), JInt (Z.of_nat np), map Fin c, map Fin e) /\
    ugbs_counts k ns np /\ List.length c = (ns + np)%nat /\ List.length e = (ns + np)%nat /\
    Forall (fun a => 0 < a) c /\ Forall (fun a => 0 < a) e /\ Rabs (rsum c - INR (S k)) <= 2 / 10 ^ 9.
Proof. exact npz_fpi. Qed.
Print Assumptions C113_fpi.

(** The models fitted by SLSQP, likewise. *)
Theorem C113_slsqp : forall k name, nth_error fit_names k = Some name ->
  exists ws wp cw ew ns np c e,
    load_npz slsqp_npz name =
      Some (Ok (mkArray Int64 false [ws], mkArray Int64 false [wp], mkArray Float64 true cw, mkArray Float64 true ew)) /\
    int64 ws = Z.of_nat ns /\ int64 wp = Z.of_nat np /\ map float64 cw = map Fin c /\ map float64 ew = map Fin e /\
    load_fit (fun m e => bin_rnd (-1074) 53 (dec m e)) slsqp_json name =
      Ok (JInt (Z.of_nat ns), JInt (Z.of_nat np), map Fin c, map Fin e) /\
    ugbs_counts k ns np /\ List.length c = (ns + np)%nat /\ List.length e = (ns + np)%nat /\
    Forall (fun a => 0 < a) c /\ Forall (fun a => 0 < a) e /\
    (k <> 53%nat -> Rabs (rsum c - INR (S k)) <= 3 / 10 ^ 5) /\
    (k = 53%nat -> 11 / 10 ^ 5 <= Rabs (rsum c - INR (S k)) <= 12 / 10 ^ 5).
Proof. exact npz_slsqp. Qed.
Print Assumptions C113_slsqp.

(** The element of the example in README.md. *)
Example C113_beryllium : exists ws wp cw ew,
  load_npz fpi_npz "be" =
    Some (Ok (mkArray Int64 false [ws], mkArray Int64 false [wp], mkArray Float64 true cw, mkArray Float64 true ew)) /\
  int64 ws = 25%Z /\ int64 wp = 0%Z /\ List.length cw = 25%nat.
Proof.
  destruct (C113_fpi 3 "be" eq_refl) as (ws & wp & cw & ew & ns & np & c & e & L & A & B & C & _ & _ & (n & d & f & U) & LC & _).
  exists ws, wp, cw, ew. cbn in U. injection U as _ <- <- _ _. split; [exact L|]. split; [exact A|]. split; [exact B|]. rewrite <- (map_length float64), C, map_length, LC. reflexivity.
Qed.

(** Elements that are not in the files raise KeyError. *)
Theorem C113_other_names : forall file name, file = fpi_npz \/ file = slsqp_npz -> ~ In name fit_names ->
  load_npz file name = Some (Raise KeyError).
Proof. exact npz_other. Qed.
Print Assumptions C113_other_names.

Example C113_other_names_example : load_npz fpi_npz "cs" = Some (Raise KeyError) /\ load_npz slsqp_npz "Be" = Some (Raise KeyError).
Proof.
  assert (H : forallb (fun n => negb (String.eqb n "cs" || String.eqb n "Be")) fit_names = true) by reflexivity. rewrite forallb_forall in H.
  split.
  - apply (C113_other_names _ _ (or_introl eq_refl)). intros I. specialize (H _ I). discriminate H.
  - apply (C113_other_names _ _ (or_intror eq_refl)). intros I. specialize (H _ I). discriminate H.
Qed.
