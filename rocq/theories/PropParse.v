(** Properties C35-C41 and C80: the data files and their readers (/repo/bfit/_slater.py,
    /repo/bfit/parse_ugbs.py, /repo/bfit/data).  [fl] is the reading of numbers. *)
From Coq Require Import String Ascii List Bool Arith ZArith Lia.
From Verif Require Import XR PyStr PyText ModelParse SpecParse SpecFile SpecShipped SpecElem SpecErr DataSlater ProofText ProofConf ProofConf2
  ProofFile ProofFile2 ProofFile3 ProofFile4 ProofNames ProofCheck ProofShipped ProofElem ProofErr ProofErr3.
Import ListNotations.
Local Open Scope list_scope.

(** * C35: electron configurations *)

Theorem C35_occupations : forall ps,
  Forall piece_ok ps -> distinct ps ->
  exists d, occupations (show_all ps) = Ok d /\
    (forall n l c, subshell_ok n l -> electrons ps n l c ->
       dget (label n l) d = if Nat.eqb c 0 then None else Some (Z.of_nat c)) /\
    (forall k v, In (k, v) d -> exists n l c, subshell_ok n l /\ electrons ps n l c /\ k = label n l /\ v = Z.of_nat c) /\
    NoDup (map fst d).
Proof. exact occupations_ok. Qed.
Print Assumptions C35_occupations.

(** The occupations add up to the electrons of the configuration. *)
Theorem C35_electron_count : forall ps d,
  Forall piece_ok ps -> distinct ps -> separate ps -> occupations (show_all ps) = Ok d ->
  zsum (map snd d) = Z.of_nat (total ps).
Proof. exact occupations_total. Qed.
Print Assumptions C35_electron_count.

(** Counts are read by [int]: which text is a number, and which. *)
Theorem C35_whole_numbers : forall s,
  (forall z, py_int s = Ok z <-> whole_number s z) /\ forall e, py_int s = Raise e -> e = ValueError.
Proof. exact (fun s => conj (py_int_whole s) (py_int_error s)). Qed.
Print Assumptions C35_whole_numbers.

Example C35_numbers_example : whole_number (str " -1_0 ") (-10) /\ py_int (str "1__0") = Raise ValueError /\ py_int (str "+ 1") = Raise ValueError.
Proof.
  split; [|split; reflexivity]. exists (str " "), (str "-"), (str "1_0"), (str "10"), (str " ").
  repeat split; try (intros c [<-|[]]; unfold white; cbn; lia); [|right; split; reflexivity].
  apply (grouped_more (str "1") (str "0") (str "0")); [discriminate|intros c [<-|[]]; unfold digit; cbn; lia|].
  apply grouped_one; [discriminate|intros c [<-|[]]; unfold digit; cbn; lia].
Qed.

(** Silver. *)
Example C35_example : let ps := [Closed 1; Closed 2; Closed 3; Sub 4 0 2; Sub 4 1 6; Sub 5 0 1; Sub 4 2 10] in
  str "K(2)L(8)M(18)4S(2)4P(6)5S(1)4D(10)" = show_all ps /\ Forall piece_ok ps /\ distinct ps /\ separate ps /\ total ps = 47 /\
  occupations (str "K(2)L(8)M(18)4S(2)4P(6)5S(1)4D(10)") =
    Ok (map (fun x => (str (fst x), snd x)) [("1S", 2); ("2S", 2); ("3S", 2); ("4S", 2); ("5S", 1); ("2P", 6); ("3P", 6); ("4P", 6); ("3D", 10); ("4D", 10)]%Z%string).
Proof.
  cbv zeta. split; [reflexivity|]. assert (P : Forall piece_ok [Closed 1; Closed 2; Closed 3; Sub 4 0 2; Sub 4 1 6; Sub 5 0 1; Sub 4 2 10]) by (repeat constructor; cbn; lia).
  split; [exact P|]. split; [apply distinctb_ok; [exact P|reflexivity]|]. split; [apply separateb_ok; reflexivity|]. split; reflexivity.
Qed.

(** * C36: heavy elements *)

Theorem C36_core : forall (name : string) core z ps,
  (name = "[XE]"%string /\ core = xe_pieces /\ z = 54%Z) \/ (name = "[RN]"%string /\ core = rn_pieces /\ z = 86%Z) ->
  Forall piece_ok ps -> distinct (core ++ ps) -> separate (core ++ ps) ->
  exists conf d, heavy_configuration (str name ++ show_all ps) = Ok conf /\ occupations conf = Ok d /\
    zsum (map snd d) = (z + Z.of_nat (total ps))%Z /\
    forall n l c, subshell_ok n l -> electrons (core ++ ps) n l c -> dget (label n l) d = if Nat.eqb c 0 then None else Some (Z.of_nat c).
Proof. exact heavy_electrons. Qed.
Print Assumptions C36_core.

Theorem C36_expansion : forall (name : string) core ps,
  (name = "[XE]"%string /\ core = xe_pieces) \/ (name = "[RN]"%string /\ core = rn_pieces) ->
  Forall piece_ok ps -> heavy_configuration (str name ++ show_all ps) = Ok (show_all (core ++ ps)).
Proof. exact heavy_ok. Qed.
Print Assumptions C36_expansion.

Theorem C36_otherwise_ValueError : forall conf,
  (heavy_configuration conf = Raise ValueError <-> forall a b, conf <> a ++ str "[XE]" ++ b /\ conf <> a ++ str "[RN]" ++ b) /\
  forall e, heavy_configuration conf = Raise e -> e = ValueError.
Proof. exact heavy_iff. Qed.
Print Assumptions C36_otherwise_ValueError.

(** Dysprosium, cesium cation. *)
Example C36_example : let ps := [Sub 6 0 2; Sub 5 2 0; Sub 4 3 10] in
  Forall piece_ok ps /\ distinct (xe_pieces ++ ps) /\ separate (xe_pieces ++ ps) /\ 54 + total ps = 66 /\
  heavy_configuration (str "[XE]6S(2)5D(0)4F(10)") = Ok (str "K(2)L(8)M(18)4S(2)4P(6)5S(2)4D(10)5P(6)6S(2)5D(0)4F(10)") /\
  heavy_configuration (str "K(2)L(8)M(18)4S(2)4P(6)5S(2)4D(10)5P(6)") = Raise ValueError.
Proof.
  cbv zeta. assert (P : Forall piece_ok [Sub 6 0 2; Sub 5 2 0; Sub 4 3 10]) by (repeat constructor; cbn; lia).
  split; [exact P|]. split; [apply distinctb_ok; [apply Forall_app; split; [apply xe_ok|exact P]|reflexivity]|]. split; [apply separateb_ok; reflexivity|]. repeat split; reflexivity.
Qed.

(** * C37: columns *)

(** Orbitals that start at (l+1)L: the word [k] after the label and the exponent is read for
    orbital (l+1+k)L.  Missing for C37: blocks that start at a higher orbital, see below. *)
Theorem C37_column_partial : forall l k (b e : text) cs c,
  l <= 3 -> l + 1 + k <= 9 -> nth_error cs k = Some c ->
  (do j <- get_column (label (l + 1 + k) l); py_get (b :: e :: cs) j) = Ok c.
Proof. exact column_right. Qed.
Print Assumptions C37_column_partial.

(** Blocks that start at n0 L. *)
Theorem C37_column_shifted : forall l n0 k (b e : text) cs,
  l <= 3 -> l < n0 -> n0 + k <= 9 ->
  (do j <- get_column (label (n0 + k) l); py_get (b :: e :: cs) j) =
  match nth_error cs (k + (n0 - l - 1)) with Some c => Ok c | None => Raise IndexError end.
Proof. exact column_shifted. Qed.
Print Assumptions C37_column_shifted.

Theorem C37_column_refuted :
  exists (b e c2 c3 : text), c2 <> c3 /\
    (do j <- get_column (label 2 0); py_get [b; e; c2; c3] j) = Ok c3 /\
    (do j <- get_column (label 3 0); py_get [b; e; c2; c3] j) = Raise IndexError.
Proof. exact column_counterexample. Qed.
Print Assumptions C37_column_refuted.

(** Any label nL and any row: the word at n + 1 - l, from the end when this is -1. *)
Theorem C37_any_column : forall n l (ws : list text), 1 <= n <= 9 -> l <= 3 ->
  (do j <- get_column (label n l); py_get ws j) =
  if Nat.leb l (n + 1) then match nth_error ws (n + 1 - l) with Some w => Ok w | None => Raise IndexError end
  else match rev ws with w :: _ => Ok w | [] => Raise IndexError end.
Proof. exact column_any. Qed.
Print Assumptions C37_any_column.

Example C37_any_example : let ws := map str ["1F"; "2.5"; "0.3"]%string in
  (do j <- get_column (str "1F"); py_get ws j) = Ok (str "0.3") /\ (do j <- get_column (str "2F"); py_get ws j) = Ok (str "1F") /\
  (do j <- get_column (str "4D"); py_get ws j) = Raise IndexError.
Proof. repeat split. Qed.

(** Third coefficient of a row of the 3D, 4D, 5D block of radon. *)
Example C37_example : 2 <= 3 /\ 2 + 1 + 2 <= 9 /\ label (2 + 1 + 2) 2 = str "5D" /\
  words (str "  3D       52.058235       .0048754      -.0019690       .0008485") = map str ["3D"; "52.058235"; ".0048754"; "-.0019690"; ".0008485"]%string /\
  (do j <- get_column (str "5D"); py_get (map str ["3D"; "52.058235"; ".0048754"; "-.0019690"; ".0008485"]%string) j) = Ok (str ".0008485").
Proof. repeat split; try lia; reflexivity. Qed.

(** * C38: well-formed files *)

Theorem C38_well_formed_file : forall (fl : list ascii -> res xr) heavy C ps f fuel,
  file_lines fl heavy C f -> blocks_ok heavy (ct_blocks C) ->
  config_of heavy (ct_word C) ps -> Forall piece_ok ps -> distinct ps -> all_occupied C ps -> length f < fuel ->
  exists d, parse_slater fl heavy fuel f = Some (Ok d) /\ returned C ps d.
Proof. exact parse_ok. Qed.
Print Assumptions C38_well_formed_file.

(** A listed orbital without electrons in the configuration: KeyError. *)
Theorem C38_unoccupied : forall (fl : list ascii -> res xr) heavy C ps f fuel,
  file_lines fl heavy C f -> blocks_ok heavy (ct_blocks C) ->
  config_of heavy (ct_word C) ps -> Forall piece_ok ps -> distinct ps ->
  (exists nl, In nl (orbital_nl (ct_blocks C)) /\ electrons ps (fst nl) (snd nl) 0) -> length f < fuel ->
  parse_slater fl heavy fuel f = Some (Raise KeyError).
Proof. exact parse_unoccupied. Qed.
Print Assumptions C38_unoccupied.

(** The beryllium file with the configuration of helium. *)
Example C38_unoccupied_example : forall fl val, (forall t, is_decimal t -> fl t = Ok (val t)) ->
  exists C, file_lines fl false C (map str ("      BERYLLIUM 1S(2), 1S"%string :: tl be_neutral)) /\ blocks_ok false (ct_blocks C) /\ config_of false (ct_word C) [Sub 1 0 2] /\
    Forall piece_ok [Sub 1 0 2] /\ distinct [Sub 1 0 2] /\ In (2, 0) (orbital_nl (ct_blocks C)) /\ electrons [Sub 1 0 2] 2 0 0.
Proof. exact be_as_he_layout. Qed.

(** Lengths. *)
Theorem C38_lengths : forall C ps d heavy, returned C ps d -> blocks_ok heavy (ct_blocks C) ->
  length (sd_energy d) = length (sd_orbs d) /\ length (sd_occ d) = length (sd_orbs d) /\
  (heavy = false -> length (sd_cusp d) = length (sd_orbs d)) /\
  forall x, In x (sd_orbs d) -> exists c e n l, x = label n l /\ dget x (sd_coeff d) = Some c /\ dget [l_char l] (sd_exp d) = Some e /\ length c = length e /\ c <> [].
Proof. exact returned_lengths. Qed.
Print Assumptions C38_lengths.

(** Beryllium (light) and cerium (heavy), as shipped. *)
Example C38_example : forall fl val, (forall t, is_decimal t -> fl t = Ok (val t)) ->
  (exists C, file_lines fl false C (map str be_neutral) /\ blocks_ok false (ct_blocks C) /\ config_of false (ct_word C) [Sub 1 0 2; Sub 2 0 2] /\
     all_occupied C [Sub 1 0 2; Sub 2 0 2] /\ length (ct_blocks C) = 1 /\ map (fun B => length (bl_rows B)) (ct_blocks C) = [8]) /\
  (exists C, file_lines fl true C (map str ce_neutral) /\ blocks_ok true (ct_blocks C) /\ config_of true (ct_word C) (xe_pieces ++ [Sub 6 0 2; Sub 5 2 1; Sub 4 3 1]) /\
     all_occupied C (xe_pieces ++ [Sub 6 0 2; Sub 5 2 1; Sub 4 3 1]) /\ map (fun B => length (bl_rows B)) (ct_blocks C) = [13; 10; 9; 6]).
Proof. exact be_ce_layout. Qed.

(** Files that are not well formed.  No "E" before the first "=" of the energy line: *)
Theorem C38_no_energy : forall fl heavy p le rest fuel,
  preamble heavy p le -> (forall r, ~ energy_key le r) -> length p <= fuel ->
  parse_slater fl heavy fuel (p ++ le :: rest) = Some (Raise RuntimeError).
Proof. exact no_energy. Qed.
Print Assumptions C38_no_energy.

(** no "=": *)
Theorem C38_no_value : forall fl heavy p le rest fuel,
  preamble heavy p le -> energy_key le [] -> length p <= fuel ->
  parse_slater fl heavy fuel (p ++ le :: rest) = Some (Raise IndexError).
Proof. exact no_value. Qed.
Print Assumptions C38_no_value.

(** no number after it: *)
Theorem C38_bad_value : forall fl heavy p le rest fuel t u x,
  preamble heavy p le -> energy_key le ("="%char :: t ++ u) -> (u = [] \/ exists u', u = "="%char :: u') ->
  word t -> ~ In "="%char t -> fl t = Raise x -> length p <= fuel ->
  parse_slater fl heavy fuel (p ++ le :: rest) = Some (Raise x).
Proof. exact bad_value. Qed.
Print Assumptions C38_bad_value.

(** and not three numbers on the line that follows, or no such line. *)
Theorem C38_bad_ratio : forall fl heavy p le lt rest fuel e k,
  preamble heavy p le -> energy_line fl e le -> numbered k lt -> k <> 3 -> length p <= fuel ->
  parse_slater fl heavy fuel (p ++ le :: lt :: rest) = Some (Raise AssertionError).
Proof. exact bad_ratio. Qed.
Print Assumptions C38_bad_ratio.

Theorem C38_no_ratio : forall fl heavy p le fuel e,
  preamble heavy p le -> energy_line fl e le -> length p <= fuel ->
  parse_slater fl heavy fuel (p ++ [le]) = Some (Raise AssertionError).
Proof. exact no_ratio. Qed.
Print Assumptions C38_no_ratio.

Example C38_malformed_example : let p := map str ["BE  1S(2)2S(2)"; ""]%string in
  preamble false p (str "X = 1.5") /\ preamble false p (str "E = 1.5") /\ (forall r, ~ energy_key (str "X = 1.5") r) /\ energy_key (str " E ") [] /\
  energy_key (str "E = x") ("="%char :: str " x") /\ numbered 2 (str "T = 1.5  V = -3.0").
Proof.
  cbv zeta. assert (W : white " "%char) by (unfold white; cbn; lia).
  assert (B : blank (str " ")) by (intros c [<-|[]]; exact W). assert (B0 : blank []) by (intros c []).
  assert (P : forall le, ~ blank le -> preamble false (map str ["BE  1S(2)2S(2)"; ""]%string) le).
  { intros le N. exists (str "BE  1S(2)2S(2)"), [[]], [], (str "1S(2)2S(2)"), []. split; [reflexivity|]. split; [|split; [|split; auto]].
    - exists (str "BE"), (str "1S(2)2S(2)"), []. split; [|reflexivity]. apply (spaced_word [] (str "BE") (str "  1S(2)2S(2)")); auto.
      + split; [discriminate|]. intros c Hc. cbn in Hc. unfold white. cbv zeta. destruct Hc as [<-|[<-|[]]]; cbn; lia.
      + right. exists " "%char, (str " 1S(2)2S(2)"). auto.
      + apply (spaced_word (str "  ") (str "1S(2)2S(2)") []); [intros c [<-|[<-|[]]]; exact W| |auto|constructor; auto].
        split; [discriminate|]. intros c Hc. cbn in Hc. unfold white. cbv zeta. repeat destruct Hc as [<-|Hc]; [cbn; lia ..|destruct Hc].
    - intros s [<-|[]]. exact B0. }
  assert (NE : ~ white "E"%char /\ ~ white "X"%char) by (unfold white; cbn; lia).
  split; [apply P; intros H; apply (proj2 NE), H; now left|]. split; [apply P; intros H; apply (proj1 NE), H; now left|].
  split; [|split; [|split]].
  - intros r (x & y & E & Bx & _). destruct x as [|c x]; [discriminate|]. cbn in E. apply (proj2 NE), Bx. left. congruence.
  - exists (str " "), (str " "). auto.
  - exists [], (str " "). repeat split; auto. right. eauto.
  - apply (numbered_next 1 (str "T = ") (str "1.5") (str "  V = -3.0")).
    + exists [], (str "1"), (str "5"). split; [reflexivity|]. split; [auto|]. split; [discriminate|]. split; [discriminate|]. intros c [<-|[<-|[]]]; unfold digit; cbn; lia.
    + split; [intros c Hc; cbn in Hc; unfold digit; repeat destruct Hc as [<-|Hc]; [cbn; lia ..|destruct Hc]|]. right. exists (str "T ="). reflexivity.
    + right. exists " "%char, (str " V = -3.0"). split; [reflexivity|]. unfold digit. cbn. lia.
    + apply (numbered_next 0 (str "  V = ") (str "-3.0") []); [| |auto|constructor; intros c []].
      * exists (str "-"), (str "3"), (str "0"). split; [reflexivity|]. split; [auto|]. split; [discriminate|]. split; [discriminate|]. intros c [<-|[<-|[]]]; unfold digit; cbn; lia.
      * split; [intros c Hc; cbn in Hc; unfold digit; repeat destruct Hc as [<-|Hc]; [cbn; lia ..|destruct Hc]|]. left. exists (str "3.0"). reflexivity.
Qed.

(** * C39: termination *)

(** The reader does not stop on a file whose lines after the first are blank, whatever the
    number of steps; likewise when only blank lines follow the ratio. *)
Theorem C39_blank_rest_refuted : forall (fl : list ascii -> res xr) heavy f conf ps l0 fuel,
  f = l0 :: tl f -> first_line conf l0 -> config_of heavy conf ps -> all_blank (tl f) -> parse_slater fl heavy fuel f = None.
Proof. exact stuck_first. Qed.
Print Assumptions C39_blank_rest_refuted.

Theorem C39_truncated_refuted : forall (fl : list ascii -> res xr) heavy conf ps l0 b1 more le lt rest e t v fuel,
  first_line conf l0 -> config_of heavy conf ps -> all_blank b1 ->
  (if heavy then length more = 6 /\ ~ blank (hd [] more) else more = []) -> energy_line fl e le -> ratio_line fl t v lt -> all_blank rest ->
  parse_slater fl heavy fuel (l0 :: b1 ++ more ++ le :: lt :: rest) = None.
Proof. exact stuck_second. Qed.
Print Assumptions C39_truncated_refuted.

(** Elsewhere it stops: the number of steps is bounded by the number of lines.  Missing for C39:
    the files above. *)
Theorem C39_stops_partial : forall fl heavy f, ~ stuck heavy f ->
  exists r, forall fuel, length f + 2 <= fuel -> parse_slater fl heavy fuel f = Some r.
Proof. exact stops. Qed.
Print Assumptions C39_stops_partial.

(** More steps do not change the result. *)
Theorem C39_steps : forall (fl : list ascii -> res xr) heavy k k' f x,
  k <= k' -> parse_slater fl heavy k f = Some x -> parse_slater fl heavy k' f = Some x.
Proof. exact parse_mono. Qed.
Print Assumptions C39_steps.

Example C39_example : forall fl fuel,
  parse_slater fl false fuel [str "      HELIUM 1S(2), 1S"; str "  "] = None /\
  ~ stuck false (map str he_neutral).
Proof. exact helium_cut. Qed.

(** * C40: names *)

Theorem C40_case_insensitive : forall fl fs s t anion cation fuel, same_name (str s) (str t) ->
  slater_atoms fl fs (Some s) anion cation fuel = slater_atoms fl fs (Some t) anion cation fuel.
Proof. exact case_insensitive. Qed.
Print Assumptions C40_case_insensitive.

Theorem C40_rejections : forall fl fs fuel,
  (forall anion cation, slater_atoms fl fs None anion cation fuel = Some (Raise TypeError)) /\
  (forall s anion cation, s = ""%string \/ ~ alphabetic (str s) -> slater_atoms fl fs (Some s) anion cation fuel = Some (Raise TypeError)) /\
  (forall s, s <> ""%string -> alphabetic (str s) -> slater_atoms fl fs (Some s) true true fuel = Some (Raise ValueError)) /\
  (forall s anion cation, s <> ""%string -> alphabetic (str s) ->
     (anion = true /\ cation = false /\ ~ anion_offered s) \/ (anion = false /\ cation = true /\ ~ cation_offered s) ->
     slater_atoms fl fs (Some s) anion cation fuel = Some (Raise ValueError)).
Proof. exact rejections_z. Qed.
Print Assumptions C40_rejections.

Theorem C40_missing_file : forall (fl : list ascii -> res xr) (fs : folder -> string -> option (list (list ascii))) s anion cation fuel,
  s <> ""%string -> alphabetic (str s) -> anion && cation = false ->
  (anion = true -> anion_offered s) -> (cation = true -> cation_offered s) ->
  fs (place anion cation) (lower s) = None ->
  slater_atoms fl fs (Some s) anion cation fuel = Some (Raise FileNotFoundError).
Proof. exact file_missing_z. Qed.
Print Assumptions C40_missing_file.

(** A listed element loads from its file.  The layout is the one of heavy elements when the element is
    one; missing for C40: the cesium cation, below. *)
Theorem C40_loads_partial : forall (fl : list ascii -> res xr) (fs : folder -> string -> option (list (list ascii))) s anion cation fuel f C ps,
  s <> ""%string -> alphabetic (str s) -> anion && cation = false ->
  (anion = true -> anion_offered s) -> (cation = true -> cation_offered s) ->
  fs (place anion cation) (lower s) = Some f ->
  forall heavy, (heavy = true <-> heavy_element s) ->
  file_lines fl heavy C f -> blocks_ok heavy (ct_blocks C) -> config_of heavy (ct_word C) ps -> Forall piece_ok ps -> distinct ps -> all_occupied C ps ->
  length f < fuel -> exists d, slater_atoms fl fs (Some s) anion cation fuel = Some (Ok d) /\ returned C ps d.
Proof. exact atom_loads_z. Qed.
Print Assumptions C40_loads_partial.

Theorem C40_cesium_cation_refuted : forall (fl : list ascii -> res xr) (fs : folder -> string -> option (list (list ascii))) C ps f fuel,
  fs Cation "cs"%string = Some f -> file_lines fl false C f -> config_of false (ct_word C) ps -> Forall piece_ok ps ->
  slater_atoms fl fs (Some "Cs"%string) false true fuel = Some (Raise ValueError).
Proof. exact cesium_cation. Qed.
Print Assumptions C40_cesium_cation_refuted.

(** No other listed ion is of a heavy element. *)
Theorem C40_only_cesium : forall s,
  heavy_element s -> anion_offered s \/ cation_offered s -> element s 55 /\ ~ anion_offered s.
Proof. exact heavy_ions_z. Qed.
Print Assumptions C40_only_cesium.

Example C40_example : same_name (str "cS") (str "Cs") /\ cation_offered "cS" /\ heavy_element "cS" /\
  (forall fl val, (forall t, is_decimal t -> fl t = Ok (val t)) -> forall fuel,
     slater_atoms fl data_files (Some "Cs"%string) false true fuel = Some (Raise ValueError)) /\
  (forall fl fuel, slater_atoms fl data_files (Some "Fe2"%string) false false fuel = Some (Raise TypeError)) /\
  (forall fl fuel, slater_atoms fl data_files (Some "He"%string) true false fuel = Some (Raise ValueError)) /\
  (forall fl fuel, slater_atoms fl data_files (Some "Xy"%string) false false fuel = Some (Raise FileNotFoundError)).
Proof.
  split; [reflexivity|].
  split; [exists 55; split; [split; [lia|exists "Cs"%string; split; reflexivity]|lia]|].
  split; [exists 55; split; [split; [lia|exists "Cs"%string; split; reflexivity]|lia]|].
  split; [exact shipped_cesium|]. split; [reflexivity|]. split; reflexivity.
Qed.

(** * C41: universal Gaussian exponents *)

Theorem C41_exponents : forall (fl : list ascii -> res xr) s other es f,
  exponent_table fl other es f -> (forall w, other w -> ~ same_name w (str s)) ->
  exists d, get_ugbs_exponents fl f (Some s) = Ok d /\ map fst d = letters /\ forall l, l <= 3 -> dget [l_char l] d = Some (chosen (str s) l es).
Proof. exact exponents_ok. Qed.
Print Assumptions C41_exponents.

(** The name has to be a text. *)
Theorem C41_not_text : forall fl f, get_ugbs_exponents fl f None = Raise AssertionError.
Proof. exact not_text. Qed.
Print Assumptions C41_not_text.

Example C41_not_text_example : forall fl v, fl (str "0.02") = Ok v ->
  get_ugbs_exponents fl (map str ["H S 1"; " 0.02 1.0"]%string) None = Raise AssertionError.
Proof. reflexivity. Qed.

Example C41_example : forall fl v, fl (str "0.02") = Ok v ->
  let f := map str ["% exponents"; ""; "He     S    1"; "  0.02   1.0"; "H S 1"; " 0.02 1.0"; "HE P"; "0.02"]%string in
  exponent_table fl (fun w => w = str "%" \/ w = str "0.02") [(str "He", 0, v); (str "H", 0, v); (str "HE", 1, v)] f /\
  get_ugbs_exponents fl f (Some "he"%string) = Ok [(str "S", [v]); (str "P", [v]); (str "D", []); (str "F", [])].
Proof. exact ugbs_example. Qed.

(** * C80: the data files of the library *)

(** Every file but that of the cesium cation is in the layout, is loaded under the symbol of
    the element in any case, and the occupations add up to the electrons of the atom or ion. *)
Theorem C80_shipped_files_partial : forall fl val, (forall t, is_decimal t -> fl t = Ok (val t)) ->
  forall d e f s, In (d, e, f) data_names -> (d, e) <> (Cation, "cs"%string) -> same_name (str s) (str e) ->
  forall heavy, (heavy = true <-> heavy_element s) -> forall fuel, 100 <= fuel ->
  exists C ps data, file_lines fl heavy C (map str f) /\ config_of heavy (ct_word C) ps /\
    slater_atoms fl data_files (Some s) (folder_eqb d Anion) (folder_eqb d Cation) fuel = Some (Ok data) /\
    returned C ps data /\ zsum (sd_occ data) = electron_number d e.
Proof. exact shipped_loads_z. Qed.
Print Assumptions C80_shipped_files_partial.

Theorem C80_cesium_cation_refuted : forall fl val, (forall t, is_decimal t -> fl t = Ok (val t)) -> forall fuel,
  slater_atoms fl data_files (Some "Cs"%string) false true fuel = Some (Raise ValueError).
Proof. exact shipped_cesium. Qed.
Print Assumptions C80_cesium_cation_refuted.

Example C80_example : length data_names = 24 /\ In (Neutral, "rn"%string, rn_neutral) data_names /\
  electron_number Neutral "rn" = 86%Z /\ electron_number Anion "c" = 7%Z /\ In (Cation, "cs"%string, cs_cation) data_names.
Proof. split; [reflexivity|]. split; [unfold data_names; cbn [In]; tauto|]. split; [reflexivity|]. split; [reflexivity|]. unfold data_names; cbn [In]; tauto. Qed.
