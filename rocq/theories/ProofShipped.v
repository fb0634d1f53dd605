(** The data files of the library are read exactly. *)
From Coq Require Import String Ascii List Bool Arith ZArith Lia.
From Verif Require Import XR PyStr PyText SpecParse ProofText ModelParse SpecFile ProofConf ProofConf2 ProofFile ProofFile2 ProofFile3 ProofFile4 ProofNames ProofCheck DataSlater SpecShipped.
Import ListNotations.
Local Open Scope list_scope.

Definition hints : list (folder * string * list string * hint) := [
(Neutral, "ag"%string, ag_neutral, mkH 0 0 1 [17; 14; 14] ["   T =  "%string; "5197.698468984"%string; "     V ="%string; "-10395.396936658"%string; "     V/T =    "%string; "-2.000000000"%string; ""%string] (None) [Closed 1; Closed 2; Closed 3; Sub 4 0 2; Sub 4 1 6; Sub 5 0 1; Sub 4 2 10]);
(Neutral, "b"%string, b_neutral, mkH 0 0 1 [11; 10] ["   T =    "%string; "24.529060725"%string; "     V =   "%string; "-49.058121450"%string; "     V/T =    "%string; "-2.000000000"%string; ""%string] (None) [Sub 1 0 2; Sub 2 0 2; Sub 2 1 1]);
(Neutral, "be"%string, be_neutral, mkH 0 0 1 [11] ["   T =    "%string; "14.573023130"%string; "     V =   "%string; "-29.146046297"%string; "     V/T =    "%string; "-2.000000003"%string; ""%string] (None) [Sub 1 0 2; Sub 2 0 2]);
(Neutral, "c"%string, c_neutral, mkH 0 0 1 [11; 10] ["   T =    "%string; "37.688618960"%string; "     V =   "%string; "-75.377237919"%string; "     V/T =    "%string; "-2.000000000"%string; ""%string] (None) [Sub 1 0 2; Sub 2 0 2; Sub 2 1 2]);
(Neutral, "ce"%string, ce_neutral, mkH 0 0 1 [15; 12; 11; 8] ["   T =  "%string; "8566.872517249"%string; "     V ="%string; "-17133.745051403"%string; "     V/T =    "%string; "-2.000000002"%string; ""%string] (Some true) [Sub 6 0 2; Sub 5 2 1; Sub 4 3 1]);
(Neutral, "cl"%string, cl_neutral, mkH 0 0 1 [13; 13] ["   T =   "%string; "459.482072308"%string; "     V =  "%string; "-918.964144636"%string; "     V/T =    "%string; "-2.000000000"%string; ""%string] (None) [Closed 1; Closed 2; Sub 3 0 2; Sub 3 1 5]);
(Neutral, "cr"%string, cr_neutral, mkH 0 0 1 [15; 13; 11] ["   T =  "%string; "1043.356375276"%string; "     V = "%string; "-2086.712750827"%string; "     V/T =    "%string; "-2.000000000"%string; ""%string] (None) [Closed 1; Closed 2; Sub 3 0 2; Sub 3 1 6; Sub 4 0 1; Sub 3 2 5]);
(Neutral, "cs"%string, cs_neutral, mkH 0 0 1 [15; 12; 9] ["   T =  "%string; "7553.933539793"%string; "     V ="%string; "-15107.867076348"%string; "     V/T =    "%string; "-2.000000000"%string; ""%string] (Some true) [Sub 6 0 1]);
(Neutral, "dy"%string, dy_neutral, mkH 0 0 1 [15; 12; 9; 8] ["   T = "%string; "11641.452478555"%string; "     V ="%string; "-23282.904912679"%string; "     V/T =    "%string; "-1.999999996"%string; ""%string] (Some true) [Sub 6 0 2; Sub 5 2 0; Sub 4 3 10]);
(Neutral, "h"%string, h_neutral, mkH 0 0 1 [4] ["   T =     "%string; "0.500000000"%string; "     V =    "%string; "-1.000000000"%string; "     V/T =    "%string; "-2.000000000"%string; ""%string] (None) [Sub 1 0 1]);
(Neutral, "he"%string, he_neutral, mkH 0 0 1 [8] ["   T =     "%string; "2.861679997"%string; "     V =    "%string; "-5.723359992"%string; "     V/T =    "%string; "-2.000000000"%string; ""%string] (None) [Sub 1 0 2]);
(Neutral, "i"%string, i_neutral, mkH 0 0 1 [17; 16; 14] ["   T =  "%string; "6917.980898267"%string; "     V ="%string; "-13835.961786593"%string; "     V/T =    "%string; "-1.999999999"%string; ""%string] (None) [Closed 1; Closed 2; Closed 3; Sub 4 0 2; Sub 4 1 6; Sub 5 0 2; Sub 4 2 10; Sub 5 1 5]);
(Neutral, "k"%string, k_neutral, mkH 0 0 1 [15; 13] ["   T =   "%string; "599.164786943"%string; "     V = "%string; "-1198.329573264"%string; "     V/T =    "%string; "-1.999999999"%string; ""%string] (None) [Closed 1; Closed 2; Sub 3 0 2; Sub 3 1 6; Sub 4 0 1]);
(Neutral, "li"%string, li_neutral, mkH 0 0 1 [11] ["   T =     "%string; "7.432726945"%string; "     V =   "%string; "-14.865453874"%string; "     V/T =    "%string; "-1.999999998"%string; ""%string] (None) [Sub 1 0 2; Sub 2 0 1]);
(Neutral, "lr"%string, lr_neutral, mkH 0 0 1 [17; 14; 13; 10] ["   T = "%string; "33557.949960623"%string; "     V ="%string; "-67115.900102873"%string; "     V/T =    "%string; "-2.000000005"%string; ""%string] (Some false) [Sub 7 0 2; Sub 6 2 1; Sub 5 3 14]);
(Neutral, "ne"%string, ne_neutral, mkH 0 0 1 [11; 10] ["   T =   "%string; "128.547098140"%string; "     V =  "%string; "-257.094196219"%string; "     V/T =    "%string; "-2.000000000"%string; ""%string] (None) [Sub 1 0 2; Sub 2 0 2; Sub 2 1 6]);
(Neutral, "p"%string, p_neutral, mkH 0 0 1 [13; 13] ["   T =   "%string; "340.718780873"%string; "     V =  "%string; "-681.437561747"%string; "     V/T =    "%string; "-2.000000000"%string; ""%string] (None) [Closed 1; Closed 2; Sub 3 0 2; Sub 3 1 3]);
(Neutral, "rn"%string, rn_neutral, mkH 0 0 1 [15; 14; 11; 8] ["   T = "%string; "21866.772036482"%string; "     V ="%string; "-43733.544107144"%string; "     V/T =    "%string; "-2.000000002"%string; ""%string] (Some true) [Sub 4 3 14; Sub 6 0 2; Sub 5 2 10; Sub 6 1 6]);
(Neutral, "xe"%string, xe_neutral, mkH 0 0 1 [17; 16; 14] ["   T =  "%string; "7232.138367196"%string; "     V ="%string; "-14464.276723031"%string; "     V/T =    "%string; "-1.999999998"%string; ""%string] (None) [Closed 1; Closed 2; Closed 3; Sub 4 0 2; Sub 4 1 6; Sub 5 0 2; Sub 4 2 10; Sub 5 1 6]);
(Cation, "c"%string, c_cation, mkH 4 1 1 [11; 10] ["   T =    "%string; "37.292223758"%string; "     V =   "%string; "-74.584447528"%string; "     V/T =    "%string; "-2.000000000"%string; ""%string] (None) [Sub 1 0 2; Sub 2 0 2; Sub 2 1 1]);
(Cation, "cs"%string, cs_cation, mkH 3 1 1 [17; 16; 14] ["   T =  "%string; "7553.810329869"%string; "     V ="%string; "-15107.620653443"%string; "     V/T =    "%string; "-1.999999999"%string; ""%string] (None) [Closed 1; Closed 2; Closed 3; Sub 4 0 2; Sub 4 1 6; Sub 5 0 2; Sub 4 2 10; Sub 5 1 6]);
(Cation, "xe"%string, xe_cation, mkH 4 1 1 [17; 16; 14] ["   T =  "%string; "7231.708943551"%string; "     V ="%string; "-14463.417886848"%string; "     V/T =    "%string; "-2.000000000"%string; ""%string] (None) [Closed 1; Closed 2; Closed 3; Sub 4 0 2; Sub 4 1 6; Sub 5 0 2; Sub 4 2 10; Sub 5 1 5]);
(Anion, "c"%string, c_anion, mkH 0 0 1 [12; 11] ["   T =    "%string; "37.708843614"%string; "     V =   "%string; "-75.417687227"%string; "     V/T =    "%string; "-2.000000000"%string; ""%string] (None) [Sub 1 0 2; Sub 2 0 2; Sub 2 1 3]);
(Anion, "h"%string, h_anion, mkH 3 1 1 [9] ["   T =     "%string; "0.487929734"%string; "     V =    "%string; "-0.975859469"%string; "     V/T =    "%string; "-2.000000000"%string; ""%string] (None) [Sub 1 0 2])].
Lemma hints_data : map fst hints = data_names.
Proof. reflexivity. Qed.
Definition counts (h : hint) (f : list text) : nat :=
  list_sum (map (fun nl => count (core_of h ++ h_pieces h) (fst nl) (snd nl)) (tb_nl (file_words (heavy_of h) (h_ratio h) (parts_of h f)))).
Definition hint_ok (x : folder * string * list string * hint) : bool :=
  let '(d, e, f, h) := x in
  shipped_ok h (map str f) && Bool.eqb (heavy_of h) (str_in e heavy_atoms && negb (String.eqb e "cs" && folder_eqb d Cation)) &&
  Z.eqb (Z.of_nat (counts h (map str f))) (electron_number d e) &&
  match data_files d e with Some g => leqb g (map str f) | None => false end &&
  match d with Neutral => true | Anion => str_in e anion_atoms | Cation => str_in e cation_atoms end &&
  negb (String.eqb e "") && forallb is_alpha (txt e) && String.eqb (lower e) e && Nat.ltb (length f) 100.
Lemma hints_ok : forallb hint_ok hints = true.
Proof. vm_compute. reflexivity. Qed.

Lemma occ_total C ps d : distinct ps -> returned C ps d -> zsum (sd_occ d) = Z.of_nat (list_sum (map (fun nl => count ps (fst nl) (snd nl)) (orbital_nl (ct_blocks C)))).
Proof.
  intros D R. assert (F := rt_occ _ _ _ R). revert F. generalize (sd_occ d) (orbital_nl (ct_blocks C)). intros zs nls F. induction F as [|nl z nls zs (c & E & ->) F IH]; auto.
  cbn [map]. change (list_sum (count ps (fst nl) (snd nl) :: map (fun nl => count ps (fst nl) (snd nl)) nls)) with (count ps (fst nl) (snd nl) + list_sum (map (fun nl => count ps (fst nl) (snd nl)) nls)).
  apply count_spec in E; auto. rewrite <- E. cbn [zsum fold_right]. unfold zsum in IH. rewrite IH. lia.
Qed.

Section Shipped.
Context (fl : text -> res xr) (val : text -> xr) (Hfl : forall t, is_decimal t -> fl t = Ok (val t)).

Lemma shipped_one d e f : In (d, e, f) data_names -> exists h, In (d, e, f, h) hints /\ hint_ok (d, e, f, h) = true.
Proof.
  rewrite <- hints_data. intros I. apply in_map_iff in I. destruct I as ([x h] & E & I). cbn [fst] in E. subst x. exists h. split; auto.
  assert (H := hints_ok). rewrite forallb_forall in H. exact (H _ I).
Qed.
Definition heavy_layout (d : folder) (e : string) : bool := str_in e heavy_atoms && negb (String.eqb e "cs" && folder_eqb d Cation).
Lemma shipped_contents d e f : In (d, e, f) data_names ->
  data_files d e = Some (map str f) /\ exists C ps, file_lines fl (heavy_layout d e) C (map str f) /\ blocks_ok (heavy_layout d e) (ct_blocks C) /\
    config_of (heavy_layout d e) (ct_word C) ps /\ Forall piece_ok ps /\ distinct ps /\ all_occupied C ps /\
    Z.of_nat (list_sum (map (fun nl => count ps (fst nl) (snd nl)) (orbital_nl (ct_blocks C)))) = electron_number d e /\
    exists h, In (d, e, f, h) hints /\ ps = core_of h ++ h_pieces h /\ C = contents_of val (word_of h) (file_words (heavy_of h) (h_ratio h) (parts_of h (map str f))).
Proof.
  intros I. destruct (shipped_one d e f I) as (h & Ih & H). unfold hint_ok in H. rewrite !andb_true_iff in H. destruct H as [[[[[[[[H1 H2] H3] H4] H5] H6] H7] H8] H9].
  split; [destruct (data_files d e) as [g|]; [|discriminate]; apply leqb_spec in H4; f_equal; exact H4|].
  unfold shipped_ok in H1. apply andb_true_iff in H1. destruct H1 as [E R]. apply leqb_spec in E.
  apply eqb_prop in H2. fold (heavy_layout d e) in H2. rewrite <- H2.
  assert (Q : Forall piece_ok (h_pieces h)).
  { apply Forall_forall. intros x J. unfold readable in R. rewrite !andb_true_iff in R. destruct R as [[[_ R] _] _]. rewrite forallb_forall in R. apply pieceb_ok, R, in_or_app. auto. }
  assert (Cf : config_of (heavy_of h) (word_of h) (core_of h ++ h_pieces h)).
  { unfold config_of, heavy_of, word_of, core_of. destruct (h_core h) as [[|]|]; [exists (h_pieces h); auto|exists (h_pieces h); auto|reflexivity]. }
  destruct (readable_ok fl val Hfl _ _ _ _ _ _ R Cf) as (F & B & P & D & O). rewrite E in F.
  exists (contents_of val (word_of h) (file_words (heavy_of h) (h_ratio h) (parts_of h (map str f)))), (core_of h ++ h_pieces h). do 6 (split; auto).
  split; [rewrite (tb_nl_ok val); apply Z.eqb_eq in H3; exact H3|]. exists h. auto.
Qed.
Lemma shipped_name d e f s : In (d, e, f) data_names -> same_name (str s) (str e) ->
  s <> ""%string /\ alphabetic (str s) /\ lower s = e /\ (d = Anion -> In e anion_atoms) /\ (d = Cation -> In e cation_atoms) /\ length f < 100.
Proof.
  intros I S. destruct (shipped_one d e f I) as (h & _ & H). unfold hint_ok in H. rewrite !andb_true_iff in H. destruct H as [[[[[[[[_ _] _] _] H5] H6] H7] H8] H9].
  apply String.eqb_eq in H8. split; [intros ->; destruct e; [discriminate H6|discriminate S]|]. split; [apply (same_alphabetic (str e)); [symmetry; exact S|apply alphabetic_spec; exact H7]|].
  split; [rewrite (lower_same s e S); auto|]. split; [intros ->; now apply str_in_spec|]. split; [intros ->; now apply str_in_spec|]. now apply Nat.ltb_lt.
Qed.
(** Every shipped file but that of the cesium cation. *)
Lemma shipped_loads_full d e f s : In (d, e, f) data_names -> (d, e) <> (Cation, "cs"%string) -> same_name (str s) (str e) -> forall fuel, 100 <= fuel ->
  exists C ps data, file_lines fl (str_in e heavy_atoms) C (map str f) /\ config_of (str_in e heavy_atoms) (ct_word C) ps /\
    slater_atoms fl data_files (Some s) (folder_eqb d Anion) (folder_eqb d Cation) fuel = Some (Ok data) /\ returned C ps data /\ zsum (sd_occ data) = electron_number d e /\
    blocks_ok (str_in e heavy_atoms) (ct_blocks C) /\ distinct ps /\
    exists h, In (d, e, f, h) hints /\ ps = core_of h ++ h_pieces h /\ C = contents_of val (word_of h) (file_words (heavy_of h) (h_ratio h) (parts_of h (map str f))).
Proof.
  intros I N S fuel L. destruct (shipped_name d e f s I S) as (A1 & A2 & A3 & A4 & A5 & A6). destruct (shipped_contents d e f I) as (Fs & C & ps & F & B & Cf & P & D & O & T & Hh).
  assert (E : heavy_layout d e = str_in e heavy_atoms).
  { unfold heavy_layout. destruct (String.eqb_spec e "cs") as [->|]; [|apply andb_true_r]. destruct d; auto. }
  rewrite E in F, B, Cf. exists C, ps.
  destruct (atom_loads fl data_files s (folder_eqb d Anion) (folder_eqb d Cation) fuel (map str f) C ps) with (heavy := str_in e heavy_atoms) as (data & R & X); auto.
  - destruct d; auto.
  - rewrite A3. intros X. apply A4. destruct d; auto; discriminate.
  - rewrite A3. intros X. apply A5. destruct d; auto; discriminate.
  - rewrite A3. destruct d; exact Fs.
  - rewrite A3. apply str_in_spec.
  - rewrite map_length. lia.
  - exists data. split; auto. split; auto. split; auto. split; auto. split; [rewrite (occ_total C ps data D X); exact T|]. auto.
Qed.
Lemma shipped_loads d e f s : In (d, e, f) data_names -> (d, e) <> (Cation, "cs"%string) -> same_name (str s) (str e) -> forall fuel, 100 <= fuel ->
  exists C ps data, file_lines fl (str_in e heavy_atoms) C (map str f) /\ config_of (str_in e heavy_atoms) (ct_word C) ps /\
    slater_atoms fl data_files (Some s) (folder_eqb d Anion) (folder_eqb d Cation) fuel = Some (Ok data) /\ returned C ps data /\ zsum (sd_occ data) = electron_number d e.
Proof.
  intros I N S fuel L. destruct (shipped_loads_full d e f s I N S fuel L) as (C & ps & data & H1 & H2 & H3 & H4 & H5 & _). exists C, ps, data. auto 6.
Qed.
Lemma shipped_cesium fuel : slater_atoms fl data_files (Some "Cs"%string) false true fuel = Some (Raise ValueError).
Proof.
  destruct (shipped_contents Cation "cs" cs_cation) as (Fs & C & ps & F & _ & Cf & P & _).
  - unfold data_names. cbn [In]. tauto.
  - apply (cesium_cation fl data_files C ps (map str cs_cation)); auto.
Qed.
End Shipped.

(** ** Further facts for the properties *)
Lemma heavy_iff conf :
  (heavy_configuration conf = Raise ValueError <-> forall a b, conf <> a ++ str "[XE]" ++ b /\ conf <> a ++ str "[RN]" ++ b) /\
  forall e, heavy_configuration conf = Raise e -> e = ValueError.
Proof.
  split; [split|].
  - intros H a b. now apply heavy_raises in H.
  - intros H. apply heavy_bad; intros a b; apply H.
  - intros e H. now apply heavy_raises in H.
Qed.
Lemma column_counterexample : exists (b e c2 c3 : text), c2 <> c3 /\
    (do j <- get_column (label 2 0); py_get [b; e; c2; c3] j) = Ok c3 /\
    (do j <- get_column (label 3 0); py_get [b; e; c2; c3] j) = Raise IndexError.
Proof. exists (str "2S"), (str "1.0"), (str "0.5"), (str "0.25"). split; [discriminate|]. split; reflexivity. Qed.

Lemma flat_len {A B} (f : A -> list B) l : length (flat_map f l) = list_sum (map (fun x => length (f x)) l).
Proof. induction l; cbn; auto. rewrite app_length. f_equal. auto. Qed.
Lemma returned_lengths C ps d heavy : returned C ps d -> blocks_ok heavy (ct_blocks C) ->
  length (sd_energy d) = length (sd_orbs d) /\ length (sd_occ d) = length (sd_orbs d) /\
  (heavy = false -> length (sd_cusp d) = length (sd_orbs d)) /\
  forall x, In x (sd_orbs d) -> exists c e n l, x = label n l /\ dget x (sd_coeff d) = Some c /\ dget [l_char l] (sd_exp d) = Some e /\ length c = length e /\ c <> [].
Proof.
  intros R (_ & Bo & _). rewrite Forall_forall in Bo.
  assert (N : length (orbital_nl (ct_blocks C)) = list_sum (map (fun B => length (bl_energy B)) (ct_blocks C))).
  { unfold orbital_nl. rewrite flat_len. f_equal. apply map_ext. intros B. rewrite map_length. unfold bl_ns. apply seq_length. }
  assert (O : length (sd_orbs d) = list_sum (map (fun B => length (bl_energy B)) (ct_blocks C))) by (rewrite (rt_orbs _ _ _ R), map_length; exact N).
  split; [rewrite (rt_energy _ _ _ R), flat_len, O; reflexivity|]. split; [|split].
  - rewrite O, <- N. assert (F := rt_occ _ _ _ R). clear -F. induction F; cbn; auto.
  - intros ->. rewrite (rt_cusp _ _ _ R), flat_len, O. f_equal. apply map_ext_in. intros B I. destruct (Bo B I) as (_ & _ & H & _). exact H.
  - intros x I. rewrite (rt_orbs _ _ _ R) in I. apply in_map_iff in I. destruct I as ([n l] & <- & I). unfold orbital_nl in I. apply in_flat_map in I. destruct I as (B & I & J).
    apply in_map_iff in J. destruct J as (m & E & J). injection E as -> <-. unfold bl_ns in J. apply in_seq in J.
    destruct (rt_block _ _ _ R B I) as (_ & X & _ & K). specialize (K (n - (bl_l B + 1))). replace (bl_l B + 1 + (n - (bl_l B + 1))) with n in K by lia.
    exists (column (n - (bl_l B + 1)) B), (map row_exp (bl_rows B)), n, (bl_l B). cbn [fst snd]. split; auto. split; [apply K; lia|]. split; auto.
    unfold column. rewrite !map_length. split; auto. destruct (Bo B I) as (_ & _ & _ & H & _). destruct (bl_rows B); [congruence|discriminate].
Qed.

Lemma be_ce_layout fl val : (forall t, is_decimal t -> fl t = Ok (val t)) ->
  (exists C, file_lines fl false C (map str be_neutral) /\ blocks_ok false (ct_blocks C) /\ config_of false (ct_word C) [Sub 1 0 2; Sub 2 0 2] /\
     all_occupied C [Sub 1 0 2; Sub 2 0 2] /\ length (ct_blocks C) = 1 /\ map (fun B => length (bl_rows B)) (ct_blocks C) = [8]) /\
  (exists C, file_lines fl true C (map str ce_neutral) /\ blocks_ok true (ct_blocks C) /\ config_of true (ct_word C) (xe_pieces ++ [Sub 6 0 2; Sub 5 2 1; Sub 4 3 1]) /\
     all_occupied C (xe_pieces ++ [Sub 6 0 2; Sub 5 2 1; Sub 4 3 1]) /\ map (fun B => length (bl_rows B)) (ct_blocks C) = [13; 10; 9; 6]).
Proof.
  intros Hfl. split.
  - set (h := mkH 0 0 1 [11] ["   T =    "; "14.573023130"; "     V =   "; "-29.146046297"; "     V/T =    "; "-2.000000003"; ""]%string None [Sub 1 0 2; Sub 2 0 2]).
    set (p := parts_of h (map str be_neutral)). assert (E : leqb (lines_of p) (map str be_neutral) = true) by (vm_compute; reflexivity). apply leqb_spec in E.
    set (t := file_words (heavy_of h) (h_ratio h) p). assert (R : readable false [] [Sub 1 0 2; Sub 2 0 2] (word_of h) t p = true) by (vm_compute; reflexivity).
    destruct (readable_ok fl val Hfl _ _ _ _ _ _ R eq_refl) as (F & B & P & D & O). exists (contents_of val (word_of h) t). rewrite E in F.
    split; [exact F|]. split; [exact B|]. split; [reflexivity|]. split; [exact O|]. split; vm_compute; reflexivity.
  - set (h := mkH 0 0 1 [15; 12; 11; 8] ["   T =  "; "8566.872517249"; "     V ="; "-17133.745051403"; "     V/T =    "; "-2.000000002"; ""]%string (Some true) [Sub 6 0 2; Sub 5 2 1; Sub 4 3 1]).
    set (p := parts_of h (map str ce_neutral)). assert (E : leqb (lines_of p) (map str ce_neutral) = true) by (vm_compute; reflexivity). apply leqb_spec in E.
    set (t := file_words (heavy_of h) (h_ratio h) p). assert (R : readable true xe_pieces [Sub 6 0 2; Sub 5 2 1; Sub 4 3 1] (word_of h) t p = true) by (vm_compute; reflexivity).
    assert (Cf : config_of true (word_of h) (xe_pieces ++ [Sub 6 0 2; Sub 5 2 1; Sub 4 3 1])) by (exists [Sub 6 0 2; Sub 5 2 1; Sub 4 3 1]; split; [repeat constructor; cbn; lia|left; split; reflexivity]).
    destruct (readable_ok fl val Hfl _ _ _ _ _ _ R Cf) as (F & B & P & D & O). exists (contents_of val (word_of h) t). rewrite E in F.
    split; [exact F|]. split; [exact B|]. split; [exact Cf|]. split; [exact O|]. vm_compute; reflexivity.
Qed.

Lemma stops fl heavy f : ~ stuck heavy f -> exists r, forall fuel, length f + 2 <= fuel -> parse_slater fl heavy fuel f = Some r.
Proof.
  intros N. destruct (parse_slater fl heavy (length f + 2) f) as [r|] eqn:E.
  - exists r. intros fuel L. exact (parse_mono fl heavy _ _ f r L E).
  - destruct N. exact (only_stuck fl heavy f _ (le_n _) E).
Qed.
Lemma helium_cut fl fuel : parse_slater fl false fuel [str "      HELIUM 1S(2), 1S"; str "  "] = None /\ ~ stuck false (map str he_neutral).
Proof.
  split.
  - apply (stuck_first fl false [str "      HELIUM 1S(2), 1S"; str "  "] (str "1S(2)") [Sub 1 0 2] (str "      HELIUM 1S(2), 1S")); auto.
    + exists (str "HELIUM"), (str "1S(2),"), [str "1S"]. split; [exact (spaced_words (str "      HELIUM 1S(2), 1S"))|reflexivity].
    + reflexivity.
    + intros s [<-|[]]. apply is_blank_spec. reflexivity.
  - intros [H|(b & x & r & E & B & X & H)].
    + specialize (H (str "   E =    -2.861679996") (or_introl eq_refl)). apply is_blank_spec in H. discriminate.
    + destruct b as [|y b].
      * injection E as <- <-. specialize (H (str "  ORBITAL ENERGIES AND EXPANSION COEFFICIENTS")). apply is_blank_false in X. assert (K : is_blank (str "  ORBITAL ENERGIES AND EXPANSION COEFFICIENTS") = true); [|discriminate K].
        apply is_blank_spec, H. left. reflexivity.
      * injection E as <- _. specialize (B _ (or_introl eq_refl)). apply is_blank_spec in B. discriminate.
Qed.
Lemma rejections fl fs fuel :
  (forall anion cation, slater_atoms fl fs None anion cation fuel = Some (Raise TypeError)) /\
  (forall s anion cation, s = ""%string \/ ~ alphabetic (str s) -> slater_atoms fl fs (Some s) anion cation fuel = Some (Raise TypeError)) /\
  (forall s, s <> ""%string -> alphabetic (str s) -> slater_atoms fl fs (Some s) true true fuel = Some (Raise ValueError)) /\
  (forall s anion cation, s <> ""%string -> alphabetic (str s) ->
     (anion = true /\ cation = false /\ ~ In (lower s) anion_atoms) \/ (anion = false /\ cation = true /\ ~ In (lower s) cation_atoms) ->
     slater_atoms fl fs (Some s) anion cation fuel = Some (Raise ValueError)).
Proof.
  split; [reflexivity|]. split; [intros; now apply name_rejected|]. split; [intros; now apply both_rejected|]. intros; now apply ion_rejected.
Qed.
Lemma ugbs_example fl v : fl (str "0.02") = Ok v ->
  let f := map str ["% exponents"; ""; "He     S    1"; "  0.02   1.0"; "H S 1"; " 0.02 1.0"; "HE P"; "0.02"]%string in
  exponent_table fl (fun w => w = str "%" \/ w = str "0.02") [(str "He", 0, v); (str "H", 0, v); (str "HE", 1, v)] f /\
  get_ugbs_exponents fl f (Some "he"%string) = Ok [(str "S", [v]); (str "P", [v]); (str "D", []); (str "F", [])].
Proof.
  intros V f. unfold f. split.
  - cbn [map]. eapply table_other; [exact (spaced_words (str "% exponents"))|intros w ws' E; injection E as <- _; auto|].
    eapply table_other; [exact (spaced_words (str ""))|intros w ws' E; discriminate|].
    eapply table_entry; [lia|exact (spaced_words (str "He     S    1"))|exact (spaced_words (str "  0.02   1.0"))|exact V|auto|].
    eapply table_entry; [lia|exact (spaced_words (str "H S 1"))|exact (spaced_words (str " 0.02 1.0"))|exact V|auto|].
    eapply table_entry; [lia|exact (spaced_words (str "HE P"))|exact (spaced_words (str "0.02"))|exact V|auto|]. constructor.
  - vm_compute in V. vm_compute. repeat (rewrite V; vm_compute). reflexivity.
Qed.

Definition separateb (ps : list piece) : bool :=
  nodupb (flat_map (fun p => match p with Closed k => [k] | _ => [] end) ps) &&
  forallb (fun p => match p with Sub n _ _ => negb (existsb (fun q => match q with Closed k => Nat.eqb k n | _ => false end) ps) | _ => true end) ps.
Lemma separateb_ok ps : separateb ps = true -> separate ps.
Proof.
  unfold separateb. rewrite andb_true_iff. intros [H1 H2]. split; [now apply nodupb_ok|]. intros n l c I J. rewrite forallb_forall in H2. specialize (H2 _ I). cbn in H2.
  apply negb_true_iff in H2. assert (X : existsb (fun q => match q with Closed k => Nat.eqb k n | _ => false end) ps = true); [|congruence].
  apply existsb_exists. exists (Closed n). split; auto. apply Nat.eqb_refl.
Qed.
