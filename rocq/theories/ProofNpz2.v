(** The shipped .npz files. *)
From Coq Require Import Reals.
From Coq Require Import NArith ZArith List Bool Ascii String Lia Lra Arith.
From Flocq Require Import Core Relative.
From Verif Require Import XR PyText SpecParse ProofText ModelNpz SpecNpz DataNpz ProofNpz SpecBin SpecJson ModelJson ProofJson SpecUgbs SpecFits DataFits SpecDens ProofFits.
Import ListNotations.
Local Open Scope N_scope.
Local Open Scope bool_scope.

(** ** Checking the archive part by part; every member is decoded once and not encoded again *)
Fixpoint enc_fast (k : nat) (n : N) : bytes :=
  match k with O => [] | S k => N.land n 255 :: enc_fast k (N.shiftr n 8) end.
Lemma enc_fast_eq k n : enc_fast k n = enc k n.
Proof.
  revert n. induction k as [|k IH]; intros n; cbn [enc_fast enc]; auto. rewrite IH. f_equal; [|f_equal].
  - change 255 with (N.ones 8). now rewrite N.land_ones.
  - now rewrite N.shiftr_div_pow2.
Qed.
(** The words of a list of bytes. *)
Fixpoint chunks (s : bytes) : list N :=
  match s with
  | a :: b :: c :: d :: e :: f :: g :: h :: s => le [a; b; c; d; e; f; g; h] :: chunks s
  | _ => []
  end.
Fixpoint full (s : bytes) : bool :=
  match s with
  | [] => true
  | a :: b :: c :: d :: e :: f :: g :: h :: s => full s
  | _ => false
  end.
Lemma enc_le s : Forall (fun x => x < 256) s -> enc (List.length s) (le s) = s.
Proof.
  induction 1 as [|x s X F IH]; cbn [List.length enc le]; auto. rewrite (N.mul_comm 256), N.mod_add, N.div_add, N.mod_small, N.div_small, N.add_0_l by (auto; discriminate). now rewrite IH.
Qed.
Lemma chunks_spec : forall n s, (List.length s <= n)%nat -> full s = true -> Forall (fun x => x < 256) s -> List.concat (map (enc 8) (chunks s)) = s /\ Forall (fun w => w < 2 ^ 64) (chunks s).
Proof.
  induction n as [|n IH]; intros s L FU F.
  - destruct s; [|cbn in L; lia]. split; [reflexivity|constructor].
  - destruct s as [|a [|b [|c [|d [|e [|f [|g [|h s]]]]]]]]; try discriminate; [split; [reflexivity|constructor]|].
    assert (F1 : Forall (fun x => x < 256) [a; b; c; d; e; f; g; h] /\ Forall (fun x => x < 256) s) by (apply Forall_app; exact F). destruct F1 as [F1 F2].
    destruct (IH s) as [I1 I2]; auto; [cbn in L; lia|]. cbn [chunks map List.concat]. split.
    + change (enc 8) with (enc (List.length [a; b; c; d; e; f; g; h])) at 1. rewrite enc_le by exact F1. rewrite I1. reflexivity.
    + constructor; auto. repeat match goal with H : Forall _ (_ :: _) |- _ => inversion H; clear H; subst end. change (2 ^ 64) with 18446744073709551616. cbn [le]. lia.
Qed.

(** The member and the directory record in terms of the name, the checksum and the size. *)
Definition fields_of (n : bytes) (c k x : N) : bytes :=
  [20; 0; 0; 0; 0; 0; 0; 0; 33; 0] ++ enc_fast 4 c ++ enc_fast 4 k ++ enc_fast 4 k ++ enc_fast 2 (count n) ++ enc_fast 2 x.
Definition member_head (n : bytes) (c k : N) : bytes :=
  raw "PK" ++ [3; 4] ++ fields_of n c k 20 ++ n ++ [1; 0; 16; 0] ++ enc_fast 8 k ++ enc_fast 8 k.
Definition record_of (offset : N) (n : bytes) (c k : N) : bytes :=
  raw "PK" ++ [1; 2; 20; 3] ++ fields_of n c k 0 ++ [0; 0; 0; 0; 0; 0; 0; 0; 128; 1] ++ enc_fast 4 offset ++ n.
Definition npy_head (a : nparray) : bytes :=
  let h := npy_header a in
  let pad := (64 - (List.length h + 11) mod 64)%nat in
  147 :: raw "NUMPY" ++ [1; 0] ++ enc_fast 2 (count h + N.of_nat pad + 1) ++ h ++ repeat 32 pad ++ [10].
Lemma npy_split a : npy a = npy_head a ++ List.concat (map (enc 8) (a_words a)).
Proof. unfold npy, npy_head. cbv zeta. rewrite enc_fast_eq. cbn [app]. do 3 (try rewrite <- !app_assoc; cbn [app]). reflexivity. Qed.
Lemma member_split v : zip_member v = member_head (file_name (fst v)) (crc32 (npy (snd v))) (count (npy (snd v))) ++ npy (snd v).
Proof. unfold zip_member, member_head, fields_of, fields. cbv zeta. rewrite !enc_fast_eq, <- !app_assoc. reflexivity. Qed.
Lemma record_split offset v : zip_record offset v = record_of offset (file_name (fst v)) (crc32 (npy (snd v))) (count (npy (snd v))).
Proof. unfold zip_record, record_of, fields_of, fields. cbv zeta. rewrite !enc_fast_eq. reflexivity. Qed.

(** The named array in the bytes of a member: a header of 50 bytes and the name, then 128 bytes before the words. *)
Definition name_size (s : bytes) : nat := N.to_nat (le (firstn 2 (skipn 26 s))).
Definition body (s : bytes) : bytes := skipn (50 + name_size s) s.
Definition part_of (s : bytes) : text * nparray :=
  let d := body s in
  (map ascii_of_N (firstn (name_size s - 4) (skipn 30 s)),
   mkArray (if nth 22 d 0 =? 102 then Float64 else Int64) (negb (nth 61 d 0 =? 41)) (chunks (skipn 128 d))).
Definition parts (fs : list (list string)) : list (text * nparray) := map (fun f => part_of (hex f)) fs.
Definition name_ok (t : text) : bool := (count t <? 65000) && negb (existsb (fun c => Ascii.eqb c ".") t).
Definition part_ok (offset : N) (f r : bytes) : bool :=
  let v := part_of f in let a := snd v in
  let n := file_name (fst v) in let d := body f in
  let c := crc32 d in let k := count d in let w := skipn 128 d in
  bytes_eqb (firstn (50 + name_size f) f) (member_head n c k) &&
  bytes_eqb (firstn 128 d) (npy_head a) && full w && forallb (fun x => x <? 256) w &&
  (a_axis a || match a_words a with [_] => true | _ => false end) && name_ok (fst v) &&
  bytes_eqb r (record_of offset n c k).
Lemma part_ok_spec offset f r : part_ok offset f r = true ->
  f = zip_member (part_of f) /\ r = zip_record offset (part_of f) /\ proper (snd (part_of f)) /\ name_ok (fst (part_of f)) = true.
Proof.
  unfold part_ok. cbv zeta. rewrite !andb_true_iff, !bytes_eqb_spec. intros [[[[[[H1 H2] H3] H4] H5] H6] H7].
  rewrite forallb_forall in H4. assert (F : Forall (fun x => x < 256) (skipn 128 (body f))) by (apply Forall_forall; intros x X; apply N.ltb_lt; auto). clear H4.
  destruct (chunks_spec _ _ (Nat.le_refl _) H3 F) as [C1 C2]. change (chunks (skipn 128 (body f))) with (a_words (snd (part_of f))) in C1, C2.
  assert (D : body f = npy (snd (part_of f))) by (rewrite npy_split, C1, <- H2; symmetry; apply firstn_skipn).
  split; [|split; [|split; [|exact H6]]].
  - rewrite member_split, <- D, <- H1. symmetry. apply firstn_skipn.
  - rewrite record_split, <- D. exact H7.
  - split; [|exact C2]. intros A. rewrite A in H5. destruct (a_words (snd (part_of f))) as [|w [|]]; try discriminate. reflexivity.
Qed.
(** All members and records, with their sizes so far, then the end record. *)
Fixpoint parts_ok (total offset size : N) (fs rs : list (list string)) (e : list string) : bool :=
  match fs, rs with
  | [], [] => bytes_eqb (hex e) (zip_end total size offset) && (offset + size + 22 <? 2 ^ 32)
  | f :: fs, r :: rs =>
      let f := hex f in let r := hex r in part_ok offset f r && parts_ok total (offset + count f) (size + count r) fs rs e
  | _, _ => false
  end.
Lemma parts_ok_spec total e fs : forall offset size rs, parts_ok total offset size fs rs e = true ->
  List.concat (map hex fs) = List.concat (map zip_member (parts fs)) /\ List.concat (map hex rs) = zip_directory offset (parts fs) /\
  Forall (fun v => proper (snd v) /\ name_ok (fst v) = true) (parts fs) /\
  hex e = zip_end total (size + count (List.concat (map hex rs))) (offset + count (List.concat (map hex fs))) /\
  offset + count (List.concat (map hex fs)) + (size + count (List.concat (map hex rs))) + 22 < 2 ^ 32.
Proof.
  induction fs as [|f fs IH]; intros offset size [|r rs] H; try discriminate H; cbn [parts_ok] in H.
  - apply andb_true_iff in H. rewrite bytes_eqb_spec, N.ltb_lt in H. destruct H as [H1 H2]. cbn [map List.concat parts zip_directory]. change (count (@nil N)) with 0. rewrite !N.add_0_r. repeat split; auto.
  - cbv zeta in H. rewrite andb_true_iff in H. destruct H as [H1 H2]. destruct (part_ok_spec _ _ _ H1) as (P1 & P2 & P3 & P4). destruct (IH _ _ _ H2) as (I1 & I2 & I3 & I4 & I5).
    unfold parts in *. cbn [map List.concat zip_directory]. rewrite !count_app. split; [|split; [|split; [|split]]].
    + f_equal; assumption.
    + rewrite <- P1. f_equal; assumption.
    + constructor; auto.
    + rewrite I4. f_equal; lia.
    + lia.
Qed.
Definition archive_ok (fs rs : list (list string)) (e : list string) : bool :=
  parts_ok (count fs) 0 0 fs rs e && distinct (map fst (parts fs)) && (count fs <? 2 ^ 16).
Lemma archive_ok_spec fs rs e : archive_ok fs rs e = true ->
  List.concat (map hex fs) ++ List.concat (map hex rs) ++ hex e = savez (parts fs) /\ savable (parts fs).
Proof.
  unfold archive_ok. rewrite !andb_true_iff. intros [[H1 H3] H5]. apply distinct_nodup in H3. apply N.ltb_lt in H5.
  destruct (parts_ok_spec _ _ _ _ _ _ H1) as (E1 & E2 & E3 & E4 & E5). rewrite !N.add_0_l in *. rewrite Forall_forall in E3.
  assert (CN : count (parts fs) = count fs) by (unfold count, parts; now rewrite map_length).
  assert (E : List.concat (map hex fs) ++ List.concat (map hex rs) ++ hex e = savez (parts fs)).
  { unfold savez. cbv zeta. rewrite CN, <- E1, <- E2, <- E4. reflexivity. }
  split; auto. split; auto. split; [|split; [|split; [now rewrite CN|]]].
  - intros n I J. apply in_map_iff in J. destruct J as (v & J1 & J2). apply E3 in J2. destruct J2 as [_ J2]. unfold name_ok in J2. apply andb_true_iff in J2. destruct J2 as [_ J2].
    apply negb_true_iff in J2. rewrite J1, existsb_app in J2. cbn in J2. rewrite orb_true_r in J2. discriminate.
  - apply Forall_forall. intros v V. apply E3 in V. destruct V as [V1 V2]. split; [exact V1|]. unfold name_ok in V2. apply andb_true_iff in V2. now apply N.ltb_lt, V2.
  - rewrite <- E, !count_app. assert (L : count (hex e) = 22) by (rewrite E4; unfold zip_end; rewrite !count_app; unfold count; rewrite !enc_length; reflexivity). rewrite L. clear - E5. lia.
Qed.

(** ** A word and a decimal number *)
Definition same_number (j : json) (w : N) : bool :=
  match j with
  | JDec m e =>
      let ex := N.land (N.shiftr w 52) 2047 in let fr := N.land w 4503599627370495 in
      let M := Z.of_N (fr + 4503599627370496) in let E := (Z.of_N ex - 1075)%Z in
      negb (N.testbit w 63) && negb (ex =? 2047) && negb (ex =? 0) && negb (fr =? 0) && (-200 <=? E)%Z && (E <=? 0)%Z && (-40 <=? e)%Z && (e <=? 0)%Z &&
      (2 * Z.abs (M * 10 ^ (- e) - m * 2 ^ (- E)) <? 10 ^ (- e))%Z
  | _ => false
  end.
Definition double (m e : Z) : R := bin_rnd (-1074)%Z 53%Z (dec m e).

Lemma powerRZ_neg_Z b e : (0 < b)%Z -> (e <= 0)%Z -> powerRZ (IZR b) e = (/ IZR (b ^ (- e)))%R.
Proof.
  intros B H. destruct e as [|p|p]; [cbn; lra|lia|]. cbn [Z.opp powerRZ]. f_equal. rewrite <- (positive_nat_Z p). now rewrite <- pow_IZR.
Qed.
Lemma rounds_to M E x : (2 ^ 52 < M < 2 ^ 53)%Z -> (-1074 <= E)%Z -> (Rabs (IZR M * powerRZ 2 E - x) < powerRZ 2 E / 2)%R -> bin_rnd (-1074)%Z 53%Z x = (IZR M * powerRZ 2 E)%R.
Proof.
  intros HM HE H. assert (P : (0 < powerRZ 2 E)%R) by (apply powerRZ_lt; lra).
  assert (BP : bpow radix2 E = powerRZ 2 E) by (rewrite bpow_powerRZ; reflexivity).
  assert (L1 : (IZR (2 ^ 52) + 1 <= IZR M)%R) by (rewrite <- plus_IZR; apply IZR_le; lia).
  assert (L2 : (IZR M + 1 <= IZR (2 ^ 53))%R) by (rewrite <- plus_IZR; apply IZR_le; lia).
  apply Rabs_lt_inv in H.
  assert (B1 : bpow radix2 (E + 52) = (IZR (2 ^ 52) * powerRZ 2 E)%R) by (rewrite Z.add_comm, bpow_plus, BP; f_equal; rewrite <- IZR_Zpower by lia; reflexivity).
  assert (B2 : bpow radix2 (E + 53) = (IZR (2 ^ 53) * powerRZ 2 E)%R) by (rewrite Z.add_comm, bpow_plus, BP; f_equal; rewrite <- IZR_Zpower by lia; reflexivity).
  assert (X1 : (bpow radix2 (E + 52) <= x)%R) by (rewrite B1; nra).
  assert (X2 : (x < bpow radix2 (E + 53))%R) by (rewrite B2; nra).
  assert (X0 : (0 < x)%R) by (eapply Rlt_le_trans; [apply bpow_gt_0|exact X1]).
  assert (MG : mag radix2 x = (E + 53)%Z :> Z).
  { apply mag_unique. rewrite Rabs_pos_eq by lra. replace (E + 53 - 1)%Z with (E + 52)%Z by lia. auto. }
  assert (CE : cexp radix2 (FLT_exp (-1074) 53) x = E) by (unfold cexp, FLT_exp; rewrite MG; lia).
  unfold bin_rnd, round, scaled_mantissa. rewrite CE. rewrite (Znearest_imp _ _ M).
  - unfold F2R. cbn [Fnum Fexp]. now rewrite BP.
  - rewrite bpow_opp, BP. replace (x * / powerRZ 2 E - IZR M)%R with ((x - IZR M * powerRZ 2 E) * / powerRZ 2 E)%R by (field; lra).
    rewrite Rabs_mult, (Rabs_pos_eq (/ _)) by (left; now apply Rinv_0_lt_compat). apply Rmult_lt_reg_r with (powerRZ 2 E); auto. rewrite Rmult_assoc, Rinv_l, Rmult_1_r by lra.
    apply Rabs_lt. lra.
Qed.
Lemma same_number_spec j w : same_number j w = true -> exists m e, j = JDec m e /\ float64 w = Fin (double m e).
Proof.
  destruct j as [|m e| | |]; try discriminate. intros H. exists m, e. split; auto. unfold same_number in H. unfold float64.
  set (ex := N.land (N.shiftr w 52) 2047) in *. set (fr := N.land w 4503599627370495) in *. cbv zeta in *. rewrite !andb_true_iff, !negb_true_iff, !Z.leb_le, Z.ltb_lt in H.
  destruct H as [[[[[[[[H1 H2] H3] H4] H5] H6] H7] H8] H9]. rewrite H1, H2, H3. f_equal. apply N.eqb_neq in H4.
  assert (F : fr < 4503599627370496).
  { unfold fr. change 4503599627370495 with (N.ones 52). rewrite N.land_ones. apply N.mod_lt. discriminate. }
  rewrite Rmult_1_l. symmetry. unfold double. set (M := Z.of_N (fr + 4503599627370496)) in *. set (E := (Z.of_N ex - 1075)%Z) in *. apply rounds_to.
  - unfold M. change (2 ^ 52)%Z with (Z.of_N 4503599627370496). change (2 ^ 53)%Z with (Z.of_N 9007199254740992). lia.
  - lia.
  - unfold dec. rewrite !powerRZ_neg_Z by lia. assert (A : (0 < 10 ^ (- e))%Z) by (apply Z.pow_pos_nonneg; lia). assert (B : (0 < 2 ^ (- E))%Z) by (apply Z.pow_pos_nonneg; lia).
    set (a := (10 ^ (- e))%Z) in *. set (b := (2 ^ (- E))%Z) in *. apply IZR_lt in H9, A, B. rewrite mult_IZR, abs_IZR, minus_IZR, !mult_IZR in H9.
    replace (IZR M * / IZR b - IZR m * / IZR a)%R with ((IZR M * IZR a - IZR m * IZR b) * / (IZR a * IZR b))%R by (field; lra).
    rewrite Rabs_mult, (Rabs_pos_eq (/ _)) by (left; apply Rinv_0_lt_compat; nra). apply Rmult_lt_reg_r with (IZR a * IZR b)%R; [nra|]. rewrite Rmult_assoc, Rinv_l, Rmult_1_r by nra.
    replace (/ IZR b / 2 * (IZR a * IZR b))%R with (IZR a / 2)%R by (field; lra). lra.
Qed.
Lemma double_reads : reads_floats double.
Proof.
  intros m e [H1 H2]. unfold double, bin_rnd. set (x := dec m e) in *.
  assert (R := relative_error_N_FLT radix2 (-1074)%Z 53%Z ltac:(lia) (fun n => negb (Z.even n)) x). cbn [Z.sub Z.add Z.opp] in R.
  eapply Rle_trans; [apply R|].
  - eapply Rle_trans; [|exact H1]. change (-1074 + 53 - 1)%Z with (-1022)%Z. rewrite bpow_powerRZ. change (IZR radix2) with 2%R. change (powerRZ 2 (-1022)) with (/ 2 ^ 1022)%R.
    apply Rinv_le_contravar; [apply pow_lt; lra|]. apply Rle_trans with (16 ^ 255)%R; [|replace 16%R with (2 ^ 4)%R by ring; rewrite <- pow_mult; apply Rle_pow; [lra|lia]].
    apply Rle_trans with ((10 ^ 6) ^ 50)%R; [rewrite <- pow_mult; apply Rle_pow; [lra|lia]|]. replace (16 ^ 255)%R with ((16 ^ 5) ^ 51)%R by (rewrite <- pow_mult; reflexivity).
    apply Rle_trans with ((16 ^ 5) ^ 50)%R; [apply pow_incr; lra|apply Rle_pow; [lra|lia]].
  - right. unfold Rdiv. rewrite Rmult_comm. f_equal. change (Z.pos_sub 1 53) with (-52)%Z. rewrite bpow_powerRZ. change (IZR radix2) with 2%R. change (powerRZ 2 (-52)) with (/ 2 ^ 52)%R. change (2 ^ 53)%R with (2 * 2 ^ 52)%R. rewrite Rinv_mult_distr by (try apply pow_nonzero; lra). ring.
Qed.

(** ** The arrays and the JSON entries *)
Fixpoint same_numbers (l : list json) (ws : list N) : bool :=
  match l, ws with
  | [], [] => true
  | j :: l, w :: ws => same_number j w && same_numbers l ws
  | _, _ => false
  end.
Lemma same_numbers_spec l ws : same_numbers l ws = true -> exists c, map float64 ws = map Fin c /\ np_array double (JArr l) = Ok (map Fin c).
Proof.
  cbn [np_array]. revert ws. induction l as [|j l IH]; intros [|w ws] H; try discriminate; [exists []; split; reflexivity|]. cbn [same_numbers] in H. apply andb_true_iff in H. destruct H as [H1 H2].
  destruct (same_number_spec _ _ H1) as (m & e & -> & F). destruct (IH _ H2) as (c & C1 & C2). exists (double m e :: c). cbn [map mapM np_number bind]. rewrite F, C1, C2. split; reflexivity.
Qed.
Definition lookup_array (l : list (text * nparray)) (k : string) : option nparray :=
  match List.find (fun v => text_eqb (fst v) (str k)) l with Some v => Some (snd v) | None => None end.
Lemma lookup_in l k a : lookup_array l k = Some a -> In (str k, a) l.
Proof.
  unfold lookup_array. destruct (List.find _ l) as [[t b]|] eqn:E; [|discriminate]. intros H. injection H as <-. apply find_some in E. destruct E as [E1 E2]. cbn [fst snd] in *.
  destruct (text_eqb_spec t (str k)) as [->|]; [exact E1|discriminate].
Qed.
Definition is_int (o : option nparray) (z : Z) : bool :=
  match o with Some (mkArray Int64 false [w]) => (int64 w =? z)%Z | _ => false end.
Definition is_floats (o : option nparray) (l : list json) : bool :=
  match o with Some (mkArray Float64 true ws) => same_numbers l ws | _ => false end.
Definition entry_same (vs : list (text * nparray)) (name : string) (m : text * json) : bool :=
  text_eqb (fst m) (str name) &&
  match json_index (snd m) "num_s", json_index (snd m) "num_p", json_index (snd m) "coeffs", json_index (snd m) "exps" with
  | Ok (JInt a), Ok (JInt b), Ok (JArr c), Ok (JArr e) =>
      is_int (lookup_array vs (name ++ "_num_s")) a && is_int (lookup_array vs (name ++ "_num_p")) b &&
      is_floats (lookup_array vs (name ++ "_coeffs")) c && is_floats (lookup_array vs (name ++ "_exps")) e
  | _, _, _, _ => false
  end.
Fixpoint entries_same (vs : list (text * nparray)) (names : list string) (l : list string) : bool :=
  match names, l with
  | [], [] => true
  | name :: names, p :: l => match ProofFits.entry_of p with Some m => entry_same vs name m | None => false end && entries_same vs names l
  | _, _ => false
  end.
Lemma entries_same_nth vs : forall names l ms k name, entries_same vs names l = true -> map ProofFits.entry_of l = map Some ms -> nth_error names k = Some name ->
  exists m, nth_error ms k = Some m /\ entry_same vs name m = true.
Proof.
  induction names as [|nm names IH]; intros l ms k name H M N; [destruct k; discriminate|]. destruct l as [|p l]; [discriminate|]. destruct ms as [|m ms]; [discriminate|]. cbn [map] in M. injection M as M1 M2.
  cbn [entries_same] in H. rewrite M1 in H. apply andb_true_iff in H. destruct H as [H1 H2]. destruct k as [|k]; cbn [nth_error] in *.
  - injection N as <-. eauto.
  - eapply IH; eauto.
Qed.
Lemma same_file fs rs en l tol : archive_ok fs rs en = true -> entries_same (parts fs) fit_names l = true -> fits_ok tol 0 fit_names ugbs_sizes l = true ->
  forall k name, nth_error fit_names k = Some name -> exists ws wp cw ew a b c e,
    load_npz (List.concat (map hex fs) ++ List.concat (map hex rs) ++ hex en) name =
      Some (Ok (mkArray Int64 false [ws], mkArray Int64 false [wp], mkArray Float64 true cw, mkArray Float64 true ew)) /\
    int64 ws = a /\ int64 wp = b /\ map float64 cw = map Fin c /\ map float64 ew = map Fin e /\
    load_fit double (str "{" ++ joined l ++ str "}") name = Ok (JInt a, JInt b, map Fin c, map Fin e).
Proof.
  intros HA HE HF k name N. destruct (archive_ok_spec _ _ _ HA) as [E SV]. destruct (get_saved _ SV) as (es & O & G & _).
  destruct (fits_ok_map _ _ _ _ _ HF) as (ms & E1 & E2 & _). destruct (entries_same_nth _ _ _ _ _ _ HE E1 N) as (m & M & S).
  unfold entry_same in S. apply andb_true_iff in S. destruct S as [S0 S].
  destruct (json_index (snd m) "num_s") as [[a| | | |]|] eqn:Ja; try discriminate. destruct (json_index (snd m) "num_p") as [[b| | | |]|] eqn:Jb; try discriminate.
  destruct (json_index (snd m) "coeffs") as [[| | |c|]|] eqn:Jc; try discriminate. destruct (json_index (snd m) "exps") as [[| | |e|]|] eqn:Je; try discriminate.
  rewrite !andb_true_iff in S. destruct S as [[[S1 S2] S3] S4].
  assert (KI : forall k z, is_int (lookup_array (parts fs) k) z = true -> exists w, In (str k, mkArray Int64 false [w]) (parts fs) /\ int64 w = z).
  { intros q z Q. unfold is_int in Q. destruct (lookup_array (parts fs) q) as [[[|] [|] [|w [|]]]|] eqn:L; try discriminate. exists w. split; [now apply lookup_in|now apply Z.eqb_eq]. }
  assert (KF : forall k l', is_floats (lookup_array (parts fs) k) l' = true -> exists w, In (str k, mkArray Float64 true w) (parts fs) /\ same_numbers l' w = true).
  { intros q z Q. unfold is_floats in Q. destruct (lookup_array (parts fs) q) as [[[|] [|] w]|] eqn:L; try discriminate. exists w. split; [now apply lookup_in|exact Q]. }
  destruct (KI _ _ S1) as (ws & I1 & Q1). destruct (KI _ _ S2) as (wp & I2 & Q2). destruct (KF _ _ S3) as (cw & I3 & Q3). destruct (KF _ _ S4) as (ew & I4 & Q4).
  destruct (same_numbers_spec _ _ Q3) as (cr & C1 & C2). destruct (same_numbers_spec _ _ Q4) as (er & R1 & R2).
  exists ws, wp, cw, ew, a, b, cr, er. split.
  - rewrite E. unfold load_npz. rewrite O. rewrite (G _ _ I1), (G _ _ I2), (G _ _ I3), (G _ _ I4). reflexivity.
  - do 4 (split; [assumption|]).
    assert (L : l <> []) by (intros ->; destruct ms; [|discriminate]; destruct k; discriminate).
    assert (F : json_load (str "{" ++ joined l ++ str "}") = Some (JObj ms)) by now apply joined_load.
    assert (I : json_index (JObj ms) name = Ok (snd m)).
    { assert (ND : NoDup (map fst ms)) by (rewrite E2; exact fit_names_nodup). apply json_index_in; [exact ND|]. apply nth_error_In in M. replace (str name) with (fst m); [now destruct m|]. now destruct (text_eqb_spec (fst m) (str name)). }
    unfold load_fit. rewrite F, I. cbn [bind]. rewrite Ja. cbn [bind]. rewrite Jb. cbn [bind]. rewrite Jc. cbn [bind]. rewrite C2. cbn [bind]. rewrite Je. cbn [bind]. rewrite R2. reflexivity.
Qed.

Lemma fpi_archive : archive_ok fpi_files fpi_records fpi_end = true.
Proof. vm_cast_no_check (eq_refl true). Qed.
Lemma slsqp_archive : archive_ok slsqp_files slsqp_records slsqp_end = true.
Proof. vm_cast_no_check (eq_refl true). Qed.
Lemma fpi_same : entries_same (parts fpi_files) fit_names fpi_entries = true.
Proof. vm_cast_no_check (eq_refl true). Qed.
Lemma slsqp_same : entries_same (parts slsqp_files) fit_names slsqp_entries = true.
Proof. vm_cast_no_check (eq_refl true). Qed.
