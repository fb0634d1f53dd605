(** Damaged .npz files; words as doubles. *)
From Coq Require Import Reals.
From Coq Require Import NArith ZArith List Bool Ascii String Lia Lra Arith.
From Flocq Require Import Core IEEE754.Binary IEEE754.Bits.
From Verif Require Import XR PyText ModelNpz SpecNpz SpecNpz2 ProofNpz.
Import ListNotations.
Local Open Scope N_scope.
Local Open Scope bool_scope.

(** ** The checksum *)
Lemma crc_bit_top c : c < 2 ^ 32 -> N.testbit (crc_bit c) 31 = N.odd c.
Proof.
  intros H. assert (D : N.testbit (N.div2 c) 31 = false).
  { assert (S : N.div2 c < 2 ^ 31) by (rewrite N.div2_div; apply N.div_lt_upper_bound; lia). exact (proj1 (small_bits _ _) S 31 ltac:(lia)). }
  unfold crc_bit. destruct (N.odd c); [rewrite N.lxor_spec, D; reflexivity|exact D].
Qed.
Lemma crc_bit_inj a b : a < 2 ^ 32 -> b < 2 ^ 32 -> crc_bit a = crc_bit b -> a = b.
Proof.
  intros A B E. assert (O : N.odd a = N.odd b) by (rewrite <- !crc_bit_top by assumption; now rewrite E).
  unfold crc_bit in E. rewrite <- O in E. assert (D : N.div2 a = N.div2 b).
  { destruct (N.odd a); [|exact E]. apply (f_equal (fun z => N.lxor z 3988292384)) in E. rewrite !N.lxor_assoc, N.lxor_nilpotent, !N.lxor_0_r in E. exact E. }
  rewrite (N.div2_odd a), (N.div2_odd b), D, O. reflexivity.
Qed.
Lemma crc_iter k a : a < 2 ^ 32 -> Nat.iter k crc_bit a < 2 ^ 32.
Proof. intros A. induction k; cbn; auto. now apply crc_bit_small. Qed.
Lemma crc_iter_inj k a b : a < 2 ^ 32 -> b < 2 ^ 32 -> Nat.iter k crc_bit a = Nat.iter k crc_bit b -> a = b.
Proof.
  intros A B. induction k as [|k IH]; cbn [Nat.iter nat_rect]; auto. intros E. apply IH. apply crc_bit_inj; auto; now apply crc_iter.
Qed.
Lemma lxor_inj_l c a b : N.lxor c a = N.lxor c b -> a = b.
Proof. intros E. apply (f_equal (N.lxor c)) in E. rewrite <- !N.lxor_assoc, N.lxor_nilpotent, !N.lxor_0_l in E. exact E. Qed.
Lemma byte_small c x : c < 2 ^ 32 -> x < 256 -> N.lxor c x < 2 ^ 32.
Proof. intros C X. apply lxor_small; auto. change (2 ^ 32) with 4294967296. lia. Qed.
Lemma crc_byte_small c x : c < 2 ^ 32 -> x < 256 -> crc_byte c x < 2 ^ 32.
Proof. intros C X. unfold crc_byte. apply crc_iter. now apply byte_small. Qed.
Lemma crc_fold_small s : forall c, c < 2 ^ 32 -> Forall (fun x => x < 256) s -> fold_left crc_byte s c < 2 ^ 32.
Proof. induction s as [|x s IH]; intros c C F; cbn [fold_left]; auto. inversion F; subst. apply IH; auto. now apply crc_byte_small. Qed.
Lemma crc_fold_inj s : forall a b, a < 2 ^ 32 -> b < 2 ^ 32 -> Forall (fun x => x < 256) s -> fold_left crc_byte s a = fold_left crc_byte s b -> a = b.
Proof.
  induction s as [|x s IH]; intros a b A B F; cbn [fold_left]; auto. inversion F; subst. intros E. apply IH in E; auto; try now apply crc_byte_small.
  unfold crc_byte in E. apply crc_iter_inj in E; try now apply byte_small. rewrite (N.lxor_comm a), (N.lxor_comm b) in E. now apply lxor_inj_l in E.
Qed.
Lemma crc_from i p x y q : i < 2 ^ 32 -> Forall (fun x => x < 256) p -> Forall (fun x => x < 256) q -> x < 256 -> y < 256 ->
  N.lxor (fold_left crc_byte (p ++ x :: q) i) i = N.lxor (fold_left crc_byte (p ++ y :: q) i) i -> x = y.
Proof.
  intros I Fp Fq X Y E. rewrite !(N.lxor_comm _ i) in E. apply lxor_inj_l in E. rewrite !fold_left_app in E. cbn [fold_left] in E.
  assert (P := crc_fold_small p i I Fp). revert P E. generalize (fold_left crc_byte p i). intros c P E.
  apply crc_fold_inj in E; [|now apply crc_byte_small|now apply crc_byte_small|exact Fq]. unfold crc_byte in E. apply crc_iter_inj in E; [|now apply byte_small|now apply byte_small]. now apply lxor_inj_l in E.
Qed.
Lemma crc_one_byte u w : Forall (fun x => x < 256) u -> one_byte_apart u w -> crc32 u <> crc32 w.
Proof.
  intros F (p & x & y & q & -> & -> & XY & X & Y) E. apply Forall_app in F. destruct F as [Fp Fq]. inversion Fq as [|? ? _ Fq']; subst. apply XY.
  apply (crc_from 4294967295 p x y q); auto. reflexivity.
Qed.
Lemma apart_length u w : one_byte_apart u w -> List.length u = List.length w.
Proof. intros (p & x & y & q & -> & -> & _). rewrite !app_length. reflexivity. Qed.

(** ** A damaged member *)
Lemma member_start_app v : zip_member v = member_start v ++ npy (snd v).
Proof. unfold zip_member, member_start. cbv zeta. rewrite <- !app_assoc. reflexivity. Qed.
Lemma member_damaged pre v d post offset : sizes_ok offset v -> offset = count pre -> one_byte_apart (npy (snd v)) d ->
  member (pre ++ member_start v ++ d ++ post) (ProofNpz.entry_of offset v) = None.
Proof.
  intros (P & Hn & Hd & Ho) O A. pose proof (name_short v Hn) as Hf. assert (L := apart_length _ _ A). assert (C := crc_one_byte _ _ (npy_bytes (snd v)) A).
  unfold member, member_start, fields, ProofNpz.entry_of. cbv zeta. cbn [e_offset e_size e_name e_crc].
  set (b := npy (snd v)) in *. set (n := file_name (fst v)) in *. clearbody b n.
  rewrite skipn_exact by (subst offset; unfold count; now rewrite Nnat.Nat2N.id).
  match goal with |- context [expect ?p ?s] => replace s with (p ++ [20; 0] ++ [0; 0] ++ [0; 0] ++ ([0; 0; 33; 0] ++ enc 4 (crc32 b) ++ enc 4 (count b) ++ enc 4 (count b)) ++ enc 2 (count n) ++ enc 2 20 ++
    n ++ ([1; 0; 16; 0] ++ enc 8 (count b) ++ enc 8 (count b)) ++ d ++ post) by (rewrite <- !app_assoc; reflexivity) end.
  rewrite expect_app. do 4 (rewrite num_app by reflexivity). rewrite num_enc by exact Hf. rewrite num_enc by reflexivity. rewrite take_count by reflexivity.
  rewrite (take_count _ _ 20) by reflexivity. rewrite take_count by (unfold count; now rewrite L). rewrite bytes_eqb_refl.
  destruct (N.eqb_spec (crc32 d) (crc32 b)) as [E|]; [now symmetry in E|]. rewrite !andb_false_r. reflexivity.
Qed.

(** ** Opening depends on the directory only *)
Lemma open_other l F : savable l -> List.length F = List.length (List.concat (map zip_member l)) ->
  npz_open (F ++ zip_directory 0 l ++ zip_end (count l) (count (zip_directory 0 l)) (count (List.concat (map zip_member l)))) = npz_open (savez l).
Proof.
  intros HS LF. destruct (open_saved l HS) as (es & O & EL & EN). rewrite O. revert O. destruct HS as (_ & _ & _ & Ln & S). clear EN.
  unfold npz_open. unfold savez in *. cbv zeta in *. set (G := List.concat (map zip_member l)) in *. set (D := zip_directory 0 l) in *. set (X := zip_end _ _ _) in *.
  assert (LX : List.length X = 22%nat) by (unfold X, zip_end; rewrite !app_length, !enc_length; reflexivity).
  rewrite !app_length, LF, LX. destruct (Nat.ltb _ 22); [discriminate|]. replace (List.length G + (List.length D + 22) - 22)%nat with (List.length (G ++ D)) by (rewrite app_length; lia).
  rewrite !count_app in S. assert (BG : count G < 2 ^ 32) by (clear - S; lia). assert (BD : count D < 2 ^ 32) by (clear - S; lia).
  replace (skipn (List.length (G ++ D)) (G ++ D ++ X)) with X by (rewrite app_assoc; symmetry; now apply skipn_exact).
  replace (skipn (List.length (G ++ D)) (F ++ D ++ X)) with X by (rewrite (app_assoc F); symmetry; apply skipn_exact; rewrite !app_length; lia).
  unfold X at 1 3, zip_end.
  match goal with |- context [expect ?p ?s] => change s with (p ++ enc 2 (count l) ++ enc 2 (count l) ++ enc 4 (count D) ++ enc 4 (count G) ++ [0; 0] ++ []) end.
  rewrite !expect_app. repeat (rewrite (num_enc 2 (count l)) by exact Ln). rewrite !(num_enc 4 (count D)) by exact BD. rewrite !(num_enc 4 (count G)) by exact BG. rewrite !num_app by reflexivity.
  destruct (negb _); [discriminate|]. rewrite (skipn_exact G) by (unfold count; now rewrite Nnat.Nat2N.id). rewrite (skipn_exact F) by (unfold count; rewrite Nnat.Nat2N.id; auto). auto.
Qed.

Lemma find_saved l es : savable l -> List.length es = List.length l ->
  (forall i v, nth_error l i = Some v -> nth_error es i = Some (ProofNpz.entry_of (count (List.concat (map zip_member (firstn i l)))) v)) ->
  forall i v, nth_error l i = Some v -> find_entry es (fst v) = Some (ProofNpz.entry_of (count (List.concat (map zip_member (firstn i l)))) v).
Proof.
  intros HS EL EN. destruct HS as (ND & NP & FA & _ & S).
  assert (IN := nth_in (fun i v => ProofNpz.entry_of (count (List.concat (map zip_member (firstn i l)))) v) l es EL EN).
  assert (Q : forall t, of_text (t ++ list_ascii_of_string ".npy") = file_name t) by (intros t; apply of_text_app).
  intros i v I. unfold find_entry. rewrite find_no.
  2:{ intros e X. apply in_rev in X. destruct (IN e X) as (j & w & J & ->). cbn [e_name ProofNpz.entry_of]. destruct (bytes_eqb _ _) eqn:B; auto. exfalso. apply bytes_eqb_spec in B. rewrite <- Q in B. apply of_text_inj in B.
      apply (NP (fst w)); [apply in_map; eapply nth_error_In; eauto|]. rewrite B. apply (in_map fst _ _ (nth_error_In _ _ I)). }
  apply find_last.
  - eapply nth_error_In. now apply EN.
  - cbn [e_name ProofNpz.entry_of]. apply bytes_eqb_refl.
  - intros e X B. destruct (IN e X) as (j & w & J & ->). cbn [e_name ProofNpz.entry_of] in B. apply bytes_eqb_spec in B. unfold file_name in B. apply app_inv_tail, of_text_inj in B.
    assert (j = i).
    { apply (proj1 (NoDup_nth_error (map fst l)) ND); [rewrite map_length; apply nth_error_Some; congruence|]. rewrite !nth_error_map, J, I. cbn. now f_equal. }
    subst j. rewrite I in J. injection J as <-. reflexivity.
Qed.
Lemma npy_read_saved a : proper a -> count (npy a) < 2 ^ 32 -> npy_read (npy a) = Some a.
Proof.
  intros P B. apply npy_read_back; auto. apply header_short.
  assert (L : count (a_words a) <= count (npy a)).
  { unfold npy. cbv zeta. unfold count. cbn [List.length]. rewrite !app_length. assert (C : (List.length (a_words a) <= List.length (List.concat (map (enc 8) (a_words a))))%nat).
    { clear. induction (a_words a); cbn [map List.concat List.length]; [lia|]. rewrite app_length, enc_length. lia. } clear - C. lia. }
  clear - L B. lia.
Qed.
Lemma with_data_whole l1 v l2 : with_data l1 v (npy (snd v)) l2 = savez (l1 ++ v :: l2).
Proof. unfold with_data, savez. cbv zeta. rewrite map_app, concat_app. cbn [map List.concat]. rewrite member_start_app, <- !app_assoc. reflexivity. Qed.
Lemma get_damaged l1 v d l2 : savable (l1 ++ v :: l2) -> one_byte_apart (npy (snd v)) d -> exists es,
  npz_open (with_data l1 v d l2) = Some es /\ npz_get (with_data l1 v d l2) es (fst v) = None /\
  (forall name a, In (name, a) (l1 ++ l2) -> npz_get (with_data l1 v d l2) es name = Some (Ok a)).
Proof.
  intros HS A. assert (L := apart_length _ _ A). destruct (open_saved _ HS) as (es & O & EL & EN). exists es. split.
  { unfold with_data. cbv zeta. rewrite open_other; auto. rewrite map_app, concat_app. cbn [map List.concat]. rewrite member_start_app, !app_length. lia. }
  assert (FS := find_saved _ _ HS EL EN). assert (Z := savable_sizes _ HS). unfold npz_get, with_data. cbv zeta. set (X := zip_directory _ _ ++ _). clearbody X. split.
  - assert (I : nth_error (l1 ++ v :: l2) (List.length l1) = Some v) by (rewrite nth_error_app2, Nat.sub_diag by lia; reflexivity). rewrite (FS _ _ I). specialize (Z _ _ I). rewrite N.add_0_l in Z.
    rewrite firstn_app, firstn_all, Nat.sub_diag, firstn_O, app_nil_r in *. rewrite <- !app_assoc. rewrite member_damaged; auto.
  - intros name a I. apply in_app_or in I. destruct I as [I|I]; apply In_nth_error in I; destruct I as [i I]; pose proof I as I'; apply nth_error_split in I'; destruct I' as (u & w & -> & <-).
    + assert (J : nth_error ((u ++ (name, a) :: w) ++ v :: l2) (List.length u) = Some (name, a)) by (rewrite <- app_assoc, nth_error_app2, Nat.sub_diag by lia; reflexivity).
      pose proof (FS _ _ J) as FJ. cbn [fst] in FJ. rewrite FJ. specialize (Z _ _ J). rewrite N.add_0_l in Z. rewrite <- !app_assoc, firstn_app, firstn_all, Nat.sub_diag, firstn_O, app_nil_r in *.
      rewrite map_app, concat_app. cbn [map List.concat]. rewrite <- !app_assoc. rewrite member_read_at; auto. cbn [snd]. destruct Z as (P & _ & Pd & _). rewrite npy_read_saved; auto.
    + assert (J : nth_error (l1 ++ v :: u ++ (name, a) :: w) (List.length (l1 ++ v :: u)) = Some (name, a)).
      { change (l1 ++ v :: u ++ (name, a) :: w) with (l1 ++ (v :: u) ++ (name, a) :: w). rewrite app_assoc, nth_error_app2, Nat.sub_diag by lia. reflexivity. }
      pose proof (FS _ _ J) as FJ. cbn [fst] in FJ. specialize (Z _ _ J). rewrite N.add_0_l in Z.
      assert (FN : firstn (List.length (l1 ++ v :: u)) (l1 ++ v :: u ++ (name, a) :: w) = l1 ++ v :: u) by (change (l1 ++ v :: u ++ (name, a) :: w) with (l1 ++ (v :: u) ++ (name, a) :: w); rewrite app_assoc, firstn_app, firstn_all, Nat.sub_diag, firstn_O; apply app_nil_r).
      rewrite FN in *. rewrite FJ.
      rewrite (map_app _ u), concat_app. cbn [map List.concat]. set (pre := List.concat (map zip_member l1) ++ member_start v ++ d ++ List.concat (map zip_member u)).
      replace ((List.concat (map zip_member l1) ++ member_start v ++ d ++ List.concat (map zip_member u) ++ zip_member (name, a) ++ List.concat (map zip_member w)) ++ X)
        with (pre ++ zip_member (name, a) ++ List.concat (map zip_member w) ++ X) by (unfold pre; rewrite <- !app_assoc; reflexivity).
      rewrite member_read_at; auto.
      * cbn [snd]. destruct Z as (P & _ & Pd & _). rewrite npy_read_saved; auto.
      * unfold pre. rewrite map_app, concat_app. cbn [map List.concat]. rewrite member_start_app, !count_app. assert (LC : count (npy (snd v)) = count d) by (unfold count; now rewrite L). rewrite LC. clear. lia.
Qed.

(** ** Words as doubles *)
Lemma split_word w : w < 2 ^ 64 -> split_bits 52 11 (Z.of_N w) = (N.testbit w 63, Z.of_N (N.land w 4503599627370495), Z.of_N (N.land (N.shiftr w 52) 2047)).
Proof.
  intros H. unfold split_bits. f_equal; [f_equal|].
  - change (2 ^ 52 * 2 ^ 11)%Z with (Z.of_N (2 ^ 63)). rewrite N.testbit_eqb. change (2 ^ 64) with (2 ^ 63 * 2) in H. assert (D : w / 2 ^ 63 < 2) by (apply N.div_lt_upper_bound; [discriminate|exact H]).
    destruct (Z.leb_spec (Z.of_N (2 ^ 63)) (Z.of_N w)) as [G|G]; symmetry.
    + apply N2Z.inj_le in G. assert (1 <= w / 2 ^ 63) by (apply N.div_le_lower_bound; [discriminate|lia]). replace (w / 2 ^ 63) with 1 by lia. reflexivity.
    + apply N2Z.inj_lt in G. rewrite N.div_small by exact G. reflexivity.
  - change 4503599627370495 with (N.ones 52). rewrite N.land_ones, N2Z.inj_mod. reflexivity.
  - change 2047 with (N.ones 11). rewrite N.land_ones, N.shiftr_div_pow2, N2Z.inj_mod, N2Z.inj_div. reflexivity.
Qed.
Lemma number_FF x H : double_value (FF2B 53 1024 x H) =
  match x with F754_infinity s => if s then NInf else PInf | F754_nan _ _ => NaN | _ => Fin (FF2R radix2 x) end.
Proof. destruct x; reflexivity. Qed.
Lemma signed_number s p e : FF2R radix2 (F754_finite s p e) = ((if s then -1 else 1) * IZR (Zpos p) * powerRZ 2 e)%R.
Proof.
  unfold FF2R, F2R. cbn [Defs.Fnum Defs.Fexp]. rewrite bpow_powerRZ. change (IZR radix2) with 2%R. destruct s; cbn [cond_Zopp]; [|ring].
  rewrite opp_IZR. ring.
Qed.
Lemma float64_spec w : w < 2 ^ 64 -> float64 w = double_value (b64_of_bits (Z.of_N w)).
Proof.
  intros H. unfold b64_of_bits, binary_float_of_bits. rewrite number_FF. unfold binary_float_of_bits_aux. rewrite split_word by exact H. unfold float64.
  set (ex := N.land (N.shiftr w 52) 2047). set (fr := N.land w 4503599627370495). set (s := N.testbit w 63). clearbody ex fr s. cbv zeta.
  change (Zeq_bool (Z.of_N ex) (2 ^ 11 - 1)) with (Zeq_bool (Z.of_N ex) (Z.of_N 2047)). change (Zeq_bool (Z.of_N ex) 0) with (Zeq_bool (Z.of_N ex) (Z.of_N 0)).
  assert (Q : forall a b, Zeq_bool (Z.of_N a) (Z.of_N b) = (a =? b)).
  { intros a b. destruct (N.eqb_spec a b) as [->|E]; [now apply Zeq_is_eq_bool|]. destruct (Zeq_bool _ _) eqn:Z; auto. apply Zeq_bool_eq, N2Z.inj in Z. contradiction. }
  rewrite !Q. destruct (N.eqb_spec ex 0) as [->|E0].
  - cbn [N.eqb]. destruct fr as [|p].
    + cbn [Z.of_N FF2R]. f_equal. ring.
    + cbn [Z.of_N]. rewrite signed_number. reflexivity.
  - destruct (N.eqb_spec ex 2047) as [->|E1].
    + destruct fr; reflexivity.
    + replace (Z.of_N fr + 2 ^ 52)%Z with (Z.of_N (fr + 4503599627370496)) by (rewrite N2Z.inj_add; reflexivity).
      destruct (fr + 4503599627370496) as [|p] eqn:P; [lia|]. cbn [Z.of_N]. rewrite signed_number. change (SpecFloat.emin (52 + 1) (2 ^ (11 - 1))) with (-1074)%Z. replace (Z.of_N ex + -1074 - 1)%Z with (Z.of_N ex - 1075)%Z by lia. reflexivity.
Qed.
