(** Reading back what np.savez writes. *)
From Coq Require Import NArith ZArith List Bool Ascii String Lia Arith.
From Verif Require Import XR PyText ModelNpz SpecNpz.
Import ListNotations.
Local Open Scope N_scope.

Lemma take_app a r : take (List.length a) (a ++ r) = Some (a, r).
Proof. induction a as [|x a IH]; cbn; [destruct r; reflexivity|]. now rewrite IH. Qed.
Lemma take_count a r n : n = count a -> take (N.to_nat n) (a ++ r) = Some (a, r).
Proof. intros ->. unfold count. rewrite Nnat.Nat2N.id. apply take_app. Qed.
Lemma expect_app p s : expect p (p ++ s) = Some s.
Proof. induction p as [|x p IH]; cbn; [destruct s; reflexivity|]. now rewrite N.eqb_refl. Qed.
Lemma enc_length k n : List.length (enc k n) = k.
Proof. revert n. induction k; intros n; cbn; auto. Qed.
Lemma le_enc k n : n < 256 ^ N.of_nat k -> le (enc k n) = n.
Proof.
  revert n. induction k as [|k IH]; intros n H; cbn [enc le].
  - cbn in H. lia.
  - rewrite IH.
    + rewrite N.add_comm, N.mul_comm, N.mul_comm. symmetry. apply N.div_mod. lia.
    + rewrite Nnat.Nat2N.inj_succ, N.pow_succ_r' in H. apply N.div_lt_upper_bound; lia.
Qed.
Lemma num_app k a r : List.length a = k -> num k (a ++ r) = Some (le a, r).
Proof. intros <-. unfold num. now rewrite take_app. Qed.
Lemma num_enc k n r : n < 256 ^ N.of_nat k -> num k (enc k n ++ r) = Some (n, r).
Proof. intros H. rewrite num_app by apply enc_length. now rewrite le_enc. Qed.

Lemma bytes_eqb_refl a : bytes_eqb a a = true.
Proof. induction a; cbn; auto. now rewrite N.eqb_refl. Qed.
Lemma bytes_eqb_spec a b : bytes_eqb a b = true <-> a = b.
Proof.
  split; [|intros ->; apply bytes_eqb_refl]. revert b. induction a as [|x a IH]; intros [|y b]; cbn; try discriminate; auto.
  rewrite andb_true_iff, N.eqb_eq. intros [-> H]. f_equal; auto.
Qed.
Lemma of_text_inj a b : of_text a = of_text b -> a = b.
Proof.
  unfold of_text. revert b. induction a as [|x a IH]; intros [|y b] H; cbn in H; try discriminate; auto. injection H as H1 H2.
  apply (f_equal ascii_of_N) in H1. rewrite !ascii_N_embedding in H1. f_equal; auto.
Qed.
Lemma of_text_app a b : of_text (a ++ b) = of_text a ++ of_text b.
Proof. apply map_app. Qed.

(** ** Bounds of the checksum *)
Lemma small_bits n k : n < 2 ^ k <-> forall i, k <= i -> N.testbit n i = false.
Proof.
  split.
  - intros H i Hi. destruct (N.eq_dec n 0) as [->|Z]; [apply N.bits_0|]. apply N.bits_above_log2. apply N.log2_lt_pow2 in H; lia.
  - intros H. assert (E : n = n mod 2 ^ k).
    { apply N.bits_inj. intros i. destruct (N.lt_ge_cases i k) as [L|L].
      - now rewrite N.mod_pow2_bits_low.
      - rewrite N.mod_pow2_bits_high by auto. now apply H. }
    rewrite E. apply N.mod_lt. apply N.pow_nonzero. lia.
Qed.
Lemma lxor_small a b k : a < 2 ^ k -> b < 2 ^ k -> N.lxor a b < 2 ^ k.
Proof. rewrite !small_bits. intros A B i Hi. rewrite N.lxor_spec, A, B; auto. Qed.
Lemma crc_bit_small c : c < 2 ^ 32 -> crc_bit c < 2 ^ 32.
Proof.
  intros H. assert (D : N.div2 c < 2 ^ 32) by (rewrite N.div2_div; apply N.div_lt_upper_bound; lia).
  unfold crc_bit. destruct (N.odd c); auto. apply lxor_small; auto. reflexivity.
Qed.
Lemma crc_small s : Forall (fun x => x < 256) s -> crc32 s < 2 ^ 32.
Proof.
  intros H. unfold crc32. apply lxor_small; [|reflexivity].
  assert (G : forall l c, Forall (fun x => x < 256) l -> c < 2 ^ 32 -> fold_left crc_byte l c < 2 ^ 32).
  { induction l as [|x l IH]; intros c F C; cbn; auto. inversion F; subst. apply IH; auto. unfold crc_byte.
    assert (X : N.lxor c x < 2 ^ 32) by (apply lxor_small; auto; apply N.lt_trans with 256; auto; reflexivity).
    revert X. generalize (N.lxor c x). intros y Y. cbn [Nat.iter nat_rect]. do 8 apply crc_bit_small. exact Y. }
  apply G; auto. reflexivity.
Qed.
Lemma enc_bytes k n : Forall (fun x => x < 256) (enc k n).
Proof. revert n. induction k; intros n; cbn; constructor; auto. apply N.mod_lt. lia. Qed.
Lemma of_text_bytes t : Forall (fun x => x < 256) (of_text t).
Proof. apply Forall_forall. intros x H. apply in_map_iff in H. destruct H as (c & <- & _). apply N_ascii_bounded. Qed.

(** ** Decimal numbers *)
Definition is_digit (x : N) : Prop := 48 <= x <= 57.
Lemma digits_app acc d r : Forall is_digit d -> (forall x s, r = x :: s -> ~ is_digit x) ->
  digits acc (d ++ r) = (fold_left (fun a x => 10 * a + (x - 48)) d acc, r).
Proof.
  revert acc. induction d as [|x d IH]; intros acc D R; cbn [app fold_left].
  - destruct r as [|x r]; cbn; auto. specialize (R x r eq_refl). unfold is_digit in R.
    destruct (N.leb_spec 48 x); destruct (N.leb_spec x 57); cbn; auto. exfalso. apply R. lia.
  - inversion D as [|? ? Hx Hd]; subst. unfold is_digit in Hx. cbn [digits]. rewrite (proj2 (N.leb_le 48 x)), (proj2 (N.leb_le x 57)) by lia. cbn [andb]. now apply IH.
Qed.
Lemma decimal_digits_ok fuel n : n < 2 ^ N.of_nat fuel -> (0 < fuel)%nat ->
  Forall is_digit (decimal_digits fuel n) /\ fold_left (fun a x => 10 * a + (x - 48)) (decimal_digits fuel n) 0 = n.
Proof.
  revert n. induction fuel as [|fuel IH]; intros n H P; [lia|]. cbn [decimal_digits]. destruct (N.ltb_spec n 10) as [L|L].
  - split; [constructor; [unfold is_digit; lia|constructor]|]. cbn [fold_left]. lia.
  - assert (fuel <> O) by (intros ->; cbn in H; lia). rewrite Nnat.Nat2N.inj_succ, N.pow_succ_r' in H.
    assert (D : n / 10 < 2 ^ N.of_nat fuel) by (apply N.div_lt_upper_bound; lia).
    destruct (IH (n / 10) D ltac:(lia)) as [A B]. pose proof (N.mod_lt n 10 ltac:(lia)) as M. split.
    + apply Forall_app. split; auto. constructor; [|constructor]. unfold is_digit. clear - M. generalize dependent (n mod 10). intros q Q. lia.
    + rewrite fold_left_app, B. cbn [fold_left]. pose proof (N.div_mod n 10 ltac:(lia)) as Q. clear - Q M. generalize dependent (n mod 10). generalize (n / 10). intros u v Q M. lia.
Qed.
Lemma decimal_ok n : Forall is_digit (decimal n) /\ fold_left (fun a x => 10 * a + (x - 48)) (decimal n) 0 = n.
Proof.
  unfold decimal. apply decimal_digits_ok; [|lia]. rewrite Nnat.Nat2N.inj_succ, Nnat.N2Nat.id. destruct (N.eq_dec n 0) as [->|Z]; [reflexivity|].
  apply N.log2_lt_pow2; lia.
Qed.

(** ** The .npy file *)
Lemma header_read a n : header (npy_header a ++ repeat 32 n ++ [10]) = Some (a_kind a, a_axis a, if a_axis a then List.length (a_words a) else 1%nat).
Proof.
  unfold header, npy_header. rewrite <- !app_assoc. rewrite expect_app.
  assert (K : forall s, match expect (raw "f8") (raw (match a_kind a with Int64 => "i8" | Float64 => "f8" end) ++ s) with
                 | Some s => Some (Float64, s)
                 | None => match expect (raw "i8") (raw (match a_kind a with Int64 => "i8" | Float64 => "f8" end) ++ s) with Some s => Some (Int64, s) | None => None end
                 end = Some (a_kind a, s)) by (intros s; destruct (a_kind a); reflexivity).
  rewrite K. rewrite expect_app.
  assert (F : forallb (fun x => ((x =? 32) || (x =? 10))%bool) (repeat 32 n ++ [10]) = true).
  { apply forallb_forall. intros x H. apply in_app_or in H. destruct H as [H|[<-|[]]]; [|reflexivity]. apply repeat_spec in H. now subst. }
  destruct (a_axis a).
  - destruct (decimal_ok (count (a_words a))) as [D E].
    assert (X : forall s, expect (raw ")") ((decimal (count (a_words a)) ++ raw ",") ++ s) = None).
    { intros s. destruct (decimal (count (a_words a))) as [|x d]; [reflexivity|]. inversion D as [|? ? Hx _]; subst. unfold is_digit in Hx. cbn [app raw of_text list_ascii_of_string map expect].
      change (N_of_ascii ")") with 41. destruct (N.eqb_spec 41 x); [lia|reflexivity]. }
    rewrite X. rewrite <- !app_assoc. rewrite digits_app; auto.
    2:{ intros x s H. cbn in H. injection H as <- _. unfold is_digit. lia. }
    rewrite E. change (raw "), }") with (raw ")" ++ raw ", }"). rewrite <- app_assoc. rewrite (app_assoc (raw ",") (raw ")")). change (raw "," ++ raw ")") with (raw ",)").
    rewrite expect_app, expect_app. rewrite F. unfold count. now rewrite Nnat.Nat2N.id.
  - cbn [app]. change (raw "), }") with (raw ")" ++ raw ", }"). rewrite <- app_assoc. rewrite expect_app, expect_app. rewrite F. reflexivity.
Qed.
Lemma words_read l : Forall (fun w => w < 2 ^ 64) l -> words (List.length l) (List.concat (map (enc 8) l)) = Some (l, []).
Proof.
  induction l as [|w l IH]; intros H; cbn [List.length map List.concat words]; auto. inversion H; subst. rewrite num_enc by (cbn; assumption). now rewrite IH.
Qed.
Lemma npy_read_back a : proper a -> count (npy a) < 2 ^ 32 -> count (npy_header a) < 65000 -> npy_read (npy a) = Some a.
Proof.
  intros [P1 P2] _ HL. unfold npy_read, npy. cbv zeta. set (pad := (64 - _)%nat). set (h := npy_header a) in *.
  match goal with |- context [expect ?p ?s] => replace s with (p ++ (enc 2 (count h + N.of_nat pad + 1) ++ (h ++ repeat 32 pad ++ [10]) ++ List.concat (map (enc 8) (a_words a)))) end.
  2:{ cbn [app]. rewrite <- !app_assoc. reflexivity. }
  rewrite expect_app. rewrite num_enc. 2:{ assert (PL : (pad <= 64)%nat) by (unfold pad; lia). change (256 ^ N.of_nat 2) with 65536. clearbody pad. clear - PL HL. generalize dependent (count h). intros q Q. lia. }
  rewrite take_count. 2:{ unfold count. rewrite !app_length, repeat_length. cbn [List.length]. lia. }
  unfold h. rewrite header_read. destruct a as [k ax ws]. cbn [a_kind a_axis a_words] in *. destruct ax.
  - rewrite words_read by auto. reflexivity.
  - pose proof (words_read ws P2) as W. rewrite (P1 eq_refl) in W. now rewrite W.
Qed.
Lemma header_short a : count (a_words a) < 2 ^ 64 -> count (npy_header a) < 65000.
Proof.
  intros H. unfold npy_header, count. rewrite !app_length.
  assert (D : forall fuel n, (List.length (decimal_digits fuel n) <= fuel)%nat).
  { induction fuel; intros n; cbn; auto. destruct (n <? 10); cbn; [lia|]. rewrite app_length. cbn. specialize (IHfuel (n / 10)). lia. }
  assert (L : (List.length (decimal (count (a_words a))) <= 65)%nat).
  { unfold decimal. eapply Nat.le_trans; [apply D|]. set (n := count (a_words a)) in *. destruct (N.eq_dec n 0) as [->|Z]; [cbn; lia|].
    apply N.log2_lt_pow2 in H; lia. }
  destruct (a_axis a); destruct (a_kind a); rewrite ?app_length; unfold raw, of_text; rewrite !map_length; cbn [list_ascii_of_string List.length]; unfold count in L; lia.
Qed.
Lemma npy_bytes a : Forall (fun x => x < 256) (npy a).
Proof.
  unfold npy. cbv zeta. constructor; [lia|].
  assert (D : forall n, Forall (fun x => x < 256) (decimal n)) by (intros n; eapply Forall_impl; [|apply decimal_ok]; unfold is_digit; intros; lia).
  repeat (apply Forall_app; split); try apply of_text_bytes; try apply enc_bytes; try (repeat constructor; lia).
  - destruct (a_axis a); [apply Forall_app; split; [apply D|apply of_text_bytes]|constructor].
  - apply Forall_forall. intros x H. apply repeat_spec in H. subst. lia.
  - induction (a_words a); cbn [map List.concat]; [constructor|]. apply Forall_app. split; [apply enc_bytes|auto].
Qed.

(** ** The archive *)
Definition sizes_ok (offset : N) (v : text * nparray) : Prop :=
  proper (snd v) /\ count (fst v) < 65000 /\ count (npy (snd v)) < 2 ^ 32 /\ offset < 2 ^ 32.
Definition entry_of (offset : N) (v : text * nparray) : entry :=
  mkEntry (file_name (fst v)) (crc32 (npy (snd v))) (count (npy (snd v))) offset.
Lemma name_short (v : text * nparray) : count (fst v) < 65000 -> count (file_name (fst v)) < 65536.
Proof. unfold file_name, count, of_text, raw, of_text. intros H. rewrite app_length, !map_length. cbn [list_ascii_of_string List.length]. lia. Qed.

Lemma record_read offset v r : sizes_ok offset v -> directory_entry (zip_record offset v ++ r) = Some (entry_of offset v, r).
Proof.
  intros (P & Hn & Hd & Ho). pose proof (name_short v Hn) as Hf. pose proof (crc_small _ (npy_bytes (snd v))) as Hc. unfold directory_entry, zip_record, fields. cbv zeta.
  set (d := npy (snd v)) in *. set (n := file_name (fst v)) in *.
  match goal with |- context [expect ?p ?s] => replace s with (p ++ [20; 3; 20; 0] ++ [0; 0] ++ [0; 0] ++ [0; 0; 33; 0] ++ enc 4 (crc32 d) ++ enc 4 (count d) ++ enc 4 (count d) ++ enc 2 (count n) ++ enc 2 0 ++
    [0; 0] ++ [0; 0; 0; 0; 0; 0; 128; 1] ++ enc 4 offset ++ n ++ r) by (rewrite <- !app_assoc; reflexivity) end.
  rewrite expect_app. do 4 (rewrite num_app by reflexivity). rewrite num_enc by exact Hc. do 2 (rewrite num_enc by exact Hd). rewrite num_enc by exact Hf. rewrite num_enc by reflexivity.
  do 2 (rewrite num_app by reflexivity). rewrite num_enc by exact Ho. rewrite take_count by reflexivity. cbn [N.to_nat le N.mul N.add Nat.add take].
  rewrite !N.eqb_refl. reflexivity.
Qed.
Lemma directory_read l : forall offset fuel, (List.length l <= fuel)%nat ->
  (forall i v, nth_error l i = Some v -> sizes_ok (offset + count (List.concat (map zip_member (firstn i l)))) v) ->
  exists es, directory fuel (zip_directory offset l) = Some es /\ List.length es = List.length l /\
    forall i v, nth_error l i = Some v -> nth_error es i = Some (entry_of (offset + count (List.concat (map zip_member (firstn i l)))) v).
Proof.
  induction l as [|v l IH]; intros offset fuel L H; cbn [zip_directory].
  - exists []. split; [destruct fuel; reflexivity|]. split; auto. intros [|i] ? E; discriminate.
  - destruct fuel as [|fuel]; [cbn in L; lia|].
    assert (S0 := H 0%nat v eq_refl). cbn [firstn map List.concat] in S0. change (count []) with 0 in S0. rewrite N.add_0_r in S0.
    assert (C : forall i, count (List.concat (map zip_member (firstn (S i) (v :: l)))) = count (zip_member v) + count (List.concat (map zip_member (firstn i l)))).
    { intros i. cbn [firstn map List.concat]. unfold count. rewrite app_length. lia. }
    destruct (IH (offset + count (zip_member v)) fuel) as (es & E & EL & EN).
    + cbn in L. lia.
    + intros i w W. specialize (H (S i) w W). rewrite C, N.add_assoc in H. exact H.
    + exists (entry_of offset v :: es). split.
      * assert (D : forall x, x <> [] -> directory (S fuel) x = match directory_entry x with Some (e, s) => match directory fuel s with Some l => Some (e :: l) | None => None end | None => None end) by (intros [|]; [congruence|reflexivity]).
        rewrite D by (unfold zip_record; discriminate). rewrite record_read by exact S0. now rewrite E.
      * split; [cbn; congruence|]. intros [|i] w W; cbn [nth_error] in *.
        -- injection W as <-. cbn [firstn map List.concat]. change (count []) with 0. now rewrite N.add_0_r.
        -- rewrite C, N.add_assoc. now apply EN.
Qed.
Lemma skipn_exact {A} (a b : list A) n : n = List.length a -> skipn n (a ++ b) = b.
Proof. intros ->. rewrite skipn_app, skipn_all, Nat.sub_diag. reflexivity. Qed.
Lemma member_read_at pre v post offset : sizes_ok offset v -> offset = count pre ->
  member (pre ++ zip_member v ++ post) (entry_of offset v) = Some (npy (snd v)).
Proof.
  intros (P & Hn & Hd & Ho) O. pose proof (name_short v Hn) as Hf. unfold member, zip_member, fields, entry_of. cbv zeta. cbn [e_offset e_size e_name e_crc].
  set (d := npy (snd v)) in *. set (n := file_name (fst v)) in *.
  rewrite skipn_exact by (subst offset; unfold count; now rewrite Nnat.Nat2N.id).
  match goal with |- context [expect ?p ?s] => replace s with (p ++ [20; 0] ++ [0; 0] ++ [0; 0] ++ ([0; 0; 33; 0] ++ enc 4 (crc32 d) ++ enc 4 (count d) ++ enc 4 (count d)) ++ enc 2 (count n) ++ enc 2 20 ++
    n ++ ([1; 0; 16; 0] ++ enc 8 (count d) ++ enc 8 (count d)) ++ d ++ post) by (rewrite <- !app_assoc; reflexivity) end.
  rewrite expect_app. do 4 (rewrite num_app by reflexivity). rewrite num_enc by exact Hf. rewrite num_enc by reflexivity. rewrite take_count by reflexivity.
  rewrite (take_count _ _ 20) by reflexivity. rewrite take_count by reflexivity. rewrite bytes_eqb_refl, !N.eqb_refl. reflexivity.
Qed.

Lemma count_app {A} (a b : list A) : count (a ++ b) = count a + count b.
Proof. unfold count. rewrite app_length. lia. Qed.
Lemma savable_sizes l : savable l -> forall i v, nth_error l i = Some v -> sizes_ok (0 + count (List.concat (map zip_member (firstn i l)))) v.
Proof.
  intros (_ & _ & F & _ & S) i v H. rewrite Forall_forall in F. destruct (F v (nth_error_In _ _ H)) as [P N].
  apply nth_error_split in H. destruct H as (a & b & -> & <-). rewrite firstn_app, firstn_all, Nat.sub_diag, app_nil_r.
  assert (L : count (List.concat (map zip_member a)) + count (npy (snd v)) <= count (savez (a ++ v :: b))).
  { assert (M : count (npy (snd v)) <= count (zip_member v)) by (unfold zip_member; cbv zeta; rewrite !count_app; lia).
    unfold savez. cbv zeta. rewrite map_app, concat_app. cbn [map List.concat]. rewrite !count_app. clear - M. lia. }
  repeat split; try apply P; auto; clear - L S; lia.
Qed.
Lemma zip_directory_size l : forall o, (List.length l <= List.length (zip_directory o l))%nat.
Proof. induction l as [|v l IH]; intros o; cbn [zip_directory List.length]; auto. rewrite app_length. specialize (IH (o + count (zip_member v))). assert (1 <= List.length (zip_record o v))%nat by (unfold zip_record; cbv zeta; rewrite app_length; change (List.length (raw "PK")) with 2%nat; lia). lia. Qed.

Lemma open_saved l : savable l -> exists es, npz_open (savez l) = Some es /\ List.length es = List.length l /\
  forall i v, nth_error l i = Some v -> nth_error es i = Some (entry_of (count (List.concat (map zip_member (firstn i l)))) v).
Proof.
  intros HS. assert (Z := savable_sizes l HS). destruct HS as (_ & _ & _ & Ln & S).
  destruct (directory_read l 0 (List.length (zip_directory 0 l)) (zip_directory_size l 0) Z) as (es & E & EL & EN). exists es. split; [|split; [exact EL|exact EN]].
  unfold npz_open. unfold savez in *. cbv zeta in *. set (F := List.concat (map zip_member l)) in *. set (D := zip_directory 0 l) in *. set (X := zip_end _ _ _) in *.
  assert (LX : List.length X = 22%nat) by (unfold X, zip_end; rewrite !app_length, !enc_length; reflexivity).
  rewrite !app_length, LX. rewrite (proj2 (Nat.ltb_ge _ 22)) by lia. replace (List.length F + (List.length D + 22) - 22)%nat with (List.length (F ++ D)) by (rewrite app_length; lia).
  rewrite !count_app in S. assert (BF : count F < 2 ^ 32) by (clear - S; lia). assert (BD : count D < 2 ^ 32) by (clear - S; lia).
  replace (skipn (List.length (F ++ D)) (F ++ D ++ X)) with X by (rewrite app_assoc; symmetry; now apply skipn_exact).
  unfold X at 1, zip_end.
  match goal with |- context [expect ?p ?s] => change s with (p ++ enc 2 (count l) ++ enc 2 (count l) ++ enc 4 (count D) ++ enc 4 (count F) ++ [0; 0] ++ []) end.
  rewrite expect_app. do 2 (rewrite num_enc by exact Ln). rewrite num_enc by exact BD. rewrite num_enc by exact BF. rewrite num_app by reflexivity.
  cbn [le N.mul N.add]. rewrite !N.eqb_refl. replace (count D + count F =? N.of_nat (List.length (F ++ D))) with true by (symmetry; apply N.eqb_eq; fold (count (F ++ D)); rewrite count_app; lia). cbn [andb negb].
  rewrite skipn_exact by (unfold count; now rewrite Nnat.Nat2N.id). rewrite take_count by reflexivity. rewrite E, EL. fold (count l). now rewrite N.eqb_refl.
Qed.

Lemma find_last {A} (f : A -> bool) l x : In x l -> f x = true -> (forall y, In y l -> f y = true -> y = x) -> List.find f (rev l) = Some x.
Proof.
  intros I F U. destruct (List.find f (rev l)) as [y|] eqn:E.
  - apply find_some in E. destruct E as [E1 E2]. f_equal. apply U; auto. now apply in_rev.
  - exfalso. assert (G := find_none _ _ E x (proj1 (in_rev l x) I)). congruence.
Qed.
Lemma find_no {A} (f : A -> bool) l : (forall y, In y l -> f y = false) -> List.find f l = None.
Proof. intros H. destruct (List.find f l) as [y|] eqn:E; auto. apply find_some in E. destruct E as [E1 E2]. rewrite H in E2; auto. discriminate. Qed.
Lemma nth_in {A B} (f : nat -> A -> B) l es : List.length es = List.length l -> (forall i v, nth_error l i = Some v -> nth_error es i = Some (f i v)) ->
  forall e, In e es -> exists i v, nth_error l i = Some v /\ e = f i v.
Proof.
  intros L H e I. apply In_nth_error in I. destruct I as [i I]. assert (i < List.length l)%nat by (rewrite <- L; apply nth_error_Some; congruence).
  destruct (nth_error l i) as [v|] eqn:E; [|apply nth_error_None in E; lia]. exists i, v. split; auto. rewrite (H _ _ E) in I. congruence.
Qed.

Lemma get_saved l : savable l -> exists es, npz_open (savez l) = Some es /\
  (forall name a, In (name, a) l -> npz_get (savez l) es name = Some (Ok a)) /\
  (forall key, ~ In key (map fst l) -> (forall name, In name (map fst l) -> key <> name ++ list_ascii_of_string ".npy") -> npz_get (savez l) es key = Some (Raise KeyError)).
Proof.
  intros HS. destruct (open_saved l HS) as (es & O & EL & EN). exists es. split; auto. assert (Z := savable_sizes l HS). destruct HS as (ND & NP & FA & _ & S).
  assert (IN := nth_in (fun i v => entry_of (count (List.concat (map zip_member (firstn i l)))) v) l es EL EN).
  assert (Q : forall t, of_text (t ++ list_ascii_of_string ".npy") = file_name t) by (intros t; apply of_text_app). split.
  - intros name a I. apply In_nth_error in I. destruct I as [i I]. unfold npz_get, find_entry.
    rewrite find_no.
    2:{ intros e X. apply in_rev in X. destruct (IN e X) as (j & v & J & ->). cbn [e_name entry_of]. destruct (bytes_eqb _ _) eqn:B; auto. exfalso. apply bytes_eqb_spec in B. rewrite <- Q in B. apply of_text_inj in B.
      apply (NP (fst v)); [apply in_map; eapply nth_error_In; eauto|]. rewrite B. apply (in_map fst _ _ (nth_error_In _ _ I)). }
    rewrite (find_last _ _ (entry_of (count (List.concat (map zip_member (firstn i l)))) (name, a))).
    + assert (Zi := Z i (name, a) I). rewrite N.add_0_l in Zi. pose proof Zi as (P & _ & Pd & _).
      assert (M : member (savez l) (entry_of (count (List.concat (map zip_member (firstn i l)))) (name, a)) = Some (npy a)).
      { unfold savez. cbv zeta. set (X := zip_directory 0 l ++ _). pose proof I as I'. apply nth_error_split in I'. destruct I' as (u & w & -> & <-). rewrite firstn_app, firstn_all, Nat.sub_diag, app_nil_r in *.
        rewrite map_app, concat_app. cbn [map List.concat]. rewrite <- !app_assoc. now apply member_read_at. }
      rewrite M. rewrite npy_read_back; auto. apply header_short.
      assert (L : count (a_words a) <= count (npy a)).
      { unfold npy. cbv zeta. cbn [snd]. unfold count. cbn [List.length]. rewrite !app_length. assert (C : (List.length (a_words a) <= List.length (List.concat (map (enc 8) (a_words a))))%nat).
        { clear. induction (a_words a); cbn [map List.concat List.length]; [lia|]. rewrite app_length, enc_length. lia. } clear - C. lia. }
      cbn [snd] in *. clear - L Pd. lia.
    + eapply nth_error_In. now apply EN.
    + cbn [e_name entry_of fst]. apply bytes_eqb_refl.
    + intros e X B. destruct (IN e X) as (j & v & J & ->). cbn [e_name entry_of] in B. apply bytes_eqb_spec in B. unfold file_name in B. apply app_inv_tail, of_text_inj in B.
      assert (j = i).
      { apply (proj1 (NoDup_nth_error (map fst l)) ND); [rewrite map_length; apply nth_error_Some; congruence|]. rewrite !nth_error_map, J, I. cbn. now f_equal. }
      subst j. rewrite I in J. injection J as <-. reflexivity.
  - intros key N1 N2. unfold npz_get, find_entry. rewrite !find_no; auto; intros e X; apply in_rev in X; destruct (IN e X) as (j & v & J & ->); cbn [e_name entry_of]; destruct (bytes_eqb _ _) eqn:B; auto; exfalso; apply bytes_eqb_spec in B.
    + unfold file_name in B. apply app_inv_tail, of_text_inj in B. apply N1. rewrite <- B. apply in_map. eapply nth_error_In; eauto.
    + rewrite <- Q in B. apply of_text_inj in B. apply (N2 (fst v)); [apply in_map; eapply nth_error_In; eauto|]. now symmetry.
Qed.
