(** Concrete data files: a decision procedure for the layout, given the words of the file. *)
From Coq Require Import String Ascii List Bool Arith ZArith Lia.
From Verif Require Import XR PyStr PyText SpecParse ProofText ModelParse SpecFile ProofConf ProofConf2 ProofFile ProofFile2 ProofFile3 ProofFile4 ProofNames SpecShipped.
Import ListNotations.
Local Open Scope list_scope.

(** Words of a block and of a file. *)
Record tblock := mkTB { tb_l : nat; tb_energy : list string; tb_cusp : list string; tb_rows : list (nat * string * list string) }.
Record tfile := mkTF { tf_E : string; tf_ratio : list string; tf_blocks : list tblock }.

(** Numerals such as "-12.5" and, unless [full], ".5". *)
Definition numeral (full : bool) (t : text) : bool :=
  let u := match t with c :: r => if Ascii.eqb c "-" then r else t | [] => [] end in
  match split_char "." [] u with
  | [d; e] => forallb is_digit (d ++ e) && (negb full || negb (Nat.eqb (length d) 0)) && negb (Nat.eqb (length e) 0)
  | _ => false
  end.

Section Values.
Context (fl : text -> res xr) (val : text -> xr) (Hfl : forall t, is_decimal t -> fl t = Ok (val t)).
Definition vals (l : list string) : list xr := map (fun s => val (str s)) l.
Definition block_of (b : tblock) : block :=
  mkB (tb_l b) (vals (tb_energy b)) (vals (tb_cusp b)) (map (fun r => (fst (fst r), val (str (snd (fst r))), vals (snd r))) (tb_rows b)).
Definition contents_of (w : text) (t : tfile) : contents :=
  mkC w (val (str (tf_E t))) (val (str (nth 1 (tf_ratio t) ""%string))) (val (str (nth 3 (tf_ratio t) ""%string))) (map block_of (tf_blocks t)).

Lemma split_some c s cur : split_char c cur s <> [].
Proof. revert cur. induction s as [|a s IH]; intros cur; cbn; [discriminate|]. destruct (Ascii.eqb a c); [discriminate|auto]. Qed.
Lemma split_two c : forall s cur p q, split_char c cur s = [p; q] -> cur ++ s = p ++ c :: q /\ ~ In c q.
Proof.
  assert (One : forall s cur q, split_char c cur s = [q] -> q = cur ++ s /\ ~ In c s).
  { induction s as [|a s IH]; intros cur q H; cbn in H; [injection H as <-; rewrite app_nil_r; auto|]. destruct (Ascii.eqb_spec a c) as [->|N].
    - injection H as _ H. now apply split_some in H.
    - apply IH in H. destruct H as [-> H]. rewrite <- app_assoc. split; auto. intros [->|I]; auto. }
  induction s as [|a s IH]; intros cur p q H; cbn in H; [discriminate|]. destruct (Ascii.eqb_spec a c) as [->|N].
  - injection H as <- H. apply One in H. destruct H as [-> H]. auto.
  - apply IH in H. rewrite <- app_assoc in H. exact H.
Qed.
Lemma numeral_parts full t : numeral full t = true -> exists g d e, t = g ++ d ++ str "." ++ e /\ (g = [] \/ g = str "-") /\ (full = true -> d <> []) /\ e <> [] /\ forall c, In c (d ++ e) -> digit c.
Proof.
  unfold numeral. intros H. set (u := match t with c :: r => if Ascii.eqb c "-" then r else t | [] => [] end) in H.
  assert (T : exists g, t = g ++ u /\ (g = [] \/ g = str "-")).
  { unfold u. destruct t as [|c r]; [exists []; auto|]. destruct (Ascii.eqb_spec c "-") as [->|]; [exists (str "-"); auto|exists []; auto]. }
  destruct T as (g & E & G). clearbody u. destruct (split_char "." [] u) as [|d [|e [|]]] eqn:S; try discriminate. apply split_two in S. destruct S as [S _]. cbn [app] in S. subst u.
  rewrite !andb_true_iff in H. destruct H as [[H1 H2] H3]. exists g, d, e. split; auto. split; auto.
  split; [intros ->; destruct d; [discriminate|congruence]|]. split; [destruct e; [discriminate|congruence]|]. rewrite forallb_forall in H1. intros c I. apply is_digit_spec. auto.
Qed.
Lemma numeral_ok t : numeral true t = true -> is_number t.
Proof. intros H. apply numeral_parts in H. destruct H as (g & d & e & H & G & D & E & A). exists g, d, e. auto 10. Qed.
Lemma numeral_decimal full t : numeral full t = true -> is_decimal t.
Proof. intros H. apply numeral_parts in H. destruct H as (g & d & e & H & G & D & E & A). exists g, d, e. auto 10. Qed.
Fixpoint leqb (a b : list text) : bool :=
  match a, b with [], [] => true | x :: a, y :: b => text_eqb x y && leqb a b | _, _ => false end.
Lemma leqb_spec a b : leqb a b = true -> a = b.
Proof. revert b. induction a as [|x a IH]; intros [|y b]; cbn; try discriminate; auto. rewrite andb_true_iff. intros [H1 H2]. destruct (text_eqb_spec x y); [|discriminate]. f_equal; auto. Qed.

Lemma spaced_words s : spaced (words s) s.
Proof. destruct (spaced_exists s) as (ws & H). now rewrite (words_spaced _ _ H). Qed.
Lemma spaced_all ws s : spaced ws s -> forall w, In w ws -> word w.
Proof. induction 1 as [|s w r ws B W R S IH]; intros x []; subst; auto. Qed.
Lemma words_are_words s w : In w (words s) -> word w.
Proof. apply spaced_all with (s := s). apply spaced_words. Qed.
Definition numerals (ts : list string) : bool := forallb (fun t => numeral false (str t)) ts.
Lemma fl_numeral full t : numeral full t = true -> fl t = Ok (val t).
Proof. intros H. apply Hfl. eapply numeral_decimal; eauto. Qed.
Lemma vals_of ts : numerals ts = true -> (forall s, In s ts -> word (str s)) -> values_of fl (map str ts) (vals ts).
Proof.
  induction ts as [|t ts IH]; intros N H; [constructor|]. cbn [numerals forallb] in N. apply andb_true_iff in N. destruct N as [N1 N2].
  constructor; [split; [apply H; now left|eapply fl_numeral; eauto]|apply IH; auto; intros; apply H; now right].
Qed.

Definition tail_is (s : text) (ts : list string) : bool :=
  match words s with [] => false | _ :: ws => leqb ws (map str ts) && numerals ts end.
Lemma tail_is_ok s ts : tail_is s ts = true -> value_line fl (vals ts) s.
Proof.
  unfold tail_is. destruct (words s) as [|w ws] eqn:E; [discriminate|]. rewrite andb_true_iff. intros [H N]. apply leqb_spec in H. subst ws. exists w, (map str ts). split; [generalize (spaced_words s); rewrite E; auto|].
  apply vals_of; auto. intros t I. apply (words_are_words s). rewrite E. right. now apply in_map.
Qed.
Definition row_is (l : nat) (r : nat * string * list string) (s : text) : bool :=
  leqb (words s) (label (fst (fst r)) l :: str (snd (fst r)) :: map str (snd r)) && numerals (snd (fst r) :: snd r).
Lemma row_is_ok l r s : row_is l r s = true -> row_line fl l (fst (fst r), val (str (snd (fst r))), vals (snd r)) s.
Proof.
  unfold row_is. rewrite andb_true_iff. intros [H N]. apply leqb_spec in H. cbn in N. apply andb_true_iff in N. destruct N as [N1 N2]. exists (str (snd (fst r))), (map str (snd r)).
  assert (W : forall w, In w (label (fst (fst r)) l :: str (snd (fst r)) :: map str (snd r)) -> word w) by (rewrite <- H; apply words_are_words).
  split; [cbn [row_n fst]; generalize (spaced_words s); rewrite H; auto|]. split.
  - split; [apply W; right; now left|eapply fl_numeral; eauto].
  - apply vals_of; auto. intros t I. apply W. do 2 right. now apply in_map.
Qed.
Fixpoint rows_are (l : nat) (rs : list (nat * string * list string)) (ls : list text) : bool :=
  match rs, ls with [], [] => true | r :: rs, s :: ls => row_is l r s && rows_are l rs ls | _, _ => false end.
Definition block_is (heavy : bool) (b : tblock) (ls : list text) : bool :=
  match ls with
  | h :: e :: r =>
      leqb (words h) ([l_char (tb_l b)] :: map (fun n => label n (tb_l b)) (seq (tb_l b + 1) (length (tb_energy b)))) &&
      occurs (str "  " ++ [l_char (tb_l b)] ++ str "  ") h && tail_is e (tb_energy b) &&
      (if heavy then rows_are (tb_l b) (tb_rows b) r
       else match r with [] => false | c :: r => tail_is c (tb_cusp b) && rows_are (tb_l b) (tb_rows b) r end)
  | _ => false
  end.
Lemma block_is_ok heavy b ls : block_is heavy b ls = true -> block_lines fl heavy (block_of b) ls.
Proof.
  destruct ls as [|h [|e r]]; try discriminate. cbn [block_is]. rewrite !andb_true_iff. intros [[[H1 H2] H3] H4].
  assert (RA : forall rs ls, rows_are (tb_l b) rs ls = true -> Forall2 (row_line fl (tb_l b)) (map (fun r => (fst (fst r), val (str (snd (fst r))), vals (snd r))) rs) ls).
  { induction rs as [|x rs IH]; intros [|y ls]; cbn [rows_are map]; try discriminate; [constructor|]. rewrite andb_true_iff. intros [Q1 Q2]. constructor; auto. now apply row_is_ok. }
  assert (Hh : head_line (block_of b) h).
  { split.
    - apply leqb_spec in H1. unfold bl_labels, bl_ns, block_of, vals. cbn [bl_l bl_energy]. rewrite map_length. generalize (spaced_words h); rewrite H1; auto.
    - apply occurs_spec in H2. destruct H2 as (a & c & ->). exists a, c. cbn [block_of bl_l]. rewrite <- !app_assoc. reflexivity. }
  destruct heavy.
  - exists h, e, [], r. split; [reflexivity|]. split; auto. split; [now apply tail_is_ok|]. split; [reflexivity|]. now apply RA.
  - destruct r as [|c r]; [discriminate|]. apply andb_true_iff in H4. destruct H4 as [H4 H5]. exists h, e, [c], r. split; [reflexivity|]. split; auto. split; [now apply tail_is_ok|].
    split; [exists c; split; auto; now apply tail_is_ok|]. now apply RA.
Qed.

(** "E = t". *)
Definition energy_is (t : string) (s : text) : bool :=
  match split_char "=" [] s with [p; q] => text_eqb (strip p) (str "E") && leqb (words q) [str t] && numeral false (str t) | _ => false end.
Lemma strip_parts s : exists a b, s = a ++ strip s ++ b /\ blank a /\ blank b.
Proof.
  destruct (lstrip_suffix s) as (a & E & A). destruct (lstrip_suffix (rev (lstrip s))) as (b & E' & B).
  exists a, (rev b). split; [|split; auto; now apply blank_rev]. rewrite E at 1. f_equal. apply (f_equal (@rev _)) in E'. rewrite rev_involutive, rev_app_distr in E'. exact E'.
Qed.
Lemma energy_is_ok t s : energy_is t s = true -> energy_line fl (val (str t)) s.
Proof.
  unfold energy_is. destruct (split_char "=" [] s) as [|p [|q [|]]] eqn:E; try discriminate. rewrite !andb_true_iff. intros [[H1 H2] H3].
  apply split_two in E. destruct E as [E N]. cbn [app] in E. destruct (text_eqb_spec (strip p) (str "E")) as [P|]; [|discriminate]. apply leqb_spec in H2.
  destruct (strip_parts p) as (a & b & Ep & A & B). rewrite P in Ep. assert (S := spaced_words q). rewrite H2 in S. inversion S as [|c w r ws C W R S']; subst.
  inversion S' as [d D|]; subst. exists a, b, c, (str t), r, []. split; [cbn; rewrite <- !app_assoc, app_nil_r; reflexivity|].
  split; auto. split; auto. split; auto. split; auto. split; [split; [auto|eapply fl_numeral; eauto]|]. split; auto. intros I. apply N. apply in_or_app. right. apply in_or_app. auto.
Qed.

(** The line of the ratio, given its seven parts. *)
Definition no_digitb (s : text) : bool := forallb (fun c => negb (is_digit c)) s.
Lemma no_digitb_ok s : no_digitb s = true -> no_digit s.
Proof. unfold no_digitb. rewrite forallb_forall. intros H c I. apply is_digit_no. apply H in I. now apply negb_true_iff. Qed.
Definition beforeb (s t : text) : bool := no_digitb s && (starts (str "-") t || match rev s with c :: _ => Ascii.eqb c " " | [] => false end).
Lemma beforeb_ok s t : beforeb s t = true -> before s t.
Proof.
  unfold beforeb. rewrite andb_true_iff, orb_true_iff. intros [H1 H2]. split; [now apply no_digitb_ok|]. destruct H2 as [H2|H2].
  - left. apply starts_spec in H2. exact H2.
  - right. destruct (rev s) as [|c r] eqn:E; [discriminate|]. apply Ascii.eqb_eq in H2. subst c. exists (rev r). apply (f_equal (@rev _)) in E. rewrite rev_involutive in E. exact E.
Qed.
Definition ratio_is (ps : list string) (s : text) : bool :=
  match map str ps with
  | [s1; t1; s2; t2; s3; t3; s4] =>
      text_eqb s (s1 ++ t1 ++ s2 ++ t2 ++ s3 ++ t3 ++ s4) && numeral true t1 && numeral true t2 && numeral true t3 && beforeb s1 t1 && beforeb s2 t2 && beforeb s3 t3 &&
      no_digitb s4 && negb (Nat.eqb (length s2) 0) && negb (Nat.eqb (length s3) 0)
  | _ => false
  end.
Lemma ratio_is_ok ps s : ratio_is ps s = true -> ratio_line fl (val (str (nth 1 ps ""%string))) (val (str (nth 3 ps ""%string))) s.
Proof.
  unfold ratio_is. destruct ps as [|s1 [|t1 [|s2 [|t2 [|s3 [|t3 [|s4 [|]]]]]]]]; try discriminate. cbn [map nth]. rewrite !andb_true_iff.
  intros [[[[[[[[[E N1] N2] N3] B1] B2] B3] D] L2] L3]. exists (str s1), (str t1), (str s2), (str t2), (str s3), (str t3), (str s4).
  destruct (text_eqb_spec s (str s1 ++ str t1 ++ str s2 ++ str t2 ++ str s3 ++ str t3 ++ str s4)) as [Es|]; [|discriminate]. split; [exact Es|].
  split; [now apply numeral_ok|]. split; [now apply numeral_ok|]. split; [now apply numeral_ok|]. split; [now apply beforeb_ok|]. split; [now apply beforeb_ok|]. split; [now apply beforeb_ok|].
  split; [now apply no_digitb_ok|]. split; [destruct (str s2); discriminate|]. split; [destruct (str s3); discriminate|]. split; eapply fl_numeral; eauto.
Qed.

Definition titleb (s : text) : bool := negb (is_blank s) && negb (is_header s).
Lemma titleb_ok s : titleb s = true -> title_line s.
Proof.
  unfold titleb. rewrite andb_true_iff, !negb_true_iff. intros [H1 H2]. split; [now apply is_blank_false|]. intros c C a b E.
  assert (is_header s = true); [|congruence]. apply is_header_spec. eauto.
Qed.

(** A file cut into its parts: first line, blank lines, extra lines, energy, ratio, blank lines,
    titles, blocks, rest. *)
Record parts := mkParts { pt_first : text; pt_b1 : list text; pt_more : list text; pt_E : text; pt_ratio : text; pt_b2 : list text; pt_titles : list text; pt_blocks : list (list text); pt_tail : list text }.
Definition lines_of (p : parts) : list text :=
  pt_first p :: pt_b1 p ++ pt_more p ++ pt_E p :: pt_ratio p :: pt_b2 p ++ pt_titles p ++ concat (pt_blocks p) ++ pt_tail p.
Fixpoint blocks_are (heavy : bool) (bs : list tblock) (ls : list (list text)) : bool :=
  match bs, ls with [], [] => true | b :: bs, s :: ls => block_is heavy b s && blocks_are heavy bs ls | _, _ => false end.
Definition layoutb (heavy : bool) (w : text) (t : tfile) (p : parts) : bool :=
  match words (pt_first p) with _ :: w1 :: _ => text_eqb (remove_char "," w1) w | _ => false end &&
  forallb is_blank (pt_b1 p) &&
  (if heavy then Nat.eqb (length (pt_more p)) 6 && negb (is_blank (hd [] (pt_more p))) else Nat.eqb (length (pt_more p)) 0) &&
  energy_is (tf_E t) (pt_E p) && ratio_is (tf_ratio t) (pt_ratio p) && forallb is_blank (pt_b2 p) && forallb titleb (pt_titles p) &&
  blocks_are heavy (tf_blocks t) (pt_blocks p) && match pt_tail p with [] => true | s :: _ => is_blank s end.
Lemma layoutb_ok heavy w t p : layoutb heavy w t p = true -> file_lines fl heavy (contents_of w t) (lines_of p).
Proof.
  unfold layoutb. rewrite !andb_true_iff. intros [[[[[[[[H1 H2] H3] H4] H5] H6] H7] H8] H9].
  exists (pt_first p), (pt_b1 p), (pt_more p), (pt_E p), (pt_ratio p), (pt_b2 p), (pt_titles p), (pt_blocks p), (pt_tail p).
  split; [reflexivity|]. split; [|split; [|split; [|split; [|split; [|split; [|split; [|split]]]]]]].
  - destruct (words (pt_first p)) as [|w0 [|w1 ws]] eqn:E; try discriminate. destruct (text_eqb_spec (remove_char "," w1) w) as [X|]; [|discriminate].
    exists w0, w1, ws. split; auto. generalize (spaced_words (pt_first p)); rewrite E; auto.
  - rewrite forallb_forall in H2. intros s I. apply is_blank_spec. auto.
  - destruct heavy.
    + apply andb_true_iff in H3. destruct H3 as [A B]. apply Nat.eqb_eq in A. apply negb_true_iff, is_blank_false in B. auto.
    + apply Nat.eqb_eq in H3. now apply length_zero_iff_nil.
  - now apply energy_is_ok.
  - now apply ratio_is_ok.
  - rewrite forallb_forall in H6. intros s I. apply is_blank_spec. auto.
  - apply Forall_forall. rewrite forallb_forall in H7. intros s I. apply titleb_ok. auto.
  - cbn [contents_of ct_blocks]. revert H8. generalize (tf_blocks t) (pt_blocks p). induction l as [|b bs IH]; intros [|s ls]; cbn [blocks_are map]; try discriminate; [constructor|].
    rewrite andb_true_iff. intros [Q1 Q2]. constructor; auto. now apply block_is_ok.
  - destruct (pt_tail p) as [|s r]; auto. right. exists s, r. split; auto. now apply is_blank_spec.
Qed.

(** The other conditions. *)
Definition nodupb (l : list nat) : bool := if list_eq_dec Nat.eq_dec (nodup Nat.eq_dec l) l then true else false.
Lemma nodupb_ok l : nodupb l = true -> NoDup l.
Proof. unfold nodupb. destruct (list_eq_dec _ _ _) as [E|]; [|discriminate]. intros _. rewrite <- E. apply NoDup_nodup. Qed.
Definition blockb (heavy : bool) (b : tblock) : bool :=
  Nat.leb (tb_l b) 3 && Nat.leb (tb_l b + length (tb_energy b)) 7 &&
  (if heavy then Nat.eqb (length (tb_cusp b)) 0 else Nat.eqb (length (tb_cusp b)) (length (tb_energy b))) &&
  negb (Nat.eqb (length (tb_rows b)) 0) &&
  forallb (fun r : nat * string * list string => Nat.leb (fst (fst r)) 9 && Nat.eqb (length (snd r)) (length (tb_energy b))) (tb_rows b).
Definition blocksb (heavy : bool) (t : tfile) : bool :=
  negb (Nat.eqb (length (tf_blocks t)) 0) && forallb (blockb heavy) (tf_blocks t) && nodupb (map tb_l (tf_blocks t)).
Lemma blocksb_ok heavy w t : blocksb heavy t = true -> blocks_ok heavy (ct_blocks (contents_of w t)).
Proof.
  unfold blocksb. rewrite !andb_true_iff. intros [[H1 H2] H3]. cbn [contents_of ct_blocks]. split; [|split].
  - destruct (tf_blocks t); [discriminate|discriminate].
  - rewrite forallb_forall in H2. apply Forall_forall. intros B I. apply in_map_iff in I. destruct I as (b & <- & I). apply H2 in I. unfold blockb in I. rewrite !andb_true_iff in I.
    destruct I as [[[[I1 I2] I3] I4] I5]. unfold block_ok, block_of, vals. cbn [bl_l bl_energy bl_cusp bl_rows]. rewrite !map_length.
    apply Nat.leb_le in I1, I2. split; auto. split; auto. split; [|split].
    + destruct heavy; apply Nat.eqb_eq in I3; auto. apply length_zero_iff_nil in I3. now rewrite I3.
    + destruct (tb_rows b); discriminate.
    + intros r J. apply in_map_iff in J. destruct J as (x & <- & J). rewrite forallb_forall in I5. apply I5 in J. apply andb_true_iff in J. destruct J as [J1 J2].
      apply Nat.leb_le in J1. apply Nat.eqb_eq in J2. cbn [row_n row_coef fst snd]. rewrite map_length. auto.
  - apply nodupb_ok in H3. rewrite map_map. exact H3.
Qed.
Definition pieceb (p : piece) : bool :=
  match p with Closed k => Nat.leb 1 k && Nat.leb k 4 | Sub n l c => Nat.leb l 3 && Nat.ltb l n && Nat.leb n 7 && (Nat.leb 2 l || Nat.leb c 9) end.
Lemma pieceb_ok p : pieceb p = true -> piece_ok p.
Proof.
  destruct p as [k|n l c]; cbn [pieceb piece_ok]; rewrite !andb_true_iff, ?orb_true_iff, ?Nat.leb_le, ?Nat.ltb_lt; unfold subshell_ok; lia.
Qed.
Definition distinctb (ps : list piece) : bool :=
  nodupb (flat_map (fun p => match p with Sub n l _ => [10 * n + l] | _ => [] end) ps).
Lemma distinctb_ok ps : Forall piece_ok ps -> distinctb ps = true -> distinct ps.
Proof.
  intros F H. apply nodupb_ok in H. induction F as [|p ps P F IH]; intros i j n l c c' Hi Hj; [destruct i; discriminate|].
  assert (K : forall i n l c, nth_error ps i = Some (Sub n l c) -> In (10 * n + l) (flat_map (fun p => match p with Sub n l _ => [10 * n + l] | _ => [] end) ps)).
  { intros i0 n0 l0 c0 E. apply nth_error_In in E. apply in_flat_map. exists (Sub n0 l0 c0). split; auto. now left. }
  destruct i as [|i], j as [|j]; auto; cbn in Hi, Hj.
  - injection Hi as ->. cbn in H. inversion H; subst. exfalso. apply H2. eapply K; eauto.
  - injection Hj as ->. cbn in H. inversion H; subst. exfalso. apply H2. eapply K; eauto.
  - f_equal. eapply IH; eauto. destruct p; cbn in H; auto. inversion H; auto.
Qed.
(** Electrons of a subshell. *)
Definition count (ps : list piece) (n l : nat) : nat :=
  match listed ps (n, l) with Some c => c | None => if existsb (fun p => match p with Closed k => Nat.eqb k n | _ => false end) ps then 2 * (2 * l + 1) else 0 end.
Lemma count_spec ps n l c : distinct ps -> electrons ps n l c -> c = count ps n l.
Proof.
  intros D H. unfold count. destruct (listed ps (n, l)) as [c'|] eqn:L.
  - apply listed_some in L. destruct H as [H|[(H & _)|(H & _)]]; [eapply distinct_unique; eauto|destruct (H _ L)|destruct (H _ L)].
  - assert (L' := listed_none _ _ _ L). destruct H as [H|[(_ & H & ->)|(_ & H & ->)]]; [destruct (L' _ H)| |].
    + assert (E : existsb (fun p => match p with Closed k => Nat.eqb k n | _ => false end) ps = true) by (apply existsb_exists; exists (Closed n); split; auto; apply Nat.eqb_refl). now rewrite E.
    + destruct (existsb _ ps) eqn:E; auto. apply existsb_exists in E. destruct E as ([k|] & I & E); [|discriminate]. apply Nat.eqb_eq in E. subst k. contradiction.
Qed.
Definition tb_nl (t : tfile) : list (nat * nat) :=
  flat_map (fun b => map (fun n => (n, tb_l b)) (seq (tb_l b + 1) (length (tb_energy b)))) (tf_blocks t).
Lemma tb_nl_ok w t : orbital_nl (ct_blocks (contents_of w t)) = tb_nl t.
Proof.
  unfold orbital_nl, tb_nl. cbn [contents_of ct_blocks]. induction (tf_blocks t) as [|b bs IH]; auto. cbn [map flat_map]. rewrite IH. f_equal.
  unfold bl_ns, block_of, vals. cbn [bl_l bl_energy]. now rewrite map_length.
Qed.
Definition occupiedb (t : tfile) (ps : list piece) : bool := forallb (fun nl => negb (Nat.eqb (count ps (fst nl) (snd nl)) 0)) (tb_nl t).
Lemma occupiedb_ok w t ps : distinct ps -> occupiedb t ps = true -> all_occupied (contents_of w t) ps.
Proof.
  intros D H nl I E. rewrite tb_nl_ok in I. unfold occupiedb in H. rewrite forallb_forall in H. apply H in I. apply count_spec in E; auto. rewrite <- E in I. discriminate.
Qed.

(** All conditions for reading a file. *)
Definition readable (heavy : bool) (core qs : list piece) (w : text) (t : tfile) (p : parts) : bool :=
  layoutb heavy w t p && blocksb heavy t && forallb pieceb (core ++ qs) && distinctb (core ++ qs) && occupiedb t (core ++ qs).
Lemma readable_ok heavy core qs w t p : readable heavy core qs w t p = true -> config_of heavy w (core ++ qs) ->
  file_lines fl heavy (contents_of w t) (lines_of p) /\ blocks_ok heavy (ct_blocks (contents_of w t)) /\ Forall piece_ok (core ++ qs) /\ distinct (core ++ qs) /\
  all_occupied (contents_of w t) (core ++ qs).
Proof.
  unfold readable. rewrite !andb_true_iff. intros [[[[H1 H2] H3] H4] H5] Cf.
  assert (P : Forall piece_ok (core ++ qs)) by (apply Forall_forall; rewrite forallb_forall in H3; intros x I; apply pieceb_ok; auto).
  assert (D : distinct (core ++ qs)) by now apply distinctb_ok.
  split; [now apply layoutb_ok|]. split; [now apply blocksb_ok|]. split; auto. split; auto. now apply occupiedb_ok.
Qed.
End Values.

(** The words of a file, from its parts. *)
Definition unstr (t : text) : string := string_of_list_ascii t.
Definition digit_of (w : text) : nat := match w with c :: _ => nat_of_ascii c - 48 | [] => 0 end.
Definition l_of (w : text) : nat :=
  match w with c :: _ => if Ascii.eqb c "S" then 0 else if Ascii.eqb c "P" then 1 else if Ascii.eqb c "D" then 2 else 3 | [] => 0 end.
Definition row_words (s : text) : nat * string * list string :=
  match words s with w0 :: w1 :: ws => (digit_of w0, unstr w1, map unstr ws) | _ => (0, ""%string, []) end.
Definition block_words (heavy : bool) (ls : list text) : tblock :=
  match ls with
  | h :: e :: r =>
      let l := l_of (hd [] (words h)) in let es := map unstr (tl (words e)) in
      if heavy then mkTB l es [] (map row_words r)
      else match r with c :: r => mkTB l es (map unstr (tl (words c))) (map row_words r) | [] => mkTB l es [] [] end
  | _ => mkTB 0 [] [] []
  end.
Definition file_words (heavy : bool) (ratio : list string) (p : parts) : tfile :=
  mkTF (unstr (hd [] (words (nth 1 (split_char "=" [] (pt_E p)) [])))) ratio (map (block_words heavy) (pt_blocks p)).
(** Cut lines into parts of given numbers of lines. *)
Fixpoint cut (ns : list nat) (f : list text) : list (list text) :=
  match ns with [] => [] | n :: ns => firstn n f :: cut ns (skipn n f) end.
Record hint := mkH { h_b1 : nat; h_b2 : nat; h_titles : nat; h_blocks : list nat; h_ratio : list string; h_core : option bool; h_pieces : list piece }.
Definition parts_of (h : hint) (f : list text) : parts :=
  let more := match h_core h with Some _ => 6 | None => 0 end in
  let g := cut [1; h_b1 h; more; 1; 1; h_b2 h; h_titles h] f in
  let r := skipn (1 + h_b1 h + more + 2 + h_b2 h + h_titles h) f in
  mkParts (hd [] (nth 0 g [])) (nth 1 g []) (nth 2 g []) (hd [] (nth 3 g [])) (hd [] (nth 4 g [])) (nth 5 g []) (nth 6 g [])
          (cut (h_blocks h) r) (skipn (list_sum (h_blocks h)) r).
Definition core_of (h : hint) : list piece := match h_core h with None => [] | Some true => xe_pieces | Some false => rn_pieces end.
Definition word_of (h : hint) : text :=
  match h_core h with None => [] | Some true => str "[XE]" | Some false => str "[RN]" end ++ show_all (h_pieces h).
Definition heavy_of (h : hint) : bool := match h_core h with None => false | _ => true end.
Definition shipped_ok (h : hint) (f : list text) : bool :=
  let p := parts_of h f in
  leqb (lines_of p) f && readable (heavy_of h) (core_of h) (h_pieces h) (word_of h) (file_words (heavy_of h) (h_ratio h) p) p.

