(** Reading a well-formed data file. *)
From Coq Require Import String Ascii List Bool Arith ZArith Lia.
From Verif Require Import XR PyText SpecParse ProofText ModelParse ProofConf ProofConf2.
Import ListNotations.
Local Open Scope list_scope.

(** ** Labels *)
Lemma label_inj n l n' l' : n <= 9 -> l <= 3 -> n' <= 9 -> l' <= 3 -> label n l = label n' l' -> n = n' /\ l = l'.
Proof.
  intros H1 H2 H3 H4 E. rewrite !label_orb in E by auto. unfold orb in E. apply cons_inj in E. destruct E as [E1 E2]. apply cons_inj in E2. destruct E2 as [E2 _].
  split; [apply digit_inj; auto|apply l_char_inj; auto].
Qed.
Lemma is_digit_spec c : is_digit c = true <-> digit c.
Proof. unfold is_digit, digit. cbv zeta. rewrite andb_true_iff, !Nat.leb_le. tauto. Qed.
Lemma is_digit_no c : is_digit c = false <-> ~ digit c.
Proof. rewrite <- is_digit_spec. destruct (is_digit c); split; congruence. Qed.

(** ** Numbers on the second energy line *)
Lemma take_digits_app d s : (forall c, In c d -> digit c) -> headed (fun c => ~ digit c) s -> take_digits (d ++ s) = d.
Proof.
  intros H Hs. induction d as [|c d IH].
  - destruct s as [|c s]; auto. cbn in *. apply is_digit_no in Hs. now rewrite Hs.
  - cbn. rewrite (proj2 (is_digit_spec c)) by (apply H; now left). rewrite IH; auto. intros x Hx. apply H. now right.
Qed.
Lemma match_number_ok c d e r : c = " "%char \/ c = "-"%char -> d <> [] -> e <> [] -> (forall x, In x (d ++ e) -> digit x) ->
  headed (fun x => ~ digit x) r -> match_number (c :: d ++ "."%char :: e ++ r) = Some (c :: d ++ "."%char :: e).
Proof.
  intros Hc Hd He H Hr. unfold match_number.
  assert (C : Ascii.eqb c "=" || Ascii.eqb c " " || Ascii.eqb c "-" = true) by (destruct Hc as [-> | ->]; reflexivity). rewrite C.
  rewrite (take_digits_app d) by (cbn; try (intros; apply H, in_or_app; auto); unfold digit; cbn; lia).
  destruct (Nat.eqb_spec (length d) 0) as [Z|_]; [destruct d; [congruence|discriminate]|].
  cbv zeta. rewrite skipn_app, skipn_all2, Nat.sub_diag by auto. cbn [app skipn].
  rewrite (take_digits_app e) by (auto; intros; apply H, in_or_app; auto).
  destruct e as [|x e]; [congruence|]. cbn [length Nat.eqb negb andb firstn app]. reflexivity.
Qed.
Lemma match_number_not c t : headed (fun x => ~ digit x) t -> match_number (c :: t) = None.
Proof.
  intros H. unfold match_number. destruct (_ || _); auto. assert (E : take_digits t = []).
  { destruct t as [|x t]; auto. cbn in *. apply is_digit_no in H. now rewrite H. }
  rewrite E. reflexivity.
Qed.
Lemma find_numbers_skip s t : no_digit s -> headed (fun x => ~ digit x) t -> find_numbers 0 (s ++ t) = find_numbers 0 t.
Proof.
  intros H Ht. induction s as [|c s IH]; auto. cbn [app find_numbers].
  assert (Hs : no_digit s) by (intros x Hx; apply H; now right).
  rewrite match_number_not; [apply IH; auto|]. destruct s as [|x s]; auto. cbn. apply Hs. now left.
Qed.
Lemma find_numbers_none s : no_digit s -> find_numbers 0 s = [].
Proof. intros H. rewrite <- (app_nil_r s), find_numbers_skip; cbn; auto. Qed.
Lemma find_numbers_in a r : find_numbers (length a) (a ++ r) = find_numbers 0 r.
Proof. induction a as [|x a IH]; auto. Qed.
Lemma find_number c d e r : c = " "%char \/ c = "-"%char -> d <> [] -> e <> [] -> (forall x, In x (d ++ e) -> digit x) ->
  headed (fun x => ~ digit x) r -> find_numbers 0 (c :: d ++ "."%char :: e ++ r) = (c :: d ++ "."%char :: e) :: find_numbers 0 r.
Proof.
  intros Hc Hd He H Hr. cbn [find_numbers]. rewrite match_number_ok by auto. f_equal.
  cbn [length]. rewrite Nat.sub_succ, Nat.sub_0_r. rewrite <- (find_numbers_in (d ++ "."%char :: e) r). rewrite <- app_assoc. reflexivity.
Qed.
(** A separator and a number. *)
Lemma number_step s t r : is_number t -> before s t -> headed (fun x => ~ digit x) r ->
  exists m, find_numbers 0 (s ++ t ++ r) = m :: find_numbers 0 r /\ strip m = t.
Proof.
  intros (g & d & e & -> & G & Hd & He & H) [Hs B] Hr.
  assert (Hw : forall c, In c (d ++ str "." ++ e) -> ~ white c).
  { intros c Hc W. assert (X : digit c \/ c = "."%char). { apply in_app_or in Hc. destruct Hc as [Hc|[<-|Hc]]; auto; left; apply H, in_or_app; auto. }
    destruct X as [X| ->]; [unfold digit, white in *; cbv zeta in *; lia|unfold white in W; cbn in W; lia]. }
  destruct G as [-> | ->].
  - destruct B as [(t' & E)|(s' & ->)].
    + exfalso. destruct d as [|x d]; [congruence|]. cbn in E. apply cons_inj in E. destruct E as [-> _]. assert (D := H "-"%char (or_introl eq_refl)). unfold digit in D. cbn in D. lia.
    + exists (" "%char :: d ++ "."%char :: e). cbn [app].
      assert (Hs' : no_digit s') by (intros x Hx; apply Hs, in_or_app; auto).
      replace ((s' ++ str " ") ++ (d ++ str "." ++ e) ++ r) with (s' ++ " "%char :: d ++ "."%char :: e ++ r) by (rewrite <- !app_assoc; reflexivity).
      split.
      * rewrite find_numbers_skip; [apply find_number; auto|auto|]. cbn. unfold digit. cbn. lia.
      * change (" "%char :: d ++ "."%char :: e) with (str " " ++ d ++ str "." ++ e). rewrite <- (app_nil_r (d ++ str "." ++ e)) at 1.
        apply strip_mid; [intros x [<-|[]]; unfold white; cbn; lia|intros x []|]. split; [destruct d; discriminate|exact Hw].
  - exists ("-"%char :: d ++ "."%char :: e).
    replace (s ++ (str "-" ++ d ++ str "." ++ e) ++ r) with (s ++ "-"%char :: d ++ "."%char :: e ++ r) by (cbn; rewrite <- !app_assoc; reflexivity).
    split.
    * rewrite find_numbers_skip; [apply find_number; auto|auto|]. cbn. unfold digit. cbn. lia.
    * apply strip_word. split; [discriminate|]. intros x [<-|Hx]; [unfold white; cbn; lia|apply Hw; exact Hx].
Qed.
Lemma headed_app (p : ascii -> Prop) s t : s <> [] -> (forall c, In c s -> p c) -> headed p (s ++ t).
Proof. intros N H. destruct s as [|c s]; [congruence|]. cbn. apply H. now left. Qed.
Lemma headed_all (p : ascii -> Prop) s : (forall c, In c s -> p c) -> headed p s.
Proof. intros H. destruct s; cbn; auto. apply H. now left. Qed.
Lemma ratio_numbers fl t v s : ratio_line fl t v s ->
  exists a b c, find_numbers 0 s = [a; b; c] /\ float fl a = Ok t /\ float fl b = Ok v.
Proof.
  intros (s1 & t1 & s2 & t2 & s3 & t3 & s4 & -> & N1 & N2 & N3 & B1 & B2 & B3 & D & E2 & E3 & F1 & F2).
  destruct (number_step s1 t1 (s2 ++ t2 ++ s3 ++ t3 ++ s4) N1 B1) as (a & -> & Sa); [apply headed_app; auto; apply B2|].
  destruct (number_step s2 t2 (s3 ++ t3 ++ s4) N2 B2) as (b & -> & Sb); [apply headed_app; auto; apply B3|].
  destruct (number_step s3 t3 s4 N3 B3) as (c & -> & _); [now apply headed_all|].
  rewrite find_numbers_none by auto. exists a, b, c. unfold float. rewrite Sa, Sb. auto.
Qed.

(** ** The energy line *)
Lemma split_char_none c cur s : ~ In c s -> split_char c cur s = [cur ++ s].
Proof.
  revert cur. induction s as [|a s IH]; intros cur H; cbn; [now rewrite app_nil_r|]. destruct (Ascii.eqb_spec a c) as [->|N]; [exfalso; apply H; now left|].
  rewrite IH by (intros I; apply H; now right). now rewrite <- app_assoc.
Qed.
Lemma split_char_at c cur s t : ~ In c s -> split_char c cur (s ++ c :: t) = (cur ++ s) :: split_char c [] t.
Proof.
  revert cur. induction s as [|a s IH]; intros cur H; cbn; [rewrite Ascii.eqb_refl; now rewrite app_nil_r|]. destruct (Ascii.eqb_spec a c) as [->|N]; [exfalso; apply H; now left|].
  rewrite IH by (intros I; apply H; now right). now rewrite <- app_assoc.
Qed.
Lemma blank_no c s : blank s -> ~ white c -> ~ In c s.
Proof. intros H N I. apply N, H, I. Qed.
Lemma energy_parts fl v s : energy_line fl v s ->
  exists p q r, split_char "=" [] s = p :: q :: r /\ strip p = ["E"%char] /\ float fl q = Ok v.
Proof.
  intros (a & b & c & t & d & r & -> & Ba & Bb & Bc & Bd & [W F] & N & R).
  assert (Q : ~ white "="%char) by (unfold white; cbn; lia).
  replace (a ++ str "E" ++ b ++ str "=" ++ c ++ t ++ d ++ r) with ((a ++ str "E" ++ b) ++ "="%char :: (c ++ t ++ d) ++ r) by (cbn; rewrite <- !app_assoc; reflexivity).
  rewrite split_char_at.
  2: { intros I. apply in_app_or in I. destruct I as [I|I]; [now apply (blank_no "=" a)|]. cbn in I. destruct I as [I|I]; [discriminate|now apply (blank_no "=" b)]. }
  assert (M : ~ In "="%char (c ++ t ++ d)).
  { intros I. apply in_app_or in I. destruct I as [I|I]; [now apply (blank_no "=" c)|]. apply in_app_or in I. destruct I as [I|I]; [auto|now apply (blank_no "=" d)]. }
  assert (S1 : strip ([] ++ a ++ str "E" ++ b) = ["E"%char]) by (apply (strip_mid a (str "E") b); auto; split; [discriminate|intros x [<-|[]]; unfold white; cbn; lia]).
  assert (S2 : float fl (c ++ t ++ d) = Ok v) by (unfold float; rewrite strip_mid; auto).
  destruct R as [-> | (r' & ->)].
  - rewrite app_nil_r, split_char_none by auto. exists ([] ++ a ++ str "E" ++ b), (c ++ t ++ d), []. auto.
  - rewrite split_char_at by auto. exists ([] ++ a ++ str "E" ++ b), (c ++ t ++ d), (split_char "=" [] r'). auto.
Qed.

(** ** Blank lines *)
Lemma is_blank_spec s : is_blank s = true <-> blank s.
Proof. unfold is_blank. rewrite Nat.eqb_eq, length_zero_iff_nil. apply strip_nil. Qed.
Lemma is_blank_false s : is_blank s = false <-> ~ blank s.
Proof. rewrite <- is_blank_spec. destruct (is_blank s); split; congruence. Qed.
Lemma skip_blank_ok bs x r : forall fuel, all_blank bs -> ~ blank x -> length bs <= fuel ->
  (let '(l, f) := readline (bs ++ x :: r) in skip_blank fuel l f) = Some (x, r).
Proof.
  induction bs as [|b bs IH]; intros fuel H N L.
  - cbn. apply is_blank_false in N. destruct fuel; cbn [skip_blank]; rewrite N; reflexivity.
  - cbn [app readline]. assert (B : is_blank b = true) by (apply is_blank_spec, H; now left).
    destruct fuel as [|k]; [cbn in L; lia|]. cbn [skip_blank]. rewrite B. apply IH; auto; [intros s I; apply H; now right|cbn in L; lia].
Qed.
