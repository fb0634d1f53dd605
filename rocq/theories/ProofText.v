(** Facts about Python string methods. *)
From Coq Require Import String Ascii List Bool Arith ZArith Lia DecimalString DecimalNat.
From Verif Require Import XR PyText SpecParse.
Import ListNotations.
Local Open Scope list_scope.

Lemma cons_inj {A} (a b : A) s t : a :: s = b :: t -> a = b /\ s = t.
Proof. intros H. inversion H. auto. Qed.

Lemma text_eqb_spec s t : reflect (s = t) (text_eqb s t).
Proof.
  revert t. induction s as [|a s IH]; intros [|b t]; cbn; try (constructor; congruence).
  destruct (Ascii.eqb_spec a b); cbn; [|constructor; congruence].
  destruct (IH t); constructor; congruence.
Qed.
Lemma text_eqb_refl s : text_eqb s s = true.
Proof. now destruct (text_eqb_spec s s). Qed.
Lemma text_eqb_neq s t : s <> t -> text_eqb s t = false.
Proof. now destruct (text_eqb_spec s t). Qed.

Lemma is_space_white c : is_space c = true <-> white c.
Proof.
  unfold is_space, white. cbv zeta. rewrite orb_true_iff, !andb_true_iff, !Nat.leb_le. tauto.
Qed.
Lemma is_space_false c : is_space c = false <-> ~ white c.
Proof. rewrite <- is_space_white. destruct (is_space c); split; congruence. Qed.

(** Dictionaries. *)
Lemma dget_dset {A} k k' (v : A) d : dget k (dset k' v d) = if text_eqb k k' then Some v else dget k d.
Proof.
  induction d as [|[a x] d IH]; cbn; auto.
  destruct (text_eqb_spec k' a) as [->|N]; cbn.
  - destruct (text_eqb_spec k a) as [->|M]; auto.
  - rewrite IH. destruct (text_eqb_spec k a) as [->|M]; auto. rewrite text_eqb_neq; auto.
Qed.
Lemma dset_keys {A} k (v : A) d : In k (map fst d) -> map fst (dset k v d) = map fst d.
Proof.
  induction d as [|[a x] d IH]; cbn; [contradiction|]. intros H.
  destruct (text_eqb_spec k a) as [->|N]; cbn; auto. f_equal. apply IH. destruct H; congruence.
Qed.
Lemma dget_In {A} k (d : dict A) v : dget k d = Some v -> In (k, v) d.
Proof.
  induction d as [|[a x] d IH]; cbn; [discriminate|]. destruct (text_eqb_spec k a) as [->|N]; auto.
  intros H. inversion H. auto.
Qed.
Lemma dget_None {A} k (d : dict A) : dget k d = None <-> ~ In k (map fst d).
Proof.
  induction d as [|[a x] d IH]; cbn; [tauto|]. destruct (text_eqb_spec k a) as [->|N].
  - split; [discriminate|tauto].
  - rewrite IH. intuition congruence.
Qed.
Lemma dget_filter {A} k (f : A -> bool) (d : dict A) : NoDup (map fst d) ->
  dget k (filter (fun p => f (snd p)) d) = match dget k d with Some v => if f v then Some v else None | None => None end.
Proof.
  induction d as [|[a x] d IH]; cbn; auto. intros H. inversion H; subst.
  destruct (f x) eqn:E; cbn; destruct (text_eqb_spec k a) as [->|N]; auto; rewrite ?E; auto.
  rewrite IH by auto. destruct (dget a d) eqn:G; auto. exfalso. apply H2.
  apply dget_In in G. now apply (in_map fst) in G.
Qed.

(** Searching. *)
Lemma starts_app p s : starts p (p ++ s) = true.
Proof. induction p; cbn; auto. now rewrite Ascii.eqb_refl. Qed.
Lemma starts_spec p s : starts p s = true -> exists r, s = p ++ r.
Proof.
  revert s. induction p as [|a p IH]; intros [|b s]; cbn; try (eexists; reflexivity); try discriminate.
  rewrite andb_true_iff. intros [H1 H2]. apply Ascii.eqb_eq in H1. destruct (IH _ H2) as (r & ->). exists r. congruence.
Qed.
Lemma find_skip p a b : (forall i, i < length a -> starts p (skipn i (a ++ b)) = false) ->
  find p (a ++ b) = option_map (Nat.add (length a)) (find p b).
Proof.
  induction a as [|x a IH]; intros H.
  - cbn. destruct (find p b); reflexivity.
  - cbn [app length]. assert (H0 := H 0 ltac:(cbn; lia)). cbn [skipn app] in H0.
    cbn [app find] in *. rewrite H0. rewrite IH.
    + destruct (find p b); reflexivity.
    + intros i Hi. apply (H (S i)). cbn. lia.
Qed.
Lemma find_here p s : find p (p ++ s) = Some 0.
Proof. assert (H := starts_app p s). destruct (p ++ s); cbn [find]; now rewrite H. Qed.

Lemma find_spec p s i : find p s = Some i -> exists a b, s = a ++ p ++ b /\ length a = i.
Proof.
  revert i. induction s as [|c s IH]; intros i H; cbn [find] in H.
  - destruct (starts p []) eqn:E; [|discriminate]. inversion H; subst. destruct (starts_spec _ _ E) as (r & R). exists [], r. auto.
  - destruct (starts p (c :: s)) eqn:E.
    + inversion H; subst. destruct (starts_spec _ _ E) as (r & R). exists [], r. auto.
    + destruct (find p s) as [j|] eqn:F; [|discriminate]. cbn in H. inversion H; subst.
      destruct (IH _ eq_refl) as (a & b & -> & L). exists (c :: a), b. cbn. split; auto.
Qed.
Lemma find_none p s : find p s = None <-> forall a b, s <> a ++ p ++ b.
Proof.
  split.
  - induction s as [|c s IH]; intros H a b E; cbn [find] in H.
    + destruct (starts p []) eqn:S; [discriminate|]. destruct a; [|discriminate]. cbn in E. rewrite E, starts_app in S. discriminate.
    + destruct (starts p (c :: s)) eqn:S; [discriminate|]. destruct (find p s) eqn:F; [discriminate|].
      destruct a as [|x a]; cbn in E; [rewrite E, starts_app in S; discriminate|]. inversion E. now apply (IH eq_refl a b).
  - intros H. destruct (find p s) as [i|] eqn:F; auto. destruct (find_spec _ _ _ F) as (a & b & E & _). now apply H in E.
Qed.
Lemma occurs_spec p s : occurs p s = true <-> exists a b, s = a ++ p ++ b.
Proof.
  unfold occurs. destruct (find p s) as [i|] eqn:F.
  - destruct (find_spec _ _ _ F) as (a & b & E & _). split; eauto.
  - split; [discriminate|]. intros (a & b & E). now apply find_none with (a := a) (b := b) in F.
Qed.
Lemma occurs_char c s : occurs [c] s = true <-> In c s.
Proof.
  rewrite occurs_spec. split.
  - intros (a & b & ->). apply in_or_app. right. now left.
  - intros H. apply in_split in H. destruct H as (a & b & ->). exists a, b. reflexivity.
Qed.

(** Stripping and splitting. *)
Lemma lstrip_blank s t : blank s -> lstrip (s ++ t) = lstrip t.
Proof.
  induction s as [|c s IH]; intros H; auto. cbn. rewrite (proj2 (is_space_white c)) by (apply H; now left). apply IH. intros x Hx. apply H. now right.
Qed.
Lemma lstrip_word c t : ~ white c -> lstrip (c :: t) = c :: t.
Proof. intros H. cbn. now rewrite (proj2 (is_space_false c)). Qed.
Lemma lstrip_nil s : lstrip s = [] <-> blank s.
Proof.
  induction s as [|c s IH]; cbn; [split; auto; intros _ x []|]. destruct (is_space c) eqn:E.
  - rewrite IH. apply is_space_white in E. split; intros H x; [intros [<-|Hx]; auto|intros Hx; apply H; now right].
  - apply is_space_false in E. split; [discriminate|]. intros H. exfalso. apply E, H. now left.
Qed.
Lemma blank_rev s : blank (rev s) <-> blank s.
Proof. unfold blank. split; intros H c Hc; apply H; [now rewrite <- in_rev|now rewrite in_rev]. Qed.
Lemma lstrip_suffix s : exists a, s = a ++ lstrip s /\ blank a.
Proof.
  induction s as [|c s IH]; [exists []; split; auto; intros x []|]. cbn. destruct (is_space c) eqn:E.
  - destruct IH as (a & Ea & Ba). exists (c :: a). split; [cbn; congruence|]. apply is_space_white in E. intros x [<-|Hx]; auto.
  - exists []. split; auto. intros x [].
Qed.
Lemma strip_nil s : strip s = [] <-> blank s.
Proof.
  unfold strip. rewrite <- (lstrip_nil s). split.
  - intros H. apply (f_equal (@rev _)) in H. rewrite rev_involutive in H. cbn in H. apply lstrip_nil in H. rewrite blank_rev in H.
    destruct (lstrip s) as [|c t] eqn:E; auto. exfalso. destruct (lstrip_suffix s) as (a & Ea & Ba).
    assert (blank s). { rewrite Ea. intros x Hx. apply in_app_or in Hx. destruct Hx; auto. apply H; congruence. }
    apply lstrip_nil in H0. congruence.
  - intros ->. reflexivity.
Qed.
Lemma strip_mid a w b : blank a -> blank b -> word w -> strip (a ++ w ++ b) = w.
Proof.
  intros Ha Hb [Hn Hw]. unfold strip. rewrite lstrip_blank by auto.
  destruct w as [|c w]; [congruence|]. cbn [app]. rewrite lstrip_word by (apply Hw; now left).
  change (c :: w ++ b) with ((c :: w) ++ b). rewrite rev_app_distr, lstrip_blank by now apply blank_rev.
  destruct (rev (c :: w)) as [|d t] eqn:E; [apply (f_equal (@rev _)) in E; rewrite rev_involutive in E; discriminate|].
  rewrite lstrip_word by (apply Hw; rewrite in_rev, E; now left). rewrite <- E. apply rev_involutive.
Qed.
Lemma strip_word w : word w -> strip w = w.
Proof. intros H. rewrite <- (app_nil_r w) at 1. apply (strip_mid [] w []); auto; intros x []. Qed.

Lemma words_blank s t : blank s -> words (s ++ t) = words t.
Proof.
  unfold words. induction s as [|c s IH]; intros H; auto. cbn. rewrite (proj2 (is_space_white c)) by (apply H; now left). apply IH. intros x Hx. apply H. now right.
Qed.
Lemma words_word cur w t : (forall c, In c w -> ~ white c) -> words_from cur (w ++ t) = words_from (cur ++ w) t.
Proof.
  revert cur. induction w as [|c w IH]; intros cur H; [now rewrite app_nil_r|]. cbn. rewrite (proj2 (is_space_false c)) by (apply H; now left).
  rewrite IH by (intros x Hx; apply H; now right). now rewrite <- app_assoc.
Qed.
Lemma words_spaced ws s : spaced ws s -> words s = ws.
Proof.
  induction 1 as [s B|s w r ws B [Wn W] R S IH].
  - rewrite <- (app_nil_r s), words_blank; auto.
  - rewrite words_blank by auto. unfold words. rewrite words_word by auto. cbn [app].
    destruct w as [|c w]; [congruence|]. destruct R as [-> | (x & r' & -> & X)].
    + inversion S; subst; [reflexivity|]. destruct s as [|? ?], w0 as [|? ?]; try discriminate.
    + cbn [words_from]. apply is_space_white in X. rewrite X. cbn [app]. f_equal. unfold words in IH. cbn [words_from] in IH. rewrite X in IH. exact IH.
Qed.

Lemma spaced_exists s : exists ws, spaced ws s.
Proof.
  assert (G : forall n s, length s <= n -> exists ws, spaced ws s).
  { induction n as [|n IH]; intros t L; [destruct t; [|cbn in L; lia]; exists []; constructor; intros x []|].
    destruct (lstrip_suffix t) as (a & Ea & Ba). destruct (lstrip t) as [|c u] eqn:E.
    - exists []. constructor. rewrite Ea, app_nil_r. exact Ba.
    - assert (C : ~ white c).
      { rewrite <- is_space_false. destruct (is_space c) eqn:X; auto. exfalso. clear -E X. revert c u E X.
        induction t as [|y t IHt]; intros c u E X; [discriminate|]. cbn in E. destruct (is_space y) eqn:Y; [eauto|]. inversion E; congruence. }
      assert (W : exists w r, u = w ++ r /\ (forall x, In x w -> ~ white x) /\ (r = [] \/ exists c0 r', r = c0 :: r' /\ white c0)).
      { clear. induction u as [|y u (w & r & -> & H & K)]; [exists [], []; split; [auto|split; [intros x []|auto]]|].
        destruct (is_space y) eqn:Y.
        - exists [], (y :: w ++ r). split; auto. split; [intros x []|]. right. exists y, (w ++ r). split; auto. now apply is_space_white.
        - exists (y :: w), r. split; auto. split; auto. intros x [<-|Hx]; auto. now apply is_space_false. }
      destruct W as (w & r & -> & Hw & Hr). destruct (IH r) as (ws & Hs).
      { rewrite Ea in L. rewrite app_length in L. cbn in L. rewrite app_length in L. lia. }
      exists ((c :: w) :: ws). rewrite Ea. change (c :: w ++ r) with ((c :: w) ++ r). constructor; auto.
      split; [discriminate|]. intros x [<-|Hx]; auto. }
  apply (G (length s) s). auto.
Qed.

(** Integers. *)
Lemma digits_app acc s : forall t k, (forall c, In c s -> is_digit c = true) -> s <> [] ->
  digits acc k (s ++ t) = digits (fold_left (fun a c => 10 * a + digit_val c)%Z s acc) true t.
Proof.
  revert acc. induction s as [|c s IH]; intros acc t k H N; [congruence|]. cbn. rewrite (H c) by now left.
  destruct s as [|d s]; [reflexivity|]. apply (IH _ t true); [intros x Hx; apply H; now right|discriminate].
Qed.
Fixpoint uint_val (acc : Z) (u : Decimal.uint) : Z :=
  match u with
  | Decimal.Nil => acc
  | Decimal.D0 u => uint_val (10 * acc) u
  | Decimal.D1 u => uint_val (10 * acc + 1) u
  | Decimal.D2 u => uint_val (10 * acc + 2) u
  | Decimal.D3 u => uint_val (10 * acc + 3) u
  | Decimal.D4 u => uint_val (10 * acc + 4) u
  | Decimal.D5 u => uint_val (10 * acc + 5) u
  | Decimal.D6 u => uint_val (10 * acc + 6) u
  | Decimal.D7 u => uint_val (10 * acc + 7) u
  | Decimal.D8 u => uint_val (10 * acc + 8) u
  | Decimal.D9 u => uint_val (10 * acc + 9) u
  end%Z.
Lemma uint_val_acc u a : uint_val (Z.of_nat a) u = Z.of_nat (Nat.of_uint_acc u a).
Proof.
  revert a. induction u; intros a; cbn [uint_val Nat.of_uint_acc]; auto; rewrite <- IHu; f_equal;
  rewrite Nat.tail_mul_spec; lia.
Qed.
Lemma nilempty_val u acc : fold_left (fun a c => 10 * a + digit_val c)%Z (str (NilEmpty.string_of_uint u)) acc = uint_val acc u.
Proof.
  revert acc. induction u; intros acc; cbn [NilEmpty.string_of_uint list_ascii_of_string fold_left uint_val]; auto; rewrite IHu; f_equal;
  unfold digit_val; vm_compute (nat_of_ascii _); lia.
Qed.
Lemma nilempty_digits u c : In c (str (NilEmpty.string_of_uint u)) -> is_digit c = true.
Proof. induction u; cbn; try tauto; (intros [<-|H]; [reflexivity|auto]). Qed.
Lemma decimal_digits n c : In c (decimal n) -> is_digit c = true.
Proof. unfold decimal, NilZero.string_of_uint. destruct (Nat.to_uint n); try apply nilempty_digits. cbn. intros [<-|[]]. reflexivity. Qed.
Lemma decimal_nonempty n : decimal n <> [].
Proof. unfold decimal, NilZero.string_of_uint. destruct (Nat.to_uint n); discriminate. Qed.
Lemma decimal_val n : fold_left (fun a c => 10 * a + digit_val c)%Z (decimal n) 0%Z = Z.of_nat n.
Proof.
  unfold decimal. assert (E : fold_left (fun a c => 10 * a + digit_val c)%Z (str (NilZero.string_of_uint (Nat.to_uint n))) 0%Z = uint_val 0 (Nat.to_uint n)).
  { unfold NilZero.string_of_uint. destruct (Nat.to_uint n) eqn:U; try (rewrite <- U; rewrite <- nilempty_val; rewrite U; reflexivity). }
  rewrite E. change 0%Z with (Z.of_nat 0). rewrite uint_val_acc. f_equal.
  change (Nat.of_uint_acc (Nat.to_uint n) 0) with (Nat.of_uint (Nat.to_uint n)). apply DecimalNat.Unsigned.of_to.
Qed.
Lemma digit_not_white c : is_digit c = true -> ~ white c.
Proof. unfold is_digit, white. cbv zeta. rewrite andb_true_iff, !Nat.leb_le. lia. Qed.
Lemma decimal_word n : word (decimal n).
Proof. split; [apply decimal_nonempty|]. intros c H. now apply digit_not_white, (decimal_digits n). Qed.
Lemma py_int_decimal n : py_int (decimal n) = Ok (Z.of_nat n).
Proof.
  unfold py_int. rewrite strip_word by apply decimal_word.
  assert (D := decimal_digits n). assert (V := decimal_val n). assert (N := decimal_nonempty n).
  assert (E : digits 0 false (decimal n) = Some (Z.of_nat n)).
  { rewrite <- (app_nil_r (decimal n)) at 1. rewrite digits_app by auto. cbn [digits]. now rewrite V. }
  destruct (decimal n) as [|c t]; [congruence|]. assert (Dc := D c (or_introl eq_refl)).
  destruct (Ascii.eqb_spec c "-") as [->|N1]; [discriminate|]. destruct (Ascii.eqb_spec c "+") as [->|N2]; [discriminate|].
  assert (Q : match (c :: t) with "-"%char :: t => option_map Z.opp (digits 0 false t) | "+"%char :: t => digits 0 false t | _ => digits 0 false (c :: t) end
    = digits 0 false (c :: t)).
  { destruct c as [[] [] [] [] [] [] [] []]; try reflexivity; congruence. }
  rewrite Q, E. reflexivity.
Qed.
