(** The reader of JSON accepts exactly the texts of the format (C95). *)
From Coq Require Import Ascii String List ZArith Bool Lia Arith.
From Verif Require Import PyText ProofFile ProofElec SpecParse SpecLoad SpecJson ModelJson.
Import ListNotations.
Local Open Scope char_scope.
Local Open Scope nat_scope.

Lemma eat_spec c s t : eat c s = Some t <-> s = c :: t.
Proof.
  unfold eat. destruct s as [|a s]; [split; discriminate|]. destruct (Ascii.eqb a c) eqn:E.
  - apply Ascii.eqb_eq in E. subst a. split; intros H; inversion H; reflexivity.
  - apply Ascii.eqb_neq in E. split; intros H; inversion H; congruence.
Qed.
Lemma eat_same c t : eat c (c :: t) = Some t.
Proof. now apply eat_spec. Qed.
Lemma eat_other c a t : a <> c -> eat c (a :: t) = None.
Proof. intros H. cbn. now rewrite (proj2 (Ascii.eqb_neq a c) H). Qed.

Lemma is_blank_spec c : is_blank c = true <-> In (nat_of_ascii c) [32; 9; 10; 13].
Proof. unfold is_blank. rewrite !orb_true_iff, !Nat.eqb_eq. cbn [In]. intuition. Qed.
Lemma skip_blank w s : blank w -> skip (w ++ s) = skip s.
Proof.
  induction w as [|c w IH]; intros H; [reflexivity|]. cbn [app skip].
  rewrite (proj2 (is_blank_spec c)) by (apply H; now left). apply IH. intros x I. apply H. now right.
Qed.
Lemma skip_spec s : exists w, blank w /\ s = w ++ skip s.
Proof.
  induction s as [|c s [w [B E]]]; [exists []; split; [intros c []|reflexivity]|]. cbn [skip]. destruct (is_blank c) eqn:C.
  - exists (c :: w). split; [intros x [<-|I]; [now apply is_blank_spec|now apply B]|cbn [app]; congruence].
  - exists []. split; [intros x []|reflexivity].
Qed.
Lemma skip_id c s : is_blank c = false -> skip (c :: s) = c :: s.
Proof. intros H. cbn. now rewrite H. Qed.

Lemma span_spec s d r : span s = (d, r) -> s = d ++ r /\ (forall c, In c d -> digit c).
Proof.
  revert d r. induction s as [|c s IH]; intros d r H; cbn in H; [injection H as <- <-; split; [reflexivity|intros c []]|].
  destruct (is_digit c) eqn:C; [|injection H as <- <-; split; [reflexivity|intros x []]].
  destruct (span s) as [d' r'] eqn:E. injection H as <- <-. destruct (IH d' r' eq_refl) as [-> D]. split; [reflexivity|].
  intros x [<-|I]; [now apply is_digit_spec|auto].
Qed.
Definition nodigit (r : text) : Prop := match r with c :: _ => is_digit c = false | [] => True end.
Lemma span_app d r : (forall c, In c d -> digit c) -> nodigit r -> span (d ++ r) = (d, r).
Proof.
  intros D N. induction d as [|c d IH]; cbn [app].
  - destruct r as [|c r]; [reflexivity|]. cbn in *. now rewrite N.
  - cbn [span]. rewrite (proj2 (is_digit_spec c)) by (apply D; now left). rewrite IH by (intros x I; apply D; now right). reflexivity.
Qed.
Lemma nat_value_digits d : (forall c, In c d -> digit c) -> nat_value d = digits d.
Proof.
  intros D. rewrite <- dval_digits. unfold nat_value, dval. generalize 0%Z as a. revert D. induction d as [|c d IH]; intros D a; [reflexivity|].
  cbn [fold_left]. rewrite IH by (intros x I; apply D; now right). f_equal. unfold digit_val. specialize (D c (or_introl eq_refl)). unfold digit in D. lia.
Qed.

(** ** Numbers *)
Lemma read_fraction_spec s f r : read_fraction s = (f, r) -> exists t, fraction t f /\ s = t ++ r.
Proof.
  unfold read_fraction. intros H. destruct (eat "." s) as [t|] eqn:E; [|injection H as <- <-; exists []; split; [left; auto|reflexivity]].
  apply eat_spec in E. subst s. destruct (span t) as [d r'] eqn:S. apply span_spec in S. destruct S as [-> D].
  destruct d as [|c d]; injection H as <- <-; [exists []; split; [left; auto|reflexivity]|].
  exists ("." :: c :: d). split; [right; split; [discriminate|split; [exact D|reflexivity]]|reflexivity].
Qed.
Lemma read_sign_spec s z t : read_sign s = (z, t) -> exists g, sign g z /\ s = g ++ t.
Proof.
  unfold read_sign. intros H. destruct (eat "-" s) as [u|] eqn:E; injection H as <- <-.
  - apply eat_spec in E. subst s. exists ["-"]. split; [right; auto|reflexivity].
  - exists []. split; [left; auto|reflexivity].
Qed.
Lemma read_exponent_spec s x r : read_exponent s = (x, r) ->
  exists t, exponent t (match x with Some k => k | None => 0%Z end) /\ s = t ++ r /\ (x = None <-> t = []).
Proof.
  unfold read_exponent. intros H. assert (None_ok : exists t, exponent t 0%Z /\ s = t ++ s /\ (@None Z = None <-> t = [])) by (exists []; split; [left; auto|split; [reflexivity|tauto]]).
  destruct s as [|c t]; [injection H as <- <-; exact None_ok|]. destruct (Ascii.eqb c "e" || Ascii.eqb c "E") eqn:C; [|injection H as <- <-; exact None_ok].
  assert (C' : c = "e" \/ c = "E") by (apply orb_true_iff in C; destruct C as [C|C]; apply Ascii.eqb_eq in C; auto).
  destruct (match eat "+" t with Some u => (1%Z, u) | None => read_sign t end) as [z u] eqn:G.
  assert (G' : exists g, (sign g z \/ g = str "+" /\ z = 1%Z) /\ t = g ++ u).
  { destruct (eat "+" t) as [v|] eqn:E.
    - injection G as <- <-. apply eat_spec in E. subst t. exists ["+"]. split; [right; auto|reflexivity].
    - apply read_sign_spec in G. destruct G as (g & S & ->). exists g. auto. }
  destruct G' as (g & G' & ->). destruct (span u) as [d r'] eqn:S. apply span_spec in S. destruct S as [-> D].
  destruct d as [|b d]; injection H as <- <-; [exact None_ok|].
  exists (c :: g ++ b :: d). split; [|split; [cbn [app]; now rewrite <- app_assoc|split; discriminate]].
  right. exists c, g, (b :: d), z. split; [exact C'|]. split; [exact G'|]. split; [discriminate|]. split; [exact D|]. split; [reflexivity|]. now rewrite nat_value_digits.
Qed.
Lemma whole_digits d : whole d -> forall c, In c d -> digit c.
Proof.
  intros [->|(c & r & -> & _ & D)]; [|exact D]. intros c [<-|[]]. unfold digit. cbn. lia.
Qed.
Lemma fraction_digits t f : fraction t f -> forall c, In c f -> digit c.
Proof. intros [[_ ->]|(_ & D & _)]; [intros c []|exact D]. Qed.

Lemma read_number_sound s j r : read_json_number s = Some (j, r) -> exists u, s = u ++ r /\ number u j.
Proof.
  unfold read_json_number. intros H. destruct (read_sign s) as [z t] eqn:G. apply read_sign_spec in G. destruct G as (g & G & ->).
  destruct (match eat "0" t with Some r0 => (["0"], r0) | None => span t end) as [d r0] eqn:W.
  assert (W' : d <> [] -> whole d /\ t = d ++ r0).
  { intros N. destruct (eat "0" t) as [v|] eqn:E.
    - injection W as <- <-. apply eat_spec in E. subst t. split; [left; reflexivity|reflexivity].
    - apply span_spec in W. destruct W as [-> D]. split; [|reflexivity]. destruct d as [|c d]; [congruence|]. right. exists c, d. split; [reflexivity|]. split; [|exact D].
      intros ->. cbn in E. discriminate. }
  destruct d as [|c d]; [discriminate|]. destruct (W' ltac:(discriminate)) as [Hw ->]. clear W W'.
  destruct (read_fraction r0) as [f r1] eqn:F. apply read_fraction_spec in F. destruct F as (tf & F & ->).
  destruct (read_exponent r1) as [x r2] eqn:X. apply read_exponent_spec in X. destruct X as (tx & X & -> & XN).
  assert (Dd := whole_digits _ Hw). assert (Df := fraction_digits _ _ F).
  assert (DD : forall a, In a ((c :: d) ++ f) -> digit a) by (intros a I; apply in_app_or in I; destruct I; auto).
  assert (B : f = [] -> tf = []) by (intros ->; destruct F as [[-> _]|(N & _)]; [reflexivity|congruence]).
  assert (Dec : (tf ++ tx <> []) -> Some (JDec (z * nat_value ((c :: d) ++ f)) (match x with Some k => k | None => 0%Z end - Z.of_nat (length f)), r2) = Some (j, r) ->
     exists u, g ++ (c :: d) ++ tf ++ tx ++ r2 = u ++ r /\ number u j).
  { intros N E. injection E as <- <-. exists (g ++ (c :: d) ++ tf ++ tx). split; [now rewrite <- !app_assoc|].
    rewrite nat_value_digits by exact DD. exact (number_dec g z (c :: d) tf f tx _ G Hw F X N). }
  destruct f as [|b f]; [rewrite (B eq_refl) in *; cbn [app] in *; destruct x as [k|]|].
  - apply Dec; [|exact H]. intros E. apply XN in E. discriminate.
  - rewrite (proj1 XN eq_refl). injection H as <- <-. exists (g ++ c :: d). split; [now rewrite <- app_assoc|]. rewrite nat_value_digits by exact Dd. now apply number_int.
  - apply Dec; [|exact H]. intros E. apply app_eq_nil in E. destruct E as [E _]. subst tf. destruct F as [[_ F]|(_ & _ & F)]; discriminate.
Qed.

(** What may follow a number. *)
Definition follow (r : text) : Prop :=
  match r with c :: _ => is_digit c = false /\ c <> "." /\ c <> "e" /\ c <> "E" | [] => True end.
Lemma follow_nodigit r : follow r -> nodigit r.
Proof. destruct r; cbn; tauto. Qed.
Lemma digit_not d c : digit d -> is_digit c = false -> d <> c.
Proof. intros D N ->. apply is_digit_spec in D. congruence. Qed.

Lemma read_sign_app g z u : sign g z -> match u with c :: _ => c <> "-" | [] => True end -> read_sign (g ++ u) = (z, u).
Proof.
  intros [[-> ->]|[-> ->]] H; unfold read_sign.
  - cbn [app]. destruct u as [|c u]; [reflexivity|]. now rewrite eat_other.
  - reflexivity.
Qed.
Lemma read_exponent_app t k r : exponent t k -> follow r -> read_exponent (t ++ r) = (match t with [] => None | _ => Some k end, r).
Proof.
  intros [[-> ->]|(c & g & d & z & C & G & N & D & -> & ->)] F.
  - cbn [app]. unfold read_exponent. destruct r as [|c r]; [reflexivity|]. destruct F as (_ & _ & F1 & F2).
    rewrite (proj2 (Ascii.eqb_neq c "e")), (proj2 (Ascii.eqb_neq c "E")) by auto. reflexivity.
  - cbn [app]. unfold read_exponent. replace (Ascii.eqb c "e" || Ascii.eqb c "E") with true by (symmetry; apply orb_true_iff; rewrite !Ascii.eqb_eq; exact C).
    rewrite <- app_assoc. destruct d as [|a d]; [congruence|]. assert (Da : digit a) by (apply D; now left).
    assert (E : (match eat "+" (g ++ (a :: d) ++ r) with Some u => (1%Z, u) | None => read_sign (g ++ (a :: d) ++ r) end) = (z, (a :: d) ++ r)).
    { destruct G as [G|[-> ->]]; [|reflexivity]. replace (eat "+" (g ++ (a :: d) ++ r)) with (@None text).
      - apply read_sign_app; [exact G|]. cbn [app]. now apply digit_not.
      - symmetry. destruct G as [[-> _]|[-> _]]; [|reflexivity]. cbn [app]. apply eat_other. now apply digit_not. }
    rewrite E. rewrite span_app by (auto using follow_nodigit). cbn [app]. now rewrite nat_value_digits.
Qed.
Lemma read_fraction_app t f r : fraction t f -> nodigit r -> (t = [] -> match r with c :: _ => c <> "." | [] => True end) -> read_fraction (t ++ r) = (f, r).
Proof.
  intros [[-> ->]|(N & D & ->)] F H; unfold read_fraction.
  - cbn [app]. specialize (H eq_refl). destruct r as [|c r]; [reflexivity|]. now rewrite eat_other.
  - cbn [list_ascii_of_string app]. rewrite eat_same, span_app by auto. destruct f; [congruence|reflexivity].
Qed.
Lemma read_whole d r : whole d -> nodigit r -> match eat "0" (d ++ r) with Some r0 => (["0"], r0) | None => span (d ++ r) end = (d, r).
Proof.
  intros [->|(c & u & -> & N & D)] F; [reflexivity|]. cbn [app]. rewrite eat_other by exact N. now apply (span_app (c :: u)).
Qed.
Lemma whole_head d : whole d -> exists c u, d = c :: u /\ digit c.
Proof. intros W. assert (D := whole_digits d W). destruct W as [->|(c & u & -> & _)]; do 2 eexists; (split; [reflexivity|apply D; now left]). Qed.

Lemma exponent_follow x k r : exponent x k -> follow r -> nodigit (x ++ r) /\ match x ++ r with c :: _ => c <> "." | [] => True end.
Proof.
  intros [[-> _]|(c & g & d & z & C & _ & _ & _ & -> & _)] F.
  - cbn [app]. destruct r as [|c r]; [split; exact I|]. cbn in *. tauto.
  - cbn. destruct C as [-> | ->]; (split; [reflexivity|discriminate]).
Qed.
Lemma fraction_follow t f r : fraction t f -> nodigit r -> nodigit (t ++ r).
Proof. intros [[-> _]|(_ & _ & ->)] F; [exact F|reflexivity]. Qed.

Lemma read_number_complete u j r : number u j -> follow r -> read_json_number (u ++ r) = Some (j, r).
Proof.
  intros N F. destruct N as [g z d G W|g z d t f x k G W T X N].
  - rewrite <- app_assoc. unfold read_json_number. destruct (whole_head d W) as (c & v & E & Dc).
    rewrite (read_sign_app g z) by (auto; subst d; cbn [app]; now apply digit_not).
    rewrite read_whole by (auto using follow_nodigit). rewrite E at 1.
    assert (E1 : read_fraction r = ([], r)) by (apply (read_fraction_app [] [] r); [left; auto|now apply follow_nodigit|intros _; destruct r; [exact I|apply F]]).
    assert (E2 : read_exponent r = (None, r)) by (apply (read_exponent_app [] 0%Z r); [left; auto|exact F]). rewrite E1, E2. rewrite nat_value_digits by now apply whole_digits. reflexivity.
  - rewrite <- !app_assoc. unfold read_json_number. destruct (whole_head d W) as (c & v & E & Dc). destruct (exponent_follow x k r X F) as [N1 N2].
    rewrite (read_sign_app g z) by (auto; subst d; cbn [app]; now apply digit_not).
    rewrite read_whole by (auto; eapply fraction_follow; eauto). rewrite E at 1.
    rewrite (read_fraction_app t f (x ++ r)) by auto. rewrite (read_exponent_app x k r) by auto.
    rewrite nat_value_digits by (intros a I; apply in_app_or in I; destruct I; [now apply (whole_digits d)|now apply (fraction_digits t f)]).
    destruct f as [|b f].
    + assert (t = []) by (destruct T as [[-> _]|(Q & _)]; [reflexivity|congruence]). subst t. cbn [app] in N. destruct x as [|a x]; [congruence|reflexivity].
    + destruct x as [|a x]; [|reflexivity]. destruct X as [[_ ->]|(? & ? & ? & ? & ? & ? & ? & ? & Q & _)]; [reflexivity|discriminate].
Qed.

(** ** Texts *)
Lemma plain_char c : Nat.leb 32 (nat_of_ascii c) && Nat.ltb (nat_of_ascii c) 127 && negb (Ascii.eqb c "\") = true -> c <> """" ->
  32 <= nat_of_ascii c < 127 /\ ~ In (nat_of_ascii c) [34; 92].
Proof.
  rewrite !andb_true_iff, negb_true_iff, Nat.leb_le, Nat.ltb_lt, Ascii.eqb_neq. intros [[A B] C] Q. split; [lia|].
  intros [H|[H|[]]].
  - apply Q. rewrite <- (ascii_nat_embedding c), <- H. reflexivity.
  - apply C. rewrite <- (ascii_nat_embedding c), <- H. reflexivity.
Qed.
Lemma read_text_sound s k r : read_text s = Some (k, r) -> plain k /\ s = k ++ """" :: r.
Proof.
  revert k r. induction s as [|c s IH]; intros k r H; cbn [read_text] in H; [discriminate|].
  destruct (Ascii.eqb_spec c """") as [->|N]; [injection H as <- <-; split; [intros c []|reflexivity]|].
  destruct (_ && _ && _) eqn:P in H; [|discriminate]. destruct (read_text s) as [[k' r']|]; [|discriminate]. injection H as <- <-.
  destruct (IH k' r' eq_refl) as [Q ->]. split; [|reflexivity]. intros x [<-|I]; [now apply plain_char|now apply Q].
Qed.
Lemma read_text_complete k r : plain k -> read_text (k ++ """" :: r) = Some (k, r).
Proof.
  induction k as [|c k IH]; intros P; [reflexivity|]. cbn [app read_text]. destruct (P c (or_introl eq_refl)) as [[A B] N].
  destruct (Ascii.eqb_spec c """") as [->|Q]; [exfalso; apply N; now left|].
  replace (_ && _ && _) with true; [rewrite IH by (intros x I; apply P; now right); reflexivity|].
  symmetry. rewrite !andb_true_iff, negb_true_iff, Nat.leb_le, Nat.ltb_lt, Ascii.eqb_neq. repeat split; auto. intros ->. apply N. right. now left.
Qed.

(** ** Values *)
Lemma items_blank w t l : blank w -> items t l -> items (w ++ t) l.
Proof.
  intros B H. assert (A : forall v, blank v -> blank (w ++ v)) by (intros v Hv x I; apply in_app_or in I; destruct I; auto).
  destruct H; rewrite app_assoc; constructor; auto.
Qed.
Lemma members_blank w t l : blank w -> members t l -> members (w ++ t) l.
Proof.
  intros B H. assert (A : forall v, blank v -> blank (w ++ v)) by (intros v Hv x I; apply in_app_or in I; destruct I; auto).
  destruct H; rewrite app_assoc; constructor; auto.
Qed.

Lemma read_sound n :
  (forall s j r, read_value n s = Some (j, r) -> exists u, s = u ++ r /\ value u j) /\
  (forall s l r, read_items n s = Some (l, r) -> exists u, s = u ++ "]" :: r /\ items u l) /\
  (forall s l r, read_members n s = Some (l, r) -> exists u, s = u ++ "}" :: r /\ members u l).
Proof.
  induction n as [|n (IHv & IHi & IHm)]; [repeat split; discriminate|]. split; [|split].
  - intros s j r H. cbn [read_value] in H. destruct s as [|c t]; [discriminate|].
    destruct (Ascii.eqb_spec c """") as [->|_].
    { destruct (read_text t) as [[k r']|] eqn:T; [|discriminate]. injection H as <- <-. apply read_text_sound in T. destruct T as [P ->].
      exists (str """" ++ k ++ str """"). split; [cbn; now rewrite <- app_assoc|now constructor]. }
    destruct (Ascii.eqb_spec c "[") as [->|_].
    { destruct (skip_spec t) as (w & B & E). destruct (eat "]" (skip t)) as [r'|] eqn:T.
      - injection H as <- <-. apply eat_spec in T. exists (str "[" ++ w ++ str "]"). rewrite E, T. split; [cbn; now rewrite <- app_assoc|now constructor].
      - destruct (read_items n (skip t)) as [[l r']|] eqn:I; [|discriminate]. injection H as <- <-. apply IHi in I. destruct I as (u & Eu & Iu).
        exists (str "[" ++ (w ++ u) ++ str "]"). rewrite E, Eu. split; [cbn; now rewrite <- !app_assoc|constructor; now apply items_blank]. }
    destruct (Ascii.eqb_spec c "{") as [->|_].
    { destruct (skip_spec t) as (w & B & E). destruct (eat "}" (skip t)) as [r'|] eqn:T.
      - injection H as <- <-. apply eat_spec in T. exists (str "{" ++ w ++ str "}"). rewrite E, T. split; [cbn; now rewrite <- app_assoc|now constructor].
      - destruct (read_members n (skip t)) as [[l r']|] eqn:I; [|discriminate]. injection H as <- <-. apply IHm in I. destruct I as (u & Eu & Iu).
        exists (str "{" ++ (w ++ u) ++ str "}"). rewrite E, Eu. split; [cbn; now rewrite <- !app_assoc|constructor; now apply members_blank]. }
    apply read_number_sound in H. destruct H as (u & E & N). exists u. split; [exact E|now constructor].
  - intros s l r H. cbn [read_items] in H. destruct (read_value n s) as [[j r1]|] eqn:V; [|discriminate]. apply IHv in V. destruct V as (u & -> & V).
    destruct (skip_spec r1) as (w & B & E). destruct (eat "," (skip r1)) as [v|] eqn:C.
    + apply eat_spec in C. destruct (read_items n (skip v)) as [[l' r']|] eqn:I; [|discriminate]. injection H as <- <-. apply IHi in I. destruct I as (t & Et & It).
      destruct (skip_spec v) as (w2 & B2 & E2). exists ([] ++ u ++ w ++ str "," ++ (w2 ++ t)). split; [rewrite E, C, E2, Et; cbn; now rewrite <- !app_assoc; cbn; rewrite <- !app_assoc|].
      apply items_more; auto; [intros x []|now apply items_blank].
    + destruct (eat "]" (skip r1)) as [v|] eqn:D; [|discriminate]. injection H as <- <-. apply eat_spec in D.
      exists ([] ++ u ++ w). split; [rewrite E, D; cbn; now rewrite <- app_assoc|]. apply items_one; auto. intros x [].
  - intros s l r H. cbn [read_members] in H. destruct (eat """" s) as [t|] eqn:Q; [|discriminate]. apply eat_spec in Q. subst s.
    destruct (read_text t) as [[k r0]|] eqn:T; [|discriminate]. apply read_text_sound in T. destruct T as [P ->].
    destruct (skip_spec r0) as (w1 & B1 & E1). destruct (eat ":" (skip r0)) as [u0|] eqn:C; [|discriminate]. apply eat_spec in C.
    destruct (skip_spec u0) as (w2 & B2 & E2). destruct (read_value n (skip u0)) as [[j r1]|] eqn:V; [|discriminate]. apply IHv in V. destruct V as (u & Eu & V).
    destruct (skip_spec r1) as (w & B & E). destruct (eat "," (skip r1)) as [v|] eqn:D.
    + apply eat_spec in D. destruct (read_members n (skip v)) as [[l' r']|] eqn:I; [|discriminate]. injection H as <- <-. apply IHm in I. destruct I as (t' & Et & It).
      destruct (skip_spec v) as (w3 & B3 & E3). exists ([] ++ (str """" ++ k ++ str """") ++ w1 ++ str ":" ++ w2 ++ u ++ w ++ str "," ++ (w3 ++ t')).
      split; [rewrite E1, C, E2, Eu, E, D, E3, Et; cbn; rewrite <- !app_assoc; cbn; repeat (rewrite <- !app_assoc; cbn); reflexivity|].
      apply members_more; auto; [intros x []|now apply members_blank].
    + destruct (eat "}" (skip r1)) as [v|] eqn:G; [|discriminate]. injection H as <- <-. apply eat_spec in G.
      exists ([] ++ (str """" ++ k ++ str """") ++ w1 ++ str ":" ++ w2 ++ u ++ w). split; [rewrite E1, C, E2, Eu, E, G; cbn; repeat (rewrite <- !app_assoc; cbn); reflexivity|].
      apply members_one; auto. intros x [].
Qed.

(** The first character of a value. *)
Definition opens (c : ascii) : Prop := is_blank c = false /\ c <> "]" /\ c <> "}".
Lemma digit_opens c : digit c -> opens c /\ c <> """" /\ c <> "[" /\ c <> "{".
Proof.
  unfold digit. intros D. assert (G : forall a, ~ (48 <= nat_of_ascii a <= 57) -> c <> a) by (intros a N ->; auto).
  repeat split; try (apply G; cbn; lia). destruct (is_blank c) eqn:B; [|reflexivity]. apply is_blank_spec in B. cbn in B. lia.
Qed.
Lemma number_head u j : number u j -> exists c v, u = c :: v /\ opens c /\ c <> """" /\ c <> "[" /\ c <> "{".
Proof.
  assert (K : forall g z d t, sign g z -> whole d -> exists c v, g ++ d ++ t = c :: v /\ opens c /\ c <> """" /\ c <> "[" /\ c <> "{").
  { intros g z d t G W. destruct (whole_head d W) as (c & v & -> & D). destruct G as [[-> _]|[-> _]]; cbn [list_ascii_of_string app].
    - do 2 eexists. split; [reflexivity|]. now apply digit_opens.
    - do 2 eexists. split; [reflexivity|]. repeat split; discriminate. }
  intros N. destruct N; [rewrite <- (app_nil_r d)|]; eapply K; eauto.
Qed.
Lemma value_head u j : value u j -> exists c v, u = c :: v /\ opens c.
Proof.
  intros V. destruct V; try (do 2 eexists; split; [reflexivity|]; repeat split; discriminate).
  apply number_head in H. destruct H as (c & v & E & O & _). eauto.
Qed.

Lemma skip_opens w c v : blank w -> opens c -> skip (w ++ c :: v) = c :: v.
Proof. intros B (O & _). rewrite skip_blank by exact B. now apply skip_id. Qed.
Lemma skip_char w c v : blank w -> is_blank c = false -> skip (w ++ c :: v) = c :: v.
Proof. intros B O. rewrite skip_blank by exact B. now apply skip_id. Qed.
Lemma follow_blank w c v : blank w -> is_digit c = false /\ c <> "." /\ c <> "e" /\ c <> "E" -> follow (w ++ c :: v).
Proof.
  intros B F. destruct w as [|a w]; [exact F|]. cbn. specialize (B a (or_introl eq_refl)).
  assert (G : forall x, ~ In (nat_of_ascii x) [32; 9; 10; 13] -> a <> x) by (intros x N ->; auto).
  repeat split; try (apply G; cbn; lia). destruct (is_digit a) eqn:D; [|reflexivity]. apply is_digit_spec in D. unfold digit in D. cbn in B. lia.
Qed.

Scheme value_ind' := Minimality for value Sort Prop
  with items_ind' := Minimality for items Sort Prop
  with members_ind' := Minimality for members Sort Prop.
Combined Scheme json_ind from value_ind', items_ind', members_ind'.

Lemma read_complete :
  (forall u j, value u j -> forall n r, 2 * length u <= n -> follow r -> read_value n (u ++ r) = Some (j, r)) /\
  (forall t l, items t l -> (forall r, exists c v, skip (t ++ r) = c :: v /\ opens c) /\
     forall n r, 2 * length t + 1 <= n -> read_items n (skip (t ++ "]" :: r)) = Some (l, r)) /\
  (forall t l, members t l -> (forall r, exists c v, skip (t ++ r) = c :: v /\ opens c) /\
     forall n r, 2 * length t + 1 <= n -> read_members n (skip (t ++ "}" :: r)) = Some (l, r)).
Proof.
  apply json_ind.
  - intros s j N n r L F. destruct (number_head s j N) as (c & v & E & _ & Q1 & Q2 & Q3). destruct n as [|n]; [subst s; cbn in L; lia|].
    subst s. cbn [app read_value]. rewrite (proj2 (Ascii.eqb_neq c """") Q1), (proj2 (Ascii.eqb_neq c "[") Q2), (proj2 (Ascii.eqb_neq c "{") Q3). now apply (read_number_complete (c :: v)).
  - intros s P n r L F. destruct n as [|n]; [cbn in L; lia|]. cbn [list_ascii_of_string app read_value]. rewrite <- app_assoc. cbn [app]. change (Ascii.eqb """" """") with true. cbn iota. now rewrite read_text_complete.
  - intros w B n r L F. destruct n as [|n]; [cbn in L; lia|]. cbn [list_ascii_of_string app read_value]. rewrite <- app_assoc. cbn [app]. change (Ascii.eqb "[" """") with false. change (Ascii.eqb "[" "[") with true. cbn iota.
    rewrite skip_char by auto. now rewrite eat_same.
  - intros s l _ [H1 H2] n r L F. destruct n as [|n]; [cbn in L; lia|]. cbn [list_ascii_of_string app read_value]. rewrite <- app_assoc. cbn [app]. change (Ascii.eqb "[" """") with false. change (Ascii.eqb "[" "[") with true. cbn iota.
    destruct (H1 ("]" :: r)) as (c & v & E & O). rewrite E, eat_other by (apply O). rewrite <- E, H2; [reflexivity|]. cbn [list_ascii_of_string app length] in L. rewrite app_length in L. cbn [length] in L. lia.
  - intros w B n r L F. destruct n as [|n]; [cbn in L; lia|]. cbn [list_ascii_of_string app read_value]. rewrite <- app_assoc. cbn [app]. change (Ascii.eqb "{" """") with false. change (Ascii.eqb "{" "[") with false. change (Ascii.eqb "{" "{") with true. cbn iota.
    rewrite skip_char by auto. now rewrite eat_same.
  - intros s l _ [H1 H2] n r L F. destruct n as [|n]; [cbn in L; lia|]. cbn [list_ascii_of_string app read_value]. rewrite <- app_assoc. cbn [app]. change (Ascii.eqb "{" """") with false. change (Ascii.eqb "{" "[") with false. change (Ascii.eqb "{" "{") with true. cbn iota.
    destruct (H1 ("}" :: r)) as (c & v & E & O). rewrite E, eat_other by (apply O). rewrite <- E, H2; [reflexivity|]. cbn [list_ascii_of_string app length] in L. rewrite app_length in L. cbn [length] in L. lia.
  - intros w s w' j B B' V IH. destruct (value_head s j V) as (c & v & Es & O). split.
    + intros r. exists c, (v ++ w' ++ r). split; [|exact O]. rewrite Es, <- !app_assoc. cbn [app]. now apply skip_opens.
    + intros n r L. destruct n as [|n]; [lia|]. rewrite !app_length in L. cbn [read_items]. rewrite <- !app_assoc.
      replace (skip (w ++ s ++ w' ++ "]" :: r)) with (s ++ w' ++ "]" :: r) by (rewrite Es; cbn [app]; symmetry; now apply skip_opens).
      rewrite IH; [|lia|apply follow_blank; [exact B'|repeat split; discriminate]]. rewrite skip_char by auto. rewrite eat_other by discriminate. now rewrite eat_same.
  - intros w s w' j t l B B' V IH Ht [H1 H2]. destruct (value_head s j V) as (c & v & Es & O). split.
    + intros r. exists c, (v ++ w' ++ str "," ++ t ++ r). split; [|exact O]. rewrite Es, <- !app_assoc. cbn [app]. now apply skip_opens.
    + intros n r L. destruct n as [|n]; [lia|]. rewrite !app_length in L. cbn [read_items]. rewrite <- !app_assoc.
      replace (skip (w ++ s ++ w' ++ str "," ++ t ++ "]" :: r)) with (s ++ w' ++ str "," ++ t ++ "]" :: r) by (rewrite Es; cbn [app]; symmetry; now apply skip_opens).
      cbn [list_ascii_of_string app length] in *. rewrite IH; [|lia|apply follow_blank; [exact B'|repeat split; discriminate]]. rewrite skip_char by auto. rewrite eat_same, H2 by lia. reflexivity.
  - intros w k w1 w2 s w' j B P B1 B2 B' V IH. destruct (value_head s j V) as (c & v & Es & O). split.
    + intros r. exists """", (k ++ str """" ++ w1 ++ str ":" ++ w2 ++ s ++ w' ++ r). split; [|repeat split; discriminate].
      repeat (rewrite <- !app_assoc; cbn [list_ascii_of_string app]). rewrite skip_char by auto. reflexivity.
    + intros n r L. destruct n as [|n]; [lia|]. rewrite !app_length in L. cbn [read_members]. repeat (rewrite <- !app_assoc; cbn [list_ascii_of_string app]).
      rewrite skip_char by auto. rewrite eat_same, read_text_complete by exact P. rewrite skip_char by auto. rewrite eat_same.
      replace (skip (w2 ++ s ++ w' ++ "}" :: r)) with (s ++ w' ++ "}" :: r) by (rewrite Es; cbn [app]; symmetry; now apply skip_opens).
      rewrite IH; [|lia|apply follow_blank; [exact B'|repeat split; discriminate]]. rewrite skip_char by auto. rewrite eat_other by discriminate. now rewrite eat_same.
  - intros w k w1 w2 s w' j t l B P B1 B2 B' V IH Ht [H1 H2]. destruct (value_head s j V) as (c & v & Es & O). split.
    + intros r. exists """", (k ++ str """" ++ w1 ++ str ":" ++ w2 ++ s ++ w' ++ str "," ++ t ++ r). split; [|repeat split; discriminate].
      repeat (rewrite <- !app_assoc; cbn [list_ascii_of_string app]). rewrite skip_char by auto. reflexivity.
    + intros n r L. destruct n as [|n]; [lia|]. rewrite !app_length in L. cbn [read_members]. repeat (rewrite <- !app_assoc; cbn [list_ascii_of_string app]).
      rewrite skip_char by auto. rewrite eat_same, read_text_complete by exact P. rewrite skip_char by auto. rewrite eat_same.
      replace (skip (w2 ++ s ++ w' ++ "," :: t ++ "}" :: r)) with (s ++ w' ++ "," :: t ++ "}" :: r) by (rewrite Es; cbn [app]; symmetry; now apply skip_opens).
      cbn [list_ascii_of_string length] in L. rewrite IH; [|lia|apply follow_blank; [exact B'|repeat split; discriminate]]. rewrite skip_char by auto. rewrite eat_same, H2 by lia. reflexivity.
Qed.

Lemma skip_nil s : skip s = [] -> blank s.
Proof. intros H. destruct (skip_spec s) as (w & B & E). rewrite H, app_nil_r in E. now subst. Qed.
Lemma json_load_spec s j : json_load s = Some j <-> document s j.
Proof.
  unfold json_load, document. split.
  - intros H. destruct (read_value _ (skip s)) as [[j' r]|] eqn:V; [|discriminate]. destruct (skip r) eqn:R; [|discriminate]. injection H as <-.
    apply (read_sound _) in V. destruct V as (u & E & V). destruct (skip_spec s) as (w & B & Es). exists w, u, r. split; [exact B|]. split; [now apply skip_nil|]. split; [exact V|congruence].
  - intros (w & t & w' & B & B' & V & ->). destruct (value_head t j V) as (c & v & E & O).
    replace (skip (w ++ t ++ w')) with (t ++ w') by (rewrite E; cbn [app]; symmetry; now apply skip_opens).
    destruct read_complete as (C & _). rewrite (C t j V).
    + replace (skip w') with (@nil ascii); [reflexivity|]. rewrite <- (app_nil_r w'). now rewrite skip_blank.
    + rewrite !app_length. lia.
    + destruct w' as [|a w']; [exact I|]. change (follow ([a] ++ w')). specialize (B' a (or_introl eq_refl)). cbn.
      assert (G : forall x, ~ In (nat_of_ascii x) [32; 9; 10; 13] -> a <> x) by (intros x N ->; auto).
      repeat split; try (apply G; cbn; lia). destruct (is_digit a) eqn:D; [|reflexivity]. apply is_digit_spec in D. unfold digit in D. cbn in B'. lia.
Qed.
