(** Malformed data files, and whole numbers. *)
From Coq Require Import String Ascii List Bool Arith ZArith Lia.
From Verif Require Import XR PyText SpecParse ProofText ModelParse SpecFile SpecErr ProofConf ProofConf2 ProofFile ProofFile2 ProofFile3.
Import ListNotations.
Local Open Scope list_scope.

(** ** Whole numbers *)
Definition from (acc : Z) (ds : text) : Z := fold_left (fun a c => 10 * a + digit_val c)%Z ds acc.

Lemma digits_grouped d ds : grouped d ds -> forall acc k, digits acc k d = Some (from acc ds).
Proof.
  induction 1 as [g N H|g s ds N H G IH]; intros acc k.
  - rewrite <- (app_nil_r g) at 1. rewrite digits_app; auto. intros c Hc. now apply is_digit_spec, H.
  - rewrite digits_app; auto; [|intros c Hc; now apply is_digit_spec, H].
    cbn [app str list_ascii_of_string digits]. assert (E : is_digit "_"%char = false) by reflexivity. rewrite E.
    change (Ascii.eqb "_" "_" && true) with true. cbv iota. rewrite IH. unfold from. now rewrite fold_left_app.
Qed.

Lemma grouped_cons c d ds : digit c -> grouped d ds -> grouped (c :: d) (c :: ds).
Proof.
  intros H G. destruct G as [g N D|g s ds N D G].
  - apply grouped_one; [discriminate|]. intros x [<-|Hx]; auto.
  - change (grouped ((c :: g) ++ str "_" ++ s) ((c :: g) ++ ds)). apply grouped_more; [discriminate| |auto]. intros x [<-|Hx]; auto.
Qed.
Lemma grouped_single c : digit c -> grouped [c] [c].
Proof. intros H. apply grouped_one; [discriminate|]. now intros x [<-|[]]. Qed.

(** After a digit: nothing, a further run, or "_" and a run. *)
Lemma digits_inv s : forall acc v,
  (digits acc false s = Some v -> exists ds, grouped s ds /\ v = from acc ds) /\
  (digits acc true s = Some v -> (s = [] /\ v = acc) \/ (exists ds, grouped s ds /\ v = from acc ds) \/
     exists t ds, s = "_"%char :: t /\ grouped t ds /\ v = from acc ds).
Proof.
  induction s as [|c s IH]; intros acc v; cbn [digits].
  - split; [discriminate|]. intros E. injection E as <-. now left.
  - destruct (is_digit c) eqn:D.
    + apply is_digit_spec in D. destruct (IH (10 * acc + digit_val c)%Z v) as [_ I].
      assert (X : digits (10 * acc + digit_val c) true s = Some v -> exists ds, grouped (c :: s) ds /\ v = from acc ds).
      { intros E. destruct (I E) as [[-> ->]|[(ds & G & ->)|(t & ds & -> & G & ->)]].
        - exists [c]. split; [now apply grouped_single|reflexivity].
        - exists (c :: ds). split; [now apply grouped_cons|reflexivity].
        - exists (c :: ds). split; [|reflexivity]. change (grouped ([c] ++ str "_" ++ t) ([c] ++ ds)). apply grouped_more; [discriminate| |auto]. now intros x [<-|[]]. }
      split; intros E; [auto|]. right. left. auto.
    + destruct (Ascii.eqb_spec c "_") as [-> | N]; cbn [andb]; [|split; discriminate].
      split; [discriminate|]. intros E. destruct (IH acc v) as [I _]. destruct (I E) as (ds & G & V). right. right. exists s, ds. auto.
Qed.

Lemma grouped_word d ds : grouped d ds -> word d.
Proof.
  induction 1 as [g N H|g s ds N H G [_ IH]].
  - split; auto. intros c Hc. now apply digit_not_white, is_digit_spec, H.
  - split; [destruct g; [congruence|discriminate]|]. intros c Hc. apply in_app_or in Hc. destruct Hc as [Hc|[<-|Hc]]; auto.
    + now apply digit_not_white, is_digit_spec, H.
    + unfold white. cbn. lia.
Qed.
Lemma grouped_first d ds : grouped d ds -> exists c t, d = c :: t /\ digit c.
Proof.
  destruct 1 as [g N H|g s ds N H G]; (destruct g as [|c g]; [congruence|]); exists c; eexists; (split; [reflexivity|]); apply H; now left.
Qed.

Definition signed (s : text) : option Z :=
  match s with
  | c :: t => if Ascii.eqb c "-" then option_map Z.opp (digits 0 false t)
              else if Ascii.eqb c "+" then digits 0 false t else digits 0 false s
  | [] => None
  end.
Lemma py_int_signed s : py_int s = match signed (strip s) with Some z => Ok z | None => Raise ValueError end.
Proof.
  unfold py_int. destruct (strip s) as [|c t]; [reflexivity|]. cbn [signed].
  destruct (Ascii.eqb_spec c "-") as [-> | N]; [reflexivity|]. destruct (Ascii.eqb_spec c "+") as [-> | N']; [reflexivity|].
  destruct c as [[] [] [] [] [] [] [] []]; try reflexivity; exfalso; auto.
Qed.

Lemma strip_split s : exists a b, s = a ++ strip s ++ b /\ blank a /\ blank b.
Proof.
  destruct (lstrip_suffix s) as (a & Ea & Ba). destruct (lstrip_suffix (rev (lstrip s))) as (b & Eb & Bb).
  exists a, (rev b). split; [|split; auto; now apply blank_rev].
  unfold strip. rewrite Ea at 1. f_equal. rewrite <- rev_app_distr, <- Eb. now rewrite rev_involutive.
Qed.

Lemma py_int_whole s z : py_int s = Ok z <-> whole_number s z.
Proof.
  rewrite py_int_signed. split.
  - destruct (signed (strip s)) as [y|] eqn:E; [|discriminate]. intros X. injection X as ->.
    destruct (strip_split s) as (a & b & Es & Ba & Bb). destruct (strip s) as [|c t]; [discriminate|]. cbn [signed] in E.
    destruct (Ascii.eqb_spec c "-") as [-> | N].
    + destruct (digits 0 false t) as [y|] eqn:D; [|discriminate]. injection E as <-. apply digits_inv in D. destruct D as (ds & G & ->).
      exists a, (str "-"), t, ds, b. repeat split; auto.
    + destruct (Ascii.eqb_spec c "+") as [-> | N'].
      * apply digits_inv in E. destruct E as (ds & G & ->). exists a, (str "+"), t, ds, b. repeat split; auto.
      * apply digits_inv in E. destruct E as (ds & G & ->). exists a, [], (c :: t), ds, b. repeat split; auto.
  - intros (a & g & d & ds & b & -> & Ba & Bb & G & H). assert (W := grouped_word _ _ G). destruct (grouped_first _ _ G) as (c & t & Ed & Dc).
    assert (S : strip (a ++ g ++ d ++ b) = g ++ d).
    { rewrite (app_assoc g d b). apply strip_mid; auto. destruct W as [W1 W2]. split; [destruct g; [auto|discriminate]|].
      intros x Hx. apply in_app_or in Hx. destruct Hx as [Hx|Hx]; auto.
      destruct H as [[[-> | ->] _]|[-> _]]; cbn in Hx; try tauto; destruct Hx as [<-|[]]; unfold white; cbn; lia. }
    rewrite S. destruct H as [[[-> | ->] ->]|[-> ->]].
    + cbn [app]. rewrite Ed. cbn [signed]. unfold digit in Dc.
      destruct (Ascii.eqb_spec c "-") as [-> | _]; [cbn in Dc; lia|]. destruct (Ascii.eqb_spec c "+") as [-> | _]; [cbn in Dc; lia|].
      rewrite <- Ed, (digits_grouped _ _ G). reflexivity.
    + cbn [app str list_ascii_of_string signed Ascii.eqb Bool.eqb]. rewrite (digits_grouped _ _ G). reflexivity.
    + cbn [app str list_ascii_of_string signed Ascii.eqb Bool.eqb]. rewrite (digits_grouped _ _ G). reflexivity.
Qed.
Lemma py_int_error s e : py_int s = Raise e -> e = ValueError.
Proof. rewrite py_int_signed. destruct (signed (strip s)); congruence. Qed.

(** ** The line of the energy *)
Lemma eq_not_white : ~ white "="%char.
Proof. unfold white. cbn. lia. Qed.
Lemma E_not_white : ~ white "E"%char.
Proof. unfold white. cbn. lia. Qed.

(** Text up to the first "=". *)
Lemma split_first s : exists a, ~ In "="%char a /\
  ((s = a /\ split_char "=" [] s = [a]) \/ exists r, s = a ++ "="%char :: r /\ split_char "=" [] s = a :: split_char "=" [] r).
Proof.
  assert (X : ~ In "="%char s \/ exists a r, ~ In "="%char a /\ s = a ++ "="%char :: r).
  { induction s as [|c s [H|(a & r & H & ->)]]; [left; intros []| |].
    - destruct (Ascii.eqb_spec c "=") as [-> | N]; [right; exists [], s; split; auto|left; intros [E|I]; auto].
    - right. destruct (Ascii.eqb_spec c "=") as [-> | N]; [exists [], (a ++ "="%char :: r); split; auto|]. exists (c :: a), r. split; auto. intros [E|I]; auto. }
  destruct X as [H|(a & r & H & ->)].
  - exists s. split; auto. left. split; auto. now rewrite split_char_none.
  - exists a. split; auto. right. exists r. split; auto. now rewrite split_char_at.
Qed.

Lemma strip_E a : strip a = ["E"%char] <-> exists x y, a = x ++ str "E" ++ y /\ blank x /\ blank y.
Proof.
  split.
  - intros E. destruct (strip_split a) as (x & y & Ea & Bx & By). rewrite E in Ea. exists x, y. auto.
  - intros (x & y & -> & Bx & By). apply (strip_mid x ["E"%char] y); auto. split; [discriminate|]. intros c [<-|[]]. apply E_not_white.
Qed.

Lemma text_eqb_iff a b : text_eqb a b = true <-> a = b.
Proof.
  revert b. induction a as [|x a IH]; intros [|y b]; cbn; try (split; congruence).
  rewrite andb_true_iff, IH, Ascii.eqb_eq. split; [intros [-> ->]; auto|intros E; injection E; auto].
Qed.

Lemma key_split s r : energy_key s r -> exists p, strip p = ["E"%char] /\
  split_char "=" [] s = match r with [] => [p] | _ :: t => p :: split_char "=" [] t end.
Proof.
  intros (x & y & -> & Bx & By & R). exists (x ++ str "E" ++ y). split; [apply strip_E; eauto|].
  assert (N : ~ In "="%char (x ++ str "E" ++ y)).
  { intros I. apply in_app_or in I. destruct I as [I|[I|I]]; [apply Bx in I; now apply eq_not_white|discriminate|apply By in I; now apply eq_not_white]. }
  destruct R as [-> |(t & ->)].
  - rewrite app_nil_r. now rewrite split_char_none.
  - replace (x ++ str "E" ++ y ++ "="%char :: t) with ((x ++ str "E" ++ y) ++ "="%char :: t) by (rewrite <- !app_assoc; reflexivity). now rewrite split_char_at.
Qed.
Lemma no_key s : (forall r, ~ energy_key s r) -> text_eqb (strip (nth 0 (split_char "=" [] s) [])) ["E"%char] = false.
Proof.
  intros H. destruct (text_eqb _ _) eqn:E; auto. exfalso. apply text_eqb_iff in E. destruct (split_first s) as (a & Na & [[-> S]|(r & -> & S)]); rewrite S in E; cbn [nth] in E; apply strip_E in E; destruct E as (x & y & -> & Bx & By).
  - apply (H []). exists x, y. rewrite app_nil_r. auto.
  - apply (H ("="%char :: r)). exists x, y. rewrite <- !app_assoc. cbn [app]. repeat split; auto. right. eauto.
Qed.

(** ** Files *)
Section Files.
Context (fl : text -> res xr).

Lemma start heavy p le rest fuel : preamble heavy p le -> length p <= fuel ->
  exists conf, parse_slater fl heavy fuel (p ++ le :: rest) =
  let parts := split_char "=" [] le in
  if negb (text_eqb (strip (nth 0 parts [])) ["E"%char]) then Some (Raise RuntimeError) else
  bindo (Some (py_get parts 1)) (fun w1 => bindo (Some (float fl w1)) (fun e =>
  let '(lt, ft) := readline rest in
  match find_numbers 0 lt with
  | [a; b; _] =>
      bindo (Some (float fl a)) (fun t => bindo (Some (float fl b)) (fun v =>
      let '(l3, f3) := readline ft in
      match skip_blank fuel l3 f3 with
      | None => None
      | Some (l4, f4) => bindo (read_blocks fl heavy fuel l4 f4 empty_state) (fun s => Some (make_data conf e t v s))
      end))
  | _ => Some (Raise AssertionError)
  end)).
Proof.
  intros (l0 & b1 & more & conf & ps & -> & (w0 & w1 & ws & S0 & W1) & B1 & Hm) Fu. cbn [length] in Fu. rewrite app_length in Fu.
  assert (Hc : exists c, (if heavy then heavy_configuration conf else @Ok text conf) = Ok c).
  { destruct heavy; [|eauto]. destruct Hm as (_ & _ & qs & Q & X). exists (show_all ps). destruct X as [[-> ->]|[-> ->]]; apply heavy_ok; auto. }
  destruct Hc as (c & Hc). exists c. cbn [app]. rewrite <- app_assoc. unfold parse_slater. cbn [readline]. rewrite (words_spaced _ _ S0).
  change (py_get (w0 :: w1 :: ws) 1) with (@Ok text w1). cbn [bindo]. unfold remove_char. rewrite W1, Hc. cbn [bindo].
  assert (Q : exists x r, (let '(l1, f1) := readline (b1 ++ more ++ le :: rest) in skip_blank fuel l1 f1) = Some (x, r) /\
    (if heavy then read_more 6 x r else (x, r)) = (le, rest)).
  { destruct heavy.
    - destruct Hm as (M1 & M2 & _). destruct more as [|m0 more]; [discriminate|]. exists m0, (more ++ le :: rest). split.
      + cbn [app]. apply skip_blank_ok; auto. lia.
      + cbn in M1. injection M1 as M1. change 6 with (5 + 1). rewrite <- M1. destruct (read_more_ok more le rest m0) as [X Y]. rewrite (surjective_pairing (read_more _ _ _)). exact (f_equal2 pair X Y).
    - destruct Hm as [-> M]. exists le, rest. split; auto. cbn [app]. apply skip_blank_ok; auto. lia. }
  destruct Q as (x & r & Q1 & Q2).
  destruct (readline (b1 ++ more ++ le :: rest)) as [l1 f1]. rewrite Q1, Q2. reflexivity.
Qed.

Lemma no_energy heavy p le rest fuel : preamble heavy p le -> (forall r, ~ energy_key le r) -> length p <= fuel ->
  parse_slater fl heavy fuel (p ++ le :: rest) = Some (Raise RuntimeError).
Proof. intros P K F. destruct (start heavy p le rest fuel P F) as (c & ->). cbv zeta. now rewrite no_key. Qed.

Lemma no_value heavy p le rest fuel : preamble heavy p le -> energy_key le [] -> length p <= fuel ->
  parse_slater fl heavy fuel (p ++ le :: rest) = Some (Raise IndexError).
Proof.
  intros P K F. destruct (start heavy p le rest fuel P F) as (c & ->). destruct (key_split _ _ K) as (q & Sq & ->). cbv zeta. cbn [nth]. rewrite Sq. reflexivity.
Qed.

Lemma bad_value heavy p le rest fuel t u x : preamble heavy p le -> energy_key le ("="%char :: t ++ u) -> (u = [] \/ exists u', u = "="%char :: u') ->
  word t -> ~ In "="%char t -> fl t = Raise x -> length p <= fuel ->
  parse_slater fl heavy fuel (p ++ le :: rest) = Some (Raise x).
Proof.
  intros P K U W N E F. destruct (start heavy p le rest fuel P F) as (c & ->). destruct (key_split _ _ K) as (q & Sq & ->). cbv zeta. cbn [nth]. rewrite Sq.
  cbn [text_eqb Ascii.eqb Bool.eqb andb negb].
  assert (S : exists r, split_char "=" [] (t ++ u) = t :: r). { destruct U as [-> |(u' & ->)]; [rewrite app_nil_r, split_char_none by auto; eauto|rewrite split_char_at by auto; eauto]. }
  destruct S as (r & ->). change (py_get (q :: t :: r) 1) with (@Ok text t). cbn [bindo]. unfold float. rewrite strip_word, E by auto. reflexivity.
Qed.

Lemma numbered_count k s : numbered k s -> length (find_numbers 0 s) = k.
Proof.
  induction 1 as [s H|k s t r N B R H IH]; [now rewrite find_numbers_none|].
  destruct (number_step s t r N B) as (m & -> & _); [|cbn; now rewrite IH].
  destruct R as [-> |(c & r' & -> & D)]; cbn; auto.
Qed.
Lemma bad_ratio heavy p le lt rest fuel e k : preamble heavy p le -> energy_line fl e le -> numbered k lt -> k <> 3 -> length p <= fuel ->
  parse_slater fl heavy fuel (p ++ le :: lt :: rest) = Some (Raise AssertionError).
Proof.
  intros P He N K F. destruct (start heavy p le (lt :: rest) fuel P F) as (c & ->). destruct (energy_parts fl _ _ He) as (ep & eq & er & E1 & E2 & E3).
  rewrite E1. cbv zeta. cbn [nth]. rewrite E2. cbn [text_eqb Ascii.eqb Bool.eqb andb negb].
  change (py_get (ep :: eq :: er) 1) with (@Ok text eq). cbn [bindo]. rewrite E3. cbn [bindo readline].
  apply numbered_count in N. destruct (find_numbers 0 lt) as [|a [|b [|d [|x l]]]]; auto. exfalso. apply K. rewrite <- N. reflexivity.
Qed.
Lemma no_ratio heavy p le fuel e : preamble heavy p le -> energy_line fl e le -> length p <= fuel ->
  parse_slater fl heavy fuel (p ++ [le]) = Some (Raise AssertionError).
Proof.
  intros P He F. destruct (start heavy p le [] fuel P F) as (c & ->). destruct (energy_parts fl _ _ He) as (ep & eq & er & E1 & E2 & E3).
  rewrite E1. cbv zeta. cbn [nth]. rewrite E2. cbn [text_eqb Ascii.eqb Bool.eqb andb negb].
  change (py_get (ep :: eq :: er) 1) with (@Ok text eq). cbn [bindo]. rewrite E3. reflexivity.
Qed.
Lemma not_text f : get_ugbs_exponents fl f None = Raise AssertionError.
Proof. reflexivity. Qed.
End Files.

(** ** Columns outside a block *)
Lemma column_any n l (ws : list text) : 1 <= n <= 9 -> l <= 3 ->
  (do j <- get_column (label n l); py_get ws j) =
  if Nat.leb l (n + 1) then match nth_error ws (n + 1 - l) with Some w => Ok w | None => Raise IndexError end
  else match rev ws with w :: _ => Ok w | [] => Raise IndexError end.
Proof.
  intros [H1 H2] Hl. rewrite label_orb by lia.
  assert (G : get_column (orb n (l_char l)) = Ok (Z.of_nat n + 1 - Z.of_nat l)%Z).
  { unfold get_column, orb. cbn [nth_error firstn]. rewrite (py_int_digit n) by lia.
    do 4 (destruct l as [|l]; [cbn; f_equal; lia|]). lia. }
  rewrite G. cbn [bind]. unfold py_get. destruct (Nat.leb_spec l (n + 1)) as [L|L].
  - destruct (Z.ltb_spec (Z.of_nat n + 1 - Z.of_nat l) 0); [lia|]. destruct (Z.ltb_spec (Z.of_nat n + 1 - Z.of_nat l) 0); [lia|].
    replace (Z.to_nat (Z.of_nat n + 1 - Z.of_nat l)) with (n + 1 - l) by lia. reflexivity.
  - assert (n = 1 /\ l = 3) as [-> ->] by lia. change (Z.of_nat 1 + 1 - Z.of_nat 3 <? 0)%Z with true. cbv iota.
    destruct (list_eq_dec (list_eq_dec ascii_dec) ws []) as [-> | N]; [reflexivity|]. destruct (exists_last N) as (u & w & ->).
    rewrite rev_app_distr, app_length. cbn [length rev app]. destruct (Z.ltb_spec (Z.of_nat 1 + 1 - Z.of_nat 3 + Z.of_nat (length u + 1)) 0); [lia|].
    replace (Z.to_nat (Z.of_nat 1 + 1 - Z.of_nat 3 + Z.of_nat (length u + 1))) with (length u) by lia.
    rewrite nth_error_app2, Nat.sub_diag by lia. reflexivity.
Qed.
