(** The line-level text functions of the parser against [SpecLine]. *)
From Coq Require Import String Ascii List Bool Arith ZArith Lia.
From Verif Require Import XR PyStr PyText ModelParse SpecParse SpecLine ProofText ProofFile ProofFile2 ProofCheck ProofConf.
Import ListNotations.
Local Open Scope list_scope.
Local Open Scope nat_scope.

Lemma among_spec l c : among l c = true <-> In c (str l).
Proof.
  unfold among. rewrite existsb_exists. split.
  - intros (x & H & E). apply Ascii.eqb_eq in E. now subst.
  - intros H. exists c. split; auto. apply Ascii.eqb_refl.
Qed.
Lemma decimal_is_digit c : decimal_digit c = is_digit c.
Proof. destruct c as [[] [] [] [] [] [] [] []]; reflexivity. Qed.

Lemma take_run s : take_digits s = firstn (run decimal_digit s) s.
Proof. induction s as [|c t IH]; [reflexivity|]. cbn [take_digits run]. rewrite decimal_is_digit. destruct (is_digit c); [|reflexivity]. cbn [firstn]. now rewrite IH. Qed.
Lemma run_le p s : run p s <= length s.
Proof. induction s as [|c t IH]; cbn [run length]; [lia|]. destruct (p c); lia. Qed.
Lemma take_length s : length (take_digits s) = run decimal_digit s.
Proof. rewrite take_run, firstn_length. pose proof (run_le decimal_digit s). lia. Qed.
Lemma run_skip p s n : n <= run p s -> run p (skipn n s) = run p s - n.
Proof.
  revert s. induction n as [|n IH]; intros s H; [cbn [skipn]; lia|]. destruct s as [|c t]; [cbn in *; lia|].
  cbn [skipn run] in *. destruct (p c); [|lia]. rewrite IH; lia.
Qed.
Lemma run_in p s n : n < run p s -> exists c r, skipn n s = c :: r /\ p c = true.
Proof.
  revert s. induction n as [|n IH]; intros s H; destruct s as [|c t]; cbn [run skipn] in *; try lia.
  - destruct (p c) eqn:E; [|lia]. eauto.
  - destruct (p c); [|lia]. apply IH. lia.
Qed.
Lemma run_zero p s : run p s = 0 -> forall c t, s = c :: t -> p c = false.
Proof. intros H c t ->. cbn in H. now destruct (p c). Qed.

Lemma rev_seq k : rev (seq 1 (S k)) = S k :: rev (seq 1 k).
Proof. rewrite seq_S, rev_app_distr. reflexivity. Qed.

(** Greedy digits at the end of a pattern. *)
Lemma last_many s : hd_error (readings [Many decimal_digit] s) =
  if Nat.eqb (run decimal_digit s) 0 then None else Some ([take_digits s], skipn (run decimal_digit s) s).
Proof.
  cbn [readings]. rewrite take_run. destruct (run decimal_digit s) as [|k]; [reflexivity|].
  rewrite rev_seq. cbn [flat_map map app hd_error fst snd Nat.eqb]. reflexivity.
Qed.
Lemma any_many s : ~ In line_break s -> hd_error (readings [One anything; Many decimal_digit] s) =
  match s with
  | x :: r => if Nat.eqb (run decimal_digit r) 0 then None else Some ([[x]; take_digits r], skipn (run decimal_digit r) r)
  | [] => None
  end.
Proof.
  intros H. destruct s as [|x r]; [reflexivity|].
  change (readings [One anything; Many decimal_digit] (x :: r)) with
    (if anything x then map (fun y => ([x] :: fst y, snd y)) (readings [Many decimal_digit] r) else []).
  assert (A : anything x = true).
  { unfold anything. destruct (Ascii.eqb_spec x line_break) as [->|]; [|reflexivity]. exfalso. apply H. now left. }
  rewrite A. pose proof (last_many r) as L. destruct (readings [Many decimal_digit] r) as [|y l]; cbn [map hd_error] in *.
  - destruct (Nat.eqb _ 0); [reflexivity|discriminate].
  - destruct (Nat.eqb _ 0); [discriminate|]. injection L as ->. reflexivity.
Qed.

Lemma skipn_in {A} n (s : list A) x : In x (skipn n s) -> In x s.
Proof. rewrite <- (firstn_skipn n s) at 2. intros H. apply in_or_app. now right. Qed.

Lemma app_same {A} (a b c d : list A) : a ++ b = c ++ d -> length a = length c -> a = c /\ b = d.
Proof.
  revert c. induction a as [|x a IH]; intros [|y c] E L; try discriminate; [auto|]. cbn in E. injection E as -> E.
  destruct (IH c E) as [-> ->]; auto.
Qed.
Lemma skip_one {A} n : forall (s : list A) x r, skipn n s = x :: r -> skipn (S n) s = r.
Proof.
  induction n as [|n IH]; intros [|a s] x r H; cbn [skipn] in H |- *; try discriminate; [now injection H|].
  now apply (IH s x r).
Qed.
Lemma hd_flat {A B} (f : A -> list B) a l : hd_error (flat_map f (a :: l)) = match hd_error (f a) with Some b => Some b | None => hd_error (flat_map f l) end.
Proof. cbn [flat_map]. destruct (f a); reflexivity. Qed.
Lemma hd_map {A B} (f : A -> B) l : hd_error (map f l) = option_map f (hd_error l).
Proof. now destruct l. Qed.

Lemma flat_none {A B} (f : A -> list B) l : (forall a, In a l -> f a = []) -> flat_map f l = [].
Proof. induction l as [|a l IH]; intros H; [reflexivity|]. cbn [flat_map]. rewrite H by now left. apply IH. intros; apply H; now right. Qed.

(** One number. *)
Lemma sign_char c : Ascii.eqb c "=" || Ascii.eqb c " " || Ascii.eqb c "-" = among "= -" c.
Proof. unfold among. cbn [str existsb list_ascii_of_string]. now rewrite orb_false_r, orb_assoc. Qed.

Lemma match_number_re s : ~ In line_break s ->
  match hd_error (readings number_re s) with
  | Some (m, rest) => match_number s = Some (concat m) /\ s = concat m ++ rest /\ concat m <> []
  | None => match_number s = None
  end.
Proof.
  intros N. destruct s as [|c t]; [reflexivity|]. unfold number_re. 
  change (readings [One (among "= -"); Many decimal_digit; One anything; Many decimal_digit] (c :: t)) with
    (if among "= -" c then map (fun x => ([c] :: fst x, snd x)) (readings [Many decimal_digit; One anything; Many decimal_digit] t) else []).
  unfold match_number. rewrite sign_char. destruct (among "= -" c); [|reflexivity].
  assert (Nt : ~ In line_break t) by (intros H; apply N; now right).
  rewrite hd_map, take_length. set (k := run decimal_digit t).
  change (readings [Many decimal_digit; One anything; Many decimal_digit] t) with
    (flat_map (fun n => map (fun x => (firstn n t :: fst x, snd x)) (readings [One anything; Many decimal_digit] (skipn n t))) (rev (seq 1 k))).
  set (g := fun n => map (fun x => (firstn n t :: fst x, snd x)) (readings [One anything; Many decimal_digit] (skipn n t))).
  assert (G : forall n, hd_error (g n) = option_map (fun x => (firstn n t :: fst x, snd x))
    (match skipn n t with x :: r => if Nat.eqb (run decimal_digit r) 0 then None else Some ([[x]; take_digits r], skipn (run decimal_digit r) r) | [] => None end)).
  { intros n. unfold g. rewrite hd_map, any_many; [reflexivity|]. intros H. apply Nt. now apply (skipn_in n). }
  destruct k as [|k'] eqn:K; [reflexivity|]. cbn [Nat.eqb]. rewrite rev_seq, hd_flat, G.
  assert (R0 : run decimal_digit (skipn (S k') t) = 0) by (rewrite run_skip by (fold k; lia); fold k; lia).
  assert (Ft : take_digits t = firstn (S k') t) by (rewrite take_run; fold k; now rewrite K).
  destruct (skipn (S k') t) as [|x r] eqn:Er.
  - (* nothing after the digits *)
    cbn [option_map]. cbn [length Nat.eqb negb andb]. rewrite Ft.
    assert (Lt : length t = S k').
    { pose proof (skipn_length (S k') t) as L. rewrite Er in L. cbn in L. pose proof (run_le decimal_digit t). fold k in H. lia. }
    destruct k' as [|k'']; [reflexivity|]. rewrite rev_seq, hd_flat, G.
    assert (R1 : run decimal_digit (skipn (S k'') t) = 1) by (rewrite run_skip by (fold k; lia); fold k; lia).
    destruct (run_in decimal_digit t (S k'')) as (y & r & E1 & D1); [fold k; lia|]. rewrite E1.
    assert (r = []). { pose proof (skipn_length (S k'') t) as L. rewrite E1 in L. cbn in L. destruct r; [reflexivity|cbn in L; lia]. } subst r.
    cbn [run Nat.eqb option_map].
    destruct k'' as [|k3]; [reflexivity|]. rewrite rev_seq, hd_flat, G.
    destruct (run_in decimal_digit t (S k3)) as (z & r & E2 & D2); [fold k; lia|]. rewrite E2.
    assert (r = [y]).
    { apply skip_one in E2. congruence. } subst r.
    cbn [run]. rewrite D1. cbn [Nat.eqb take_digits option_map fst snd skipn]. rewrite <- decimal_is_digit, D1. cbn [concat app].
    assert (X : t = firstn (S k3) t ++ [z; y]) by (rewrite <- E2; symmetry; apply firstn_skipn).
    assert (Y : firstn (S (S (S k3))) t = t) by (rewrite <- Lt; apply firstn_all).
    rewrite Y. cbn [Nat.leb]. rewrite <- X. split; [reflexivity|]. split; [|discriminate]. now rewrite app_nil_r.
  - (* a character after the digits *)
    assert (Dx : decimal_digit x = false) by (apply (run_zero _ _ R0 x r); reflexivity).
    cbn [option_map skipn length Nat.eqb negb andb]. rewrite take_length. destruct (Nat.eqb_spec (run decimal_digit r) 0) as [E0|E0].
    + cbn [option_map negb]. rewrite Ft. destruct k' as [|k'']; [reflexivity|]. rewrite rev_seq, hd_flat, G.
      destruct (run_in decimal_digit t (S k'')) as (y & r1 & E1 & D1); [fold k; lia|]. rewrite E1.
      assert (r1 = x :: r).
      { apply skip_one in E1. congruence. } subst r1.
      cbn [run]. rewrite Dx. cbn [Nat.eqb option_map].
      destruct k'' as [|k3]; [reflexivity|]. rewrite rev_seq, hd_flat, G.
      destruct (run_in decimal_digit t (S k3)) as (z & r2 & E2 & D2); [fold k; lia|]. rewrite E2.
      assert (r2 = y :: x :: r).
      { apply skip_one in E2. congruence. } subst r2.
      cbn [run]. rewrite D1, Dx. cbn [Nat.eqb take_digits option_map fst snd skipn]. rewrite <- !decimal_is_digit, D1, Dx. cbn [concat app Nat.leb].
      assert (X : t = firstn (S k3) t ++ z :: y :: x :: r) by (rewrite <- E2; symmetry; apply firstn_skipn).
      assert (Y : firstn (S (S (S k3))) t = firstn (S k3) t ++ [z; y]).
      { rewrite X at 1. rewrite firstn_app, firstn_firstn. rewrite firstn_length_le by (pose proof (run_le decimal_digit t); fold k in H; lia).
        replace (S (S (S k3)) - S k3) with 2 by lia. replace (Nat.min (S (S (S k3))) (S k3)) with (S k3) by lia. reflexivity. }
      rewrite Y. split; [reflexivity|]. split; [|discriminate]. f_equal. rewrite <- app_assoc. exact X.
    + cbn [option_map negb fst snd]. rewrite Ft. set (d := firstn (S k') t) in *. cbn [concat app firstn]. split; [now rewrite app_nil_r|]. split; [|discriminate].
      f_equal. rewrite app_nil_r, <- app_assoc. cbn [app]. rewrite take_run, firstn_skipn, <- Er. unfold d. symmetry. apply firstn_skipn.
Qed.

(** All numbers of a line. *)
Lemma find_numbers_found s l : ~ In line_break s -> found number_re s l -> find_numbers 0 s = map (@concat _) l.
Proof.
  intros N H. induction H as [E|c t l E H IH|s m rest more l E L H IH].
  - reflexivity.
  - cbn [find_numbers]. pose proof (match_number_re (c :: t) N) as M. rewrite E in M. cbn [hd_error] in M. rewrite M.
    apply IH. intros X. apply N. now right.
  - pose proof (match_number_re s N) as M. rewrite E in M. cbn [hd_error] in M. destruct M as (M & S & NE).
    destruct s as [|c t]; [cbn in L; lia|]. cbn [find_numbers]. rewrite M. cbn [map]. f_equal.
    destruct (concat m) as [|c' q]; [congruence|]. cbn [app] in S. injection S as <- ->. cbn [length]. rewrite Nat.sub_succ, Nat.sub_0_r, find_numbers_in.
    apply IH. intros X. apply N. right. apply in_or_app. now right.
Qed.
Lemma found_exists ps s : (forall t m rest more, readings ps t = (m, rest) :: more -> length rest < length t) -> exists l, found ps s l.
Proof.
  intros P. remember (length s) as n eqn:En. assert (Hn : length s <= n) by lia. clear En. revert s Hn.
  induction n as [|n IH]; intros s Hn.
  - destruct s; [|cbn in Hn; lia]. exists []. constructor. destruct (readings ps []) as [|[m r] more] eqn:E; auto. apply P in E. cbn in E. lia.
  - destruct s as [|c t].
    + exists []. constructor. destruct (readings ps []) as [|[m r] more] eqn:E; auto. apply P in E. cbn in E. lia.
    + destruct (readings ps (c :: t)) as [|[m rest] more] eqn:E.
      * destruct (IH t) as (l & H); [cbn in Hn; lia|]. exists l. now constructor.
      * pose proof (P _ _ _ _ E) as L. destruct (IH rest) as (l & H); [cbn in *; lia|]. exists (m :: l). now apply (found_match _ _ m rest more).
Qed.
Lemma number_shorter t m rest more : readings number_re t = (m, rest) :: more -> length rest < length t.
Proof.
  assert (G : forall ps s x, In x (readings ps s) -> length (snd x) <= length s).
  { induction ps as [|[p|p|p] ps IH]; intros s x H.
    - destruct H as [<-|[]]. auto.
    - destruct s as [|c s]; [destruct H|]. cbn [readings] in H. destruct (p c); [|destruct H]. apply in_map_iff in H. destruct H as (y & <- & H). apply IH in H. cbn. lia.
    - cbn [readings] in H. apply in_flat_map in H. destruct H as (n & _ & H). apply in_map_iff in H. destruct H as (y & <- & H). apply IH in H. rewrite skipn_length in H. cbn. lia.
    - change (In x (flat_map (fun n => map (fun x => (firstn n s :: fst x, snd x)) (readings ps (skipn n s))) (seq 0 (S (run p s))))) in H.
      apply in_flat_map in H. destruct H as (n & _ & H). apply in_map_iff in H. destruct H as (y & <- & H). apply IH in H. rewrite skipn_length in H. cbn. lia. }
  intros E. destruct t as [|c t]; [discriminate|].
  assert (I : In (m, rest) (readings number_re (c :: t))) by (rewrite E; now left).
  unfold number_re in I. change (In (m, rest) (if among "= -" c then map (fun x => ([c] :: fst x, snd x)) (readings [Many decimal_digit; One anything; Many decimal_digit] t) else [])) in I.
  destruct (among "= -" c); [|destruct I]. apply in_map_iff in I. destruct I as (y & Ey & I). apply G in I. injection Ey as _ <-. cbn [length]. lia.
Qed.
Lemma find_numbers_re s : ~ In line_break s -> exists l, found number_re s l /\ find_numbers 0 s = map (@concat _) l.
Proof. intros N. destruct (found_exists number_re s number_shorter) as (l & H). exists l. split; auto. now apply find_numbers_found. Qed.

(** ** Fixed patterns *)
Lemma literal_app o ps s : readings (literally o ++ ps) s =
  if starts o s then map (fun x => (map (fun a => [a]) o ++ fst x, snd x)) (readings ps (skipn (length o) s)) else [].
Proof.
  revert s. induction o as [|a o IH]; intros s.
  - cbn [literally map app starts length skipn]. rewrite <- (map_id (readings ps s)) at 1. apply map_ext. intros []. reflexivity.
  - cbn [literally map app readings]. destruct s as [|c s]; [reflexivity|]. cbn [starts].
    destruct (Ascii.eqb_spec a c) as [<-|N]; [|reflexivity]. cbn [andb length skipn]. change (map (fun a0 => One (Ascii.eqb a0)) o) with (literally o).
    rewrite IH. destruct (starts o s); [|reflexivity]. rewrite map_map. reflexivity.
Qed.
Lemma literal_only o s : readings (literally o) s = if starts o s then [(map (fun a => [a]) o, skipn (length o) s)] else [].
Proof.
  rewrite <- (app_nil_r (literally o)), literal_app. destruct (starts o s); [|reflexivity]. cbn [readings map fst snd]. now rewrite app_nil_r.
Qed.

Lemma shell_among c : shell_char c = among "S|P|D|F" c.
Proof. destruct c as [[] [] [] [] [] [] [] []]; reflexivity. Qed.
Lemma header_here_re s : header_here s = match matches header_re s with Some _ => true | None => false end.
Proof.
  unfold matches, header_re. rewrite literal_app.
  destruct s as [|a [|b s]]; [reflexivity|cbn [str list_ascii_of_string starts header_here]; rewrite andb_false_r; reflexivity|]. cbn [str list_ascii_of_string starts length skipn].
  rewrite (Ascii.eqb_sym " " a), (Ascii.eqb_sym " " b). destruct (Ascii.eqb a " ") eqn:Ea, (Ascii.eqb b " ") eqn:Eb; cbn [andb];
    try (destruct s as [|c [|d [|e s]]]; cbn [header_here]; rewrite ?Ea, ?Eb; reflexivity).
  destruct s as [|c s]; [reflexivity|]. cbn [app readings]. rewrite <- shell_among.
  destruct s as [|d [|e s]]; [cbn [header_here]; destruct (shell_char c); reflexivity|..].
  - cbn [header_here]. destruct (shell_char c); [|reflexivity]. rewrite literal_only. cbn [starts]. now rewrite andb_false_r.
  - cbn [header_here]. rewrite Ea, Eb. cbn [andb]. destruct (shell_char c); [|reflexivity]. rewrite literal_only. cbn [starts andb].
    rewrite (Ascii.eqb_sym " " d), (Ascii.eqb_sym " " e). destruct (Ascii.eqb d " "), (Ascii.eqb e " "); reflexivity.
Qed.
Lemma header_search s : is_header s = match search header_re s with Some _ => true | None => false end.
Proof.
  induction s as [|c s IH]; cbn [is_header]; rewrite header_here_re; cbn [search]; destruct (matches header_re _); cbn [orb]; auto.
Qed.
Lemma row_matches sub line : is_row sub line = match matches (row_re sub) (lstrip line) with Some _ => true | None => false end.
Proof.
  unfold is_row, matches, row_re. destruct (lstrip line) as [|c t]; [reflexivity|]. cbn [readings]. rewrite decimal_is_digit.
  destruct (is_digit c); [|reflexivity]. cbn [andb]. rewrite literal_only. destruct (starts sub t); reflexivity.
Qed.

(** Counts in parentheses. *)
Lemma lazy_close s : ~ In line_break s ->
  hd_error (readings ([Lazy anything] ++ literally (str ")")) s) =
  option_map (fun g => ([g; str ")"], skipn (S (length g)) s)) (until_close s).
Proof.
  intros N.
  change (readings ([Lazy anything] ++ literally (str ")")) s) with
    (flat_map (fun n => map (fun x => (firstn n s :: fst x, snd x)) (readings (literally (str ")")) (skipn n s))) (seq 0 (S (run anything s)))).
  assert (R : run anything s = length s).
  { clear -N. induction s as [|c s IH]; [reflexivity|]. cbn [run length]. assert (A : anything c = true).
    { unfold anything. destruct (Ascii.eqb_spec c line_break) as [->|]; [|reflexivity]. exfalso. apply N. now left. }
    rewrite A, IH; [reflexivity|]. intros H. apply N. now right. }
  rewrite R.
  assert (G : forall u v, s = u ++ v -> 
     hd_error (flat_map (fun n => map (fun x => (firstn n s :: fst x, snd x)) (readings (literally (str ")")) (skipn n s))) (seq (length u) (S (length v)))) =
     option_map (fun g => ([u ++ g; str ")"], skipn (S (length u + length g)) s)) (until_close v)).
  { intros u v. revert u. induction v as [|c v IH]; intros u E.
    - cbn [length seq flat_map until_close option_map]. rewrite app_nil_r in E. subst s. rewrite skipn_all. reflexivity.
    - change (seq (length u) (S (length (c :: v)))) with (length u :: seq (S (length u)) (S (length v))). rewrite hd_flat, hd_map, literal_only.
      assert (Sk : skipn (length u) s = c :: v) by (subst s; rewrite skipn_app, skipn_all, Nat.sub_diag; reflexivity). rewrite Sk.
      change (starts (str ")") (c :: v)) with (Ascii.eqb ")" c && true). cbn [until_close]. rewrite andb_true_r, (Ascii.eqb_sym ")" c). destruct (Ascii.eqb c ")") eqn:C.
      + apply Ascii.eqb_eq in C. subst c. cbn [hd_error option_map fst snd map length skipn]. rewrite app_nil_r, Nat.add_0_r.
        assert (Fi : firstn (length u) s = u) by (subst s; rewrite firstn_app, firstn_all, Nat.sub_diag; apply app_nil_r). rewrite Fi.
        f_equal. f_equal. apply skip_one in Sk. symmetry. exact Sk.
      + cbn [hd_error option_map]. specialize (IH (u ++ [c])). rewrite app_length in IH. cbn [length] in IH. rewrite Nat.add_1_r in IH. rewrite IH.
        2:{ rewrite <- app_assoc. exact E. }
        destruct (until_close v) as [g|]; [|reflexivity]. cbn [option_map length]. rewrite <- app_assoc. cbn [app].
        replace (S (S (length u) + length g)) with (S (length u + S (length g))) by lia. reflexivity. }
  exact (G [] s eq_refl).
Qed.

Lemma starts_snoc o a s : starts (o ++ [a]) s = true -> starts o s = true.
Proof. intros H. destruct (starts o s) eqn:E; [reflexivity|]. rewrite starts_prefix in H; auto. Qed.

Lemma count_search o s : ~ In line_break s ->
  search_count o s = match search (count_re o) s with Some m => Ok (nth (length o + 1) m []) | None => Raise AttributeError end.
Proof.
  intros N.
  assert (H : forall t, ~ In line_break t -> matches (count_re o) t =
    option_map (fun g => map (fun a => [a]) (o ++ str "(") ++ [g; str ")"]) (if starts (o ++ str "(") t then until_close (skipn (length o + 1) t) else None)).
  { intros t Nt. unfold matches, count_re.
    assert (L : literally o ++ literally (str "(") = literally (o ++ str "(")) by (unfold literally; now rewrite map_app).
    rewrite app_assoc, L, literal_app. destruct (starts (o ++ str "(") t); [|reflexivity].
    assert (Le : length (o ++ str "(") = length o + 1) by (now rewrite app_length). rewrite Le.
    pose proof (lazy_close (skipn (length o + 1) t) (fun I => Nt (skipn_in _ _ _ I))) as Z.
    destruct (readings ([Lazy anything] ++ literally (str ")")) (skipn (length o + 1) t)) as [|x l]; cbn [map hd_error] in *.
    - destruct (until_close _); [discriminate|reflexivity].
    - destruct (until_close _) as [g|]; [|discriminate]. injection Z as ->. reflexivity. }
  induction s as [|c s IH].
  - cbn [search search_count]. rewrite (H [] N). destruct o; reflexivity.
  - change (search_count o (c :: s)) with
      (match (if starts (o ++ str "(") (c :: s) then until_close (skipn (length o + 1) (c :: s)) else None) with
       | Some g => Ok g | None => search_count o s end).
    cbn [search]. rewrite (H (c :: s) N). destruct (if starts (o ++ str "(") (c :: s) then _ else _) as [g|] eqn:E.
    + cbn [option_map]. f_equal.
      rewrite app_nth2; rewrite map_length, app_length; cbn [str list_ascii_of_string length]; [|lia]. now rewrite Nat.sub_diag.
    + cbn [option_map]. apply IH. intros I. apply N. now right.
Qed.

(** ** String methods *)
Lemma strip_stripped s t : strip s = t <-> stripped s t.
Proof.
  assert (E : stripped s (strip s)).
  { destruct (strip_parts s) as (a & b & E & A & B). exists a, b. split; [exact E|]. split; [exact A|]. split; [exact B|].
    assert (L : forall u c r, lstrip u = c :: r -> ~ white c).
    { clear. induction u as [|x u IH]; intros c r H; [discriminate|]. cbn [lstrip] in H. destruct (is_space x) eqn:X; [now apply (IH c r)|].
      injection H as <- <-. now apply is_space_false. }
    split; intros c r H.
    - unfold strip in H. destruct (lstrip_suffix (rev (lstrip s))) as (b' & E' & _). rewrite <- (rev_involutive (lstrip (rev (lstrip s)))) in E'. rewrite H in E'.
      apply (f_equal (@rev _)) in E'. rewrite rev_involutive, rev_app_distr, rev_involutive in E'. cbn [app] in E'. now apply L in E'.
    - unfold strip in H. apply (f_equal (@rev _)) in H. rewrite rev_involutive, rev_app_distr in H. cbn [rev app] in H. now apply L in H. }
  split; [intros <-; exact E|]. intros (a & b & Es & A & B & H1 & H2).
  destruct t as [|c t].
  - rewrite app_nil_l in Es. apply strip_nil. subst s. intros x I. apply in_app_or in I. destruct I; auto.
  - unfold strip. rewrite Es, lstrip_blank by exact A.
    assert (W : ~ white c) by (apply (H1 c t eq_refl)). cbn [app]. rewrite lstrip_word by exact W.
    change (c :: t ++ b) with ((c :: t) ++ b). rewrite rev_app_distr, lstrip_blank by (intros x I; apply B, in_rev, I).
    destruct (exists_last (l := c :: t)) as (u & x & Eu); [discriminate|]. rewrite Eu, rev_app_distr. cbn [rev app].
    rewrite lstrip_word by (apply (H2 x u Eu)). cbn [rev]. now rewrite rev_involutive.
Qed.

Lemma words_iff s ws : words s = ws <-> spaced ws s.
Proof. split; [intros <-; apply spaced_words|apply words_spaced]. Qed.

Lemma split_joined c s ps : split_char c [] s = ps <-> ps <> [] /\ joined c ps = s /\ Forall (fun p => ~ In c p) ps.
Proof.
  split.
  - intros <-. split; [apply split_some|].
    assert (G : forall t cur, ~ In c cur -> joined c (split_char c cur t) = cur ++ t /\ Forall (fun p => ~ In c p) (split_char c cur t)).
    { induction t as [|a t IH]; intros cur N; cbn [split_char].
      - rewrite app_nil_r. split; [reflexivity|]. repeat constructor. exact N.
      - destruct (Ascii.eqb_spec a c) as [->|Na].
        + destruct (IH [] (fun x => x)) as [J F]. split; [|constructor; [exact N|exact F]].
          destruct (split_char c [] t) as [|q r] eqn:E; [now apply split_some in E|]. change (cur ++ c :: joined c (q :: r) = cur ++ c :: t). now rewrite J.
        + destruct (IH (cur ++ [a])) as [J F]; [intros I; apply in_app_or in I; destruct I as [I|[I|[]]]; auto|].
          split; [|exact F]. rewrite J, <- app_assoc. reflexivity. }
    apply (G s []). intros [].
  - intros (N & <- & F).
    induction ps as [|p ps IH]; [congruence|]. apply Forall_inv in F as Fp. apply Forall_inv_tail in F.
    destruct ps as [|q r]; [cbn [joined]; now apply split_char_none|].
    change (joined c (p :: q :: r)) with (p ++ c :: joined c (q :: r)). rewrite split_char_at by exact Fp. f_equal. apply IH; [discriminate|exact F].
Qed.

Lemma find_first p s i : find p s = Some i <-> exists a b, s = a ++ p ++ b /\ length a = i /\ first_in p a b.
Proof.
  assert (M : forall s i, find p s = Some i -> forall a b, s = a ++ p ++ b -> i <= length a).
  { clear. induction s as [|c s IH]; intros i H a b E; cbn [find] in H.
    - destruct (starts p []); [|discriminate]. injection H as <-. lia.
    - destruct (starts p (c :: s)) eqn:S; [injection H as <-; lia|]. destruct (find p s) as [j|]; [|discriminate]. injection H as <-.
      destruct a as [|x a]; [cbn in E; rewrite E, starts_app in S; discriminate|]. injection E as _ E. cbn. apply le_n_S. now apply (IH j eq_refl a b). }
  split.
  - intros H. destruct (find_spec _ _ _ H) as (a & b & E & L). exists a, b. split; [exact E|]. split; [exact L|].
    intros a' b' E'. rewrite L. apply (M s i H a' b'). congruence.
  - intros (a & b & E & L & F). destruct (find p s) as [j|] eqn:H.
    + destruct (find_spec _ _ _ H) as (a' & b' & E' & L'). pose proof (M s j H a b E). pose proof (F a' b' (eq_trans (eq_sym E) E')). f_equal. lia.
    + exfalso. exact (proj1 (find_none p s) H a b E).
Qed.

Lemma split_second_part p s t : (exists a b, s = a ++ p ++ b) -> (split_second p s = t <-> second_part p s t).
Proof.
  intros (x & y & E0). unfold split_second.
  destruct (find p s) as [i|] eqn:F; [|exfalso; exact (proj1 (find_none p s) F x y E0)].
  apply find_first in F. destruct F as (a & b & E & L & M).
  assert (Sk : skipn (i + length p) s = b).
  { rewrite E, <- L, <- app_length, (app_assoc a p b). clear. generalize (a ++ p). intros l. induction l as [|x l IH]; [reflexivity|exact IH]. }
  rewrite Sk.
  assert (U : forall a' b', s = a' ++ p ++ b' -> first_in p a' b' -> b' = b).
  { intros a' b' E' M'. assert (La : length a = length a').
    { pose proof (M a' b' (eq_trans (eq_sym E) E')). pose proof (M' a b (eq_trans (eq_sym E') E)). lia. }
    rewrite E in E'. apply app_same in E'; [|exact La]. destruct E' as [_ E']. now apply app_inv_head in E'. }
  destruct (find p b) as [j|] eqn:F.
  - apply find_first in F. destruct F as (u & v & Eb & Lu & Mu).
    assert (Fi : firstn j b = u) by (rewrite Eb, <- Lu, firstn_app, firstn_all, Nat.sub_diag; apply app_nil_r). rewrite Fi. split.
    + intros <-. exists a, b. split; [exact E|]. split; [exact M|]. right. exists v. split; [exact Eb|exact Mu].
    + intros (a' & r & E' & M' & H). pose proof (U a' r E' M'). subst r. destruct H as [[A ->]|(q & Eq & Mq)].
      * exfalso. exact (A u v Eb).
      * assert (Lt : length u = length t).
        { pose proof (Mu t q (eq_trans (eq_sym Eb) Eq)). pose proof (Mq u v (eq_trans (eq_sym Eq) Eb)). lia. }
        rewrite Eb in Eq. apply app_same in Eq; [|exact Lt]. tauto.
  - assert (A : missing p b) by (exact (proj1 (find_none p b) F)). split.
    + intros <-. exists a, b. split; [exact E|]. split; [exact M|]. left. auto.
    + intros (a' & r & E' & M' & H). pose proof (U a' r E' M'). subst r. destruct H as [[_ ->]|(q & Eq & _)]; [reflexivity|]. exfalso. exact (A t q Eq).
Qed.

(** The configuration of a heavy element. *)
Lemma heavy_parts conf t : heavy_configuration conf = Ok t <->
  (exists r, second_part (str "[XE]") conf r /\ t = show_all xe_pieces ++ r) \/
  (missing (str "[XE]") conf /\ exists r, second_part (str "[RN]") conf r /\ t = show_all rn_pieces ++ r).
Proof.
  assert (Occ : forall p, occurs p conf = true \/ (occurs p conf = false /\ missing p conf)).
  { intros p. destruct (occurs p conf) eqn:E; [now left|right]. split; [reflexivity|]. intros a b H.
    assert (X : occurs p conf = true) by (apply occurs_spec; eauto). congruence. }
  assert (In2 : forall p r, second_part p conf r -> exists a b, conf = a ++ p ++ b) by (intros p r (a & b & E & _); eauto).
  assert (Cx : xe_core = show_all xe_pieces) by reflexivity. assert (Cr : rn_core = show_all rn_pieces) by reflexivity.
  unfold heavy_configuration. change (txt "[XE]") with (str "[XE]"). change (txt "[RN]") with (str "[RN]"). rewrite Cx, Cr.
  generalize (show_all xe_pieces) (show_all rn_pieces). intros cx cr.
  destruct (Occ (str "[XE]")) as [X|[X M]]; rewrite X.
  - apply occurs_spec in X. split.
    + intros H. injection H as <-. left. eexists. split; [now apply split_second_part|reflexivity].
    + intros [(r & H & ->)|(M & _)]; [|destruct X as (a & b & E); exfalso; exact (M a b E)].
      f_equal. f_equal. now apply split_second_part.
  - destruct (Occ (str "[RN]")) as [Y|[Y M']]; rewrite Y.
    + apply occurs_spec in Y. split.
      * intros H. injection H as <-. right. split; [exact M|]. eexists. split; [now apply split_second_part|reflexivity].
      * intros [(r & H & _)|(_ & r & H & ->)]; [apply In2 in H; destruct H as (a & b & E); exfalso; exact (M a b E)|].
        f_equal. f_equal. now apply split_second_part.
    + split; [discriminate|]. intros [(r & H & _)|(_ & r & H & _)]; apply In2 in H; destruct H as (a & b & E); exfalso; [exact (M a b E)|exact (M' a b E)].
Qed.

(** The column of an orbital. *)
Lemma py_int_char a : py_int [a] = if is_digit a then Ok (digit_val a) else Raise ValueError.
Proof. destruct a as [[] [] [] [] [] [] [] []]; reflexivity. Qed.
Lemma get_column_any o :
  get_column o = match o with
                 | a :: c :: _ => match SpecLine.place c (str "SPDF") with
                                  | Some l => if decimal_digit a then Ok (Z.of_nat (nat_of_ascii a - 48) + 1 - Z.of_nat l)%Z else Raise ValueError
                                  | None => Raise ValueError
                                  end
                 | _ => Raise IndexError
                 end.
Proof.
  destruct o as [|a [|c o]]; [reflexivity..|]. unfold get_column. cbn [nth_error firstn str list_ascii_of_string place].
  rewrite py_int_char, decimal_is_digit.
  destruct (Ascii.eqb c "S"), (Ascii.eqb c "P"), (Ascii.eqb c "D"), (Ascii.eqb c "F"); cbn [option_map]; destruct (is_digit a); cbn [bind]; try reflexivity; f_equal; unfold digit_val; lia.
Qed.

(** Python indices. *)
Lemma py_get_any {A} (l : list A) i : py_get l i =
  match (if (0 <=? i)%Z then nth_error l (Z.to_nat i) else nth_error (rev l) (Z.to_nat (- i - 1))) with
  | Some x => Ok x | None => Raise IndexError end.
Proof.
  unfold py_get. destruct (Z.leb_spec 0 i) as [H|H]; destruct (Z.ltb_spec i 0) as [H'|H']; try lia.
  - destruct (Z.ltb_spec i 0); [lia|]. reflexivity.
  - destruct (Z.ltb_spec (i + Z.of_nat (length l)) 0) as [B|B].
    + rewrite (proj2 (nth_error_None _ _)); [reflexivity|]. rewrite rev_length. lia.
    + assert (E : nth_error (rev l) (Z.to_nat (- i - 1)) = nth_error l (Z.to_nat (i + Z.of_nat (length l)))); [|now rewrite E].
      set (j := Z.to_nat (i + Z.of_nat (length l))). assert (Hj : j < length l) by lia.
      replace (Z.to_nat (- i - 1)) with (length l - S j) by lia.
      destruct (nth_error l j) as [x|] eqn:E; [|apply nth_error_None in E; lia].
      rewrite (nth_error_nth' _ x) by (rewrite rev_length; lia). rewrite rev_nth by lia.
      replace (length l - S (length l - S j)) with j by lia. f_equal. now apply nth_error_nth.
Qed.
