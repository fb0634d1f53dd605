(** Electron configurations. *)
From Coq Require Import String Ascii List Bool Arith ZArith Lia.
From Verif Require Import XR PyText SpecParse ProofText ModelParse.
Import ListNotations.
Local Open Scope list_scope.

Lemma decimal_1 n : n <= 9 -> decimal n = [ascii_of_nat (48 + n)].
Proof. intros H. do 10 (destruct n as [|n]; [reflexivity|]). lia. Qed.
Lemma label_orb n l : n <= 9 -> label n l = orb n (l_char l).
Proof. intros H. unfold label, orb. rewrite decimal_1 by lia. reflexivity. Qed.

Lemma shell_letter_not_digit l : is_digit (l_char l) = false.
Proof. do 4 (destruct l as [|l]; [reflexivity|]). destruct l; reflexivity. Qed.
Lemma l_char_inj l l' : l <= 3 -> l' <= 3 -> l_char l = l_char l' -> l = l'.
Proof. intros H H'. do 4 (destruct l as [|l]; [do 4 (destruct l' as [|l']; [try discriminate; auto|]); lia|]). lia. Qed.
Lemma digit_inj n n' : n <= 9 -> n' <= 9 -> ascii_of_nat (48 + n) = ascii_of_nat (48 + n') -> n = n'.
Proof. intros H H' E. apply (f_equal nat_of_ascii) in E. rewrite !nat_ascii_embedding in E by lia. lia. Qed.
Lemma digit_is_digit n : n <= 9 -> is_digit (ascii_of_nat (48 + n)) = true.
Proof. intros H. unfold is_digit. rewrite nat_ascii_embedding by lia. cbv zeta. rewrite andb_true_iff, !Nat.leb_le. lia. Qed.

Definition key (nl : nat * nat) : text := orb (fst nl) (l_char (snd nl)).
Definition grid : list (nat * nat) :=
  map (fun n => (n, 0)) (seq 1 7) ++ map (fun n => (n, 1)) (seq 2 6) ++
  map (fun n => (n, 2)) (seq 3 5) ++ map (fun n => (n, 3)) (seq 4 4).
Lemma all_orbitals_grid : all_orbitals = map key grid.
Proof. reflexivity. Qed.
Lemma grid_ok n l : In (n, l) grid <-> subshell_ok n l.
Proof.
  unfold grid, subshell_ok. rewrite !in_app_iff, !in_map_iff. split.
  - intros [(x & E & H)|[(x & E & H)|[(x & E & H)|(x & E & H)]]]; inversion E; subst; apply in_seq in H; lia.
  - intros [H1 H2]. destruct l as [|[|[|[|l]]]]; [left|right; left|do 2 right; left|do 3 right|lia]; exists n; (split; [reflexivity|apply in_seq; lia]).
Qed.
Lemma key_inj a b : subshell_ok (fst a) (snd a) -> subshell_ok (fst b) (snd b) -> key a = key b -> a = b.
Proof.
  destruct a as [n l], b as [n' l']. unfold subshell_ok, key, orb. cbn [fst snd]. intros H H' E. apply cons_inj in E. destruct E as [E1 E2]. apply cons_inj in E2. destruct E2 as [E2 _].
  apply l_char_inj in E2; try lia. f_equal; auto. apply digit_inj; auto; lia.
Qed.
Lemma all_orbitals_nodup : NoDup all_orbitals.
Proof.
  assert (G : forall l : list text, (forall i j, i < length l -> j < length l -> nth i l [] = nth j l [] -> i = j) -> NoDup l) by
    (intros l H; apply (NoDup_nth l []); exact H).
  assert (B : (fix nd (l : list text) := match l with [] => true | x :: t => negb (existsb (text_eqb x) t) && nd t end) all_orbitals = true) by (vm_compute; reflexivity).
  clear G. revert B. generalize all_orbitals. induction l as [|x t IH]; intros B; constructor; apply andb_true_iff in B; destruct B as [B1 B2]; auto.
  intros I. apply negb_true_iff in B1. assert (existsb (text_eqb x) t = true); [|congruence].
  apply existsb_exists. exists x. split; auto. apply text_eqb_refl.
Qed.

(** A label matches only at the head of its own piece. *)
Lemma starts_key_cons n l c s : n <= 9 -> starts (orb n (l_char l)) (c :: s) = true ->
  c = ascii_of_nat (48 + n) /\ exists t, s = l_char l :: t.
Proof.
  intros Hn H. destruct (starts_spec _ _ H) as (r & E). unfold orb in E. cbn [app] in E. apply cons_inj in E. destruct E as [E1 E2]. split; eauto.
Qed.
Definition headed (p : ascii -> Prop) (s : text) : Prop := match s with [] => True | c :: _ => p c end.
(** A run of characters each followed by something that is not a subshell letter. *)
Lemma no_start_run n l a b : n <= 9 -> (forall c, In c (tl a) -> c <> l_char l) -> headed (fun c => c <> l_char l) b \/ (exists a' x, a = a' ++ [x] /\ is_digit x = false) ->
  forall i, i < length a -> starts (orb n (l_char l)) (skipn i (a ++ b)) = false.
Proof.
  intros Hn. induction a as [|c a IH]; intros H Hb i Hi; [cbn in Hi; lia|].
  destruct i as [|i].
  - cbn [skipn app]. destruct (starts _ _) eqn:E; auto. exfalso. apply starts_key_cons in E; auto. destruct E as (-> & t & E).
    destruct a as [|d a]; cbn in E.
    + destruct Hb as [Hb|(a' & x & E' & D)].
      * subst b. cbn in Hb. congruence.
      * destruct a' as [|y a']; [|destruct a'; discriminate]. cbn [app] in E'. apply cons_inj in E'. destruct E' as [<- _]. assert (D' := digit_is_digit n Hn). congruence.
    + apply cons_inj in E. destruct E as [E1 E2]. apply (H d); cbn; auto.
  - cbn [skipn app]. apply IH; [|destruct Hb as [Hb|(a' & x & E & D)]; auto|cbn in Hi; lia].
    + intros d Hd. apply H. cbn. destruct a; [destruct Hd|right; exact Hd].
    + destruct a' as [|y a']; [|right; exists a', x; split; auto; cbn [app] in E; now apply cons_inj in E].
      cbn [app] in E. apply cons_inj in E. destruct E as [-> ->]. cbn in Hi. lia.
Qed.

Lemma l_char_ne l d : l <= 3 -> is_digit d = true \/ d = "("%char \/ d = ")"%char -> d <> l_char l.
Proof.
  intros Hl H. do 4 (destruct l as [|l]; [destruct H as [H|[-> | ->]]; [intros ->; discriminate|discriminate|discriminate]|]). lia.
Qed.

Definition ends_close (s : text) : Prop := exists a, s = a ++ [")"%char].
Lemma show_ends p : exists a, show p = a ++ [")"%char].
Proof.
  destruct p as [k|n l c]; cbn [show].
  - eexists (_ :: str "(" ++ decimal (2 * k * k)). reflexivity.
  - exists (label n l ++ str "(" ++ decimal c). rewrite <- !app_assoc. reflexivity.
Qed.

(** Where a label is found. *)
Lemma no_start_closed n l k : n <= 9 -> l <= 3 -> forall b i, i < length (show (Closed k)) ->
  starts (orb n (l_char l)) (skipn i (show (Closed k) ++ b)) = false.
Proof.
  intros Hn Hl b. apply no_start_run; auto.
  - intros c Hc. apply l_char_ne; auto. cbn [show tl] in Hc. apply in_app_or in Hc. destruct Hc as [[<-|[]]|Hc]; auto.
    apply in_app_or in Hc. destruct Hc as [Hc|[<-|[]]]; auto. left. eapply decimal_digits; eauto.
  - right. destruct (show_ends (Closed k)) as (a & ->). exists a, ")"%char. auto.
Qed.
Lemma no_start_sub n l n' l' c : subshell_ok n l -> subshell_ok n' l' -> (n, l) <> (n', l') -> forall b i, i < length (show (Sub n' l' c)) ->
  starts (orb n (l_char l)) (skipn i (show (Sub n' l' c) ++ b)) = false.
Proof.
  intros [H1 H2] [H3 H4] N b i Hi. cbn [show] in *. rewrite label_orb in * by lia. unfold orb in Hi |- * . cbn [app length] in Hi |- *.
  fold (orb n (l_char l)). destruct i as [|[|i]].
  - cbn [skipn]. destruct (starts _ _) eqn:E; auto. exfalso. apply starts_key_cons in E; [|lia]. destruct E as (E & t & E').
    apply cons_inj in E'. destruct E' as [E' _]. apply N. f_equal; [apply digit_inj in E; lia|]. apply l_char_inj in E'; lia.
  - cbn [skipn]. destruct (starts _ _) eqn:E; auto. exfalso. apply starts_key_cons in E; [|lia]. destruct E as (E & _).
    assert (D := shell_letter_not_digit l'). rewrite E, digit_is_digit in D by lia. discriminate.
  - cbn [skipn]. change ("("%char :: decimal c ++ [")"%char]) with (str "(" ++ decimal c ++ str ")") in *.
    apply (no_start_run n l ("("%char :: decimal c ++ [")"%char]) b); [lia| | |cbn in Hi |- *; lia].
    + intros d Hd. apply l_char_ne; [lia|]. cbn [tl] in Hd. apply in_app_or in Hd. destruct Hd as [Hd|[<-|[]]]; auto. left. eapply decimal_digits; eauto.
    + right. exists ("("%char :: decimal c), ")"%char. split; auto.
Qed.

Lemma no_start_piece n l p : subshell_ok n l -> piece_ok p -> (forall c, p <> Sub n l c) -> forall b i, i < length (show p) ->
  starts (orb n (l_char l)) (skipn i (show p ++ b)) = false.
Proof.
  intros H1 H2 H3. destruct p as [k|n' l' c].
  - apply no_start_closed; destruct H1; lia.
  - apply no_start_sub; auto. apply H2. intros E. injection E as -> ->. now apply (H3 c).
Qed.

Lemma starts_prefix p q s : starts p s = false -> starts (p ++ q) s = false.
Proof.
  revert s. induction p as [|a p IH]; intros [|b s]; cbn; try discriminate; auto.
  destruct (Ascii.eqb a b); cbn; auto.
Qed.
Lemma search_skip o a b : (forall i, i < length a -> starts o (skipn i (a ++ b)) = false) ->
  search_count o (a ++ b) = search_count o b.
Proof.
  induction a as [|x a IH]; intros H; auto. cbn [app search_count].
  assert (H0 := H 0 ltac:(cbn; lia)). cbn [skipn app] in H0. rewrite (starts_prefix _ _ _ H0).
  apply IH. intros i Hi. apply (H (S i)). cbn. lia.
Qed.
Lemma until_close_digits d b : (forall c, In c d -> is_digit c = true) -> until_close (d ++ ")"%char :: b) = Some d.
Proof.
  induction d as [|c d IH]; intros H; [reflexivity|]. cbn. destruct (Ascii.eqb_spec c ")") as [->|N].
  - assert (D := H ")"%char (or_introl eq_refl)). discriminate.
  - rewrite IH by (intros x Hx; apply H; now right). reflexivity.
Qed.

(** ** One orbital *)

Lemma show_all_cons p ps : show_all (p :: ps) = show p ++ show_all ps.
Proof. reflexivity. Qed.

Lemma absent n l ps : subshell_ok n l -> Forall piece_ok ps -> (forall c, ~ In (Sub n l c) ps) ->
  find (orb n (l_char l)) (show_all ps) = None.
Proof.
  intros H. induction 1 as [|p ps Hp Hps IH]; intros N; [reflexivity|]. rewrite show_all_cons, find_skip.
  - rewrite IH; auto. intros c Hc. apply (N c). now right.
  - apply no_start_piece; auto. intros c E. apply (N c). now left.
Qed.
Lemma present n l c ps : subshell_ok n l -> Forall piece_ok ps -> (forall c', In (Sub n l c') ps -> c' = c) -> In (Sub n l c) ps ->
  exists a b, show_all ps = a ++ show (Sub n l c) ++ b /\ find (orb n (l_char l)) (show_all ps) = Some (length a) /\
  search_count (orb n (l_char l)) (show_all ps) = search_count (orb n (l_char l)) (show (Sub n l c) ++ b).
Proof.
  intros H. induction 1 as [|p ps Hp Hps IH]; intros U I; [destruct I|].
  assert (D : p = Sub n l c \/ forall c', p <> Sub n l c').
  { destruct p as [k|n' l' c']; [right; discriminate|]. destruct (Nat.eq_dec n' n) as [->|N]; [|right; congruence].
    destruct (Nat.eq_dec l' l) as [->|N]; [|right; congruence]. left. f_equal. apply U. now left. }
  destruct D as [->|D].
  - exists [], (show_all ps). split; [reflexivity|]. split; auto. rewrite show_all_cons. cbn [show]. rewrite label_orb by (destruct H; lia).
    rewrite <- app_assoc. apply find_here.
  - destruct IH as (a & b & E & F & S); [intros c' Hc; apply U; now right|destruct I; auto; congruence|].
    assert (Z := no_start_piece n l p H Hp D (show_all ps)).
    exists (show p ++ a), b. rewrite show_all_cons. repeat split.
    + rewrite E, app_assoc. reflexivity.
    + rewrite find_skip, F by auto. cbn. now rewrite app_length.
    + rewrite search_skip; auto.
Qed.

Lemma count_one n l ps out : subshell_ok n l -> Forall piece_ok ps -> forall c, (forall c', In (Sub n l c') ps -> c' = c) -> In (Sub n l c) ps ->
  count_orbital (show_all ps) out (orb n (l_char l)) = Ok (dset (orb n (l_char l)) (Z.of_nat c) out).
Proof.
  intros H Hps c U I. destruct (present n l c ps H Hps U I) as (a & b & E & F & S).
  assert (P : piece_ok (Sub n l c)) by (rewrite Forall_forall in Hps; auto).
  unfold count_orbital. rewrite F. destruct H as [H1 H2].
  assert (L : nth 1 (orb n (l_char l)) "?"%char = l_char l) by reflexivity. rewrite L.
  assert (C : forall r, (do g <- r; py_int g) = Ok (Z.of_nat c) -> (do n0 <- (do g <- r; py_int g); Ok (dset (orb n (l_char l)) n0 out)) = Ok (dset (orb n (l_char l)) (Z.of_nat c) out)) by (intros r ->; reflexivity).
  destruct (Ascii.eqb (l_char l) "D" || Ascii.eqb (l_char l) "F") eqn:B.
  - apply C. rewrite S. cbn [show]. rewrite label_orb by lia. rewrite <- !app_assoc.
    assert (Q : search_count (orb n (l_char l)) (orb n (l_char l) ++ str "(" ++ decimal c ++ str ")" ++ b) = Ok (decimal c)).
    { unfold orb. cbn [app str list_ascii_of_string search_count].
      change [ascii_of_nat (48 + n); l_char l; "("%char] with ([ascii_of_nat (48 + n); l_char l; "("%char]).
      change (ascii_of_nat (48 + n) :: l_char l :: "("%char :: decimal c ++ ")"%char :: b) with ([ascii_of_nat (48 + n); l_char l; "("%char] ++ decimal c ++ ")"%char :: b).
      rewrite starts_app. cbn [length Nat.add app skipn]. rewrite until_close_digits; [reflexivity|apply decimal_digits]. }
    rewrite Q. cbn. apply py_int_decimal.
  - destruct P as [_ P]. assert (c <= 9). { apply P. destruct l as [|[|[|[|l]]]]; [lia|lia|discriminate|discriminate|lia]. }
    rewrite E. cbn [show]. rewrite label_orb by lia. rewrite skipn_app.
    rewrite skipn_all2 by lia. replace (length a + 3 - length a) with 3 by lia. cbn [app].
    unfold orb. rewrite <- app_assoc. cbn [app str list_ascii_of_string skipn].
    rewrite (decimal_1 c) by auto. cbn [app firstn]. rewrite <- (decimal_1 c) by auto. rewrite py_int_decimal. reflexivity.
Qed.

(** ** Closed shells *)
Definition k_char (k : nat) : ascii := nth (k - 1) ["K"; "L"; "M"; "N"]%char "?"%char.
Lemma k_char_in k ps : 1 <= k <= 4 -> Forall piece_ok ps -> (In (k_char k) (show_all ps) <-> In (Closed k) ps).
Proof.
  intros Hk. induction 1 as [|p ps Hp Hps IH]; [reflexivity|]. rewrite show_all_cons, in_app_iff, IH. cbn [In].
  assert (In (k_char k) (show p) <-> p = Closed k).
  { assert (D : forall c, is_digit c = true \/ c = "("%char \/ c = ")"%char -> c <> k_char k).
    { intros c Hc. destruct k as [|[|[|[|[|k]]]]]; try lia; destruct Hc as [Hc|[-> | ->]]; try discriminate; intros ->; discriminate. }
    split.
    - destruct p as [j|n l c]; cbn [show].
      + intros [E|H].
        * f_equal. cbn in Hp. destruct j as [|[|[|[|[|j]]]]]; try lia; destruct k as [|[|[|[|[|k]]]]]; try lia; try discriminate; reflexivity.
        * exfalso. apply in_app_or in H. destruct H as [[H|[]]|H]; [revert H; apply D; auto|].
          apply in_app_or in H. destruct H as [H|[H|[]]]; [|revert H; apply D; auto]. eapply D; [left; eapply decimal_digits; exact H|reflexivity].
      + rewrite label_orb by (cbn in Hp; unfold subshell_ok in Hp; lia). intros H. exfalso.
        destruct Hp as [[Hp1 Hp2] _]. destruct H as [H|[H|H]].
        * revert H. apply D. left. apply digit_is_digit. lia.
        * destruct l as [|[|[|[|l]]]]; try lia; destruct k as [|[|[|[|[|k]]]]]; try lia; discriminate.
        * destruct H as [H|H]; [revert H; apply D; auto|].
          change (In (k_char k) (decimal c ++ [")"%char])) in H. apply in_app_or in H. destruct H as [H|[H|[]]]; [|revert H; apply D; auto]. eapply D; [left; eapply decimal_digits; exact H|reflexivity].
    - intros ->. left. reflexivity. }
  rewrite H. reflexivity.
Qed.

Definition zeros : dict Z := map (fun o => (o, 0%Z)) all_orbitals.
(** Value after the closed shells, as a function of the four flags. *)
Definition flagged (b1 b2 b3 b4 : bool) : dict Z :=
  fold_left (fun o (x : bool * ascii) => if fst x then fold_left (fun o' p => dset (fst p) (snd p) o') (shell_fill (snd x)) o else o)
    [(b1, "K"%char); (b2, "L"%char); (b3, "M"%char); (b4, "N"%char)] zeros.
Lemma closed_flagged conf : closed_shells conf zeros = flagged (occurs ["K"%char] conf) (occurs ["L"%char] conf) (occurs ["M"%char] conf) (occurs ["N"%char] conf).
Proof. reflexivity. Qed.
Lemma flagged_get b1 b2 b3 b4 n l : In (n, l) grid ->
  dget (key (n, l)) (flagged b1 b2 b3 b4) =
  Some (if nth (n - 1) [b1; b2; b3; b4] false then Z.of_nat (2 * (2 * l + 1)) else 0%Z).
Proof.
  intros H. assert (G : forallb (fun nl => match dget (key nl) (flagged b1 b2 b3 b4) with
     | Some v => Z.eqb v (if nth (fst nl - 1) [b1; b2; b3; b4] false then Z.of_nat (2 * (2 * snd nl + 1)) else 0%Z) | None => false end) grid = true).
  { destruct b1, b2, b3, b4; vm_compute; reflexivity. }
  rewrite forallb_forall in G. specialize (G _ H). cbn [fst snd] in G. destruct (dget _ _); [|discriminate]. apply Z.eqb_eq in G. congruence.
Qed.
Lemma flagged_keys b1 b2 b3 b4 : map fst (flagged b1 b2 b3 b4) = all_orbitals.
Proof. destruct b1, b2, b3, b4; vm_compute; reflexivity. Qed.

(** ** All orbitals *)
Definition listed (ps : list piece) (nl : nat * nat) : option nat :=
  match List.find (fun p => match p with Sub n l _ => Nat.eqb n (fst nl) && Nat.eqb l (snd nl) | _ => false end) ps with
  | Some (Sub _ _ c) => Some c
  | _ => None
  end.
Lemma listed_some ps n l c : listed ps (n, l) = Some c -> In (Sub n l c) ps.
Proof.
  unfold listed. destruct (List.find _ _) as [[k|n' l' c']|] eqn:E; try discriminate. intros H. injection H as <-.
  apply List.find_some in E. destruct E as [I B]. apply andb_true_iff in B. rewrite !Nat.eqb_eq in B. destruct B as [-> ->]. exact I.
Qed.
Lemma listed_none ps n l : listed ps (n, l) = None -> forall c, ~ In (Sub n l c) ps.
Proof.
  unfold listed. destruct (List.find _ _) as [[k|n' l' c']|] eqn:E; try discriminate; intros _ c I.
  - apply List.find_some in E. destruct E; discriminate.
  - apply (List.find_none _ _ E) in I. cbn in I. rewrite !Nat.eqb_refl in I. discriminate.
Qed.
Lemma distinct_unique ps n l c c' : distinct ps -> In (Sub n l c) ps -> In (Sub n l c') ps -> c' = c.
Proof.
  intros D H H'. apply In_nth_error in H. apply In_nth_error in H'. destruct H as (i & H), H' as (j & H').
  assert (i = j) by (eapply D; eauto). subst. congruence.
Qed.
Lemma count_all ps nls : Forall piece_ok ps -> distinct ps -> (forall nl, In nl nls -> subshell_ok (fst nl) (snd nl)) -> forall out,
  exists d, foldM (count_orbital (show_all ps)) (map key nls) out = Ok d /\
  (forall k, dget k d = match List.find (fun nl => text_eqb k (key nl) && match listed ps nl with Some _ => true | None => false end) nls with
     | Some nl => match listed ps nl with Some c => Some (Z.of_nat c) | None => None end
     | None => dget k out end) /\
  (incl (map key nls) (map fst out) -> map fst d = map fst out).
Proof.
  intros H D. induction nls as [|[n l] nls IH]; intros N out; [exists out; auto|].
  assert (N0 := N (n, l) (or_introl eq_refl)). cbn [fst snd] in N0.
  assert (N' : forall nl, In nl nls -> subshell_ok (fst nl) (snd nl)) by (intros nl I; apply N; now right).
  cbn [map foldM]. change (key (n, l)) with (orb n (l_char l)) at 1.
  destruct (listed ps (n, l)) as [c|] eqn:E.
  - rewrite (count_one n l ps out N0 H c) by (try apply listed_some in E; eauto using distinct_unique, listed_some). cbn [bind].
    destruct (IH N' (dset (orb n (l_char l)) (Z.of_nat c) out)) as (d & E1 & E2 & E3). exists d. split; [exact E1|]. split.
    + intros k. rewrite E2. cbn [List.find]. rewrite E, andb_true_r, dget_dset. change (orb n (l_char l)) with (key (n, l)).
      destruct (List.find _ nls) as [nl|] eqn:F.
      * destruct (text_eqb_spec k (key (n, l))) as [->|M]; auto.
        apply List.find_some in F. destruct F as [F1 F2]. apply andb_true_iff in F2. destruct F2 as [F2 _].
        destruct (text_eqb_spec (key (n, l)) (key nl)) as [K|]; [|discriminate]. apply key_inj in K; auto. subst nl. rewrite E. reflexivity.
      * destruct (text_eqb k (key (n, l))); auto. rewrite E. reflexivity.
    + intros I. rewrite E3; [apply dset_keys|rewrite dset_keys]; try (apply I; now left). intros x Hx. apply I. now right.
  - assert (F := absent n l ps N0 H (listed_none _ _ _ E)). unfold count_orbital at 1. rewrite F. cbn [bind].
    destruct (IH N' out) as (d & E1 & E2 & E3). exists d. split; [exact E1|]. split.
    + intros k. rewrite E2. cbn [List.find]. rewrite E, andb_false_r. reflexivity.
    + intros I. apply E3. intros x Hx. apply I. now right.
Qed.

Lemma piece_dec (a b : piece) : {a = b} + {a <> b}.
Proof. decide equality; apply Nat.eq_dec. Qed.

(** The dictionary before zero counts are dropped. *)
Lemma occupations_raw ps : Forall piece_ok ps -> distinct ps ->
  exists d, occupations (show_all ps) = Ok (filter (fun p => negb (snd p =? 0)%Z) d) /\ map fst d = all_orbitals /\
  forall n l c, subshell_ok n l -> electrons ps n l c -> dget (key (n, l)) d = Some (Z.of_nat c).
Proof.
  intros H D. unfold occupations. fold zeros. rewrite closed_flagged.
  set (b x := occurs [x] (show_all ps)).
  assert (Bk : forall k, 1 <= k <= 4 -> (b (k_char k) = true <-> In (Closed k) ps)).
  { intros k Hk. unfold b. rewrite occurs_char. now apply k_char_in. }
  change (occurs ["K"%char] (show_all ps)) with (b (k_char 1)). change (occurs ["L"%char] (show_all ps)) with (b (k_char 2)).
  change (occurs ["M"%char] (show_all ps)) with (b (k_char 3)). change (occurs ["N"%char] (show_all ps)) with (b (k_char 4)).
  set (out := flagged _ _ _ _).
  destruct (count_all ps grid H D (fun nl I => proj1 (grid_ok (fst nl) (snd nl)) ltac:(destruct nl; exact I)) out) as (d & E1 & E2 & E3).
  rewrite all_orbitals_grid, E1. cbn [bind]. exists d. split; [reflexivity|].
  assert (K : map fst d = all_orbitals). { rewrite E3; unfold out; rewrite flagged_keys; auto. rewrite all_orbitals_grid. apply incl_refl. }
  assert (V : forall n l c, subshell_ok n l -> electrons ps n l c -> dget (key (n, l)) d = Some (Z.of_nat c)).
  { intros n l c S X. rewrite E2. assert (I : In (n, l) grid) by now apply grid_ok.
    destruct (List.find _ grid) as [nl|] eqn:F.
    - apply List.find_some in F. destruct F as [F1 F2]. apply andb_true_iff in F2. destruct F2 as [F2 F3].
      destruct (text_eqb_spec (key (n, l)) (key nl)) as [Q|]; [|discriminate].
      apply key_inj in Q; auto; [|destruct nl; now apply grid_ok]. subst nl. destruct (listed ps (n, l)) as [c'|] eqn:L; [|discriminate].
      apply listed_some in L. do 2 f_equal. destruct X as [X|[[X _]|[X _]]]; [eapply distinct_unique; eauto|destruct (X _ L)|destruct (X _ L)].
    - assert (F0 := List.find_none _ _ F _ I). cbn beta in F0. rewrite text_eqb_refl in F0. cbn [andb] in F0.
      destruct (listed ps (n, l)) as [c'|] eqn:L; [discriminate|]. assert (L' := listed_none _ _ _ L).
      unfold out. rewrite flagged_get by auto. f_equal.
      assert (W : nth (n - 1) [b (k_char 1); b (k_char 2); b (k_char 3); b (k_char 4)] false = true <-> In (Closed n) ps).
      { destruct S as [S1 S2]. destruct n as [|[|[|[|[|n]]]]]; [lia|apply Bk; lia|apply Bk; lia|apply Bk; lia|apply Bk; lia|].
        split. - cbn. destruct n; discriminate. - intros J. rewrite Forall_forall in H. apply H in J. cbn in J. lia. }
      destruct X as [X|[(_ & X & ->)|(_ & X & ->)]]; [destruct (L' _ X)| |].
      + apply W in X. rewrite X. reflexivity.
      + destruct (nth _ _ _) eqn:Y; [|reflexivity]. destruct (X (proj1 W eq_refl)). }
  auto.
Qed.

Lemma occupations_ok ps : Forall piece_ok ps -> distinct ps ->
  exists d, occupations (show_all ps) = Ok d /\
    (forall n l c, subshell_ok n l -> electrons ps n l c ->
       dget (label n l) d = if Nat.eqb c 0 then None else Some (Z.of_nat c)) /\
    (forall k v, In (k, v) d -> exists n l c, subshell_ok n l /\ electrons ps n l c /\ k = label n l /\ v = Z.of_nat c) /\
    NoDup (map fst d).
Proof.
  intros H D. destruct (occupations_raw ps H D) as (d & E & K & V). rewrite E. eexists. split; [reflexivity|].
  assert (ND : NoDup (map fst d)) by (rewrite K; apply all_orbitals_nodup).
  split; [|split].
  - intros n l c S X. rewrite label_orb by (destruct S; lia). rewrite (dget_filter _ (fun v => negb (v =? 0)%Z)) by auto. change (orb n (l_char l)) with (key (n, l)).
    rewrite (V n l c S X). destruct c; reflexivity.
  - intros k v I. apply filter_In in I. destruct I as [I _]. assert (I' := in_map fst _ _ I). rewrite K, all_orbitals_grid in I'. cbn [fst] in I'.
    apply in_map_iff in I'. destruct I' as ((n & l) & <- & G). apply grid_ok in G.
    assert (X : exists c, electrons ps n l c).
    { destruct (listed ps (n, l)) as [c|] eqn:L; [exists c; left; now apply listed_some|]. assert (L' := listed_none _ _ _ L).
      destruct (in_dec piece_dec (Closed n) ps) as [J|J]; [exists (2 * (2 * l + 1)); right; left; auto|exists 0; right; right; auto]. }
    destruct X as (c & X). exists n, l, c. split; auto. split; auto. split; [rewrite label_orb by (destruct G; lia); reflexivity|].
    specialize (V n l c G X). clear -V I ND. set (q := key (n, l)) in *. clearbody q. induction d as [|[a x] d IHd]; [destruct I|]. cbn [dget map fst In] in *. inversion ND; subst.
    destruct I as [I|I].
    + injection I as -> ->. rewrite text_eqb_refl in V. congruence.
    + destruct (text_eqb_spec q a) as [E|E]; auto. subst a. exfalso. apply H1. apply (in_map fst) in I. exact I.
  - clear -ND. induction d as [|[a x] d IHd]; cbn; [constructor|]. inversion ND; subst. destruct (negb _); cbn; auto.
    constructor; auto. intros I. apply H1. apply in_map_iff in I. destruct I as (y & E & I). apply filter_In in I. apply in_map_iff. exists y. tauto.
Qed.
