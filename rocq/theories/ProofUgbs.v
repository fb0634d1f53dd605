(** Proof of property C85: the shipped file of universal Gaussian exponents. *)
From Coq Require Import Reals String Ascii List Bool Arith ZArith Lia Lra Sorted.
From Verif Require Import XR PyStr PyText ModelParse SpecParse ProofText ProofConf ProofFile ProofCheck ProofNames SpecLoad SpecUgbs DataUgbs ProofElec.
Import ListNotations.
Local Open Scope nat_scope.

(** ** A checker for tables *)
Definition letterb (c : ascii) : bool := let n := nat_of_ascii c in (Nat.leb 65 n && Nat.leb n 90) || (Nat.leb 97 n && Nat.leb n 122).
Definition otherb (w : text) : bool :=
  match w with c :: _ => negb (letterb c) | [] => true end || text_eqb w (str "BASIS") || text_eqb w (str "END").
Definition shell (x : text) : option nat := match x with [c] => List.find (fun l => Ascii.eqb c (l_char l)) [0; 1; 2; 3] | _ => None end.
(** Mantissa and number of decimals. *)
Definition number (t : text) : option (Z * nat) :=
  match split_char "E" [] t with
  | [a] => match split_char "." [] a with
           | [d; e] => if negb (Nat.eqb (length e) 0) && forallb is_digit (d ++ e) then Some (dval (d ++ e), length e) else None
           | _ => None end
  | [a; g :: k] => match split_char "." [] a with
           | [d; e] => if Ascii.eqb g "-" && negb (Nat.eqb (length e) 0) && negb (Nat.eqb (length k) 0) && forallb is_digit (d ++ e ++ k)
                       then Some (dval (d ++ e), length e + Z.to_nat (dval k)) else None
           | _ => None end
  | _ => None
  end.
Fixpoint table (f : list text) : option (list (text * nat * (Z * nat))) :=
  match f with
  | [] => Some []
  | s :: r =>
    match words s with
    | [] => table r
    | w :: ws =>
      if otherb w then table r else
      match ws, r with
      | x :: _, y :: r' =>
        match shell x, words y with
        | Some l, t :: _ => match number t, table r' with Some v, Some es => if otherb t then Some ((w, l, v) :: es) else None | _, _ => None end
        | _, _ => None
        end
      | _, _ => None
      end
    end
  end.
Definition value (v : Z * nat) : R := (IZR (fst v) / 10 ^ snd v)%R.
Lemma split_single c : forall s cur q, split_char c cur s = [q] -> cur ++ s = q.
Proof.
  induction s as [|a s IH]; intros cur q H; cbn in H; [injection H as <-; now rewrite app_nil_r|].
  destruct (Ascii.eqb_spec a c) as [->|N]; [|apply IH in H; now rewrite <- app_assoc in H].
  exfalso. injection H as _ H. clear -H. assert (G : forall s cur, split_char c cur s <> []) by (induction s0 as [|b s0 IH0]; intros cur; cbn; [discriminate|]; destruct (Ascii.eqb b c); [discriminate|auto]). eapply G, H.
Qed.
Section Values.
Context (fl : text -> res xr) (Hd : reads_decimals fl) (Hs : reads_scientific fl).
Lemma number_ok t v : number t = Some v -> fl t = Ok (Fin (value v)).
Proof.
  unfold number. intros H. destruct (split_char "E" [] t) as [|a [|[|g k] [|? ?]]] eqn:S; try discriminate.
  - apply split_single in S. cbn [app] in S. subst t. destruct (split_char "." [] a) as [|d [|e [|? ?]]] eqn:S2; try discriminate.
    destruct (negb (Nat.eqb (length e) 0) && forallb is_digit (d ++ e)) eqn:C; [|discriminate]. injection H as <-. apply split_two in S2. destruct S2 as [S2 _]. cbn [app] in S2. subst a.
    apply andb_true_iff in C. destruct C as [C1 C2]. rewrite forallb_forall in C2. destruct (Hd d e) as [H _].
    + destruct e; [discriminate|congruence].
    + intros c I. apply is_digit_spec. auto.
    + change (fl (d ++ str "." ++ e) = Ok (Fin (value (dval (d ++ e), length e)))). rewrite H. unfold value. cbn [fst snd]. now rewrite dval_digits.
  - apply split_two in S. destruct S as [S _]. cbn [app] in S. subst t. destruct (split_char "." [] a) as [|d [|e [|? ?]]] eqn:S2; try discriminate.
    match type of H with (if ?b then _ else _) = _ => destruct b eqn:C; [|discriminate] end. injection H as <-. apply split_two in S2. destruct S2 as [S2 _]. cbn [app] in S2. subst a.
    rewrite !andb_true_iff in C. destruct C as [[[C0 C1] C2] C3]. apply Ascii.eqb_eq in C0. subst g. rewrite forallb_forall in C3.
    cbn [app]. replace (fl ((d ++ "."%char :: e) ++ "E"%char :: "-"%char :: k)) with (fl (d ++ str "." ++ e ++ str "E-" ++ k)) by (f_equal; rewrite <- app_assoc; reflexivity).
    rewrite (Hs d e k).
    + unfold value. cbn [fst snd]. now rewrite !dval_digits.
    + destruct e; [discriminate|congruence].
    + destruct k; [discriminate|congruence].
    + intros c I. apply is_digit_spec. auto.
Qed.
Definition entry (x : text * nat * (Z * nat)) : text * nat * xr := (fst x, Fin (value (snd x))).
Lemma table_ok f : forall es, table f = Some es -> exponent_table fl (fun w => otherb w = true) (map entry es) f.
Proof.
  induction f as [f IH] using (well_founded_induction (Wf_nat.well_founded_ltof _ (@length text))). unfold Wf_nat.ltof in IH. intros es H.
  destruct f as [|s r]; [injection H as <-; constructor|]. cbn [table] in H. pose proof (spaced_words s) as S. destruct (words s) as [|w ws] eqn:W.
  - apply table_other with []; [exact S|discriminate|]. apply IH; auto.
  - destruct (otherb w) eqn:O. { apply table_other with (w :: ws); [exact S|intros ? ? E; injection E as <- <-; auto|apply IH; auto]. }
    destruct ws as [|x ws]; [discriminate|]. destruct r as [|y r]; [discriminate|]. destruct (shell x) as [l|] eqn:Sh; [|discriminate]. pose proof (spaced_words y) as Sy. destruct (words y) as [|t ts]; [discriminate|].
    destruct (number t) as [v|] eqn:N; [|discriminate]. destruct (table r) as [es'|] eqn:T; [|discriminate]. destruct (otherb t) eqn:Ot; [|discriminate]. injection H as <-. cbn [map entry fst snd].
    assert (X : l <= 3 /\ x = [l_char l]).
    { unfold shell in Sh. destruct x as [|c [|? ?]]; try discriminate. apply find_some in Sh. destruct Sh as [I E]. apply Ascii.eqb_eq in E. subst c. split; auto. cbn in I. lia. }
    destruct X as [X ->]. apply table_entry with ws t ts; [exact X|exact S|exact Sy|now apply number_ok|exact Ot|]. apply IH; auto. cbn; lia.
Qed.
End Values.

(** ** The shipped file *)
Definition gtb (a b : Z * nat) : bool := (fst b * 10 ^ Z.of_nat (snd a) <? fst a * 10 ^ Z.of_nat (snd b))%Z.
Lemma gtb_ok a b : gtb a b = true -> (value b < value a)%R.
Proof.
  unfold gtb, value. intros H. apply Z.ltb_lt, IZR_lt in H. rewrite !mult_IZR, <- !pow_IZR in H.
  assert (P : (0 < 10 ^ snd a)%R) by (apply pow_lt; lra). assert (Q : (0 < 10 ^ snd b)%R) by (apply pow_lt; lra).
  apply Rmult_lt_reg_r with (10 ^ snd a * 10 ^ snd b)%R; [now apply Rmult_lt_0_compat|].
  replace (IZR (fst b) / 10 ^ snd b * (10 ^ snd a * 10 ^ snd b))%R with (IZR (fst b) * 10 ^ snd a)%R by (field; lra).
  replace (IZR (fst a) / 10 ^ snd a * (10 ^ snd a * 10 ^ snd b))%R with (IZR (fst a) * 10 ^ snd b)%R by (field; lra). exact H.
Qed.
Fixpoint falling (l : list (Z * nat)) : bool :=
  match l with
  | [] => true
  | a :: r => (0 <? fst a)%Z && match r with [] => true | b :: _ => gtb a b end && falling r
  end.
Lemma falling_ok l : falling l = true -> Forall (fun x => 0 < x)%R (map value l) /\ StronglySorted Rgt (map value l).
Proof.
  induction l as [|a l IH]; cbn [falling map]; [split; constructor|]. rewrite !andb_true_iff. intros [[P G] F]. apply IH in F. destruct F as [F1 F2].
  assert (Pa : (0 < value a)%R). { unfold value. apply Rdiv_lt_0_compat; [apply IZR_lt, Z.ltb_lt; exact P|apply pow_lt; lra]. }
  split; [constructor; auto|]. constructor; auto. destruct l as [|b l]; [constructor|]. apply gtb_ok in G. cbn [map] in *. inversion F2; subst. constructor; [exact G|].
  eapply Forall_impl; [|eassumption]. cbv beta. intros x Hx. unfold Rgt in *. lra.
Qed.
Definition picked (el : text) (l : nat) (es : list (text * nat * (Z * nat))) : list (Z * nat) :=
  map snd (filter (fun e => same_nameb (fst (fst e)) el && Nat.eqb (snd (fst e)) l) es).
Lemma chosen_picked el l es : chosen el l (map entry es) = map Fin (map value (picked el l es)).
Proof.
  unfold chosen, picked. induction es as [|[[w k] v] es IH]; auto. cbn [map filter entry fst snd]. destruct (same_nameb w el && Nat.eqb k l); auto. cbn [map snd]. now rewrite IH.
Qed.
Definition elementb (e : string) : bool := match str e with c :: _ => letterb c | [] => false end && negb (same_nameb (str "BASIS") (str e)) && negb (same_nameb (str "END") (str e)).
Definition group (e : text) (es : list (text * nat * (Z * nat))) : list (nat * (Z * nat)) :=
  map (fun x => (snd (fst x), snd x)) (filter (fun x => text_eqb (fst (fst x)) e) es).
Definition shells (l : nat) (g : list (nat * (Z * nat))) : list (Z * nat) := map snd (filter (fun x => Nat.eqb (fst x) l) g).
Definition group_ok (es : list (text * nat * (Z * nat))) (x : string * list nat) : bool :=
  let g := group (str (fst x)) es in
  Nat.eqb (length (snd x)) 4 && forallb (fun l => let v := shells l g in falling v && Nat.eqb (length v) (nth l (snd x) 0)) [0; 1; 2; 3].
Definition names_ok : bool :=
  forallb (fun x => elementb (fst x) && forallb (fun y => negb (same_nameb (str (fst x)) (str (fst y))) || String.eqb (fst x) (fst y)) ugbs_sizes) ugbs_sizes.
Definition file_ok (f : list text) : bool :=
  match table f with
  | Some es => forallb (group_ok es) ugbs_sizes && forallb (fun e => existsb (fun x => text_eqb (fst (fst e)) (str (fst x))) ugbs_sizes) es
  | None => false
  end.
Lemma names_checked : names_ok = true.
Proof. vm_compute. reflexivity. Qed.
Lemma ugbs_checked : file_ok (map str ygbs) = true.
Proof. vm_compute. reflexivity. Qed.

Lemma otherb_no s : elementb s = true -> forall w, otherb w = true -> ~ same_name w (str s).
Proof.
  unfold elementb. rewrite !andb_true_iff, !negb_true_iff. intros [[L B] E] w O S. unfold otherb in O. rewrite !orb_true_iff in O. destruct O as [[O|O]|O].
  - unfold same_name in S. destruct w as [|c w], (str s) as [|c' r]; try discriminate. apply negb_true_iff in O. cbn [map] in S. injection S as S _.
    unfold letterb in L, O. unfold upper_code in S. cbv zeta in *. set (a := nat_of_ascii c) in *. set (b := nat_of_ascii c') in *.
    apply orb_false_iff in O. rewrite !andb_false_iff, !Nat.leb_gt in O. rewrite orb_true_iff, !andb_true_iff, !Nat.leb_le in L.
    destruct (Nat.leb_spec 97 a), (Nat.leb_spec a 122), (Nat.leb_spec 97 b), (Nat.leb_spec b 122); lia.
  - destruct (text_eqb_spec w (str "BASIS")) as [Q|]; [|discriminate O]. rewrite Q in S. apply same_nameb_spec in S. congruence.
  - destruct (text_eqb_spec w (str "END")) as [Q|]; [|discriminate O]. rewrite Q in S. apply same_nameb_spec in S. congruence.
Qed.
Lemma same_name_elementb s e : same_name (str s) (str e) -> elementb e = true -> elementb s = true.
Proof.
  unfold elementb. intros S. rewrite !andb_true_iff, !negb_true_iff. intros [[L B] E]. repeat split.
  - unfold same_name in S. destruct (str s) as [|c w], (str e) as [|c' r]; try discriminate. cbn [map] in S. injection S as S _.
    unfold letterb in *. unfold upper_code in S. cbv zeta in *. set (a := nat_of_ascii c) in *. set (b := nat_of_ascii c') in *.
    rewrite orb_true_iff, !andb_true_iff, !Nat.leb_le in *.
    destruct (Nat.leb_spec 97 a), (Nat.leb_spec a 122), (Nat.leb_spec 97 b), (Nat.leb_spec b 122); lia.
  - destruct (same_nameb (str "BASIS") (str s)) eqn:X; auto. apply same_nameb_spec in X. rewrite <- B. symmetry. apply same_nameb_spec. unfold same_name in *. congruence.
  - destruct (same_nameb (str "END") (str s)) eqn:X; auto. apply same_nameb_spec in X. rewrite <- E. symmetry. apply same_nameb_spec. unfold same_name in *. congruence.
Qed.
Lemma picked_shells s e l es : same_name (str s) (str e) -> (forall x, In x es -> same_nameb (fst (fst x)) (str e) = text_eqb (fst (fst x)) (str e)) ->
  picked (str s) l es = shells l (group (str e) es).
Proof.
  intros S H. unfold picked, shells, group, text in *. induction es as [|x es IH]; auto. cbn [filter].
  assert (Q : same_nameb (fst (fst x)) (str s) = text_eqb (fst (fst x)) (str e)).
  { rewrite <- H by now left. apply eq_true_iff_eq. rewrite !same_nameb_spec. unfold same_name in *. now rewrite S. }
  rewrite Q. destruct (text_eqb (fst (fst x)) (str e)); cbn [andb map filter fst snd]; [|apply IH; intros; apply H; now right].
  destruct (Nat.eqb (snd (fst x)) l); cbn [map snd]; [f_equal|]; apply IH; intros; apply H; now right.
Qed.
Lemma str_inj a b : str a = str b -> a = b.
Proof. intros H. rewrite <- (string_of_list_ascii_of_string a), <- (string_of_list_ascii_of_string b). f_equal. exact H. Qed.

Section Shipped.
Context (fl : text -> res xr) (Hd : reads_decimals fl) (Hs : reads_scientific fl) (yg : list text) (Checked : file_ok yg = true).
Lemma shipped_table : exists es, exponent_table fl (fun w => otherb w = true) (map entry es) yg /\ forallb (group_ok es) ugbs_sizes = true /\
  forall x, In x es -> exists e ns, In (e, ns) ugbs_sizes /\ fst (fst x) = str e.
Proof.
  pose proof Checked as C. unfold file_ok in C. destruct (table yg) as [es|] eqn:T; [|discriminate]. apply andb_true_iff in C. destruct C as [C1 C2]. exists es.
  split; [now apply table_ok|]. split; auto. intros x I. rewrite forallb_forall in C2. specialize (C2 x I). apply existsb_exists in C2. destruct C2 as ([e ns] & J & E).
  exists e, ns. split; auto. destruct (text_eqb_spec (fst (fst x)) (str (fst (e, ns)))); [auto|discriminate].
Qed.
Lemma names_distinct e ns e' ns' : In (e, ns) ugbs_sizes -> In (e', ns') ugbs_sizes -> same_name (str e) (str e') -> e = e'.
Proof.
  intros I J S. pose proof names_checked as C. unfold names_ok in C. rewrite forallb_forall in C. specialize (C _ I). apply andb_true_iff in C. destruct C as [_ C].
  rewrite forallb_forall in C. specialize (C _ J). cbn [fst] in C. apply same_nameb_spec in S. rewrite S in C. cbn in C. now apply String.eqb_eq.
Qed.
Lemma names_element e ns : In (e, ns) ugbs_sizes -> elementb e = true.
Proof. intros I. pose proof names_checked as C. unfold names_ok in C. rewrite forallb_forall in C. specialize (C _ I). apply andb_true_iff in C. tauto. Qed.

Lemma shipped_exponents e ns s : In (e, ns) ugbs_sizes -> same_name (str s) (str e) ->
  exists d, get_ugbs_exponents fl yg (Some s) = Ok d /\ map fst d = letters /\ length ns = 4 /\
    forall l, l <= 3 -> exists v, dget [l_char l] d = Some (map Fin v) /\ length v = nth l ns 0 /\ Forall (fun x => 0 < x)%R v /\ StronglySorted Rgt v.
Proof.
  intros I S. destruct shipped_table as (es & T & G & N). assert (E := names_element e ns I).
  destruct (exponents_ok fl s _ _ _ T (otherb_no s (same_name_elementb s e S E))) as (d & H1 & H2 & H3). exists d. split; auto. split; auto.
  rewrite forallb_forall in G. specialize (G _ I). unfold group_ok in G. cbn [fst snd] in G. cbv zeta in G. apply andb_true_iff in G. destruct G as [G0 G]. rewrite forallb_forall in G. split; [now apply Nat.eqb_eq|].
  intros l L. exists (map value (shells l (group (str e) es))). specialize (G l ltac:(cbn; lia)). apply andb_true_iff in G. destruct G as [G1 G2]. apply falling_ok in G1. apply Nat.eqb_eq in G2.
  rewrite (H3 l L), chosen_picked, (picked_shells s e); auto; [split; auto; split; auto; now rewrite map_length|].
  intros [[w k] v] J. destruct (N _ J) as (e' & ns' & J' & Q0). cbn [fst] in *. subst w. destruct (text_eqb_spec (str e') (str e)) as [Q|Q].
  - rewrite Q. apply same_nameb_spec. reflexivity.
  - destruct (same_nameb (str e') (str e)) eqn:B; auto. apply same_nameb_spec in B. exfalso. apply Q. f_equal. eapply names_distinct; eauto.
Qed.
Lemma absent_exponents s : alphabetic (str s) -> s <> ""%string -> ~ same_name (str s) (str "BASIS") -> ~ same_name (str s) (str "END") ->
  (forall e ns, In (e, ns) ugbs_sizes -> ~ same_name (str s) (str e)) ->
  get_ugbs_exponents fl yg (Some s) = Ok (map (fun l => (l, [])) letters).
Proof.
  intros A Ne B E N. destruct shipped_table as (es & T & _ & M).
  assert (El : elementb s = true).
  { unfold elementb. rewrite !andb_true_iff, !negb_true_iff. repeat split.
    - destruct (str s) as [|c r] eqn:Q; [exfalso; apply Ne; now apply str_inj|]. assert (H := A c ltac:(now left)). cbv zeta in H. unfold letterb. cbv zeta. rewrite orb_true_iff, !andb_true_iff, !Nat.leb_le. tauto.
    - destruct (same_nameb (str "BASIS") (str s)) eqn:X; auto. apply same_nameb_spec in X. exfalso. apply B. now symmetry.
    - destruct (same_nameb (str "END") (str s)) eqn:X; auto. apply same_nameb_spec in X. exfalso. apply E. now symmetry. }
  destruct (exponents_ok fl s _ _ _ T (otherb_no s El)) as (d & H1 & H2 & H3). rewrite H1. f_equal.
  assert (P : forall l, picked (str s) l es = []).
  { intros l. unfold picked. replace (filter _ es) with (@nil (text * nat * (Z * nat))); auto. symmetry. clear -M N. unfold text in *. induction es as [|x es IH]; auto. cbn [filter].
    assert (X : same_nameb (fst (fst x)) (str s) = false). { destruct (same_nameb (fst (fst x)) (str s)) eqn:X; auto. apply same_nameb_spec in X. destruct (M x) as (e & ns & J & Q); [now left|]. exfalso. apply (N e ns J). symmetry. change (same_name (fst (fst x)) (str s)) in X. unfold same_name in *. rewrite <- X. f_equal. now symmetry. }
    rewrite X. cbn [andb]. apply IH. intros y I. apply M. now right. }
  assert (D : forall l, l <= 3 -> dget [l_char l] d = Some []) by (intros l L; rewrite (H3 l L), chosen_picked, P; reflexivity).
  clear -H2 D. destruct d as [|[k0 v0] [|[k1 v1] [|[k2 v2] [|[k3 v3] [|]]]]]; try discriminate. cbn [map fst] in H2. injection H2 as -> -> -> ->.
  pose proof (D 0 ltac:(lia)) as D0. pose proof (D 1 ltac:(lia)) as D1. pose proof (D 2 ltac:(lia)) as D2. pose proof (D 3 ltac:(lia)) as D3. cbn in D0, D1, D2, D3.
  injection D0 as ->. injection D1 as ->. injection D2 as ->. injection D3 as ->. reflexivity.
Qed.
End Shipped.

(** ** The reading of numbers assumed above exists *)
Definition read_number (t : text) : res xr := match number t with Some v => Ok (Fin (value v)) | None => read_decimal t end.
Lemma digit_not c x : digit c -> x = "."%char \/ x = "E"%char \/ x = "-"%char -> c <> x.
Proof. intros [H1 H2] [->|[->| ->]] ->; cbn in H1, H2; lia. Qed.
Lemma read_number_decimals : reads_decimals read_number.
Proof.
  intros d e E D. destruct (read_decimal_ok d e E D) as [R1 R2].
  assert (N : forall x, x = "."%char \/ x = "E"%char \/ x = "-"%char -> ~ In x d /\ ~ In x e).
  { intros x X. split; intros I; apply (digit_not x x); auto; apply D, in_or_app; auto. }
  destruct (N "."%char) as [Pd Pe]; auto. destruct (N "E"%char) as [Ed Ee]; auto.
  assert (Le : negb (Nat.eqb (length e) 0) = true) by (destruct e; [congruence|reflexivity]).
  assert (Fd : forallb is_digit (d ++ e) = true) by (apply forallb_forall; intros c I; apply is_digit_spec; auto).
  split.
  - unfold read_number, number. rewrite split_char_none by (rewrite !in_app_iff; cbn; intuition discriminate). cbn [app].
    change (d ++ str "." ++ e) with (d ++ "."%char :: e). rewrite split_char_at, split_char_none by auto. cbn [app]. rewrite Le, Fd. unfold value. cbn [fst snd andb]. now rewrite dval_digits.
  - unfold read_number. replace (number (str "-" ++ d ++ str "." ++ e)) with (@None (Z * nat)); auto. unfold number.
    rewrite split_char_none by (rewrite !in_app_iff; cbn; intuition discriminate). cbn [app].
    replace (str "-" ++ d ++ str "." ++ e) with (("-"%char :: d) ++ "."%char :: e) by reflexivity.
    rewrite split_char_at, split_char_none by (auto; cbn; intuition discriminate). cbn [app forallb]. now rewrite andb_false_r.
Qed.
Lemma read_number_scientific : reads_scientific read_number.
Proof.
  intros d e k E K D.
  assert (N : forall x, x = "."%char \/ x = "E"%char \/ x = "-"%char -> ~ In x d /\ ~ In x e /\ ~ In x k).
  { intros x X. repeat split; intros I; apply (digit_not x x); auto; apply D; rewrite !in_app_iff; auto. }
  destruct (N "."%char) as (Pd & Pe & Pk); auto. destruct (N "E"%char) as (Ed & Ee & Ek); auto.
  assert (Le : negb (Nat.eqb (length e) 0) = true) by (destruct e; [congruence|reflexivity]).
  assert (Lk : negb (Nat.eqb (length k) 0) = true) by (destruct k; [congruence|reflexivity]).
  assert (Fd : forallb is_digit (d ++ e ++ k) = true) by (apply forallb_forall; intros c I; apply is_digit_spec; auto).
  unfold read_number, number. replace (d ++ str "." ++ e ++ str "E-" ++ k) with ((d ++ "."%char :: e) ++ "E"%char :: "-"%char :: k) by (rewrite <- app_assoc; reflexivity).
  rewrite split_char_at by (rewrite in_app_iff; cbn; intuition discriminate). rewrite split_char_none by (cbn; intuition discriminate). cbn [app].
  rewrite split_char_at, split_char_none by auto. cbn [app]. rewrite Le, Lk, Fd. cbn [andb Ascii.eqb Bool.eqb]. unfold value. cbn [fst snd]. now rewrite !dval_digits.
Qed.

(** ** Elements that the header of the file names but that have no entry *)
Lemma cerium fl : reads_decimals fl -> reads_scientific fl ->
  In (str "Ce") (words (str (nth 2 ygbs ""%string))) /\ get_ugbs_exponents fl (map str ygbs) (Some "Ce"%string) = Ok (map (fun l => (l, [])) letters).
Proof.
  intros Hd Hs. split.
  - assert (H : existsb (text_eqb (str "Ce")) (words (str (nth 2 ygbs ""%string))) = true) by (vm_compute; reflexivity). apply existsb_exists in H. destruct H as (x & I & E).
    destruct (text_eqb_spec (str "Ce") x); [now subst|discriminate].
  - apply (absent_exponents fl Hd Hs _ ugbs_checked).
    + intros c [<-|[<-|[]]]; cbn; lia.
    + discriminate.
    + discriminate.
    + discriminate.
    + intros e ns I S. assert (H : forallb (fun x => negb (same_nameb (str "Ce") (str (fst x)))) ugbs_sizes = true) by (vm_compute; reflexivity).
      rewrite forallb_forall in H. specialize (H _ I). cbn [fst] in H. apply same_nameb_spec in S. rewrite S in H. discriminate.
Qed.
