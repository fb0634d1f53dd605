(** Choice of the data file and universal Gaussian exponents. *)
From Coq Require Import String Ascii List Bool Arith ZArith Lia.
From Verif Require Import XR PyStr PyText SpecParse ProofText ModelParse SpecFile ProofConf ProofConf2 ProofFile ProofFile2 ProofFile3 ProofFile4.
Import ListNotations.
Local Open Scope list_scope.

(** ** Case *)
Lemma lower_char_code c : nat_of_ascii (lower_char c) = let n := nat_of_ascii c in if (65 <=? n) && (n <=? 90) then n + 32 else n.
Proof.
  unfold lower_char. cbv zeta. destruct (Nat.leb_spec 65 (nat_of_ascii c)); cbn [andb]; auto. destruct (Nat.leb_spec (nat_of_ascii c) 90); auto.
  apply nat_ascii_embedding. lia.
Qed.
Lemma code_inj a b : nat_of_ascii a = nat_of_ascii b -> a = b.
Proof. intros H. rewrite <- (ascii_nat_embedding a), <- (ascii_nat_embedding b). now f_equal. Qed.
Lemma same_char a b : lower_char a = lower_char b <-> upper_code a = upper_code b.
Proof.
  assert (E : lower_char a = lower_char b <-> nat_of_ascii (lower_char a) = nat_of_ascii (lower_char b)) by (split; [congruence|apply code_inj]).
  rewrite E, !lower_char_code. unfold upper_code. cbv zeta.
  destruct (Nat.leb_spec 65 (nat_of_ascii a)), (Nat.leb_spec (nat_of_ascii a) 90), (Nat.leb_spec 65 (nat_of_ascii b)), (Nat.leb_spec (nat_of_ascii b) 90),
    (Nat.leb_spec 97 (nat_of_ascii a)), (Nat.leb_spec (nat_of_ascii a) 122), (Nat.leb_spec 97 (nat_of_ascii b)), (Nat.leb_spec (nat_of_ascii b) 122); cbn [andb]; lia.
Qed.
Lemma same_lower s t : map lower_char s = map lower_char t <-> same_name s t.
Proof.
  unfold same_name. revert t. induction s as [|a s IH]; intros [|b t]; cbn; try (split; discriminate); [tauto|].
  split; intros H; injection H as H1 H2; f_equal; try (now apply same_char); now apply IH.
Qed.
Lemma same_lower_eqb s t : text_eqb (map lower_char s) (map lower_char t) = same_nameb s t.
Proof.
  unfold same_nameb. destruct (text_eqb_spec (map lower_char s) (map lower_char t)) as [E|E], (list_eq_dec Nat.eq_dec (map upper_code s) (map upper_code t)) as [F|F]; auto; exfalso.
  - apply F. now apply same_lower.
  - apply E. now apply same_lower.
Qed.
Lemma lower_txt s : str (lower s) = map lower_char (str s).
Proof. induction s as [|c s IH]; cbn; congruence. Qed.
Lemma lower_same s t : same_name (str s) (str t) -> lower s = lower t.
Proof.
  intros H. apply same_lower in H. rewrite <- !lower_txt in H. rewrite <- (string_of_list_ascii_of_string (lower s)), <- (string_of_list_ascii_of_string (lower t)). now f_equal.
Qed.
Lemma alphabetic_spec s : forallb is_alpha s = true <-> alphabetic s.
Proof.
  rewrite forallb_forall. unfold is_alpha, alphabetic. cbv zeta. split; intros H c I; specialize (H c I); rewrite orb_true_iff, !andb_true_iff, !Nat.leb_le in *; lia.
Qed.
Lemma same_alphabetic s t : same_name s t -> alphabetic s -> alphabetic t.
Proof.
  unfold same_name. revert t. induction s as [|a s IH]; intros [|b t] H A; cbn in H; try discriminate; auto. injection H as H1 H2.
  intros c [<-|I].
  - specialize (A a (or_introl eq_refl)). cbv zeta in *. unfold upper_code in H1. cbv zeta in H1.
    destruct (Nat.leb_spec 97 (nat_of_ascii a)), (Nat.leb_spec (nat_of_ascii a) 122), (Nat.leb_spec 97 (nat_of_ascii b)), (Nat.leb_spec (nat_of_ascii b) 122); lia.
  - apply (IH t); auto. intros x X. apply A. now right.
Qed.

(** ** Choice of the file *)
Section Names.
Context (fl : text -> res xr) (fs : folder -> string -> option file).
Lemma case_insensitive s t anion cation fuel : same_name (str s) (str t) ->
  slater_atoms fl fs (Some s) anion cation fuel = slater_atoms fl fs (Some t) anion cation fuel.
Proof.
  intros H. unfold slater_atoms, load_slater_wfn. rewrite (lower_same s t H).
  assert (E : String.eqb s "" = String.eqb t "") by (unfold same_name in H; destruct s, t; cbn in *; congruence).
  assert (A : forallb is_alpha (txt s) = forallb is_alpha (txt t)).
  { destruct (forallb is_alpha (txt s)) eqn:X, (forallb is_alpha (txt t)) eqn:Y; auto.
    - apply alphabetic_spec in X. apply (same_alphabetic _ _ H) in X. apply alphabetic_spec in X. unfold txt in Y. congruence.
    - apply alphabetic_spec in Y. apply (same_alphabetic _ _ (eq_sym H)) in Y. apply alphabetic_spec in Y. unfold txt in X. congruence. }
  now rewrite E, A.
Qed.
Lemma name_rejected s anion cation fuel : s = ""%string \/ ~ alphabetic (str s) -> slater_atoms fl fs (Some s) anion cation fuel = Some (Raise TypeError).
Proof.
  intros H. unfold slater_atoms. assert (E : String.eqb s "" || negb (forallb is_alpha (txt s)) = true).
  { destruct H as [->|H]; auto. destruct (forallb is_alpha (txt s)) eqn:X; [|now rewrite orb_true_r]. apply alphabetic_spec in X. contradiction. }
  now rewrite E.
Qed.
Lemma alphabetic_passes s : s <> ""%string -> alphabetic (str s) -> String.eqb s "" || negb (forallb is_alpha (txt s)) = false.
Proof. intros N A. apply alphabetic_spec in A. unfold txt. rewrite A. apply String.eqb_neq in N. now rewrite N. Qed.
Lemma both_rejected s fuel : s <> ""%string -> alphabetic (str s) -> slater_atoms fl fs (Some s) true true fuel = Some (Raise ValueError).
Proof. intros N A. unfold slater_atoms. rewrite alphabetic_passes by auto. reflexivity. Qed.

Lemma str_in_spec s l : str_in s l = true <-> In s l.
Proof. unfold str_in. rewrite existsb_exists. split; [intros (x & I & E); apply String.eqb_eq in E; congruence|intros I; exists s; split; auto; apply String.eqb_refl]. Qed.
Lemma str_in_false s l : str_in s l = false <-> ~ In s l.
Proof. rewrite <- str_in_spec. destruct (str_in s l); split; congruence. Qed.

Lemma ion_rejected s anion cation fuel : s <> ""%string -> alphabetic (str s) ->
  (anion = true /\ cation = false /\ ~ In (lower s) anion_atoms) \/ (anion = false /\ cation = true /\ ~ In (lower s) cation_atoms) ->
  slater_atoms fl fs (Some s) anion cation fuel = Some (Raise ValueError).
Proof.
  intros N A H. unfold slater_atoms. rewrite alphabetic_passes by auto. destruct H as [(-> & -> & H)|(-> & -> & H)]; cbn [andb];
  unfold load_slater_wfn; apply str_in_false in H; rewrite H; reflexivity.
Qed.

(** The file that is read. *)
Lemma file_read s anion cation fuel f : s <> ""%string -> alphabetic (str s) -> anion && cation = false ->
  (anion = true -> In (lower s) anion_atoms) -> (cation = true -> In (lower s) cation_atoms) ->
  fs (place anion cation) (lower s) = Some f ->
  slater_atoms fl fs (Some s) anion cation fuel = parse_slater fl (str_in (lower s) heavy_atoms) fuel f.
Proof.
  intros N A B Ha Hc F. unfold slater_atoms. rewrite alphabetic_passes, B by auto. unfold load_slater_wfn.
  destruct anion; [|destruct cation].
  - rewrite (proj2 (str_in_spec _ _) (Ha eq_refl)). cbn [bindo]. unfold place in F. now rewrite F.
  - rewrite (proj2 (str_in_spec _ _) (Hc eq_refl)). cbn [bindo]. unfold place in F. now rewrite F.
  - cbn [bindo]. unfold place in F. now rewrite F.
Qed.
Lemma file_missing s anion cation fuel : s <> ""%string -> alphabetic (str s) -> anion && cation = false ->
  (anion = true -> In (lower s) anion_atoms) -> (cation = true -> In (lower s) cation_atoms) ->
  fs (place anion cation) (lower s) = None ->
  slater_atoms fl fs (Some s) anion cation fuel = Some (Raise FileNotFoundError).
Proof.
  intros N A B Ha Hc F. unfold slater_atoms. rewrite alphabetic_passes, B by auto. unfold load_slater_wfn.
  destruct anion; [|destruct cation].
  - rewrite (proj2 (str_in_spec _ _) (Ha eq_refl)). cbn [bindo]. unfold place in F. now rewrite F.
  - rewrite (proj2 (str_in_spec _ _) (Hc eq_refl)). cbn [bindo]. unfold place in F. now rewrite F.
  - cbn [bindo]. unfold place in F. now rewrite F.
Qed.
Lemma atom_loads s anion cation fuel f C ps : s <> ""%string -> alphabetic (str s) -> anion && cation = false ->
  (anion = true -> In (lower s) anion_atoms) -> (cation = true -> In (lower s) cation_atoms) ->
  fs (place anion cation) (lower s) = Some f ->
  forall heavy, (heavy = true <-> In (lower s) heavy_atoms) ->
  file_lines fl heavy C f -> blocks_ok heavy (ct_blocks C) -> config_of heavy (ct_word C) ps -> Forall piece_ok ps -> distinct ps -> all_occupied C ps ->
  length f < fuel -> exists d, slater_atoms fl fs (Some s) anion cation fuel = Some (Ok d) /\ returned C ps d.
Proof.
  intros N A B Ha Hc F heavy H L Bo Cf P D O Fu. rewrite (file_read s anion cation fuel f) by auto.
  assert (E : str_in (lower s) heavy_atoms = heavy) by (destruct heavy; [apply str_in_spec; tauto|apply str_in_false; intros I; apply H in I; discriminate]).
  rewrite E. eapply parse_ok; eauto.
Qed.
(** Listed ions of heavy elements: only the caesium cation. *)
(** A heavy element whose configuration names no noble gas. *)
Lemma heavy_plain_config conf l0 r fuel : first_line conf l0 -> (forall a b, conf <> a ++ str "[XE]" ++ b) -> (forall a b, conf <> a ++ str "[RN]" ++ b) ->
  parse_slater fl true fuel (l0 :: r) = Some (Raise ValueError).
Proof.
  intros (w0 & w1 & ws & S0 & W1) X R. unfold parse_slater. cbn [readline]. rewrite (words_spaced _ _ S0).
  change (py_get (w0 :: w1 :: ws) 1) with (@Ok text w1). cbn [bindo]. unfold remove_char. rewrite W1, heavy_bad by auto. reflexivity.
Qed.
Lemma cesium_cation C ps f fuel : fs Cation "cs"%string = Some f -> file_lines fl false C f -> config_of false (ct_word C) ps -> Forall piece_ok ps ->
  slater_atoms fl fs (Some "Cs"%string) false true fuel = Some (Raise ValueError).
Proof.
  intros F (l0 & b1 & more & le & lt & b2 & titles & bls & tail & -> & Hf & _) Cf P.
  rewrite (file_read "Cs" false true fuel (l0 :: b1 ++ more ++ le :: lt :: b2 ++ titles ++ concat bls ++ tail)); auto.
  - change (str_in (lower "Cs") heavy_atoms) with true. cbn in Cf. eapply heavy_plain_config; [exact Hf| |]; rewrite Cf; intros a b E.
    + apply (show_no_bracket ps P). rewrite E. apply in_or_app. right. now left.
    + apply (show_no_bracket ps P). rewrite E. apply in_or_app. right. now left.
  - discriminate.
  - intros c [<-|[<-|[]]]; cbn; lia.
  - discriminate.
  - intros _. apply str_in_spec. reflexivity.
Qed.
End Names.

(** ** Universal Gaussian exponents *)
Section Ugbs.
Context (fl : text -> res xr).
Lemma same_nameb_spec s t : same_nameb s t = true <-> same_name s t.
Proof. unfold same_nameb, same_name. destruct (list_eq_dec _ _ _); split; auto; discriminate. Qed.
Lemma ugbs_ok el other es f : exponent_table fl other es f -> (forall w, other w -> ~ same_name w el) ->
  forall out, map fst out = letters -> exists d, ugbs_loop fl el f out = Ok d /\ map fst d = letters /\
    forall l old, l <= 3 -> dget [l_char l] out = Some old -> dget [l_char l] d = Some (old ++ chosen el l es).
Proof.
  intros T O. assert (OB : forall w, other w -> same_nameb w el = false) by (intros w W; destruct (same_nameb w el) eqn:E; auto; apply same_nameb_spec in E; exfalso; eapply O; eauto).
  induction T as [|w l v ws t ts h x es f L S1 S2 V Ot T IH|ws s es f S Ot T IH]; intros out K.
  - exists out. split; auto. split; auto. intros l old _ E. rewrite E. cbn. now rewrite app_nil_r.
  - assert (G : exists old, dget [l_char l] out = Some old).
    { destruct (dget [l_char l] out) eqn:E; eauto. apply dget_None in E. rewrite K in E. destruct E. now apply letter_key. }
    destruct G as (old & G). cbn [ugbs_loop]. rewrite (words_spaced _ _ S1), same_lower_eqb. destruct (same_nameb w el) eqn:B.
    + change (py_get (w :: [l_char l] :: ws) 1) with (@Ok text [l_char l]). cbn [bind]. unfold dlookup at 1. rewrite G. cbn [bind]. rewrite (words_spaced _ _ S2).
      change (py_get (t :: ts) 0) with (@Ok text t). cbn [bind]. destruct (spaced_inv _ _ _ S2) as (a & r & _ & _ & W). unfold float. rewrite strip_word by auto. rewrite V. cbn [bind].
      destruct (IH (dset [l_char l] (old ++ [v]) out)) as (d & E1 & E2 & E3).
      * rewrite dset_keys; auto. rewrite K. now apply letter_key.
      * exists d. split; auto. split; auto. intros l' old' L' G'. unfold chosen. cbn [filter fst snd]. rewrite B. cbn [andb].
        rewrite (E3 l' (if Nat.eqb l l' then old' ++ [v] else old')); auto.
        -- destruct (Nat.eqb l l'); [|reflexivity]. cbn [map snd]. now rewrite <- app_assoc.
        -- rewrite dget_dset, letter_eqb by auto. destruct (Nat.eqb_spec l l') as [<-|]; auto. congruence.
    + rewrite (words_spaced _ _ S2), same_lower_eqb, (OB t Ot). destruct (IH out K) as (d & E1 & E2 & E3). exists d. split; auto. split; auto.
      intros l' old' L' G'. unfold chosen. cbn [filter fst snd]. rewrite B. cbn [andb]. now apply E3.
  - cbn [ugbs_loop]. rewrite (words_spaced _ _ S). destruct ws as [|w ws]; [apply IH; auto|]. rewrite same_lower_eqb, (OB w); [apply IH; auto|]. eapply Ot. reflexivity.
Qed.
Lemma exponents_ok s other es f : exponent_table fl other es f -> (forall w, other w -> ~ same_name w (str s)) ->
  exists d, get_ugbs_exponents fl f (Some s) = Ok d /\ map fst d = letters /\ forall l, l <= 3 -> dget [l_char l] d = Some (chosen (str s) l es).
Proof.
  intros T O. destruct (ugbs_ok (str s) other es f T O (map (fun l => (l, [])) letters) eq_refl) as (d & E1 & E2 & E3). exists d. split; auto. split; auto.
  intros l L. rewrite (E3 l []); auto. destruct l as [|[|[|[|l]]]]; [reflexivity|reflexivity|reflexivity|reflexivity|lia].
Qed.
End Ugbs.
