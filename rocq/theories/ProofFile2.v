(** Blocks of a data file. *)
From Coq Require Import String Ascii List Bool Arith ZArith Lia.
From Verif Require Import XR PyText SpecParse ProofText ModelParse ProofConf ProofConf2 ProofFile.
Import ListNotations.
Local Open Scope list_scope.

(** ** Kinds of lines *)
Lemma shell_char_spec c : shell_char c = true <-> In c (str "SPDF|").
Proof.
  unfold shell_char. rewrite !orb_true_iff, !Ascii.eqb_eq. cbn. intuition auto.
Qed.
Lemma header_here_spec s : header_here s = true <-> exists c b, In c (str "SPDF|") /\ s = str "  " ++ [c] ++ str "  " ++ b.
Proof.
  split.
  - destruct s as [|a [|b [|c [|d [|e s]]]]]; try discriminate. cbn [header_here]. rewrite !andb_true_iff, !Ascii.eqb_eq.
    intros [[[[-> ->] C] ->] ->]. exists c, s. split; [now apply shell_char_spec|reflexivity].
  - intros (c & b & C & ->). cbn [str list_ascii_of_string app header_here]. apply shell_char_spec in C. rewrite C. reflexivity.
Qed.
Lemma is_header_spec s : is_header s = true <-> exists c, In c (str "SPDF|") /\ exists a b, s = a ++ str "  " ++ [c] ++ str "  " ++ b.
Proof.
  split.
  - induction s as [|x s IH]; cbn [is_header]; rewrite orb_true_iff; intros [H|H]; try discriminate.
    + apply header_here_spec in H. destruct H as (c & b & C & E). exists c. split; auto. exists [], b. exact E.
    + destruct (IH H) as (c & C & a & b & ->). exists c. split; auto. exists (x :: a), b. reflexivity.
  - intros (c & C & a & b & ->). assert (H : header_here (str "  " ++ [c] ++ str "  " ++ b) = true) by (apply header_here_spec; eauto).
    revert H. generalize (str "  " ++ [c] ++ str "  " ++ b). intros t H. induction a as [|x a IH].
    + cbn [app]. destruct t; cbn [is_header]; rewrite H; reflexivity.
    + cbn [app is_header]. rewrite IH. apply orb_true_r.
Qed.
Lemma l_char_shell l : l <= 3 -> In (l_char l) (str "SPDF|").
Proof. intros H. destruct l as [|[|[|[|l]]]]; [cbn; tauto|cbn; tauto|cbn; tauto|cbn; tauto|lia]. Qed.
Lemma spaced_inv w ws s : spaced (w :: ws) s -> exists a r, s = a ++ w ++ r /\ blank a /\ word w.
Proof. intros H. inversion H; subst. eauto 6. Qed.
Lemma spaced_lstrip w ws s : spaced (w :: ws) s -> exists r, lstrip s = w ++ r.
Proof.
  intros H. destruct (spaced_inv _ _ _ H) as (a & r & -> & B & [N W]). exists r. rewrite lstrip_blank by auto.
  destruct w as [|c w]; [congruence|]. cbn [app]. apply lstrip_word, W. now left.
Qed.
Lemma spaced_nonblank w ws s : spaced (w :: ws) s -> ~ blank s.
Proof.
  intros H B. destruct (spaced_inv _ _ _ H) as (a & r & -> & _ & [N W]). destruct w as [|c w]; [congruence|].
  apply (W c); [now left|]. apply B. apply in_or_app. right. now left.
Qed.
Lemma head_line_facts B s : bl_l B <= 3 -> head_line B s ->
  is_blank s = false /\ is_header s = true /\ words s = [l_char (bl_l B)] :: bl_labels B /\ (forall sub, is_row sub s = false).
Proof.
  intros L [S (a & b & E)]. split; [apply is_blank_false; eapply spaced_nonblank; eauto|]. split; [|split].
  - apply is_header_spec. exists (l_char (bl_l B)). split; [now apply l_char_shell|]. eauto.
  - now apply words_spaced.
  - intros sub. unfold is_row. destruct (spaced_lstrip _ _ _ S) as (r & ->). cbn [app]. now rewrite shell_letter_not_digit.
Qed.
Lemma title_line_facts s : title_line s -> is_blank s = false /\ is_header s = false.
Proof.
  intros [N T]. split; [now apply is_blank_false|]. destruct (is_header s) eqn:E; auto. apply is_header_spec in E.
  destruct E as (c & C & a & b & E). now apply T in E.
Qed.
Lemma blank_row sub s : blank s -> is_row sub s = false.
Proof. intros H. unfold is_row. apply lstrip_nil in H. now rewrite H. Qed.
Lemma row_line_facts fl l r s : l <= 3 -> row_n r <= 9 -> row_line fl l r s ->
  is_row [l_char l] s = true /\ exists te tc, words s = label (row_n r) l :: te :: tc /\ value_of fl te (row_exp r) /\ values_of fl tc (row_coef r).
Proof.
  intros L N (te & tc & S & V1 & V2). split.
  - unfold is_row. destruct (spaced_lstrip _ _ _ S) as (q & ->). rewrite label_orb by lia. unfold orb. cbn [app].
    rewrite digit_is_digit by auto. cbn [andb starts]. rewrite Ascii.eqb_refl. reflexivity.
  - exists te, tc. split; auto. now apply words_spaced.
Qed.

Lemma float_value fl t v : value_of fl t v -> float fl t = Ok v.
Proof. intros [W F]. unfold float. now rewrite strip_word. Qed.
Lemma mapM_values fl ts vs : values_of fl ts vs -> mapM (float fl) ts = Ok vs.
Proof. induction 1 as [|t v ts vs H Hs IH]; auto. cbn. rewrite (float_value _ _ _ H). cbn. rewrite IH. reflexivity. Qed.
Lemma value_line_facts fl vs s : value_line fl vs s -> exists w ts, words s = w :: ts /\ mapM (float fl) ts = Ok vs.
Proof. intros (w & ts & S & V). exists w, ts. split; [now apply words_spaced|now apply mapM_values]. Qed.

(** ** Dictionaries *)
Lemma dset_nodup {A} k (v : A) d : NoDup (map fst d) -> NoDup (map fst (dset k v d)).
Proof.
  intros H. destruct (in_dec (list_eq_dec ascii_dec) k (map fst d)) as [I|I]; [now rewrite dset_keys|].
  assert (E : map fst (dset k v d) = map fst d ++ [k]).
  { induction d as [|[a x] d IH]; auto. cbn in *. rewrite text_eqb_neq by (intros ->; tauto). cbn. f_equal. apply IH; [inversion H; auto|tauto]. }
  rewrite E.
  rewrite <- (rev_involutive (map fst d ++ [k])). apply NoDup_rev. rewrite rev_app_distr. cbn. constructor; [rewrite <- in_rev; exact I|now apply NoDup_rev].
Qed.
Lemma fold_dset_get {A} (v : A) ks : forall d x, dget x (fold_left (fun d x => dset x v d) ks d) = if existsb (text_eqb x) ks then Some v else dget x d.
Proof.
  induction ks as [|k ks IH]; intros d x; auto. cbn. rewrite IH, dget_dset. destruct (text_eqb x k); cbn; auto. now destruct (existsb _ _).
Qed.
Lemma fold_dset_nodup {A} (v : A) ks : forall d, NoDup (map fst d) -> NoDup (map fst (fold_left (fun d x => dset x v d) ks d)).
Proof. induction ks as [|k ks IH]; intros d H; auto. cbn. apply IH. now apply dset_nodup. Qed.
Lemma existsb_text x ks : existsb (text_eqb x) ks = true <-> In x ks.
Proof.
  rewrite existsb_exists. split; [intros (y & I & E)|intros I; exists x; split; auto using text_eqb_refl].
  destruct (text_eqb_spec x y); [congruence|discriminate].
Qed.

(** ** One row *)
Lemma coeff_loop fl l ws vs n0 m : l <= 3 -> n0 + m <= 9 ->
  (forall k, k < m -> exists w v, (do j <- get_column (label (n0 + k) l); py_get ws j) = Ok w /\ float fl w = Ok v /\ nth_error vs k = Some v) ->
  forall co, (forall k, k < m -> exists old, dget (label (n0 + k) l) co = Some old) ->
  exists co', foldM (fun co x => do l <- dlookup x co; do j <- get_column x; do w <- py_get ws j; do v <- float fl w; Ok (dset x (l ++ [v]) co))
                (map (fun n => label n l) (seq n0 m)) co = Ok co' /\
    (forall k old, k < m -> dget (label (n0 + k) l) co = Some old -> dget (label (n0 + k) l) co' = Some (old ++ [nth k vs NaN])) /\
    (forall x, ~ In x (map (fun n => label n l) (seq n0 m)) -> dget x co' = dget x co) /\ (NoDup (map fst co) -> NoDup (map fst co')).
Proof.
  intros L. revert n0 vs. induction m as [|m IH]; intros n0 vs M W co D.
  - exists co. split; auto. split; [intros; lia|]. auto.
  - cbn [seq map foldM]. destruct (D 0 ltac:(lia)) as (old & D0). rewrite Nat.add_0_r in D0. unfold dlookup at 1. rewrite D0. cbn [bind].
    destruct (W 0 ltac:(lia)) as (w & v & W1 & W2 & W3). rewrite Nat.add_0_r in W1. destruct (get_column (label n0 l)) as [j|]; [|discriminate]. cbn [bind] in W1 |- *.
    rewrite W1. cbn [bind]. rewrite W2. cbn [bind]. destruct vs as [|v0 vs]; [discriminate|]. cbn in W3. injection W3 as ->.
    assert (NE : forall k, k < m -> label (S n0 + k) l <> label n0 l) by (intros k Hk E; apply label_inj in E; lia).
    destruct (IH (S n0) vs ltac:(lia)) with (co := dset (label n0 l) (old ++ [v]) co) as (co' & E1 & E2 & E3 & E4).
    + intros k Hk. destruct (W (S k) ltac:(lia)) as (w' & v' & Q). rewrite Nat.add_succ_r in Q. exists w', v'. exact Q.
    + intros k Hk. rewrite dget_dset, text_eqb_neq by auto. destruct (D (S k) ltac:(lia)) as (o & Q). rewrite Nat.add_succ_r in Q. exists o. exact Q.
    + exists co'. split; [exact E1|]. split; [|split].
      * intros [|k] o Hk Q.
        -- rewrite Nat.add_0_r in *. rewrite E3, dget_dset, text_eqb_refl; [cbn; congruence|].
           intros I. apply in_map_iff in I. destruct I as (n & E & I). apply in_seq in I. apply label_inj in E; lia.
        -- rewrite Nat.add_succ_r in *. change (S (n0 + k)) with (S n0 + k) in *. rewrite (E2 k o); auto; [lia|]. rewrite dget_dset, text_eqb_neq; auto. apply NE. lia.
      * intros x I. rewrite E3, dget_dset, text_eqb_neq; auto; intros X; apply I; [left; auto|right; auto].
      * intros N. apply E4. now apply dset_nodup.
Qed.

Record state_of (Bs : list block) (s : pstate) : Prop := {
  so_orbs : ps_orbs s = flat_map bl_labels Bs;
  so_energy : ps_energy s = flat_map bl_energy Bs;
  so_cusp : ps_cusp s = flat_map bl_cusp Bs;
  so_bkeys : map fst (ps_basis s) = letters;
  so_ekeys : map fst (ps_exp s) = letters;
  so_basis : forall l, l <= 3 -> dget [l_char l] (ps_basis s) = Some (flat_map (fun B => if Nat.eqb (bl_l B) l then bl_basis B else []) Bs);
  so_exp : forall l, l <= 3 -> dget [l_char l] (ps_exp s) = Some (flat_map (fun B => if Nat.eqb (bl_l B) l then map row_exp (bl_rows B) else []) Bs);
  so_ckeys : NoDup (map fst (ps_coeff s));
  so_coeff : forall B k, In B Bs -> k < length (bl_energy B) -> dget (label (bl_l B + 1 + k) (bl_l B)) (ps_coeff s) = Some (column k B);
  so_other : forall x, ~ In x (flat_map bl_labels Bs) -> dget x (ps_coeff s) = None }.

Lemma empty_state_of : state_of [] empty_state.
Proof.
  constructor; auto.
  - intros l L. destruct l as [|[|[|[|l]]]]; [reflexivity|reflexivity|reflexivity|reflexivity|lia].
  - intros l L. destruct l as [|[|[|[|l]]]]; [reflexivity|reflexivity|reflexivity|reflexivity|lia].
  - constructor.
  - intros B k [].
Qed.
Lemma letter_key l : l <= 3 -> In [l_char l] letters.
Proof. intros L. destruct l as [|[|[|[|l]]]]; [cbn; tauto|cbn; tauto|cbn; tauto|cbn; tauto|lia]. Qed.
Lemma letter_eqb l l' : l <= 3 -> l' <= 3 -> text_eqb [l_char l] [l_char l'] = Nat.eqb l' l.
Proof.
  intros L L'. destruct (Nat.eqb_spec l' l) as [->|N]; [apply text_eqb_refl|]. apply text_eqb_neq. intros E. apply cons_inj in E. destruct E as [E _]. apply l_char_inj in E; auto.
Qed.
Lemma in_labels B x : In x (bl_labels B) <-> exists k, k < length (bl_energy B) /\ x = label (bl_l B + 1 + k) (bl_l B).
Proof.
  unfold bl_labels, bl_ns. rewrite in_map_iff. split.
  - intros (n & <- & I). apply in_seq in I. exists (n - (bl_l B + 1)). split; [lia|]. f_equal. lia.
  - intros (k & K & ->). exists (bl_l B + 1 + k). split; auto. apply in_seq. lia.
Qed.
Definition with_rows (B : block) (rs : list (nat * xr * list xr)) : block := mkB (bl_l B) (bl_energy B) (bl_cusp B) rs.

Section Blocks.
Context (fl : text -> res xr).

Lemma read_row_ok Bs B rs r line s :
  bl_l B <= 3 -> bl_l B + length (bl_energy B) <= 7 -> (forall B', In B' Bs -> bl_l B' <= 3 /\ bl_l B' + length (bl_energy B') <= 7 /\ bl_l B' <> bl_l B) ->
  row_n r <= 9 -> length (row_coef r) = length (bl_energy B) -> row_line fl (bl_l B) r line ->
  state_of (Bs ++ [with_rows B rs]) s ->
  exists s', read_row fl [l_char (bl_l B)] (bl_labels B) line s = Ok s' /\ state_of (Bs ++ [with_rows B (rs ++ [r])]) s'.
Proof.
  intros L M D Rn Rc RL S. destruct (row_line_facts _ _ _ _ L Rn RL) as (_ & te & tc & W & V1 & V2). unfold read_row. rewrite W.
  unfold dlookup at 1. rewrite (so_exp _ _ S) by auto. cbn [bind]. change (py_get (label (row_n r) (bl_l B) :: te :: tc) 1) with (@Ok text te). cbn [bind].
  rewrite (float_value _ _ _ V1). cbn [bind]. unfold dlookup at 1. rewrite (so_basis _ _ S) by auto. cbn [bind].
  change (py_get (label (row_n r) (bl_l B) :: te :: tc) 0) with (@Ok text (label (row_n r) (bl_l B))). cbn [bind].
  assert (Lt : length tc = length (row_coef r)) by (clear -V2; induction V2; cbn; auto).
  destruct (coeff_loop fl (bl_l B) (label (row_n r) (bl_l B) :: te :: tc) (row_coef r) (bl_l B + 1) (length (bl_energy B)) L ltac:(lia)) with (co := ps_coeff s)
    as (co & E1 & E2 & E3 & E4).
  - intros k K. destruct (nth_error tc k) as [w|] eqn:Tk; [|apply nth_error_None in Tk; lia].
    destruct (nth_error (row_coef r) k) as [v|] eqn:Rk; [|apply nth_error_None in Rk; lia].
    exists w, v. split; [|split; auto].
    + apply column_right; auto; lia.
    + apply float_value. clear -V2 Tk Rk. revert tc w Tk v Rk V2. generalize (row_coef r). induction k as [|k IH]; intros vs tc w Tk v Rk V2; inversion V2; subst; try discriminate; cbn in *; [congruence|eauto].
  - intros k K. eexists. change (length (bl_energy B)) with (length (bl_energy (with_rows B rs))) in K.
    change (bl_l B) with (bl_l (with_rows B rs)). apply (so_coeff _ _ S); auto. apply in_or_app. right. now left.
  - unfold bl_labels, bl_ns. rewrite E1. cbn [bind]. eexists. split; [reflexivity|].
    assert (NB : forall B', In B' Bs -> Nat.eqb (bl_l B') (bl_l B) = false) by (intros B' I; apply Nat.eqb_neq; now apply D).
    constructor; cbn [ps_orbs ps_basis ps_cusp ps_energy ps_exp ps_coeff].
    + rewrite (so_orbs _ _ S), !flat_map_app. reflexivity.
    + rewrite (so_energy _ _ S), !flat_map_app. reflexivity.
    + rewrite (so_cusp _ _ S), !flat_map_app. reflexivity.
    + rewrite dset_keys; rewrite (so_bkeys _ _ S); auto using letter_key.
    + rewrite dset_keys; rewrite (so_ekeys _ _ S); auto using letter_key.
    + intros l Hl. rewrite dget_dset, letter_eqb by auto. rewrite (so_basis _ _ S l) by auto. rewrite !flat_map_app. cbn [flat_map with_rows bl_l].
      destruct (Nat.eqb_spec (bl_l B) l) as [<-|N]; auto. rewrite ?Nat.eqb_refl, !app_nil_r. f_equal. rewrite <- app_assoc. f_equal. unfold bl_basis. cbn [with_rows bl_rows bl_l]. now rewrite map_app.
    + intros l Hl. rewrite dget_dset, letter_eqb by auto. rewrite (so_exp _ _ S l) by auto. rewrite !flat_map_app. cbn [flat_map with_rows bl_l bl_rows].
      destruct (Nat.eqb_spec (bl_l B) l) as [<-|N]; auto. rewrite ?Nat.eqb_refl, !app_nil_r. f_equal. rewrite <- app_assoc. f_equal. now rewrite map_app.
    + apply E4. apply (so_ckeys _ _ S).
    + intros B' k I K. apply in_app_or in I. destruct I as [I|[<-|[]]].
      * rewrite E3.
        -- apply (so_coeff _ _ S); auto. apply in_or_app. auto.
        -- intros J. apply in_map_iff in J. destruct J as (n & E & J). apply in_seq in J. destruct (D B' I) as (D1 & D2 & D3). apply label_inj in E; [|lia|lia|lia|lia]. destruct E; congruence.
      * cbn [with_rows bl_l bl_energy] in *. rewrite (E2 k (column k (with_rows B rs))); auto.
        -- unfold column. cbn [with_rows bl_rows]. rewrite map_app. reflexivity.
        -- apply (so_coeff _ _ S (with_rows B rs) k); auto. apply in_or_app. right. now left.
    + intros x I. rewrite flat_map_app in I. rewrite E3.
      * apply (so_other _ _ S). rewrite flat_map_app. exact I.
      * intros J. apply I. apply in_or_app. right. cbn. rewrite app_nil_r. exact J.
Qed.

Lemma read_rows_ok Bs B lines rs2 : bl_l B <= 3 -> bl_l B + length (bl_energy B) <= 7 ->
  (forall B', In B' Bs -> bl_l B' <= 3 /\ bl_l B' + length (bl_energy B') <= 7 /\ bl_l B' <> bl_l B) ->
  Forall2 (row_line fl (bl_l B)) rs2 lines -> (forall r, In r rs2 -> row_n r <= 9 /\ length (row_coef r) = length (bl_energy B)) ->
  forall g fuel rs s, is_row [l_char (bl_l B)] (fst (readline g)) = false -> length lines <= fuel ->
  state_of (Bs ++ [with_rows B rs]) s ->
  exists s', (let '(l, r) := readline (lines ++ g) in read_rows fl fuel [l_char (bl_l B)] (bl_labels B) l r s) = Some (Ok (readline g, s')) /\
    state_of (Bs ++ [with_rows B (rs ++ rs2)]) s'.
Proof.
  intros L M D F. induction F as [|r line rs2 lines RL F IH]; intros H g fuel rs s G Fu S.
  - exists s. cbn [app]. destruct (readline g) as [x y]. cbn [fst] in G. split; [destruct fuel; cbn [read_rows]; rewrite G; reflexivity|].
    rewrite app_nil_r. exact S.
  - destruct (H r (or_introl eq_refl)) as [H1 H2]. destruct (row_line_facts _ _ _ _ L H1 RL) as (R & _).
    destruct fuel as [|fuel]; [cbn in Fu; lia|]. cbn [app readline read_rows]. rewrite R.
    destruct (read_row_ok Bs B rs r line s) as (s1 & -> & S1); auto.
    destruct (IH ltac:(intros; apply H; now right) g fuel (rs ++ [r]) s1) as (s2 & E & S2); auto; [cbn in Fu; lia|].
    exists s2. split; [exact E|]. rewrite <- app_assoc in S2. exact S2.
Qed.

Lemma start_block Bs B s : state_of Bs s -> bl_l B <= 3 -> bl_l B + length (bl_energy B) <= 7 ->
  (forall B', In B' Bs -> bl_l B' <= 3 /\ bl_l B' + length (bl_energy B') <= 7 /\ bl_l B' <> bl_l B) ->
  state_of (Bs ++ [with_rows B []]) (mkP (ps_orbs s ++ bl_labels B) (ps_basis s) (ps_cusp s ++ bl_cusp B) (ps_energy s ++ bl_energy B) (ps_exp s)
    (fold_left (fun d x => dset x [] d) (bl_labels B) (ps_coeff s))).
Proof.
  intros S L M D. constructor; cbn [ps_orbs ps_basis ps_cusp ps_energy ps_exp ps_coeff]; rewrite ?flat_map_app; cbn [flat_map with_rows bl_energy bl_cusp]; rewrite ?app_nil_r.
  - now rewrite (so_orbs _ _ S).
  - now rewrite (so_energy _ _ S).
  - now rewrite (so_cusp _ _ S).
  - apply (so_bkeys _ _ S).
  - apply (so_ekeys _ _ S).
  - intros l Hl. rewrite (so_basis _ _ S l Hl), flat_map_app. cbn. destruct (Nat.eqb _ _); now rewrite ?app_nil_r.
  - intros l Hl. rewrite (so_exp _ _ S l Hl), flat_map_app. cbn. destruct (Nat.eqb _ _); now rewrite ?app_nil_r.
  - apply fold_dset_nodup, (so_ckeys _ _ S).
  - intros B' k I K. rewrite fold_dset_get. apply in_app_or in I. destruct I as [I|[<-|[]]].
    + destruct (existsb _ _) eqn:E; [|now apply (so_coeff _ _ S)]. exfalso. apply existsb_text, in_labels in E. destruct E as (j & J & E).
      destruct (D B' I) as (D1 & D2 & D3). apply label_inj in E; [|lia|lia|lia|lia]. destruct E; congruence.
    + assert (E : existsb (text_eqb (label (bl_l (with_rows B []) + 1 + k) (bl_l (with_rows B [])))) (bl_labels B) = true).
      { apply existsb_text, in_labels. exists k. auto. }
      rewrite E. reflexivity.
  - intros x I. rewrite fold_dset_get. destruct (existsb _ _) eqn:E.
    + exfalso. apply I. apply in_or_app. right. apply existsb_text in E. exact E.
    + apply (so_other _ _ S). intros J. apply I. apply in_or_app. auto.
Qed.

Lemma read_block_ok heavy Bs B ls g s fuel : block_ok heavy B -> block_lines fl heavy B ls ->
  (forall B', In B' Bs -> bl_l B' <= 3 /\ bl_l B' + length (bl_energy B') <= 7 /\ bl_l B' <> bl_l B) ->
  is_row [l_char (bl_l B)] (fst (readline g)) = false -> length ls <= fuel -> state_of Bs s ->
  exists s', (let '(l, r) := readline (ls ++ g) in read_block fl heavy fuel l r s) = Some (Ok (readline g, s')) /\ state_of (Bs ++ [B]) s'.
Proof.
  intros (L & M & C & Rn & R) (h & e & c & rows & -> & Hh & He & Hc & Hr) D G Fu S.
  destruct (head_line_facts B h L Hh) as (_ & _ & W & _). destruct (value_line_facts _ _ _ He) as (w & ts & We & Ve).
  cbn [app readline]. unfold read_block. rewrite W. cbn [tl].
  change (py_get ([l_char (bl_l B)] :: bl_labels B) 0) with (@Ok text [l_char (bl_l B)]). cbn [bindo readline].
  rewrite We. cbn [tl]. rewrite Ve. cbn [bindo].
  assert (S0 := start_block Bs B s S L M D).
  destruct (read_rows_ok Bs B rows (bl_rows B) L M D Hr R g fuel [] _ G ltac:(cbn in Fu; rewrite app_length in Fu; lia) S0) as (s' & E & S').
  exists s'. destruct B as [l en cu rs]. cbn [with_rows bl_l bl_energy bl_cusp bl_rows app] in *. split; [|exact S'].
  destruct heavy.
  - subst c. subst cu. cbn [app bindo]. exact E.
  - destruct Hc as (sl & -> & Hc). destruct (value_line_facts _ _ _ Hc) as (w' & ts' & Wc & Vc). cbn [app readline]. rewrite Wc. cbn [tl]. rewrite Vc. cbn [bindo]. exact E.
Qed.

Lemma block_lines_head heavy B ls : block_lines fl heavy B ls -> exists h t, ls = h :: t /\ head_line B h.
Proof. intros (h & e & c & rows & -> & H & _). eauto. Qed.

Lemma read_blocks_ok heavy tail : (tail = [] \/ exists s r, tail = s :: r /\ blank s) -> forall todo bls, Forall2 (block_lines fl heavy) todo bls ->
  forall done s fuel, Forall (block_ok heavy) (done ++ todo) -> NoDup (map bl_l (done ++ todo)) -> state_of done s -> length (concat bls) < fuel ->
  exists s', (let '(l, r) := readline (concat bls ++ tail) in read_blocks fl heavy fuel l r s) = Some (Ok s') /\ state_of (done ++ todo) s'.
Proof.
  intros T. induction 1 as [|B ls todo bls HB F IH]; intros done s fuel O N S Fu.
  - cbn [concat app]. exists s. rewrite app_nil_r. split; auto.
    destruct T as [-> | (x & r & -> & X)]; cbn [readline]; destruct fuel; cbn [read_blocks]; auto; apply is_blank_spec in X; rewrite X; reflexivity.
  - rewrite Forall_app in O. destruct O as [O1 O2]. inversion O2 as [|? ? OB O3]; subst.
    assert (D : forall B', In B' done -> bl_l B' <= 3 /\ bl_l B' + length (bl_energy B') <= 7 /\ bl_l B' <> bl_l B).
    { intros B' I. rewrite Forall_forall in O1. destruct (O1 _ I) as (Q1 & Q2 & _). split; auto. split; auto. intros E.
      rewrite map_app in N. cbn in N. apply NoDup_remove_2 in N. apply N. apply in_or_app. left. rewrite <- E. now apply in_map. }
    destruct (block_lines_head _ _ _ HB) as (h & t & E & Hh). destruct (head_line_facts B h ltac:(apply OB) Hh) as (Q1 & Q2 & Q3 & _).
    destruct fuel as [|fuel]; [lia|]. cbn [concat] in *. rewrite <- app_assoc.
    assert (G : is_row [l_char (bl_l B)] (fst (readline (concat bls ++ tail))) = false).
    { inversion F as [|B2 ls2 todo2 bls2 HB2 F2]; subst.
      - cbn. destruct T as [-> | (x & r & -> & X)]; [reflexivity|cbn; now apply blank_row].
      - destruct (block_lines_head _ _ _ HB2) as (h2 & t2 & -> & Hh2). inversion O3; subst. destruct (head_line_facts B2 h2 ltac:(apply H1) Hh2) as (_ & _ & _ & Q). cbn. apply Q. }
    destruct (read_block_ok heavy done B ls (concat bls ++ tail) s fuel OB HB D G) as (s1 & E1 & S1); auto.
    { rewrite app_length in Fu. lia. }
    destruct (IH (done ++ [B]) s1 fuel) as (s2 & E2 & S2).
    + rewrite <- app_assoc. apply Forall_app. split; auto.
    + rewrite <- app_assoc. exact N.
    + exact S1.
    + rewrite app_length in Fu. subst ls. cbn in Fu. lia.
    + exists s2. rewrite <- app_assoc in S2. split; [|exact S2]. subst ls. cbn [app readline] in E1 |- *. cbn [read_blocks]. rewrite Q1, Q2, E1.
      cbn [bindo]. destruct (readline (concat bls ++ tail)) as [x y]. exact E2.
Qed.
Lemma read_titles_ok heavy g titles : Forall title_line titles -> forall fuel s, (let '(l, r) := readline (titles ++ g) in read_blocks fl heavy (length titles + fuel) l r s) =
  (let '(l, r) := readline g in read_blocks fl heavy fuel l r s).
Proof.
  induction 1 as [|t ts H Hs IH]; intros fuel s; auto. cbn [app readline length Nat.add read_blocks].
  destruct (title_line_facts t H) as [-> ->]. rewrite <- IH. reflexivity.
Qed.
End Blocks.
