(** Termination of the parser, choice of the file, universal Gaussian exponents. *)
From Coq Require Import String Ascii List Bool Arith ZArith Lia.
From Verif Require Import XR PyStr PyText SpecParse ProofText ModelParse SpecFile ProofConf ProofConf2 ProofFile ProofFile2 ProofFile3.
Import ListNotations.
Local Open Scope list_scope.

Section Ends.
Context (fl : text -> res xr).

(** ** Loops *)
Lemma skip_blank_never fuel : forall line f, blank line -> all_blank f -> skip_blank fuel line f = None.
Proof.
  induction fuel as [|k IH]; intros line f B F; cbn [skip_blank]; rewrite (proj2 (is_blank_spec line) B); auto.
  destruct f as [|l r]; cbn [readline]; apply IH; auto; [intros x []|apply F; now left|intros x I; apply F; now right].
Qed.
Lemma skip_blank_stops : forall f fuel line, S (length f) <= fuel -> skip_blank fuel line f = None -> blank line /\ all_blank f.
Proof.
  induction f as [|l r IH]; intros fuel line L H.
  - destruct fuel as [|k]; [lia|]. cbn [skip_blank] in H. destruct (is_blank line) eqn:B; [|discriminate]. apply is_blank_spec in B. split; auto. intros x [].
  - destruct fuel as [|k]; [cbn in L; lia|]. cbn [skip_blank readline] in H. destruct (is_blank line) eqn:B; [|discriminate]. apply is_blank_spec in B. split; auto.
    destruct (IH k l ltac:(cbn in L; lia) H) as [H1 H2]. intros x [<-|I]; auto.
Qed.
Lemma skip_blank_some : forall fuel line f x r, skip_blank fuel line f = Some (x, r) -> exists b, line :: f = b ++ x :: r /\ all_blank b /\ ~ blank x.
Proof.
  induction fuel as [|k IH]; intros line f x r H; cbn [skip_blank] in H; destruct (is_blank line) eqn:B; try discriminate.
  - injection H as <- <-. exists []. split; auto. split; [intros s []|now apply is_blank_false].
  - destruct f as [|l f]; cbn [readline] in H.
    + exfalso. rewrite skip_blank_never in H; [discriminate|intros s []|intros s []].
    + destruct (IH _ _ _ _ H) as (b & E & F & N). exists (line :: b). split; [cbn; congruence|]. split; auto. apply is_blank_spec in B. intros s [<-|I]; auto.
  - injection H as <- <-. exists []. split; auto. split; [intros s []|now apply is_blank_false].
Qed.
Lemma read_rows_stops sub orbs : forall f fuel line s, S (length f) <= fuel -> read_rows fl fuel sub orbs line f s <> None /\
  forall l r s', read_rows fl fuel sub orbs line f s = Some (Ok (l, r, s')) -> length r <= length f.
Proof.
  induction f as [|x f IH]; intros fuel line s L.
  - destruct fuel as [|k]; [lia|]. cbn [read_rows]. destruct (is_row sub line); [|split; [discriminate|intros l r s' H; injection H as <- <- <-; auto]].
    destruct (read_row fl sub orbs line s) as [s1|e]; [|split; discriminate]. cbn [readline]. assert (R : is_row sub [] = false) by reflexivity.
    destruct k; cbn [read_rows]; rewrite R; (split; [discriminate|intros l r s' H; injection H as <- <- <-; auto]).
  - destruct fuel as [|k]; [cbn in L; lia|]. cbn [read_rows]. destruct (is_row sub line); [|split; [discriminate|intros l r s' H; injection H as <- <- <-; auto]].
    destruct (read_row fl sub orbs line s) as [s1|e]; [|split; discriminate]. cbn [readline].
    destruct (IH k x s1 ltac:(cbn in L; lia)) as [H1 H2]. split; auto. intros l r s' H. apply H2 in H. cbn. lia.
Qed.
Lemma readline_len f l r : readline f = (l, r) -> length r = length f - 1.
Proof. destruct f; cbn; intros H; injection H as <- <-; cbn; lia. Qed.
Lemma read_block_stops heavy f fuel line s : length f <= fuel -> read_block fl heavy fuel line f s <> None /\
  forall l r s', read_block fl heavy fuel line f s = Some (Ok (l, r, s')) -> length r <= length f - 1 /\ (f = [] -> l = []).
Proof.
  intros L. unfold read_block. destruct (py_get (words line) 0) as [sub|e]; cbn [bindo]; [|split; discriminate].
  destruct (readline f) as [l1 f1] eqn:E1. apply readline_len in E1.
  destruct (mapM (float fl) (tl (words l1))) as [en|e]; cbn [bindo]; [|split; discriminate].
  assert (Q : exists l2 f2, (if heavy then (l1, f1) else readline f1) = (l2, f2) /\ length f2 <= length f - 1).
  { destruct heavy; [exists l1, f1; split; auto; lia|]. destruct (readline f1) as [l2 f2] eqn:E2. apply readline_len in E2. exists l2, f2. split; auto. lia. }
  destruct Q as (l2 & f2 & -> & L2). destruct (if heavy then Ok [] else mapM (float fl) (tl (words l2))) as [cu|e]; cbn [bindo]; [|split; discriminate].
  destruct (readline f2) as [l3 f3] eqn:E3. destruct f as [|x f].
  - cbn in *. destruct f2; [|cbn in L2; lia]. cbn in E3. injection E3 as <- <-. assert (R : is_row sub [] = false) by reflexivity.
    destruct fuel; cbn [read_rows]; rewrite R; (split; [discriminate|intros l r s' H; injection H as <- <- <-; auto]).
  - apply readline_len in E3. cbn in L, L2. destruct f2 as [|y f2].
    + cbn in E3. destruct f3; [|cbn in E3; lia].
      destruct (read_rows_stops sub (tl (words line)) [] fuel l3 (mkP (ps_orbs s ++ tl (words line)) (ps_basis s) (ps_cusp s ++ cu) (ps_energy s ++ en) (ps_exp s) (fold_left (fun d x0 => dset x0 [] d) (tl (words line)) (ps_coeff s))) ltac:(cbn; lia)) as [H1 H2].
      split; auto. intros l r s' H. apply H2 in H. cbn in *. split; [lia|discriminate].
    + cbn in E3. destruct (read_rows_stops sub (tl (words line)) f3 fuel l3 (mkP (ps_orbs s ++ tl (words line)) (ps_basis s) (ps_cusp s ++ cu) (ps_energy s ++ en) (ps_exp s) (fold_left (fun d x0 => dset x0 [] d) (tl (words line)) (ps_coeff s))) ltac:(cbn in L2; lia)) as [H1 H2].
      split; auto. intros l r s' H. apply H2 in H. cbn in *. split; [lia|discriminate].
Qed.
Lemma read_blocks_stops heavy : forall fuel f line s, length f + 2 <= fuel -> read_blocks fl heavy fuel line f s <> None.
Proof.
  induction fuel as [|k IH]; intros f line s L; [lia|]. cbn [read_blocks]. destruct (is_blank line); [discriminate|].
  destruct (is_header line).
  - destruct (read_block_stops heavy f k line s ltac:(lia)) as [H1 H2]. destruct (read_block fl heavy k line f s) as [[[[l r] s']|e]|]; [|discriminate|congruence].
    cbn [bindo]. destruct (H2 l r s' eq_refl) as [H3 H4]. destruct f as [|x f].
    + rewrite H4 by auto. assert (B : is_blank [] = true) by reflexivity. destruct k; cbn [read_blocks]; rewrite B; discriminate.
    + apply IH. cbn in *. lia.
  - destruct f as [|x f]; cbn [readline].
    + assert (B : is_blank [] = true) by reflexivity. destruct k; cbn [read_blocks]; rewrite B; discriminate.
    + apply IH. cbn in L. lia.
Qed.
Lemma read_more_len n : forall line f, length (snd (read_more n line f)) <= length f /\ snd (read_more n line f) = skipn n f.
Proof.
  induction n as [|n IH]; intros line f; [split; auto|]. cbn [read_more]. destruct f as [|x f]; cbn [readline].
  - destruct (IH [] []) as [H1 H2]. rewrite H2 in *. rewrite skipn_nil in *. cbn. auto.
  - destruct (IH x f) as [H1 H2]. rewrite H2 in *. cbn. split; auto.
Qed.

(** The two places where the reader waits for a line that is not blank. *)
Lemma only_stuck heavy f fuel : length f + 2 <= fuel -> parse_slater fl heavy fuel f = None -> stuck heavy f.
Proof.
  intros L. unfold parse_slater. destruct (readline f) as [l0 f0] eqn:E0. assert (T : f0 = @tl (list ascii) f) by (destruct f; cbn in E0; injection E0 as _ <-; reflexivity).
  assert (L0 := readline_len _ _ _ E0).
  destruct (py_get (words l0) 1) as [w|e]; cbn [bindo]; [|discriminate].
  destruct (if heavy then _ else _) as [conf|e]; cbn [bindo]; [|discriminate].
  destruct (readline f0) as [l1 f1] eqn:E1. assert (L1 := readline_len _ _ _ E1).
  destruct (skip_blank fuel l1 f1) as [[l2 f2]|] eqn:K.
  2: { intros _. left. apply skip_blank_stops in K; [|lia]. destruct K as [K1 K2]. rewrite <- T. destruct f0 as [|x f0]; [intros s []|]. cbn in E1. injection E1 as <- <-. intros s [<-|I]; auto. }
  apply skip_blank_some in K. destruct K as (b & Eb & Ab & Nx).
  assert (EF : f0 = b ++ l2 :: f2).
  { destruct f0 as [|x f0]; cbn in E1; injection E1 as <- <-; auto. exfalso. apply Nx. destruct b as [|y b]; [cbn in Eb; injection Eb as <- <-; intros s []|]. cbn in Eb. injection Eb as _ Eb. destruct b; discriminate. }
  destruct (if heavy then read_more 6 l2 f2 else (l2, f2)) as [le fe] eqn:Em.
  assert (Fe : fe = skipn (if heavy then 6 else 0) f2).
  { destruct heavy; [|cbn; congruence]. destruct (read_more_len 6 l2 f2) as [_ Q]. rewrite Em in Q. exact Q. }
  destruct (negb _); [discriminate|]. destruct (py_get _ 1) as [w1|e]; cbn [bindo]; [|discriminate]. destruct (float fl w1) as [en|e]; cbn [bindo]; [|discriminate].
  destruct (readline fe) as [lt ft] eqn:Et. destruct (find_numbers 0 lt) as [|a [|c [|d [|]]]]; try discriminate.
  destruct (float fl a) as [va|e]; cbn [bindo]; [|discriminate]. destruct (float fl c) as [vc|e]; cbn [bindo]; [|discriminate].
  destruct (readline ft) as [l3 f3] eqn:E3.
  assert (FT : ft = @skipn (list ascii) (if heavy then 7 else 1) f2).
  { assert (ft = skipn 1 fe) by (destruct fe; cbn in Et; injection Et as <- <-; auto). rewrite H, Fe. clear. destruct heavy; [do 7 (destruct f2 as [|? f2]; [reflexivity|]); reflexivity|reflexivity]. }
  assert (Lf : length f2 <= length f) by (assert (X := f_equal (@length _) EF); rewrite app_length in X; cbn [length] in X; lia).
  assert (Lt : length ft <= length f2) by (rewrite FT; pose proof (@skipn_length (list ascii) (if heavy then 7 else 1) f2) as X; unfold text in *; lia).
  assert (L3 := readline_len _ _ _ E3).
  destruct (skip_blank fuel l3 f3) as [[l4 f4]|] eqn:K.
  - assert (L4 : length f4 <= length f3).
    { apply skip_blank_some in K. destruct K as (b' & Eb' & _). apply (f_equal (@length _)) in Eb'. cbn in Eb'. rewrite app_length in Eb'. cbn in Eb'. lia. }
    assert (R := read_blocks_stops heavy fuel f4 l4 empty_state ltac:(lia)).
    destruct (read_blocks fl heavy fuel l4 f4 empty_state) as [[s|e]|]; [discriminate|discriminate|congruence].
  - intros _. right. exists b, l2, f2. rewrite <- T. split; auto. split; auto. split; auto. rewrite <- FT. apply skip_blank_stops in K; [|lia]. destruct K as [K1 K2].
    destruct ft as [|x ft]; [intros s []|]. cbn in E3. injection E3 as <- <-. intros s [<-|I]; auto.
Qed.

(** Both places are reached. *)
Lemma stuck_first heavy f conf ps l0 fuel : f = l0 :: tl f -> first_line conf l0 -> config_of heavy conf ps -> all_blank (tl f) -> parse_slater fl heavy fuel f = None.
Proof.
  intros -> (w0 & w1 & ws & S0 & W1) Cf B. unfold parse_slater. cbn [readline]. rewrite (words_spaced _ _ S0).
  change (py_get (w0 :: w1 :: ws) 1) with (@Ok text w1). cbn [bindo]. unfold remove_char. rewrite W1.
  assert (Hc : (if heavy then heavy_configuration conf else @Ok text conf) = Ok (show_all ps)).
  { destruct heavy; [|cbn in Cf; now rewrite Cf]. destruct Cf as (qs & Q & [[-> ->]|[-> ->]]); apply heavy_ok; auto. }
  rewrite Hc. cbn [bindo tl]. cbn [tl] in B. destruct (tl f) as [|x r]; cbn [readline]; (rewrite skip_blank_never; [reflexivity| |]).
  - intros s [].
  - intros s [].
  - apply B. now left.
  - intros s I. apply B. now right.
Qed.
Lemma stuck_second heavy conf ps l0 b1 more le lt rest e t v fuel : first_line conf l0 -> config_of heavy conf ps -> all_blank b1 ->
  (if heavy then length more = 6 /\ ~ blank (hd [] more) else more = []) -> energy_line fl e le -> ratio_line fl t v lt -> all_blank rest ->
  parse_slater fl heavy fuel (l0 :: b1 ++ more ++ le :: lt :: rest) = None.
Proof.
  intros (w0 & w1 & ws & S0 & W1) Cf B1 Hm He Ht Br.
  destruct (energy_parts fl _ _ He) as (ep & eq & er & E1 & E2 & E3). destruct (ratio_numbers fl _ _ _ Ht) as (ra & rb & rc & R1 & R2 & R3).
  unfold parse_slater. cbn [readline]. rewrite (words_spaced _ _ S0).
  change (py_get (w0 :: w1 :: ws) 1) with (@Ok text w1). cbn [bindo]. unfold remove_char. rewrite W1.
  assert (Hc : (if heavy then heavy_configuration conf else @Ok text conf) = Ok (show_all ps)).
  { destruct heavy; [|cbn in Cf; now rewrite Cf]. destruct Cf as (qs & Q & [[-> ->]|[-> ->]]); apply heavy_ok; auto. }
  rewrite Hc. cbn [bindo]. destruct (readline (b1 ++ more ++ le :: lt :: rest)) as [l1 f1] eqn:E0.
  destruct (skip_blank fuel l1 f1) as [[x r]|] eqn:K; [|reflexivity].
  apply skip_blank_some in K. destruct K as (b & Eb & Ab & Nx).
  assert (EF : b1 ++ more ++ le :: lt :: rest = b ++ x :: r).
  { rewrite <- Eb. destruct b1 as [|y b1]; [destruct more|]; cbn in E0; injection E0 as <- <-; reflexivity. }
  assert (SP : forall b b' (x x' : list ascii) r r', all_blank b -> all_blank b' -> ~ blank x -> ~ blank x' -> b ++ x :: r = b' ++ x' :: r' -> x = x' /\ r = r').
  { clear. induction b as [|y b IH]; intros b' x x' r r' A A' N N' E.
    - destruct b' as [|y' b']; cbn in E; injection E as E1 E2; auto. subst. exfalso. apply N. apply A'. now left.
    - destruct b' as [|y' b']; cbn in E; injection E as E1 E2; [subst; exfalso; apply N', A; now left|]. apply (IH b'); auto; intros s I; [apply A|apply A']; now right. }
  assert (Q : (if heavy then read_more 6 x r else (x, r)) = (le, lt :: rest)).
  { destruct heavy.
    - destruct Hm as [M1 M2]. destruct more as [|m0 more]; [discriminate|]. cbn [hd] in M2. cbn [app] in EF. destruct (SP _ _ _ _ _ _ B1 Ab M2 Nx EF) as [<- <-].
      cbn in M1. injection M1 as M1. change 6 with (5 + 1). rewrite <- M1. destruct (read_more_ok more le (lt :: rest) m0) as [X Y]. rewrite (surjective_pairing (read_more _ _ _)). exact (f_equal2 pair X Y).
    - subst more. cbn [app] in EF. destruct (SP _ _ _ _ _ _ B1 Ab (energy_nonblank fl _ _ He) Nx EF) as [<- <-]. reflexivity. }
  rewrite Q, E1. cbn [nth]. rewrite E2. cbn [text_eqb Ascii.eqb Bool.eqb andb negb].
  change (py_get (ep :: eq :: er) 1) with (@Ok text eq). cbn [bindo]. rewrite E3. cbn [bindo readline]. rewrite R1, R2, R3. cbn [bindo].
  destruct rest as [|y rest]; cbn [readline]; (rewrite skip_blank_never; [reflexivity| |]).
  - intros s [].
  - intros s [].
  - apply Br. now left.
  - intros s I. apply Br. now right.
Qed.

(** ** The fuel does not matter once it is enough *)
Lemma skip_blank_mono : forall k k' line f x, k <= k' -> skip_blank k line f = Some x -> skip_blank k' line f = Some x.
Proof.
  induction k as [|k IH]; intros k' line f x L H; cbn [skip_blank] in H.
  - destruct (is_blank line) eqn:B; [discriminate|]. destruct k'; cbn [skip_blank]; now rewrite B.
  - destruct k' as [|k']; [lia|]. cbn [skip_blank]. destruct (is_blank line); auto. destruct (readline f) as [l r]. apply IH; auto. lia.
Qed.
Lemma read_rows_mono sub orbs : forall k k' line f s x, k <= k' -> read_rows fl k sub orbs line f s = Some x -> read_rows fl k' sub orbs line f s = Some x.
Proof.
  induction k as [|k IH]; intros k' line f s x L H; cbn [read_rows] in H.
  - destruct (is_row sub line) eqn:B; [discriminate|]. destruct k'; cbn [read_rows]; now rewrite B.
  - destruct k' as [|k']; [lia|]. cbn [read_rows]. destruct (is_row sub line); auto. destruct (read_row fl sub orbs line s); auto. destruct (readline f) as [l r]. apply IH; auto. lia.
Qed.
Lemma read_block_mono heavy k k' line f s x : k <= k' -> read_block fl heavy k line f s = Some x -> read_block fl heavy k' line f s = Some x.
Proof.
  intros L. unfold read_block. destruct (py_get (words line) 0) as [sub|e]; cbn [bindo]; auto. destruct (readline f) as [l1 f1].
  destruct (mapM (float fl) (tl (words l1))); cbn [bindo]; auto. destruct (if heavy then (l1, f1) else readline f1) as [l2 f2].
  destruct (if heavy then _ else _); cbn [bindo]; auto. destruct (readline f2) as [l3 f3]. now apply read_rows_mono.
Qed.
Lemma read_blocks_mono heavy : forall k k' line f s x, k <= k' -> read_blocks fl heavy k line f s = Some x -> read_blocks fl heavy k' line f s = Some x.
Proof.
  induction k as [|k IH]; intros k' line f s x L H; cbn [read_blocks] in H.
  - destruct (is_blank line) eqn:B; [|discriminate]. destruct k'; cbn [read_blocks]; now rewrite B.
  - destruct k' as [|k']; [lia|]. cbn [read_blocks]. destruct (is_blank line); auto. destruct (is_header line).
    + destruct (read_block fl heavy k line f s) as [y|] eqn:E; [|discriminate]. rewrite (read_block_mono heavy k k' _ _ _ y) by (auto; lia).
      destruct y as [[[l r] s']|e]; cbn [bindo] in *; auto. apply IH; auto. lia.
    + destruct (readline f) as [l r]. apply IH; auto. lia.
Qed.
Lemma parse_mono heavy k k' f x : k <= k' -> parse_slater fl heavy k f = Some x -> parse_slater fl heavy k' f = Some x.
Proof.
  intros L. unfold parse_slater. destruct (readline f) as [l0 f0]. destruct (py_get (words l0) 1) as [w|e]; cbn [bindo]; auto.
  destruct (if heavy then _ else _) as [conf|e]; cbn [bindo]; auto. destruct (readline f0) as [l1 f1].
  destruct (skip_blank k l1 f1) as [[l2 f2]|] eqn:K; [|discriminate]. rewrite (skip_blank_mono _ _ _ _ _ L K).
  destruct (if heavy then read_more 6 l2 f2 else (l2, f2)) as [le fe]. destruct (negb _); auto.
  destruct (py_get _ 1) as [w1|e]; cbn [bindo]; auto. destruct (float fl w1) as [en|e]; cbn [bindo]; auto.
  destruct (readline fe) as [lt ft]. destruct (find_numbers 0 lt) as [|a [|c [|d [|]]]]; auto.
  destruct (float fl a) as [va|e]; cbn [bindo]; auto. destruct (float fl c) as [vc|e]; cbn [bindo]; auto. destruct (readline ft) as [l3 f3].
  destruct (skip_blank k l3 f3) as [[l4 f4]|] eqn:K3; [|discriminate]. rewrite (skip_blank_mono _ _ _ _ _ L K3).
  destruct (read_blocks fl heavy k l4 f4 empty_state) as [y|] eqn:K4; [|discriminate]. rewrite (read_blocks_mono heavy _ _ _ _ _ _ L K4). auto.
Qed.
End Ends.
