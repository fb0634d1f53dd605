(** Errors: configurations without a listed orbital, molecules of the wrong shape, radial points,
    indices of basis functions. *)
From Coq Require Import String Ascii List Bool Arith ZArith Lia.
From Verif Require Import XR PyText SpecParse ProofText ModelParse SpecFile ProofConf ProofConf2 ProofFile ProofFile2.
From Verif Require Import ProofFile3 ProofFile4 ProofNames ProofCheck DataSlater SpecShipped.
Import ListNotations.
Local Open Scope list_scope.

(** An orbital without electrons has no entry. *)
Lemma occ_missing ps nls : Forall piece_ok ps -> distinct ps -> (forall nl, In nl nls -> subshell_ok (fst nl) (snd nl)) ->
  (exists nl, In nl nls /\ electrons ps (fst nl) (snd nl) 0) ->
  mapM (fun k => do d <- occupations (show_all ps); dlookup k d) (map (fun nl => label (fst nl) (snd nl)) nls) = Raise KeyError.
Proof.
  intros P D. destruct (occupations_ok ps P D) as (d & -> & V & _). cbn [bind].
  assert (X : forall n l, exists c, electrons ps n l c).
  { intros n l. destruct (listed ps (n, l)) as [c|] eqn:L; [exists c; left; now apply listed_some|]. assert (L' := listed_none _ _ _ L).
    destruct (in_dec piece_dec (Closed n) ps) as [J|J]; [exists (2 * (2 * l + 1)); right; left; auto|exists 0; right; right; auto]. }
  induction nls as [|[n l] nls IH]; intros S (nl & I & E); [destruct I|].
  destruct (X n l) as (c & Ec).
  assert (G := V n l c (S (n, l) (or_introl eq_refl)) Ec).
  cbn [map mapM fst snd]. unfold dlookup at 1. rewrite G. destruct c as [|c]; [reflexivity|]. cbn [bind Nat.eqb].
  destruct I as [<-|I].
  - assert (G0 := V n l 0 (S (n, l) (or_introl eq_refl)) E). rewrite G0 in G. discriminate.
  - rewrite IH; [reflexivity | intros; apply S; now right | exists nl; auto].
Qed.

Section File.
Context (fl : text -> res xr).

Lemma parse_state heavy C ps f fuel : file_lines fl heavy C f -> blocks_ok heavy (ct_blocks C) ->
  config_of heavy (ct_word C) ps -> Forall piece_ok ps -> length f < fuel ->
  exists s, state_of (ct_blocks C) s /\ parse_slater fl heavy fuel f = Some (make_data (show_all ps) (ct_E C) (ct_T C) (ct_V C) s).
Proof.
  intros (l0 & b1 & more & le & lt & b2 & titles & bls & tail & -> & (w0 & w1 & ws & S0 & W1) & B1 & Hm & He & Ht & B2 & T & F & Tl) BO Cf P Fu.
  destruct (energy_parts fl _ _ He) as (ep & eq & er & E1 & E2 & E3). destruct (ratio_numbers fl _ _ _ Ht) as (ra & rb & rc & R1 & R2 & R3).
  unfold parse_slater. cbn [readline]. rewrite (words_spaced _ _ S0). change (py_get (w0 :: w1 :: ws) 1) with (@Ok text w1). cbn [bindo]. unfold remove_char. rewrite W1.
  assert (Hc : (if heavy then heavy_configuration (ct_word C) else @Ok text (ct_word C)) = Ok (show_all ps)).
  { destruct heavy; [|cbn in Cf; now rewrite Cf]. destruct Cf as (qs & Q & [[-> ->]|[-> ->]]); apply heavy_ok; auto. }
  rewrite Hc. cbn [bindo].
  set (rest := lt :: b2 ++ titles ++ concat bls ++ tail) in *.
  assert (Q : exists x r, (let '(l1, f1) := readline (b1 ++ more ++ le :: rest) in skip_blank fuel l1 f1) = Some (x, r) /\
    (if heavy then read_more 6 x r else (x, r)) = (le, rest)).
  { cbn in Fu. rewrite !app_length in Fu. destruct heavy.
    - destruct Hm as [M1 M2]. destruct more as [|m0 more]; [discriminate|]. exists m0, (more ++ le :: rest). split.
      + cbn [app]. apply skip_blank_ok; auto. lia.
      + cbn in M1. injection M1 as M1. change 6 with (5 + 1). rewrite <- M1. destruct (read_more_ok more le rest m0) as [X Y]. rewrite (surjective_pairing (read_more _ _ _)). exact (f_equal2 pair X Y).
    - subst more. exists le, rest. split; auto. cbn [app]. apply skip_blank_ok; auto; [eapply energy_nonblank; eauto|lia]. }
  destruct Q as (x & r & Q1 & Q2).
  destruct (readline (b1 ++ more ++ le :: rest)) as [l1 f1]. rewrite Q1, Q2, E1. cbn [nth]. rewrite E2. cbn [text_eqb Ascii.eqb Bool.eqb andb negb].
  change (py_get (ep :: eq :: er) 1) with (@Ok text eq). cbn [bindo]. rewrite E3. cbn [bindo]. unfold rest at 1. cbn [readline]. rewrite R1, R2, R3. cbn [bindo].
  destruct BO as (Bn & Bo & Bd).
  assert (X : exists y g, titles ++ concat bls ++ tail = y :: g /\ ~ blank y).
  { inversion T as [|t ts T1 T2]; subst; [|exists t, (ts ++ concat bls ++ tail); split; [reflexivity|apply T1]].
    inversion F as [|B ls todo bls' HB F']; subst; [congruence|]. destruct (block_lines_head _ _ _ _ HB) as (h & t & -> & Hh).
    exists h, ((t ++ concat bls') ++ tail). split; [reflexivity|]. destruct Hh as [Hh _]. eapply spaced_nonblank; eauto. }
  destruct X as (y & g & X1 & X2). rewrite X1.
  assert (L : length b2 + length titles + length (concat bls) < fuel).
  { cbn in Fu. unfold rest in Fu. rewrite !app_length in Fu. cbn in Fu. rewrite !app_length in Fu. lia. }
  assert (K := skip_blank_ok b2 y g fuel B2 X2 ltac:(lia)). destruct (readline (b2 ++ y :: g)) as [l3 f3]. rewrite K.
  assert (TT := read_titles_ok fl heavy (concat bls ++ tail) titles T (fuel - length titles) empty_state).
  replace (length titles + (fuel - length titles)) with fuel in TT by lia. rewrite X1 in TT. cbn [readline] in TT. rewrite TT.
  destruct (read_blocks_ok fl heavy tail Tl (ct_blocks C) bls F [] empty_state (fuel - length titles) Bo Bd empty_state_of ltac:(lia)) as (s & -> & S).
  exists s. cbn [bindo app] in *. split; [exact S | reflexivity].
Qed.

Lemma parse_unoccupied heavy C ps f fuel : file_lines fl heavy C f -> blocks_ok heavy (ct_blocks C) ->
  config_of heavy (ct_word C) ps -> Forall piece_ok ps -> distinct ps ->
  (exists nl, In nl (orbital_nl (ct_blocks C)) /\ electrons ps (fst nl) (snd nl) 0) -> length f < fuel ->
  parse_slater fl heavy fuel f = Some (Raise KeyError).
Proof.
  intros F B Cf P D O Fu. destruct (parse_state heavy C ps f fuel F B Cf P Fu) as (s & S & ->).
  unfold make_data. rewrite (so_orbs _ _ S), orbital_labels. destruct B as (Bn & Bo & Bd).
  rewrite (occ_missing ps _ P D (orbital_ok heavy _ Bo) O). reflexivity.
Qed.
End File.

(** The beryllium file with the configuration of helium. *)
Definition be_as_he : list string := ("      BERYLLIUM 1S(2), 1S"%string) :: tl be_neutral.
Lemma be_as_he_layout fl val : (forall t, is_decimal t -> fl t = Ok (val t)) ->
  exists C, file_lines fl false C (map str be_as_he) /\ blocks_ok false (ct_blocks C) /\ config_of false (ct_word C) [Sub 1 0 2] /\
    Forall piece_ok [Sub 1 0 2] /\ distinct [Sub 1 0 2] /\ In (2, 0) (orbital_nl (ct_blocks C)) /\ electrons [Sub 1 0 2] 2 0 0.
Proof.
  intros Hfl. set (h := mkH 0 0 1 [11] ["   T =    "; "14.573023130"; "     V =   "; "-29.146046297"; "     V/T =    "; "-2.000000003"; ""]%string None [Sub 1 0 2]).
  set (p := parts_of h (map str be_as_he)). assert (E : leqb (lines_of p) (map str be_as_he) = true) by (vm_compute; reflexivity). apply leqb_spec in E.
  set (t := file_words (heavy_of h) (h_ratio h) p).
  assert (L : layoutb false (word_of h) t p = true) by (vm_compute; reflexivity).
  assert (B : blocksb false t = true) by (vm_compute; reflexivity).
  exists (contents_of val (word_of h) t). rewrite <- E.
  split; [now apply layoutb_ok|]. split; [now apply blocksb_ok|]. split; [reflexivity|]. split; [repeat constructor; cbn; lia|].
  split; [apply distinctb_ok; [repeat constructor; cbn; lia|reflexivity]|]. split; [vm_compute; right; left; reflexivity|].
  right. right. split; [intros c [H|[]]; discriminate|]. split; [|reflexivity]. intros [H|[]]; discriminate.
Qed.
