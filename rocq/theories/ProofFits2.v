(** Names and texts for which no fitted model is returned. *)
From Coq Require Import Reals.
From Coq Require Import Ascii String List ZArith Bool Lia.
From Verif Require Import XR PyText ProofText SpecParse SpecJson ModelJson ProofJson SpecUgbs SpecFits DataFits ProofFits.
Import ListNotations.
Local Open Scope nat_scope.

Lemma no_document fl s name : (forall j, ~ document s j) -> load_fit fl s name = Raise ValueError.
Proof. intros H. unfold load_fit. destruct (json_load s) as [j|] eqn:E; [|reflexivity]. apply json_load_spec in E. destruct (H j E). Qed.

(** An object ends at its closing brace, whatever follows. *)
Lemma object_read t j : value t j -> (exists v, t = "{"%char :: v) -> forall n r, 2 * length t <= n -> read_value n (t ++ r) = Some (j, r).
Proof.
  intros V (v & Et) n r L. destruct V as [s j N|s P|w B|s l I|w B|s l M]; try discriminate.
  - exfalso. destruct (number_head s j N) as (c & u & E & _ & _ & _ & Q). rewrite Et in E. injection E as <- _. now apply Q.
  - clear Et. destruct n as [|n]; [cbn in L; lia|]. cbn [list_ascii_of_string app read_value]. rewrite <- app_assoc. cbn [app]. change (Ascii.eqb "{" """") with false. change (Ascii.eqb "{" "[") with false. change (Ascii.eqb "{" "{") with true. cbn iota.
    rewrite skip_char by auto. now rewrite eat_same.
  - clear Et. destruct read_complete as (_ & _ & C). destruct (C s l M) as [H1 H2]. destruct n as [|n]; [cbn in L; lia|]. cbn [list_ascii_of_string app read_value]. rewrite <- app_assoc. cbn [app]. change (Ascii.eqb "{" """") with false. change (Ascii.eqb "{" "[") with false. change (Ascii.eqb "{" "{") with true. cbn iota.
    destruct (H1 ("}"%char :: r)) as (c & w & E & O). rewrite E, eat_other by (apply O). rewrite <- E, H2; [reflexivity|]. cbn [list_ascii_of_string app length] in L. rewrite app_length in L. cbn [length] in L. lia.
Qed.
Lemma object_prefix t u j j' : value t j -> (exists v, t = "{"%char :: v) -> value (t ++ u) j' -> u = [].
Proof.
  intros V H W. destruct read_complete as (C & _). assert (A := C _ _ W (2 * length (t ++ u)) [] (Nat.le_refl _) Logic.I). rewrite app_nil_r in A.
  rewrite (object_read t j V H) in A; [now injection A|]. rewrite app_length. lia.
Qed.
(** A part of the text of an object is no document. *)
Lemma truncated s j p u : value s j -> (exists v, s = "{"%char :: v) -> s = p ++ u -> u <> [] -> forall j', ~ document p j'.
Proof.
  intros V (v & Es) E N j' (w & t & w' & B & B' & Vt & ->). destruct (value_head t j' Vt) as (c & x & Et & O).
  assert (w = []) as ->. { destruct w as [|a w]; auto. rewrite Es in E. injection E as <- _. specialize (B _ (or_introl eq_refl)). cbn in B. lia. }
  cbn [app] in E. apply N. assert (X : w' ++ u = []); [|now apply app_eq_nil in X]. apply (object_prefix t (w' ++ u) j' j Vt).
  - exists x. rewrite Et in E |- *. rewrite Es in E. injection E as <- _. reflexivity.
  - rewrite app_assoc, <- E. exact V.
Qed.

(** ** The shipped files *)
Lemma file_shape tol l : fits_ok tol 0 fit_names ugbs_sizes l = true ->
  exists ms, value (str "{" ++ joined l ++ str "}") (JObj ms) /\ map fst ms = map (fun s => str s) fit_names.
Proof.
  intros H. destruct (fits_ok_map _ _ _ _ _ H) as (ms & E1 & E2 & _). exists ms. split; [|exact E2]. apply value_obj. apply joined_members; [|exact E1].
  intros ->. destruct ms; discriminate.
Qed.
Lemma shapes : forall file, file = fpi_json \/ file = slsqp_json -> exists ms, value file (JObj ms) /\ map fst ms = map (fun s => str s) fit_names.
Proof. intros file [->| ->]; [exact (file_shape _ _ fpi_checked)|exact (file_shape _ _ slsqp_checked)]. Qed.
Lemma fits_truncated fl file p u name : file = fpi_json \/ file = slsqp_json -> file = p ++ u -> u <> [] -> load_fit fl p name = Raise ValueError.
Proof.
  intros F E N. apply no_document. destruct (shapes file F) as (ms & V & _). eapply truncated; eauto. destruct F as [->| ->]; eexists; reflexivity.
Qed.
Lemma fits_unknown fl file name : file = fpi_json \/ file = slsqp_json -> ~ In name fit_names -> load_fit fl file name = Raise KeyError.
Proof.
  intros F N. destruct (shapes file F) as (ms & V & K). assert (D : json_load file = Some (JObj ms)).
  { apply json_load_spec. exists [], file, []. split; [intros c []|]. split; [intros c []|]. split; [exact V|]. now rewrite app_nil_r. }
  enough (X : json_index (JObj ms) name = Raise KeyError) by (unfold load_fit; rewrite D, X; reflexivity). unfold json_index. match goal with |- match ?f with _ => _ end = _ => destruct f as [p|] eqn:E; [|reflexivity] end. exfalso. apply find_some in E. destruct E as [I T]. apply N.
  destruct (text_eqb_spec (fst p) (list_ascii_of_string name)) as [Q|]; [|discriminate]. apply in_rev in I. apply (in_map fst) in I. rewrite K in I. apply in_map_iff in I. destruct I as (x & Hx & I).
  replace name with x; [exact I|]. assert (Hy : str x = str name) by exact (eq_trans Hx Q). clear Hx. rename Hy into Hx. apply (f_equal string_of_list_ascii) in Hx. now rewrite !string_of_list_ascii_of_string in Hx.
Qed.
