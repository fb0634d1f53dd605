(** The lists of elements of the reader by atomic number. *)
From Coq Require Import String Ascii List Bool Arith Lia.
From Verif Require Import XR PyStr PyText ModelParse SpecParse SpecFile SpecShipped SpecElem DataSlater ProofText ProofFile4 ProofNames ProofShipped.
Import ListNotations.
Local Open Scope nat_scope.

Lemma lower_str s t : same_name (str s) (str t) <-> lower s = lower t.
Proof.
  rewrite <- same_lower, <- !lower_txt. split; [|congruence]. intros H.
  rewrite <- (string_of_list_ascii_of_string (lower s)), <- (string_of_list_ascii_of_string (lower t)). f_equal. exact H.
Qed.
(** Zs gives the members of [l] by number. *)
Definition lists (p : nat -> bool) (l : list string) : bool :=
  forallb (fun Z => Bool.eqb (p Z) (str_in (lower (nth (Z - 1) symbols ""%string)) l)) (seq 1 103) &&
  forallb (fun e => str_in e (map lower symbols)) l.
Lemma lists_ok p l : lists p l = true -> forall s, In (lower s) l <-> exists Z, element s Z /\ p Z = true.
Proof.
  unfold lists. rewrite andb_true_iff, !forallb_forall. intros [H1 H2] s. split.
  - intros I. specialize (H2 _ I). apply str_in_spec, in_map_iff in H2. destruct H2 as (t & E & J). apply In_nth_error in J. destruct J as (k & J).
    assert (K : k < length symbols) by (apply nth_error_Some; congruence). change (length symbols) with 103 in K. exists (S k). assert (T : nth k symbols ""%string = t) by (now apply nth_error_nth).
    split.
    + split; [lia|]. exists t. replace (S k - 1) with k by lia. split; auto. now apply lower_str.
    + specialize (H1 (S k) ltac:(apply in_seq; lia)). apply eqb_prop in H1. rewrite H1. replace (S k - 1) with k by lia. rewrite T, E. now apply str_in_spec.
  - intros (Z & (Hz & t & J & S) & P). assert (K : Z - 1 < length symbols) by (apply nth_error_Some; congruence). change (length symbols) with 103 in K.
    specialize (H1 Z ltac:(apply in_seq; lia)). apply eqb_prop in H1. rewrite P in H1. symmetry in H1. apply str_in_spec in H1.
    apply lower_str in S. rewrite S. erewrite nth_error_nth in H1; eauto.
Qed.
Lemma heavy_spec s : In (lower s) heavy_atoms <-> heavy_element s.
Proof.
  rewrite (lists_ok (fun Z => Nat.leb 55 Z) heavy_atoms) by (vm_compute; reflexivity). unfold heavy_element. split; intros (Z & E & H); exists Z; (split; [exact E|]); now apply Nat.leb_le.
Qed.
Lemma cation_spec s : In (lower s) cation_atoms <-> cation_offered s.
Proof.
  rewrite (lists_ok (fun Z => Nat.leb 3 Z && Nat.leb Z 55) cation_atoms) by (vm_compute; reflexivity). unfold cation_offered.
  split; intros (Z & E & H); exists Z; (split; [exact E|]); rewrite andb_true_iff, !Nat.leb_le in *; lia.
Qed.
Lemma anion_spec s : In (lower s) anion_atoms <-> anion_offered s.
Proof.
  rewrite (lists_ok (fun Z => Nat.leb Z 53 && negb (existsb (Nat.eqb Z) ([2; 10; 18; 36] ++ [4; 12; 20; 38] ++ [30; 48]))) anion_atoms) by (vm_compute; reflexivity). unfold anion_offered.
  split; intros (Z & E & H); exists Z; (split; [exact E|]); rewrite andb_true_iff, negb_true_iff, Nat.leb_le in *; destruct H as [H1 H2]; split; auto.
  - intros I. enough (X : existsb (Nat.eqb Z) ([2; 10; 18; 36] ++ [4; 12; 20; 38] ++ [30; 48]) = true) by congruence. apply existsb_exists. exists Z. split; auto. apply Nat.eqb_refl.
  - destruct (existsb _ _) eqn:X; auto. apply existsb_exists in X. destruct X as (y & I & Y). apply Nat.eqb_eq in Y. subst y. contradiction.
Qed.

(** ** The statements of C40 by atomic number *)
Lemma rejections_z fl fs fuel :
  (forall anion cation, slater_atoms fl fs None anion cation fuel = Some (Raise TypeError)) /\
  (forall s anion cation, s = ""%string \/ ~ alphabetic (str s) -> slater_atoms fl fs (Some s) anion cation fuel = Some (Raise TypeError)) /\
  (forall s, s <> ""%string -> alphabetic (str s) -> slater_atoms fl fs (Some s) true true fuel = Some (Raise ValueError)) /\
  (forall s anion cation, s <> ""%string -> alphabetic (str s) ->
     (anion = true /\ cation = false /\ ~ anion_offered s) \/ (anion = false /\ cation = true /\ ~ cation_offered s) ->
     slater_atoms fl fs (Some s) anion cation fuel = Some (Raise ValueError)).
Proof.
  destruct (rejections fl fs fuel) as (R1 & R2 & R3 & R4). split; [exact R1|]. split; [exact R2|]. split; [exact R3|]. intros s anion cation. specialize (R4 s anion cation). rewrite <- anion_spec, <- cation_spec. exact R4.
Qed.
Lemma file_missing_z (fl : list ascii -> res xr) (fs : folder -> string -> option (list (list ascii))) s anion cation fuel :
  s <> ""%string -> alphabetic (str s) -> anion && cation = false ->
  (anion = true -> anion_offered s) -> (cation = true -> cation_offered s) ->
  fs (place anion cation) (lower s) = None -> slater_atoms fl fs (Some s) anion cation fuel = Some (Raise FileNotFoundError).
Proof. rewrite <- anion_spec, <- cation_spec. apply file_missing. Qed.
Lemma atom_loads_z (fl : list ascii -> res xr) (fs : folder -> string -> option (list (list ascii))) s anion cation fuel f C ps :
  s <> ""%string -> alphabetic (str s) -> anion && cation = false ->
  (anion = true -> anion_offered s) -> (cation = true -> cation_offered s) ->
  fs (place anion cation) (lower s) = Some f ->
  forall heavy, (heavy = true <-> heavy_element s) ->
  file_lines fl heavy C f -> blocks_ok heavy (ct_blocks C) -> config_of heavy (ct_word C) ps -> Forall piece_ok ps -> distinct ps -> all_occupied C ps ->
  length f < fuel -> exists d, slater_atoms fl fs (Some s) anion cation fuel = Some (Ok d) /\ returned C ps d.
Proof. intros N A B Ha Hc F heavy H. rewrite <- anion_spec in Ha. rewrite <- cation_spec in Hc. rewrite <- heavy_spec in H. now apply (atom_loads fl fs s anion cation fuel f C ps). Qed.
Lemma element_unique s Z Z' : element s Z -> element s Z' -> Z = Z'.
Proof.
  intros (H & t & J & S) (H' & t' & J' & S'). assert (K : Z - 1 < length symbols) by (apply nth_error_Some; congruence). change (length symbols) with 103 in K.
  assert (N : NoDup (map lower symbols)).
  { assert (X : forall l, (fix nd l := match l with [] => true | x :: r => negb (str_in x r) && nd r end) l = true -> NoDup l).
    { induction l as [|x l IH]; [constructor|]. rewrite andb_true_iff, negb_true_iff. intros [A B]. constructor; auto. now apply str_in_false. }
    apply X. vm_compute. reflexivity. }
  apply lower_str in S, S'. enough (Z - 1 = Z' - 1) by lia. apply (proj1 (NoDup_nth_error (map lower symbols)) N).
  - rewrite map_length. exact K.
  - rewrite (map_nth_error lower _ _ J), (map_nth_error lower _ _ J'). congruence.
Qed.
Lemma heavy_ions_z s : heavy_element s -> anion_offered s \/ cation_offered s -> element s 55 /\ ~ anion_offered s.
Proof.
  intros (Z & E & H) O. assert (A : ~ anion_offered s) by (intros (Z' & E' & H1 & _); rewrite (element_unique s Z' Z E' E) in H1; lia).
  split; auto. destruct O as [O|(Z' & E' & H1)]; [contradiction|]. rewrite (element_unique s Z' Z E' E) in *. replace 55 with Z by lia. exact E.
Qed.
Lemma shipped_loads_z fl val : (forall t, is_decimal t -> fl t = Ok (val t)) ->
  forall d e f s, In (d, e, f) data_names -> (d, e) <> (Cation, "cs"%string) -> same_name (str s) (str e) -> forall heavy, (heavy = true <-> heavy_element s) -> forall fuel, 100 <= fuel ->
  exists C ps data, file_lines fl heavy C (map str f) /\ config_of heavy (ct_word C) ps /\
    slater_atoms fl data_files (Some s) (folder_eqb d Anion) (folder_eqb d Cation) fuel = Some (Ok data) /\
    returned C ps data /\ zsum (sd_occ data) = electron_number d e.
Proof.
  intros V d e f s I N S heavy H fuel F. destruct (shipped_loads fl val V d e f s I N S fuel F) as (C & ps & data & H1 & H2 & H3).
  assert (E : str_in e heavy_atoms = heavy).
  { rewrite <- heavy_spec in H. apply lower_str in S. assert (L : lower e = e).
    { assert (X : forallb (fun x => String.eqb (lower (snd (fst x))) (snd (fst x))) data_names = true) by (vm_compute; reflexivity). rewrite forallb_forall in X. specialize (X _ I). cbn [fst snd] in X. now apply String.eqb_eq. }
    rewrite S, L in H. destruct heavy; [apply str_in_spec; tauto|apply str_in_false; intros J; apply H in J; discriminate]. }
  rewrite E in *. exists C, ps, data. auto.
Qed.
