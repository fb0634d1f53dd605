(** get_ugbs_exponents on any file (C85). *)
From Coq Require Import Reals String Ascii List Bool Arith Lia.
From Verif Require Import XR PyStr PyText ModelParse SpecParse ProofText ProofFile2 ProofCheck ProofNames SpecUgbs2.
Import ListNotations.

Section Ugbs2.
Context (fl : text -> res xr).
Lemma letter_in k : In k letters -> exists l, l <= 3 /\ k = [l_char l].
Proof. intros [<-|[<-|[<-|[<-|[]]]]]; [exists 0|exists 1|exists 2|exists 3]; split; auto. Qed.
Lemma run_exists el : forall n f, length f <= n -> exists es e, ugbs_run fl el f es e.
Proof.
  induction n as [|n IH]; intros f L.
  { destruct f; [|cbn in L; lia]. exists [], None. constructor. }
  destruct f as [|s f]; [exists [], None; constructor|]. cbn in L. pose proof (spaced_words s) as S. destruct (words s) as [|w ws].
  { destruct (IH f ltac:(lia)) as (es & e & H). exists es, e. now apply run_blank. }
  destruct (same_nameb w el) eqn:B.
  2:{ destruct (IH f ltac:(lia)) as (es & e & H). exists es, e. eapply run_other; eauto. intros N. apply same_nameb_spec in N. congruence. }
  apply same_nameb_spec in B. destruct ws as [|k ws]; [exists [], (Some IndexError); eapply run_bare; eauto|].
  destruct (in_dec (list_eq_dec ascii_dec) k letters) as [I|I].
  2:{ exists [], (Some KeyError). eapply run_letter; eauto. intros l Hl ->. apply I. now apply letter_key. }
  destruct (letter_in _ I) as (l & Hl & ->). destruct f as [|s' f]; [exists [], (Some IndexError); eapply run_last; eauto|]. cbn in L.
  pose proof (spaced_words s') as S'. destruct (words s') as [|t ts]; [exists [], (Some IndexError); eapply run_missing; eauto|].
  destruct (fl t) as [v|x] eqn:E; [|exists [], (Some x); eapply run_number; eauto].
  destruct (IH f ltac:(lia)) as (es & e & H). exists ((l, v) :: es), e. eapply run_entry; eauto.
Qed.
Lemma float_word t ts s : spaced (t :: ts) s -> float fl t = fl t.
Proof. intros S. destruct (spaced_inv _ _ _ S) as (a & r & _ & _ & W). unfold float. now rewrite strip_word. Qed.
Lemma loop_run el f es e : ugbs_run fl el f es e -> forall out, map fst out = letters ->
  match e with
  | Some x => ugbs_loop fl el f out = Raise x
  | None => exists d, ugbs_loop fl el f out = Ok d /\ map fst d = letters /\
      forall l old, l <= 3 -> dget [l_char l] out = Some old -> dget [l_char l] d = Some (old ++ of_shell l es)
  end.
Proof.
  assert (NB : forall w, ~ same_name w el -> same_nameb w el = false) by (intros w N; destruct (same_nameb w el) eqn:B; auto; apply same_nameb_spec in B; tauto).
  assert (YB : forall w, same_name w el -> same_nameb w el = true) by (intros w N; now apply same_nameb_spec).
  assert (G : forall (out : dict (list xr)) l, map fst out = letters -> l <= 3 -> exists old, dget [l_char l] out = Some old).
  { intros out l K Hl. destruct (dget [l_char l] out) eqn:E; eauto. apply dget_None in E. rewrite K in E. destruct E. now apply letter_key. }
  induction 1 as [|s f es e S R IH|w ws s f es e S N R IH|w l ws s t ts s' v f es e S N Hl S' V R IH|w s f S N|w k ws s f S N K|w l ws s S N Hl|w l ws s s' f S N Hl S'|w l ws s t ts s' x f S N Hl S' V];
    intros out K0; cbn [ugbs_loop].
  - exists out. split; auto. split; auto. intros l old _ E. rewrite E. cbn. now rewrite app_nil_r.
  - rewrite (words_spaced _ _ S). now apply IH.
  - rewrite (words_spaced _ _ S), same_lower_eqb, (NB w N). now apply IH.
  - rewrite (words_spaced _ _ S), same_lower_eqb, (YB w N). change (py_get (w :: [l_char l] :: ws) 1) with (@Ok text [l_char l]). cbn [bind].
    destruct (G out l K0 Hl) as (old & E). unfold dlookup. rewrite E. cbn [bind]. rewrite (words_spaced _ _ S'). change (py_get (t :: ts) 0) with (@Ok text t). cbn [bind].
    rewrite (float_word _ _ _ S'), V. cbn [bind].
    assert (K1 : map fst (dset [l_char l] (old ++ [v]) out) = letters) by (rewrite dset_keys; auto; rewrite K0; now apply letter_key).
    specialize (IH _ K1). destruct e as [x|]; [exact IH|]. destruct IH as (d & E1 & E2 & E3). exists d. split; auto. split; auto.
    intros l' old' Hl' E'. rewrite (E3 l' (if Nat.eqb l l' then old' ++ [v] else old')); auto.
    + unfold of_shell. cbn [filter fst]. destruct (Nat.eqb l l'); [|reflexivity]. cbn [map snd]. now rewrite <- app_assoc.
    + rewrite dget_dset, letter_eqb by auto. destruct (Nat.eqb_spec l l') as [<-|]; auto. congruence.
  - rewrite (words_spaced _ _ S), same_lower_eqb, (YB w N). destruct f; reflexivity.
  - rewrite (words_spaced _ _ S), same_lower_eqb, (YB w N). change (py_get (w :: k :: ws) 1) with (@Ok text k). cbn [bind].
    assert (E : dlookup k out = Raise KeyError).
    { unfold dlookup. destruct (dget k out) eqn:E; auto. assert (I : In k letters) by (rewrite <- K0; destruct (in_dec (list_eq_dec ascii_dec) k (map fst out)) as [|Ni]; auto; apply dget_None in Ni; congruence).
      destruct (letter_in _ I) as (l0 & Hl & ->). now destruct (K l0 Hl). }
    rewrite E. destruct f; reflexivity.
  - rewrite (words_spaced _ _ S), same_lower_eqb, (YB w N). change (py_get (w :: [l_char l] :: ws) 1) with (@Ok text [l_char l]). cbn [bind].
    destruct (G out l K0 Hl) as (old & E). unfold dlookup. rewrite E. reflexivity.
  - rewrite (words_spaced _ _ S), same_lower_eqb, (YB w N). change (py_get (w :: [l_char l] :: ws) 1) with (@Ok text [l_char l]). cbn [bind].
    destruct (G out l K0 Hl) as (old & E). unfold dlookup. rewrite E. cbn [bind]. now rewrite (words_spaced _ _ S').
  - rewrite (words_spaced _ _ S), same_lower_eqb, (YB w N). change (py_get (w :: [l_char l] :: ws) 1) with (@Ok text [l_char l]). cbn [bind].
    destruct (G out l K0 Hl) as (old & E). unfold dlookup. rewrite E. cbn [bind]. rewrite (words_spaced _ _ S'). change (py_get (t :: ts) 0) with (@Ok text t). cbn [bind].
    now rewrite (float_word _ _ _ S'), V.
Qed.
Lemma any_file s f : (exists es e, ugbs_run fl (str s) f es e) /\ forall es e, ugbs_run fl (str s) f es e ->
  match e with
  | Some x => get_ugbs_exponents fl f (Some s) = Raise x
  | None => exists d, get_ugbs_exponents fl f (Some s) = Ok d /\ map fst d = letters /\ forall l, l <= 3 -> dget [l_char l] d = Some (of_shell l es)
  end.
Proof.
  split; [exact (run_exists (str s) (length f) f (le_n _))|]. intros es e R.
  pose proof (loop_run _ _ _ _ R (map (fun l => (l, [])) letters) eq_refl) as H. destruct e as [x|]; [exact H|].
  destruct H as (d & E1 & E2 & E3). exists d. split; auto. split; auto. intros l Hl. rewrite (E3 l []); auto.
  destruct l as [|[|[|[|l]]]]; [reflexivity|reflexivity|reflexivity|reflexivity|lia].
Qed.
Lemma not_text f : get_ugbs_exponents fl f None = Raise AssertionError.
Proof. reflexivity. Qed.
End Ugbs2.
