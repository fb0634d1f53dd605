(** Guesses made from arrays of integers or floats (C53-C56). *)
From Coq Require Import Reals List ZArith Lia Lra Bool Sorted.
From Verif Require Import XR SpecDens SpecFit ModelGreedy ModelChoice SpecGreedy SpecChoice Lists ProofDens ProofGreedy1 ProofGreedy2.
Import ListNotations.
Local Open Scope R_scope.

Lemma trunc_spec r z : toward_zero r z <-> z = trunc r.
Proof.
  assert (E : toward_zero r (trunc r)).
  { unfold toward_zero, trunc. destruct (Rle_dec 0 r) as [H|H].
    - destruct (base_Int_part r) as [A B]. assert (0 <= IZR (Int_part r)).
      { apply IZR_le. enough (-1 < Int_part r)%Z by lia. apply lt_IZR. lra. }
      rewrite !Rabs_right by lra. split; [lra|]. now apply Rmult_le_pos.
    - destruct (base_Int_part (- r)) as [A B]. assert (0 <= IZR (Int_part (- r))).
      { apply IZR_le. enough (-1 < Int_part (- r))%Z by lia. apply lt_IZR. lra. }
      rewrite opp_IZR, Rabs_Ropp, (Rabs_right (IZR _)), (Rabs_left r) by lra. split; [lra|]. nra. }
  split; [|intros ->; exact E]. intros F. unfold toward_zero in *. destruct E as [[E1 E2] E3], F as [[F1 F2] F3].
  assert (A : Z.abs z = Z.abs (trunc r)).
  { rewrite <- !abs_IZR in *. assert (IZR (Z.abs z) < IZR (Z.abs (trunc r)) + 1) by lra. assert (IZR (Z.abs (trunc r)) < IZR (Z.abs z) + 1) by lra.
    rewrite <- plus_IZR in *. apply lt_IZR in H, H0. lia. }
  destruct (Z.eq_dec z (trunc r)) as [|N]; auto. exfalso. assert (z = - trunc r)%Z by lia. subst z. rewrite opp_IZR in *.
  assert (Z0 : IZR (trunc r) * r = 0) by lra. assert (T : trunc r <> 0%Z) by lia. apply IZR_neq in T.
  assert (r = 0) by (apply Rmult_integral in Z0; tauto). subst r. rewrite Rabs_R0 in E1. rewrite <- abs_IZR in E1. apply le_IZR in E1. lia.
Qed.
Definition keep (junk : xr -> xr) (b : bool) (x : xr) : xr := if b then to_int junk x else x.
Lemma stored_eq junk b x y : stored junk b x y <-> y = keep junk b x.
Proof.
  unfold stored, keep, to_int. destruct b; [|tauto]. destruct x; try tauto. split.
  - intros (z & H & ->). apply trunc_spec in H. now subst.
  - intros ->. eexists. split; [now apply trunc_spec|reflexivity].
Qed.

(** ** One step as a function *)
Notation tpair := ((bool * list xr) * (bool * list xr))%type.
Definition text (junk : xr -> xr) (factor v : nnum) (p : tpair) (i : nat) : tpair :=
  let n := length (snd (snd p)) in
  if Nat.eqb i n then
    ((fst (fst p) && fst v, insert_at i (snd v) (snd (fst p))),
     (fst (snd p) && fst factor, insert_at i (newx (snd factor) (snd (snd p)) i) (snd (snd p))))
  else
    ((fst (fst p), insert_at i (keep junk (fst (fst p)) (snd v)) (snd (fst p))),
     (fst (snd p), insert_at i (keep junk (fst (snd p)) (newx (snd factor) (snd (snd p)) i)) (snd (snd p)))).
Definition even (p : tpair) : Prop := (0 < length (snd (snd p)))%nat /\ length (snd (fst p)) = length (snd (snd p)).

Lemma text_length junk f v p i : even p -> (i <= length (snd (snd p)))%nat ->
  length (snd (fst (text junk f v p i))) = S (length (snd (snd p))) /\ length (snd (snd (text junk f v p i))) = S (length (snd (snd p))).
Proof.
  intros [Hn Hl] Hi. unfold text. destruct (Nat.eqb _ _); cbn [fst snd]; rewrite !insert_at_length; lia.
Qed.
Lemma text_even junk f v p i : even p -> (i <= length (snd (snd p)))%nat -> even (text junk f v p i).
Proof. intros H Hi. destruct (text_length junk f v p i H Hi) as [A B]. unfold even. lia. Qed.

Lemma grows_eq junk f v i p q : even p -> (grows junk f v i p q <-> (i <= length (snd (snd p)))%nat /\ q = text junk f v p i).
Proof.
  intros [Hn Hl]. destruct p as [[tc c] [te e]], q as [[tc' c'] [te' e']]. cbn [fst snd] in *. unfold grows, text. cbn [fst snd]. split.
  - intros (x & N & H). apply new_value_eq in N; auto. destruct N as [Hi ->]. split; [exact Hi|]. destruct H as [(Hlt & -> & -> & w & y & S1 & I1 & S2 & I2)|(-> & -> & -> & I1 & I2)].
    + rewrite (proj2 (Nat.eqb_neq i (length e))) by lia. apply stored_eq in S1, S2. apply inserted_eq in I1, I2.
      destruct I1 as [-> _], I2 as [-> _]. subst. reflexivity.
    + rewrite Nat.eqb_refl. apply inserted_eq in I1, I2. destruct I1 as [-> _], I2 as [-> _]. reflexivity.
  - intros [Hi E]. exists (newx (snd f) e i). split; [now apply new_value_eq|]. destruct (Nat.eqb_spec i (length e)) as [Ei|Ei].
    + injection E as -> -> -> ->. right. repeat split; auto; apply insert_at_inserted; lia.
    + injection E as -> -> -> ->. left. split; [lia|]. repeat split; auto. do 2 eexists.
      repeat split; try (now apply stored_eq); apply insert_at_inserted; lia.
Qed.

Lemma typed_pairs_eq junk f c e v : even (c, e) ->
  typed_pairs junk f c e v = map (text junk f v (c, e)) (seq 0 (S (length (snd e)))).
Proof.
  intros [Hn Hl]. destruct c as [tc c], e as [te e]. cbn [fst snd] in *. unfold typed_pairs. cbn [fst snd]. destruct (length e) as [|m] eqn:E; [lia|].
  assert (Q : forall i, In i (seq 0 (S m)) ->
    (np_insert junk i (snd v) (tc, c), np_insert junk i (new_exponent (snd f) e i) (te, e)) :: (if Nat.eqb i (S m - 1) then
       [(np_append (tc, c) (fst v, [snd v]), np_append (te, e) (te && fst f, [xmul (nth i e NaN) (snd f)]))] else []) =
    text junk f v ((tc, c), (te, e)) i :: (if Nat.eqb i (S m - 1) then [text junk f v ((tc, c), (te, e)) (S m)] else [])).
  { intros i Hi. apply in_seq in Hi. unfold text. cbn [fst snd]. unfold newx. rewrite E.
    replace (Nat.eqb i (S m)) with false by (symmetry; apply Nat.eqb_neq; lia). f_equal.
    destruct (Nat.eqb_spec i (S m - 1)) as [->|]; [|reflexivity]. rewrite Nat.eqb_refl. unfold np_append. cbn [fst snd].
    rewrite <- Hl, insert_at_end. rewrite Hl, <- E, insert_at_end. rewrite andb_assoc, andb_diag. reflexivity. }
  transitivity (flat_map (fun i => text junk f v ((tc, c), (te, e)) i :: (if Nat.eqb i (S m - 1) then [text junk f v ((tc, c), (te, e)) (S m)] else [])) (seq 0 (S m))).
  { rewrite !flat_map_concat_map. f_equal. apply map_ext_in. exact Q. }
  rewrite (flat_map_last (text junk f v ((tc, c), (te, e))) [text junk f v ((tc, c), (te, e)) (S m)] (fun i => i) m).
  rewrite (seq_S (S m) 0), map_app. cbn [map Nat.add]. reflexivity.
Qed.

Lemma typed_two_eq junk f c e v : even (c, e) ->
  typed_two_pairs junk f c e v =
  flat_map (fun i => map (text junk f v (text junk f v (c, e) i)) (seq i (length (snd e) + 2 - i))) (seq 0 (S (length (snd e)))).
Proof.
  intros H. assert (H' := H). destruct H as [Hn Hl]. cbn [fst snd] in Hn, Hl. unfold typed_two_pairs. destruct (length (snd e)) as [|m] eqn:E; [lia|].
  set (F := fun i => map (text junk f v (text junk f v (c, e) i)) (seq i (S m + 2 - i))).
  assert (T1 : forall i, (i < S m)%nat -> (np_insert junk i (snd v) c, np_insert junk i (new_exponent (snd f) (snd e) i) e) = text junk f v (c, e) i).
  { intros i Hi. unfold text. cbn [fst snd]. unfold newx. rewrite E. replace (Nat.eqb i (S m)) with false by (symmetry; apply Nat.eqb_neq; lia). reflexivity. }
  assert (T2 : (np_append c (fst v, [snd v]), np_append e (fst e && fst f, [xmul (nth m (snd e) NaN) (snd f)])) = text junk f v (c, e) (S m)).
  { unfold text. cbn [fst snd]. unfold newx. rewrite E, Nat.eqb_refl. unfold np_append. cbn [fst snd].
    replace (S m - 1)%nat with m by lia. rewrite andb_assoc, andb_diag.
    rewrite <- Hl at 1. rewrite insert_at_end, <- E, insert_at_end. reflexivity. }
  assert (TP : forall i, (i <= S m)%nat -> let p := text junk f v (c, e) i in
     typed_pairs junk f (fst p) (snd p) v = map (text junk f v p) (seq 0 (S (S (S m))))).
  { intros i Hi p. assert (Ev : even p) by (apply text_even; auto; cbn [snd]; lia).
    destruct (text_length junk f v (c, e) i H') as [A B]; [cbn [snd]; lia|]. fold p in A, B. cbn [snd] in A, B.
    destruct p as [pc pe]. rewrite typed_pairs_eq by exact Ev. cbn [fst snd] in *. rewrite B, E. reflexivity. }
  assert (Q : forall i, In i (seq 0 (S m)) ->
    skipn i (typed_pairs junk f (np_insert junk i (snd v) c) (np_insert junk i (new_exponent (snd f) (snd e) i) e) v) ++
    (if Nat.eqb i (S m - 1) then last_two (typed_pairs junk f (np_append c (fst v, [snd v])) (np_append e (fst e && fst f, [xmul (nth i (snd e) NaN) (snd f)])) v) else []) =
    F i ++ (if Nat.eqb i (S m - 1) then F (S m) else [])).
  { intros i Hi. apply in_seq in Hi. f_equal.
    - specialize (TP i ltac:(lia)). rewrite <- (T1 i) in TP by lia. cbn [fst snd] in TP. rewrite TP. rewrite skipn_map_seq by lia. unfold F.
      rewrite <- (T1 i) by lia. f_equal. f_equal. lia.
    - destruct (Nat.eqb_spec i (S m - 1)) as [->|]; [|reflexivity]. replace (S m - 1)%nat with m by lia.
      specialize (TP (S m) ltac:(lia)). rewrite <- T2 in TP. cbn [fst snd] in TP. rewrite TP. unfold last_two.
      rewrite map_length, seq_length, skipn_map_seq by lia. unfold F. rewrite <- T2.
      replace (S (S (S m)) - 2)%nat with (S m) by lia. f_equal. f_equal. lia. }
  rewrite (flat_map_concat_map _ (seq 0 (S m))). rewrite (map_ext_in _ _ _ Q). rewrite <- flat_map_concat_map.
  rewrite (seq_S (S m) 0), flat_map_app. cbn [flat_map Nat.add]. rewrite app_nil_r.
  rewrite seq_S, !flat_map_app. cbn [flat_map Nat.add].
  replace (Nat.eqb m (S m - 1)) with true by (symmetry; apply Nat.eqb_eq; lia). rewrite !app_nil_r, <- !app_assoc. f_equal.
  rewrite !flat_map_concat_map. f_equal. apply map_ext_in. intros i Hi. apply in_seq in Hi.
  replace (Nat.eqb i (S m - 1)) with false by (symmetry; apply Nat.eqb_neq; lia). apply app_nil_r.
Qed.

(** ** Results *)
Lemma typed_next_spec junk f c e v : (0 < length (snd e))%nat -> length (snd c) = length (snd e) ->
  let L := typed_next junk f c e v in
  length L = S (length (snd e)) /\
  forall i, (i <= length (snd e))%nat -> exists q, grows junk f v i (c, e) q /\
    nth i L (true, []) = (fst (fst q) && fst (snd q), snd (fst q) ++ snd (snd q)).
Proof.
  intros Hn Hl L. assert (E : even (c, e)) by (split; auto). unfold L, typed_next. rewrite typed_pairs_eq by auto.
  split; [now rewrite !map_length, seq_length|]. intros i Hi. exists (text junk f v (c, e) i). split; [apply grows_eq; auto|].
  rewrite map_map. rewrite (nth_indep _ _ ((fun p => np_append (fst (text junk f v (c, e) p)) (snd (text junk f v (c, e) p))) 0%nat))
    by (rewrite map_length, seq_length; lia).
  rewrite (map_nth (fun p => np_append (fst (text junk f v (c, e) p)) (snd (text junk f v (c, e) p)))), seq_nth by lia. reflexivity.
Qed.

Lemma typed_two_spec junk f c e v : (0 < length (snd e))%nat -> length (snd c) = length (snd e) ->
  let n := length (snd e) in
  let L := typed_two_next junk f c e v in
  (length L = n * (n + 5) / 2 + 2)%nat /\
  (forall p, In p L <-> exists i j q1 q2, (i <= j)%nat /\ grows junk f v i (c, e) q1 /\ grows junk f v j q1 q2 /\
     p = (fst (fst q2) && fst (snd q2), snd (fst q2) ++ snd (snd q2))).
Proof.
  intros Hn Hl n L. assert (Ev : even (c, e)) by (split; auto). split.
  - unfold L, typed_two_next. rewrite map_length, typed_two_eq by auto.
    pose proof (two_count (fun i => text junk f v (text junk f v (c, e) i)) (length (snd e)) (S (length (snd e))) ltac:(lia)) as T.
    fold n in T |- *. set (X := length (flat_map _ _)) in *.
    assert (E : (2 * X = n * (n + 5) + 2 * 2)%nat) by nia.
    replace (n * (n + 5))%nat with ((X - 2) * 2)%nat by nia. rewrite Nat.div_mul by lia. nia.
  - intros p. unfold L, typed_two_next. rewrite typed_two_eq by auto. rewrite in_map_iff. split.
    + intros (q & <- & Hq). apply in_flat_map in Hq. destruct Hq as (i & Hi & Hq). apply in_seq in Hi.
      apply in_map_iff in Hq. destruct Hq as (j & <- & Hj). apply in_seq in Hj.
      exists i, j, (text junk f v (c, e) i), (text junk f v (text junk f v (c, e) i) j). split; [lia|].
      split; [apply grows_eq; auto; split; [cbn [snd]; lia|reflexivity]|]. split; [|reflexivity].
      destruct (text_length junk f v (c, e) i Ev) as [A B]; [cbn [snd]; lia|].
      apply grows_eq; [apply text_even; auto; cbn [snd]; lia|]. split; [rewrite B; cbn [snd]; lia|reflexivity].
    + intros (i & j & q1 & q2 & Hij & H1 & H2 & ->). apply grows_eq in H1; auto. destruct H1 as [Hi ->]. cbn [snd] in Hi.
      destruct (text_length junk f v (c, e) i Ev) as [A B]; [cbn [snd]; lia|]. cbn [snd] in B.
      apply grows_eq in H2; [|apply text_even; auto]. destruct H2 as [Hj ->]. rewrite B in Hj.
      exists (text junk f v (text junk f v (c, e) i) j). split; [reflexivity|]. apply in_flat_map. exists i. split; [apply in_seq; lia|].
      apply in_map, in_seq. lia.
Qed.

Lemma typed_lose_spec junk f c e v : (0 < length (snd e))%nat -> length (snd c) = length (snd e) ->
  let n := length (snd e) in
  let L := typed_lose_one junk f c e v in
  (length L = (n * (n + 5) / 2 + 2) * (n + 2))%nat /\
  (forall p, In p L <-> exists i j q1 q2 k c' e', (i <= j)%nat /\ grows junk f v i (c, e) q1 /\ grows junk f v j q1 q2 /\
     removed k (snd (fst q2)) c' /\ removed k (snd (snd q2)) e' /\ p = (fst (fst q2) && fst (snd q2), c' ++ e')).
Proof.
  intros Hn Hl n L. destruct (typed_two_spec junk f c e v Hn Hl) as (H1 & H2). fold n in H1. assert (Ev : even (c, e)) by (split; auto).
  assert (LQ : forall i j q1 q2, grows junk f v i (c, e) q1 -> grows junk f v j q1 q2 ->
     length (snd (fst q2)) = (n + 2)%nat /\ length (snd (snd q2)) = (n + 2)%nat).
  { intros i j q1 q2 A B. apply grows_eq in A; auto. destruct A as [A ->].
    destruct (text_length junk f v (c, e) i Ev A) as [C D]. assert (Ev1 := text_even junk f v (c, e) i Ev A). cbn [snd] in D.
    apply grows_eq in B; auto. destruct B as [B ->]. destruct (text_length junk f v _ j Ev1 B) as [E F]. rewrite D in E, F. unfold n. split; [etransitivity; [exact E|lia]|etransitivity; [exact F|lia]]. }
  assert (H3 : forall p, In p (typed_two_next junk f c e v) -> length (snd p) = ((n + 2) * 2)%nat).
  { intros p Hp. apply H2 in Hp. destruct Hp as (i & j & q1 & q2 & _ & A & B & ->). cbn [snd]. rewrite app_length. destruct (LQ _ _ _ _ A B). lia. }
  split.
  - unfold L, typed_lose_one. rewrite (flat_map_length_const _ (n + 2)); [now rewrite H1|].
    intros x Hx. rewrite map_length, seq_length, (H3 x Hx). apply Nat.div_mul. lia.
  - intros p. unfold L, typed_lose_one. rewrite in_flat_map. split.
    + intros (x & Hx & Hp). apply in_map_iff in Hp. destruct Hp as (k & <- & Hk). apply in_seq in Hk.
      rewrite (H3 x Hx), Nat.div_mul in Hk by lia. apply H2 in Hx. destruct Hx as (i & j & q1 & q2 & Hij & A & B & ->). cbn [fst snd].
      destruct (LQ _ _ _ _ A B) as [E F]. destruct (halves (snd (fst q2)) (snd (snd q2))) as [-> ->]; [lia|].
      exists i, j, q1, q2, k, (delete_at k (snd (fst q2))), (delete_at k (snd (snd q2))).
      split; auto. split; auto. split; auto. split; [apply delete_at_removed; lia|]. split; [apply delete_at_removed; lia|].
      unfold np_append, np_delete. cbn [fst snd]. now rewrite andb_diag.
    + intros (i & j & q1 & q2 & k & c' & e' & Hij & A & B & C & D & ->). destruct (LQ _ _ _ _ A B) as [E F].
      apply removed_eq in C, D. destruct C as [-> C], D as [-> D].
      exists (fst (fst q2) && fst (snd q2), snd (fst q2) ++ snd (snd q2)).
      split; [apply H2; eauto 10|]. apply in_map_iff. exists k. cbn [fst snd]. destruct (halves (snd (fst q2)) (snd (snd q2))) as [-> ->]; [lia|].
      split; [unfold np_append, np_delete; cbn [fst snd]; now rewrite andb_diag|]. apply in_seq. rewrite app_length, E, F.
      replace (n + 2 + (n + 2))%nat with ((n + 2) * 2)%nat by lia. rewrite Nat.div_mul by lia. lia.
Qed.

(** ** Floats *)
Lemma flt_pairs junk f c e v : typed_pairs junk f (false, c) (false, e) v = map (fun p => ((false, fst p), (false, snd p))) (next_pairs (snd f) c e (snd v)).
Proof.
  unfold typed_pairs, next_pairs. cbn [fst snd andb]. rewrite !flat_map_concat_map, concat_map, map_map. f_equal. apply map_ext. intros i.
  cbn [map fst snd]. unfold np_insert, np_append. cbn [fst snd]. f_equal. destruct (Nat.eqb _ _); reflexivity.
Qed.
Lemma skipn_map' {A B} (g : A -> B) n l : skipn n (map g l) = map g (skipn n l).
Proof. revert l. induction n; intros [|x l]; cbn; auto. Qed.
Lemma flt_two junk f c e v : typed_two_pairs junk f (false, c) (false, e) v = map (fun p => ((false, fst p), (false, snd p))) (two_pairs (snd f) c e (snd v)).
Proof.
  unfold typed_two_pairs, two_pairs. cbn [fst snd andb]. rewrite !flat_map_concat_map, concat_map, map_map. f_equal. apply map_ext. intros i.
  unfold np_insert, np_append. cbn [fst snd andb]. rewrite flt_pairs, skipn_map', map_app. f_equal.
  destruct (Nat.eqb _ _); [|reflexivity]. rewrite flt_pairs. unfold last_two. now rewrite map_length, skipn_map'.
Qed.
Lemma typed_floats junk f c e v :
  typed_next junk f (false, c) (false, e) v = map (pair false) (get_next_choices (snd f) c e (snd v)) /\
  typed_two_next junk f (false, c) (false, e) v = map (pair false) (get_two_next_choices (snd f) c e (snd v)) /\
  typed_lose_one junk f (false, c) (false, e) v = map (pair false) (pick_two_lose_one (snd f) c e (snd v)).
Proof.
  assert (A : typed_next junk f (false, c) (false, e) v = map (pair false) (get_next_choices (snd f) c e (snd v))).
  { unfold typed_next, get_next_choices. rewrite flt_pairs, !map_map. apply map_ext. reflexivity. }
  assert (B : typed_two_next junk f (false, c) (false, e) v = map (pair false) (get_two_next_choices (snd f) c e (snd v))).
  { unfold typed_two_next, get_two_next_choices. rewrite flt_two, !map_map. apply map_ext. reflexivity. }
  split; [exact A|]. split; [exact B|]. unfold typed_lose_one, pick_two_lose_one. rewrite B.
  rewrite !flat_map_concat_map, concat_map, !map_map. f_equal. apply map_ext. intros p. cbn [fst snd]. rewrite map_map. reflexivity.
Qed.

(** ** Integers *)
Lemma trunc_IZR z : trunc (IZR z) = z.
Proof. symmetry. apply trunc_spec. unfold toward_zero. split; [lra|]. nra. Qed.
Lemma trunc_between (a b : Z) r : (0 <= a)%Z -> IZR a <= r -> r <= IZR b -> (a <= trunc r <= b)%Z.
Proof.
  intros Ha A B. unfold trunc. pose proof (IZR_le _ _ Ha). destruct (Rle_dec 0 r) as [H0|H0]; [|lra].
  destruct (base_Int_part r) as [C D]. split.
  - enough (a < Int_part r + 1)%Z by lia. apply lt_IZR. rewrite plus_IZR. lra.
  - apply le_IZR. lra.
Qed.
Definition ints (l : list Z) : list xr := map (fun z => Fin (IZR z)) l.
Lemma nth_ints l i : (i < length l)%nat -> nth i (ints l) NaN = Fin (IZR (nth i l 0%Z)).
Proof. intros H. unfold ints. rewrite (nth_indep _ NaN (Fin (IZR 0))) by now rewrite map_length. now rewrite (map_nth (fun z => Fin (IZR z))). Qed.
Lemma ints_insert i z l : insert_at i (Fin (IZR z)) (ints l) = ints (insert_at i z l).
Proof. unfold insert_at, ints. rewrite map_app, firstn_map. cbn [map]. now rewrite skipn_map'. Qed.

Lemma nth_typed_next junk f tc c te e v i : (0 < length e)%nat -> length c = length e -> (i < length e)%nat ->
  nth i (typed_next junk f (tc, c) (te, e) v) (true, []) =
  (tc && te, insert_at i (keep junk tc (snd v)) c ++ insert_at i (keep junk te (new_exponent (snd f) e i)) e).
Proof.
  intros Hn Hl Hi. destruct (typed_next_spec junk f (tc, c) (te, e) v Hn Hl) as [_ H]. cbn [snd] in H. destruct (H i ltac:(lia)) as (q & G & ->).
  apply grows_eq in G; [|split; auto]. destruct G as [_ ->]. unfold text, newx. cbn [fst snd].
  rewrite (proj2 (Nat.eqb_neq i (length e))) by lia. reflexivity.
Qed.

Lemma integer_lost junk (fi : bool) F c tc v z E : length c = S (length E) -> (0 < z)%Z -> IZR z < F ->
  nth 0 (typed_next junk (fi, Fin F) (tc, c) (true, ints (z :: E)) v) (true, []) =
  (tc, keep junk tc (snd v) :: c ++ ints (0%Z :: z :: E)).
Proof.
  intros L Hz HF. assert (P : 0 < IZR z) by (apply (IZR_lt 0); exact Hz). rewrite nth_typed_next by (unfold ints; rewrite ?map_length; cbn [length]; lia).
  rewrite andb_true_r. cbn [new_exponent nth ints map snd xdiv]. rewrite reqb_false by lra. unfold insert_at. cbn [firstn skipn app keep to_int].
  replace (trunc (IZR z / F)) with 0%Z; [reflexivity|]. apply trunc_spec. unfold toward_zero.
  assert (0 <= IZR z / F) by (apply Rle_div_pos || (apply Rlt_le, Rdiv_lt_0_compat; lra)).
  assert (IZR z / F < 1) by (apply Rmult_lt_reg_r with F; [lra|]; unfold Rdiv; rewrite Rmult_assoc, Rinv_l by lra; lra).
  rewrite Rabs_R0, Rabs_right by lra. lra.
Qed.
Lemma integer_twice junk f c tc v E1 z E2 : length c = (length E1 + S (S (length E2)))%nat -> (0 <= z)%Z ->
  let E := E1 ++ z :: (z + 1)%Z :: E2 in
  nth (S (length E1)) (typed_next junk f (tc, c) (true, ints E) v) (true, []) =
  (tc, insert_at (S (length E1)) (keep junk tc (snd v)) c ++ ints (E1 ++ z :: z :: (z + 1)%Z :: E2)).
Proof.
  intros L Hz E. assert (LE : length (ints E) = (length E1 + S (S (length E2)))%nat) by (unfold ints, E; rewrite map_length, app_length; reflexivity).
  rewrite nth_typed_next by lia. rewrite andb_true_r. cbn [new_exponent].
  rewrite !nth_ints by (unfold ints in LE; rewrite map_length in LE; lia).
  assert (N1 : nth (length E1) E 0%Z = z) by (unfold E; rewrite app_nth2, Nat.sub_diag by lia; reflexivity).
  assert (N2 : nth (S (length E1)) E 0%Z = (z + 1)%Z) by (unfold E; rewrite app_nth2 by lia; replace (S (length E1) - length E1)%nat with 1%nat by lia; reflexivity).
  rewrite N1, N2. cbn [xadd xdiv]. rewrite reqb_false by lra. cbn [keep to_int].
  replace (trunc ((IZR z + IZR (z + 1)) / 2)) with z.
  - rewrite ints_insert. do 3 f_equal. unfold insert_at, E. change (E1 ++ z :: (z + 1)%Z :: E2) with (E1 ++ [z] ++ (z + 1)%Z :: E2).
    rewrite app_assoc. replace (S (length E1)) with (length (E1 ++ [z])) by (rewrite app_length; cbn; lia).
    rewrite firstn_app, Nat.sub_diag, firstn_all, firstn_O, app_nil_r, skipn_app, Nat.sub_diag, skipn_all, skipn_O. rewrite <- app_assoc. reflexivity.
  - pose proof (IZR_le _ _ Hz). rewrite plus_IZR. apply trunc_spec. unfold toward_zero. rewrite !Rabs_right by lra. split; [lra|]. nra.
Qed.

Lemma rising_insert E i x : (i <= length E)%nat -> rising E -> (forall k, (k < i)%nat -> nth k E 0 <= x) ->
  (forall k, (i <= k < length E)%nat -> x <= nth k E 0) -> rising (insert_at i x E).
Proof.
  intros Hi R R1 R2 a b Hab. rewrite insert_at_length in Hab by auto.
  destruct (lt_eq_lt_dec a i) as [[A|A]|A].
  + rewrite nth_insert_lt by auto. destruct (lt_eq_lt_dec b i) as [[B|B]|B].
    * rewrite nth_insert_lt by auto. apply R; lia.
    * subst b. rewrite nth_insert_eq by auto. now apply R1.
    * destruct b as [|b]; [lia|]. rewrite nth_insert_gt by lia.
      destruct (Nat.eq_dec a b) as [->|]; [lia|]. apply R; lia.
  + subst a. rewrite nth_insert_eq by auto. destruct b as [|b]; [lia|]. rewrite nth_insert_gt by lia. apply R2. lia.
  + destruct a as [|a]; [lia|]. destruct b as [|b]; [lia|]. rewrite !nth_insert_gt by lia. apply R. lia.
Qed.
Lemma ints_map l : ints l = map Fin (map IZR l).
Proof. unfold ints. now rewrite map_map. Qed.
Lemma in_insert {A} i (x y : A) l : In y (insert_at i x l) -> y = x \/ In y l.
Proof.
  unfold insert_at. intros H. apply in_app_or in H. destruct H as [H|[H|H]]; auto.
  - right. eapply In_firstn; eauto.
  - right. rewrite <- (firstn_skipn i l). apply in_or_app. now right.
Qed.

(** What remains for ascending positive integers. *)
Lemma integer_rising junk fi F tc c v E p : (0 < length E)%nat -> length c = length E -> 1 <= F ->
  Forall (fun z => (0 < z)%Z) E -> rising (map IZR E) ->
  In p (typed_next junk (fi, Fin F) (tc, c) (true, map (fun z => Fin (IZR z)) E) v) ->
  exists c' E', snd p = c' ++ map Fin E' /\ length c' = S (length E) /\ length E' = S (length E) /\
    Forall (fun x => 0 <= x) E' /\ rising E' /\ (F <= IZR (nth 0 E 0%Z) -> positive E').
Proof.
  intros Hn Hl HF HE R Hp. fold (ints E) in Hp. rewrite ints_map in Hp. set (X := map IZR E) in *.
  assert (LX : length X = length E) by apply map_length.
  unfold typed_next in Hp. rewrite typed_pairs_eq in Hp by (split; cbn [fst snd]; rewrite map_length; lia).
  rewrite map_map in Hp. apply in_map_iff in Hp. destruct Hp as (i & <- & Hi). apply in_seq in Hi. cbn [snd] in Hi. rewrite map_length in Hi.
  assert (P : forall k, (k < length X)%nat -> 1 <= nth k X 0 /\ nth k X 0 = IZR (nth k E 0%Z)).
  { intros k Hk. unfold X. rewrite (map_nth IZR E 0%Z). split; auto.
    rewrite Forall_forall in HE. apply (IZR_le 1). specialize (HE (nth k E 0%Z) ltac:(apply nth_In; lia)). lia. }
  assert (LE : forall a b, (a <= b < length X)%nat -> nth a X 0 <= nth b X 0).
  { intros a b H. destruct (Nat.eq_dec a b) as [->|]; [lra|]. apply R. lia. }
  assert (K : exists w x t, snd (np_append (fst (text junk (fi, Fin F) v (tc, c, (true, map Fin X)) i)) (snd (text junk (fi, Fin F) v (tc, c, (true, map Fin X)) i))) =
      insert_at i w c ++ map Fin (insert_at i x X) /\ 0 <= t /\ t <= x /\ (F <= nth 0 X 0 -> 0 < x) /\
      (forall k, (k < i)%nat -> nth k X 0 <= x) /\ (forall k, (i <= k < length X)%nat -> x <= nth k X 0)).
  { unfold text, np_append. cbn [fst snd]. unfold newx. rewrite map_length. destruct (Nat.eqb_spec i (length X)) as [->|Hne].
    - cbn [fst snd]. rewrite nth_fin by lia. cbn [xmul].
      exists (snd v), (nth (length X - 1) X 0 * F), 0. rewrite insert_at_map. pose proof (P (length X - 1)%nat ltac:(lia)) as [Q _].
      split; [reflexivity|]. split; [lra|]. split; [nra|]. split; [nra|]. split; [|intros; lia].
      intros k Hk. pose proof (LE k (length X - 1)%nat ltac:(lia)). nra.
    - cbn [fst snd]. destruct i as [|i]; cbn [new_exponent].
      + rewrite nth_fin by lia. rewrite xdiv_fin by lra. cbn [keep to_int].
        pose proof (P 0%nat ltac:(lia)) as [Q QE].
        assert (D1 : 0 <= nth 0 X 0 / F) by (apply Rlt_le, Rdiv_lt_0_compat; lra).
        assert (D2 : nth 0 X 0 / F <= nth 0 X 0) by (apply (proj2 (Rcomplements.Rle_div_l (nth 0 X 0) (nth 0 X 0) F ltac:(lra))); nra).
        assert (T := trunc_between 0 (nth 0 E 0%Z) (nth 0 X 0 / F) ltac:(lia) ltac:(exact D1) ltac:(lra)).
        eexists _, (IZR (trunc (nth 0 X 0 / F))), 0. rewrite insert_at_map. split; [reflexivity|]. split; [lra|].
        split; [apply (IZR_le 0); lia|]. split; [|split; [intros; lia|]].
        * intros H. assert (1 <= nth 0 X 0 / F) by (apply (proj1 (Rcomplements.Rle_div_r 1 (nth 0 X 0) F ltac:(lra))); lra).
          pose proof (trunc_between 1 (nth 0 E 0%Z) (nth 0 X 0 / F) ltac:(lia) ltac:(lra) ltac:(lra)). apply (IZR_lt 0). lia.
        * intros k Hk. pose proof (LE 0%nat k ltac:(lia)). assert (IZR (trunc (nth 0 X 0 / F)) <= nth 0 X 0) by (rewrite QE at 2; apply IZR_le; lia). lra.
      + rewrite !nth_fin by lia. cbn [xadd]. rewrite xdiv_fin by lra. cbn [keep to_int].
        pose proof (P i ltac:(lia)) as [Q1 E1]. pose proof (P (S i) ltac:(lia)) as [Q2 E2]. pose proof (LE i (S i) ltac:(lia)) as Q.
        set (y := (nth i X 0 + nth (S i) X 0) / 2) in *. assert (Y : nth i X 0 <= y <= nth (S i) X 0) by (unfold y; lra).
        assert (T : (nth i E 0 <= trunc y <= nth (S i) E 0)%Z).
        { apply trunc_between; [|rewrite <- E1; lra|rewrite <- E2; lra]. apply le_IZR. rewrite <- E1. lra. }
        destruct T as [T1 T2]. apply IZR_le in T1, T2. rewrite <- E1 in T1. rewrite <- E2 in T2.
        eexists _, (IZR (trunc y)), 0. rewrite insert_at_map. split; [reflexivity|]. split; [lra|].
        split; [lra|]. split; [intros; lra|]. split; intros k Hk.
        * pose proof (LE k i ltac:(lia)). lra.
        * pose proof (LE (S i) k ltac:(lia)). lra. }
  destruct K as (w & x & t & -> & T0 & T1 & T2 & R1 & R2). exists (insert_at i w c), (insert_at i x X). split; [reflexivity|].
  rewrite !insert_at_length by lia. split; [lia|]. split; [lia|]. split; [|split].
  - apply Forall_forall. intros y Hy. apply in_insert in Hy. destruct Hy as [->|Hy]; [lra|].
    apply (In_nth _ _ 0) in Hy. destruct Hy as (k & Hk & <-). destruct (P k Hk). lra.
  - apply rising_insert; auto; lia.
  - intros H. destruct (P 0%nat ltac:(lia)) as [_ P0]. rewrite <- P0 in H. apply Forall_forall. intros y Hy. apply in_insert in Hy. destruct Hy as [->|Hy]; [auto|].
    apply (In_nth _ _ 0) in Hy. destruct Hy as (k & Hk & <-). destruct (P k Hk). lra.
Qed.
