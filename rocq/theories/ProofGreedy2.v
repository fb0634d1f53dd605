(** Positivity of the guesses (C56) and removal of redundancies (C57). *)
From Coq Require Import Reals List ZArith Lia Lra Bool Sorted.
From Verif Require Import XR SpecDens SpecFit ModelGreedy SpecGreedy Lists ProofDens ProofFitView ProofFPI3 ProofGreedy1.
Import ListNotations.
Local Open Scope R_scope.

Lemma insert_at_map {A B} (F : A -> B) i v l : insert_at i (F v) (map F l) = map F (insert_at i v l).
Proof. unfold insert_at. rewrite map_app, firstn_map. cbn [map]. rewrite skipn_map. reflexivity. Qed.
Lemma delete_at_map {A B} (F : A -> B) i l : delete_at i (map F l) = map F (delete_at i l).
Proof. unfold delete_at. rewrite map_app, firstn_map, skipn_map. reflexivity. Qed.

Lemma nth_fin i l : (i < length l)%nat -> nth i (map Fin l) NaN = Fin (nth i l 0).
Proof. intros H. rewrite (nth_indep _ NaN (Fin 0)) by (now rewrite map_length). apply map_nth. Qed.

Lemma In_firstn {A} (x : A) n l : In x (firstn n l) -> In x l.
Proof. intros H. rewrite <- (firstn_skipn n l). apply in_or_app. now left. Qed.

Lemma ext_positive F v c E i : 0 < F -> (0 < length E)%nat -> (i <= length E)%nat -> positive E ->
  exists E', snd (ext (Fin F) v (c, map Fin E) i) = map Fin E' /\ length E' = S (length E) /\ positive E' /\
    (1 <= F -> rising E -> rising E').
Proof.
  intros HF Hn Hi HE.
  assert (P : forall k, (k < length E)%nat -> 0 < nth k E 0).
  { intros k Hk. unfold positive in HE. rewrite Forall_forall in HE. apply HE, nth_In, Hk. }
  assert (N : exists x, newx (Fin F) (map Fin E) i = Fin x /\ 0 < x /\
     (1 <= F -> rising E -> (forall k, (k < i)%nat -> nth k E 0 <= x) /\
                            (forall k, (i <= k < length E)%nat -> x <= nth k E 0))).
  { unfold newx. rewrite map_length. destruct (Nat.eqb_spec i (length E)) as [->|Hne].
    - rewrite nth_fin by lia. cbn [xmul]. exists (nth (length E - 1) E 0 * F). split; [reflexivity|].
      pose proof (P (length E - 1)%nat ltac:(lia)) as Q. split; [nra|]. intros H1 R. split; [|intros; lia].
      intros k Hk. assert (nth k E 0 <= nth (length E - 1) E 0).
      { destruct (Nat.eq_dec k (length E - 1)) as [->|]; [lra|]. apply R. lia. }
      nra.
    - destruct i as [|i]; cbn [new_exponent].
      + rewrite nth_fin by lia. rewrite xdiv_fin by lra. exists (nth 0 E 0 / F). split; [reflexivity|].
        pose proof (P 0%nat ltac:(lia)) as Q. split; [now apply Rdiv_lt_0_compat|]. intros H1 R. split; [intros; lia|].
        intros k Hk. assert (nth 0 E 0 <= nth k E 0). { destruct k; [lra|]. apply R. lia. }
        apply Rle_trans with (nth 0 E 0); [|auto]. apply (proj2 (Rcomplements.Rle_div_l (nth 0 E 0) (nth 0 E 0) F HF)). nra.
      + rewrite !nth_fin by lia. cbn [xadd]. rewrite xdiv_fin by lra.
        exists ((nth i E 0 + nth (S i) E 0) / 2). split; [reflexivity|].
        pose proof (P i ltac:(lia)). pose proof (P (S i) ltac:(lia)). split; [lra|]. intros H1 R.
        pose proof (R i (S i) ltac:(lia)) as Q. split.
        * intros k Hk. assert (nth k E 0 <= nth i E 0). { destruct (Nat.eq_dec k i) as [->|]; [lra|]. apply R. lia. } lra.
        * intros k Hk. assert (nth (S i) E 0 <= nth k E 0). { destruct (Nat.eq_dec k (S i)) as [->|]; [lra|]. apply R. lia. } lra. }
  destruct N as (x & Nx & Px & Rx). exists (insert_at i x E). unfold ext. cbn [snd]. rewrite Nx, insert_at_map.
  split; [reflexivity|]. split; [now apply insert_at_length|]. split.
  - unfold positive in *. unfold insert_at. rewrite Forall_forall in *. intros y Hy. apply in_app_or in Hy.
    destruct Hy as [Hy|Hy]; [apply HE; eapply In_firstn; eauto|]. destruct Hy as [Hy|Hy]; [subst; auto|].
    apply HE. rewrite <- (firstn_skipn i E). apply in_or_app. now right.
  - intros H1 R. destruct (Rx H1 R) as [R1 R2]. intros a b Hab. rewrite insert_at_length in Hab by auto.
    destruct (lt_eq_lt_dec a i) as [[A|A]|A].
    + rewrite nth_insert_lt by auto. destruct (lt_eq_lt_dec b i) as [[B|B]|B].
      * rewrite nth_insert_lt by auto. apply R; lia.
      * subst b. rewrite nth_insert_eq by auto. now apply R1.
      * destruct b as [|b]; [lia|]. rewrite nth_insert_gt by lia.
        destruct (Nat.eq_dec a b) as [->|]; [lia|]. apply R; lia.
    + subst a. rewrite nth_insert_eq by auto. destruct b as [|b]; [lia|]. rewrite nth_insert_gt by lia. apply R2. lia.
    + destruct a as [|a]; [lia|]. destruct b as [|b]; [lia|]. rewrite !nth_insert_gt by lia. apply R. lia.
Qed.

Lemma delete_positive k E : (k < length E)%nat -> positive E ->
  positive (delete_at k E) /\ (rising E -> rising (delete_at k E)).
Proof.
  intros Hk HE. split.
  - unfold positive, delete_at in *. rewrite Forall_forall in *. intros y Hy. apply in_app_or in Hy.
    destruct Hy as [Hy|Hy]; [apply HE; eapply In_firstn; eauto|].
    apply HE. rewrite <- (firstn_skipn (S k) E). apply in_or_app. now right.
  - assert (Nt : forall i, nth i (delete_at k E) 0 = nth (if Nat.ltb i k then i else S i) E 0).
    { intros i. unfold delete_at. destruct (Nat.ltb_spec i k).
      - rewrite app_nth1 by (rewrite firstn_length_le; lia).
        rewrite <- (firstn_skipn k E) at 2. rewrite app_nth1; auto. rewrite firstn_length_le; lia.
      - rewrite app_nth2 by (rewrite firstn_length_le; lia). rewrite firstn_length_le by lia.
        rewrite <- (firstn_skipn (S k) E) at 2. rewrite app_nth2 by (rewrite firstn_length_le; lia).
        rewrite firstn_length_le by lia. reflexivity || (f_equal; lia). }
    intros R i j Hij. rewrite !Nt.
    assert (L : length (delete_at k E) = (length E - 1)%nat).
    { unfold delete_at. rewrite app_length, firstn_length_le, skipn_length by lia. lia. }
    rewrite L in Hij. apply R. destruct (Nat.ltb_spec i k), (Nat.ltb_spec j k); lia.
Qed.

Lemma In_insert {A} (x : A) i v l : In x (insert_at i v l) -> x = v \/ In x l.
Proof.
  intros H. unfold insert_at in H. apply in_app_or in H. destruct H as [H|[H|H]]; [right; eapply In_firstn; eauto|auto|].
  right. rewrite <- (firstn_skipn i l). apply in_or_app. now right.
Qed.
Lemma In_delete {A} (x : A) i l : In x (delete_at i l) -> In x l.
Proof.
  intros H. unfold delete_at in H. apply in_app_or in H. destruct H as [H|H]; [eapply In_firstn; eauto|].
  rewrite <- (firstn_skipn (S i) l). apply in_or_app. now right.
Qed.
Lemma delete_at_length {A} i (l : list A) : (i < length l)%nat -> length (delete_at i l) = (length l - 1)%nat.
Proof. intros H. unfold delete_at. rewrite app_length, firstn_length_le, skipn_length by lia. lia. Qed.

(** C56. *)
Lemma guesses_positive ch F c E p : 0 < F -> (0 < length E)%nat -> length c = length E -> positive E ->
  In p (next_params ch (Fin F) c (map Fin E)) ->
  exists c' E', p = c' ++ map Fin E' /\ length c' = length E' /\ length E' = (length E + increase ch)%nat /\
    (forall x, In x c' -> x = Fin 100 \/ In x c) /\ positive E' /\ (1 <= F -> rising E -> rising E').
Proof.
  intros HF Hn Hl HE Hp.
  assert (Hn' : (0 < length (map Fin E))%nat) by (now rewrite map_length).
  assert (Hl' : length c = length (map Fin E)) by (now rewrite map_length).
  assert (T : forall i j q1 q2, extends (Fin F) (Fin 100) i (c, map Fin E) q1 -> extends (Fin F) (Fin 100) j q1 q2 ->
     exists E', snd q2 = map Fin E' /\ length (fst q2) = length E' /\ length E' = (length E + 2)%nat /\
       (forall x, In x (fst q2) -> x = Fin 100 \/ In x c) /\ positive E' /\ (1 <= F -> rising E -> rising E')).
  { intros i j q1 q2 A B. apply extends_eq in A; auto. destruct A as [Hi ->]. cbn [snd] in Hi.
    destruct (ext_length (Fin F) (Fin 100) (c, map Fin E) i Hl' Hi) as [L1 L2].
    apply extends_eq in B; [|lia|lia]. destruct B as [Hj ->].
    rewrite map_length in Hi. destruct (ext_positive F (Fin 100) c E i HF Hn Hi HE) as (E1 & X1 & X2 & X3 & X4).
    assert (I1 : forall x, In x (fst (ext (Fin F) (Fin 100) (c, map Fin E) i)) -> x = Fin 100 \/ In x c)
      by (intros x; apply In_insert).
    destruct (ext (Fin F) (Fin 100) (c, map Fin E) i) as [c1 e1] eqn:Q. cbn [fst snd] in *. subst e1.
    rewrite map_length in Hj. destruct (ext_positive F (Fin 100) c1 E1 j HF ltac:(lia) Hj X3) as (E2 & Y1 & Y2 & Y3 & Y4).
    destruct (ext_length (Fin F) (Fin 100) (c1, map Fin E1) j) as [M1 M2]; cbn [fst snd] in *; rewrite ?map_length in *; try lia.
    exists E2. split; auto. split; [lia|]. split; [lia|]. split; [|auto].
    intros x Hx. apply In_insert in Hx. destruct Hx as [Hx|Hx]; auto. }
  destruct ch; cbn [next_params increase] in *.
  - unfold get_next_choices in Hp. rewrite next_pairs_eq in Hp by auto. rewrite map_map in Hp. apply in_map_iff in Hp.
    destruct Hp as (i & <- & Hi). apply in_seq in Hi. rewrite map_length in Hi.
    destruct (ext_positive F (Fin 100) c E i HF Hn ltac:(lia) HE) as (E' & X1 & X2 & X3 & X4).
    exists (fst (ext (Fin F) (Fin 100) (c, map Fin E) i)), E'. rewrite X1. split; auto.
    destruct (ext_length (Fin F) (Fin 100) (c, map Fin E) i) as [M1 M2]; cbn [fst snd] in *; rewrite ?map_length in *; try lia.
    split; [lia|]. split; [lia|]. split; [|auto]. intros x. apply In_insert.
  - destruct (two_choices (Fin F) c (map Fin E) (Fin 100) Hn' Hl') as (_ & IN & _). apply IN in Hp.
    destruct Hp as (i & j & q1 & q2 & A & B & ->).
    destruct (T _ _ _ _ A B) as (E' & X1 & X2 & X3 & X4 & X5 & X6). exists (fst q2), E'. rewrite X1. auto 8.
  - destruct (lose_one (Fin F) c (map Fin E) (Fin 100) Hn' Hl') as (_ & IN & _). apply IN in Hp.
    destruct Hp as (i & j & q1 & q2 & k & c' & e' & A & B & C & D & ->).
    destruct (T _ _ _ _ A B) as (E' & X1 & X2 & X3 & X4 & X5 & X6). apply removed_eq in C, D. destruct C as [-> C], D as [-> D].
    rewrite X1 in *. rewrite map_length in D. destruct (delete_positive k E' D X5) as [Y1 Y2].
    exists (delete_at k (fst q2)), (delete_at k E'). rewrite delete_at_map. split; auto.
    rewrite !delete_at_length by lia. split; [lia|]. split; [lia|]. split; [|auto].
    intros x Hx. apply In_delete in Hx. auto.
Qed.

(** The shape of the guesses, for any values. *)
Lemma guess_shape ch f c e p : length c = length e -> In p (next_params ch f c e) ->
  exists c' e', p = c' ++ e' /\ length c' = (length e + increase ch)%nat /\ length e' = (length e + increase ch)%nat.
Proof.
  intros Hl Hp. assert (Hn : (0 < length e)%nat).
  { destruct e as [|x e]; [|cbn; lia]. destruct ch; cbn in Hp; destruct Hp. }
  assert (T : forall i j q1 q2, extends f (Fin 100) i (c, e) q1 -> extends f (Fin 100) j q1 q2 ->
     length (fst q2) = (length e + 2)%nat /\ length (snd q2) = (length e + 2)%nat).
  { intros i j q1 q2 A B. apply extends_eq in A; auto. destruct A as [Hi ->]. cbn [snd] in Hi.
    destruct (ext_length f (Fin 100) (c, e) i Hl Hi) as [L1 L2]. cbn [snd] in *.
    apply extends_eq in B; [|lia|lia]. destruct B as [Hj ->].
    destruct (ext_length f (Fin 100) (ext f (Fin 100) (c, e) i) j) as [M1 M2]; lia. }
  destruct ch; cbn [next_params increase] in *.
  - unfold get_next_choices in Hp. rewrite next_pairs_eq in Hp by auto. rewrite map_map in Hp. apply in_map_iff in Hp.
    destruct Hp as (i & <- & Hi). apply in_seq in Hi.
    destruct (ext_length f (Fin 100) (c, e) i Hl) as [M1 M2]; cbn [fst snd] in *; [lia|].
    eexists _, _. split; [reflexivity|]. cbn [fst snd] in *. lia.
  - destruct (two_choices f c e (Fin 100) Hn Hl) as (_ & IN & _). apply IN in Hp.
    destruct Hp as (i & j & q1 & q2 & A & B & ->). destruct (T _ _ _ _ A B). eauto.
  - destruct (lose_one f c e (Fin 100) Hn Hl) as (_ & IN & _). apply IN in Hp.
    destruct Hp as (i & j & q1 & q2 & k & c' & e' & A & B & C & D & ->). destruct (T _ _ _ _ A B).
    apply removed_eq in C, D. destruct C as [-> C], D as [-> D]. eexists _, _. split; [reflexivity|].
    rewrite !delete_at_length by auto. lia.
Qed.

Definition closeb (eps : R) (e : list R) (i j : nat) : bool := rltb (Rabs (nth i e 0 - nth j e 0)) eps.
Definition firstb (eps : R) (e : list R) (i : nat) : bool := negb (existsb (fun j => closeb eps e j i) (seq 0 i)).

Lemma closeb_iff eps e i j : closeb eps e i j = true <-> Rabs (nth i e 0 - nth j e 0) < eps.
Proof. apply rltb_iff. Qed.
Lemma firstb_iff eps e i : firstb eps e i = true <-> first_of_kind eps e i.
Proof.
  unfold firstb, first_of_kind. rewrite negb_true_iff. split.
  - intros H j Hj. apply Rnot_lt_le. intros C. apply (closeb_iff eps e j i) in C.
    assert (existsb (fun j => closeb eps e j i) (seq 0 i) = true); [|congruence].
    apply existsb_exists. exists j. split; auto. apply in_seq. lia.
  - intros H. apply not_true_iff_false. intros C. apply existsb_exists in C. destruct C as (j & Hj & C).
    apply in_seq in Hj. apply closeb_iff in C. specialize (H j ltac:(lia)). lra.
Qed.

Lemma group_at_fin eps e i : group_at (Fin eps) (map Fin e) i =
  match filter (closeb eps e i) (seq (S i) (length e - S i)) with [] => [] | js => i :: js end.
Proof.
  unfold group_at. rewrite map_length.
  assert (E : filter (fun j => similar (Fin eps) (nth i (map Fin e) NaN) (nth j (map Fin e) NaN)) (seq (S i) (length e - S i)) =
     filter (closeb eps e i) (seq (S i) (length e - S i))).
  { apply filter_ext_in. intros j Hj. apply in_seq in Hj. rewrite !nth_fin by lia. reflexivity. }
  rewrite E. destruct (filter (closeb eps e i) _); reflexivity.
Qed.

Lemma add_at_fin i v l : (i < length l)%nat -> add_at i (Fin v) (map Fin l) = map Fin (upd l i (nth i l 0 + v)).
Proof.
  intros H. unfold add_at. rewrite nth_error_map. rewrite (nth_error_nth' l 0 H). cbn [option_map xadd].
  rewrite firstn_map, skipn_map. change (Fin (nth i l 0 + v)) with (Fin (nth i l 0 + v)).
  rewrite <- (map_cons Fin), <- map_app. f_equal.
  revert i H. induction l as [|x l IH]; intros i H; [cbn in H; lia|]. destruct i; cbn [firstn skipn nth upd app].
  - reflexivity.
  - f_equal. change (skipn (S (S i)) (x :: l)) with (skipn (S i) l). apply IH. cbn in H. lia.
Qed.

Lemma add_js_fin c js : forall i acc, (i < length acc)%nat -> Forall (fun j => (j < length c)%nat) js ->
  fold_left (fun a j => add_at i (nth j (map Fin c) NaN) a) js (map Fin acc) =
  map Fin (upd acc i (nth i acc 0 + rsum (map (fun j => nth j c 0) js))).
Proof.
  induction js as [|j js IH]; intros i acc Hi Hjs; cbn [fold_left map].
  - cbn [rsum]. rewrite Rplus_0_r. now rewrite upd_same.
  - inversion Hjs; subst. rewrite nth_fin by auto. rewrite add_at_fin by auto.
    rewrite IH by (try rewrite upd_length; auto). f_equal. rewrite nth_upd, Nat.eqb_refl by auto.
    rewrite rsum_cons.
    assert (U : forall (l : list R) k x y, upd (upd l k x) k y = upd l k y).
    { induction l as [|z l IHl]; intros k x y; destruct k; cbn [upd]; auto. f_equal. apply IHl. }
    rewrite U. f_equal. ring.
Qed.

Lemma add_group_fin c eps e i acc : length c = length e -> length acc = length e -> (i < length e)%nat ->
  add_group (map Fin c) (map Fin acc) (group_at (Fin eps) (map Fin e) i) =
  map Fin (upd acc i (nth i acc 0 + rsum (map (fun j => nth j c 0) (filter (closeb eps e i) (seq (S i) (length e - S i)))))).
Proof.
  intros Hc Ha Hi. rewrite group_at_fin.
  assert (F : Forall (fun j => (j < length c)%nat) (filter (closeb eps e i) (seq (S i) (length e - S i)))).
  { apply Forall_forall. intros j Hj. apply filter_In in Hj. destruct Hj as [Hj _]. apply in_seq in Hj. lia. }
  destruct (filter (closeb eps e i) (seq (S i) (length e - S i))) as [|j js] eqn:Q.
  - cbn [add_group map rsum]. rewrite Rplus_0_r, upd_same; auto. lia.
  - cbn [add_group]. apply add_js_fin; auto. lia.
Qed.

Lemma filter_nonempty_fold (c : list xr) (gs : list (list nat)) : forall acc : list xr,
  fold_left (add_group c) (filter (fun g => negb (Nat.eqb (length g) 0)) gs) acc = fold_left (add_group c) gs acc.
Proof.
  induction gs as [|g gs IH]; intros acc; [reflexivity|]. cbn [filter]. destruct g as [|i g]; cbn [length Nat.eqb negb].
  - cbn [fold_left add_group]. apply IH.
  - cbn [fold_left]. apply IH.
Qed.

Lemma later_close_eq eps c e i : (i < length e)%nat ->
  rsum (map (fun j => nth j c 0) (filter (closeb eps e i) (seq (S i) (length e - S i)))) = later_close eps c e i.
Proof.
  intros Hi. unfold later_close, sumn.
  replace (length e) with (S i + (length e - S i))%nat at 2 by lia. rewrite seq_app, map_app, rsum_app.
  assert (Z : rsum (map (fun j => if Nat.ltb i j then if Rlt_dec (Rabs (nth i e 0 - nth j e 0)) eps then nth j c 0 else 0 else 0) (seq 0 (S i))) = 0).
  { fold (sumn (S i) (fun j => if Nat.ltb i j then if Rlt_dec (Rabs (nth i e 0 - nth j e 0)) eps then nth j c 0 else 0 else 0)).
    apply sumn_zero. intros j Hj. destruct (Nat.ltb_spec i j); [lia|reflexivity]. }
  rewrite Z, Rplus_0_l. cbn [Nat.add].
  assert (G : forall k m, (i < k)%nat -> rsum (map (fun j => nth j c 0) (filter (closeb eps e i) (seq k m))) =
     rsum (map (fun j => if Nat.ltb i j then if Rlt_dec (Rabs (nth i e 0 - nth j e 0)) eps then nth j c 0 else 0 else 0) (seq k m))).
  { intros k m; revert k. induction m as [|m IH]; intros k Hk; [reflexivity|]. cbn [seq filter map].
    rewrite (rsum_cons (if Nat.ltb i k then _ else _)). rewrite <- IH by lia.
    destruct (Nat.ltb_spec i k); [|lia]. unfold closeb at 1. destruct (Rlt_dec (Rabs (nth i e 0 - nth k e 0)) eps) as [L|L].
    - rewrite (rltb_true _ _ L). cbn [map]. now rewrite rsum_cons.
    - rewrite (rltb_false _ _ L). now rewrite Rplus_0_l. }
  apply G. lia.
Qed.

Lemma fold_groups c eps e : length c = length e -> forall m a acc, length acc = length e -> (a + m <= length e)%nat ->
  exists acc', fold_left (add_group (map Fin c)) (map (group_at (Fin eps) (map Fin e)) (seq a m)) (map Fin acc) = map Fin acc' /\
    length acc' = length e /\
    forall k, (k < length e)%nat -> nth k acc' 0 = nth k acc 0 + (if Nat.leb a k && Nat.ltb k (a + m) then later_close eps c e k else 0).
Proof.
  intros Hc. induction m as [|m IH]; intros a acc Ha Hm; cbn [seq map fold_left].
  - exists acc. split; auto. split; auto. intros k Hk. rewrite Nat.add_0_r.
    destruct (Nat.leb_spec a k), (Nat.ltb_spec k a); cbn [andb]; try lia; ring.
  - rewrite add_group_fin by (auto; lia). rewrite later_close_eq by lia.
    destruct (IH (S a) (upd acc a (nth a acc 0 + later_close eps c e a))) as (acc' & -> & L & N).
    { now rewrite upd_length. } { lia. }
    exists acc'. split; auto. split; auto. intros k Hk. rewrite N by auto. rewrite nth_upd by lia.
    destruct (Nat.eqb_spec k a) as [->|Hne].
    + rewrite Nat.leb_refl. destruct (Nat.leb_spec (S a) a); [lia|]. destruct (Nat.ltb_spec a (a + S m)); [|lia]. cbn [andb]. ring.
    + destruct (Nat.leb_spec (S a) k), (Nat.leb_spec a k), (Nat.ltb_spec k (S a + m)), (Nat.ltb_spec k (a + S m)); cbn [andb]; try lia; reflexivity.
Qed.

Lemma combine_nth_seq {A} (l : list A) d : combine (seq 0 (length l)) l = map (fun i => (i, nth i l d)) (seq 0 (length l)).
Proof.
  apply (nth_ext _ _ (0%nat, d) (0%nat, d)).
  - rewrite combine_length, map_length, seq_length. lia.
  - intros n Hn. rewrite combine_length, seq_length in Hn. rewrite combine_nth by (now rewrite seq_length).
    rewrite (nth_indep _ (0%nat, d) ((fun i => (i, nth i l d)) 0%nat)) by (rewrite map_length, seq_length; lia).
    rewrite (map_nth (fun i => (i, nth i l d))). rewrite seq_nth by lia. reflexivity.
Qed.

Lemma delete_all_eq {A} idx (l : list A) d :
  delete_all idx l = map (fun i => nth i l d) (filter (fun i => negb (existsb (Nat.eqb i) idx)) (seq 0 (length l))).
Proof.
  unfold delete_all. rewrite (combine_nth_seq l d).
  generalize (seq 0 (length l)). intros s. induction s as [|i s IH]; [reflexivity|]. cbn [map filter fst].
  destruct (negb (existsb (Nat.eqb i) idx)); cbn [map snd]; rewrite IH; reflexivity.
Qed.

Lemma in_deleted eps e i : (i < length e)%nat ->
  existsb (Nat.eqb i) (flat_map (@tl nat) (groups (Fin eps) (map Fin e))) = negb (firstb eps e i).
Proof.
  intros Hi. unfold firstb. rewrite negb_involutive. apply eq_true_iff_eq. rewrite !existsb_exists. split.
  - intros (k & Hk & E). apply Nat.eqb_eq in E. subst k. apply in_flat_map in Hk. destruct Hk as (g & Hg & Hk).
    unfold groups in Hg. apply filter_In in Hg. destruct Hg as [Hg _]. apply in_map_iff in Hg.
    destruct Hg as (j & <- & Hj). apply in_seq in Hj. rewrite group_at_fin in Hk.
    assert (Q : In i (filter (closeb eps e j) (seq (S j) (length e - S j)))).
    { destruct (filter (closeb eps e j) (seq (S j) (length e - S j))); [destruct Hk|exact Hk]. }
    apply filter_In in Q. destruct Q as [Q1 Q2]. apply in_seq in Q1. exists j. split; [apply in_seq; lia|auto].
  - intros (j & Hj & C). apply in_seq in Hj. exists i. split; [|apply Nat.eqb_refl]. apply in_flat_map.
    exists (group_at (Fin eps) (map Fin e) j).
    assert (Q : In i (filter (closeb eps e j) (seq (S j) (length e - S j)))).
    { apply filter_In. split; [apply in_seq; lia|auto]. }
    split.
    + unfold groups. apply filter_In. split; [apply in_map; apply in_seq; rewrite map_length; lia|].
      rewrite group_at_fin. destruct (filter (closeb eps e j) (seq (S j) (length e - S j))); [destruct Q|reflexivity].
    + rewrite group_at_fin. destruct (filter (closeb eps e j) (seq (S j) (length e - S j))); [destruct Q|exact Q].
Qed.

Definition kept_idx (eps : R) (e : list R) : list nat := filter (firstb eps e) (seq 0 (length e)).

Lemma remove_eq c e eps : length c = length e ->
  remove_redundancies (map Fin c) (map Fin e) (Fin eps) =
  (map Fin (map (fun i => nth i c 0 + later_close eps c e i) (kept_idx eps e)),
   map Fin (map (fun i => nth i e 0) (kept_idx eps e))).
Proof.
  intros Hc. unfold remove_redundancies. unfold groups at 2. rewrite filter_nonempty_fold, map_length.
  destruct (fold_groups c eps e Hc (length e) 0 c Hc ltac:(lia)) as (acc & -> & L & N).
  set (idx := flat_map _ _).
  assert (K : forall l : list R, length l = length e ->
     filter (fun i => negb (existsb (Nat.eqb i) idx)) (seq 0 (length l)) = kept_idx eps e).
  { intros l ->. unfold kept_idx. apply filter_ext_in. intros i Hi. apply in_seq in Hi. unfold idx.
    rewrite in_deleted by lia. apply negb_involutive. }
  assert (D : forall l : list R, length l = length e -> delete_all idx (map Fin l) = map Fin (map (fun i => nth i l 0) (kept_idx eps e))).
  { intros l Hl. rewrite (delete_all_eq idx (map Fin l) (Fin 0)), map_length, K by auto. rewrite map_map.
    apply map_ext. intros i. apply map_nth. }
  rewrite !D by auto. f_equal. f_equal. apply map_ext_in. intros i Hi. unfold kept_idx in Hi. apply filter_In in Hi.
  destruct Hi as [Hi _]. apply in_seq in Hi. rewrite N by lia.
  destruct (Nat.leb_spec 0 i), (Nat.ltb_spec i (0 + length e)); cbn [andb]; try lia. reflexivity.
Qed.

Lemma kept_idx_spec eps e : StronglySorted lt (kept_idx eps e) /\
  forall i, In i (kept_idx eps e) <-> (i < length e)%nat /\ first_of_kind eps e i.
Proof.
  split.
  - unfold kept_idx. generalize (length e); intros n. generalize 0%nat.
    induction n as [|n IH]; intros a; cbn [seq filter]; [constructor|].
    destruct (firstb eps e a); [|apply IH]. constructor; [apply IH|]. apply Forall_forall. intros i Hi.
    apply filter_In in Hi. destruct Hi as [Hi _]. apply in_seq in Hi. lia.
  - intros i. unfold kept_idx. rewrite filter_In, in_seq, firstb_iff. intuition lia.
Qed.

(** C57: which entries are kept and with which coefficients. *)
Lemma remove_spec c e eps : length c = length e ->
  exists idx, StronglySorted lt idx /\ (forall i, In i idx <-> (i < length e)%nat /\ first_of_kind eps e i) /\
    remove_redundancies (map Fin c) (map Fin e) (Fin eps) =
    (map Fin (map (fun i => nth i c 0 + later_close eps c e i) idx), map Fin (map (fun i => nth i e 0) idx)).
Proof.
  intros H. exists (kept_idx eps e). destruct (kept_idx_spec eps e). split; auto. split; auto. now apply remove_eq.
Qed.

Lemma sorted_nth l : StronglySorted lt l -> forall i j, (i < j < length l)%nat -> (nth i l 0 < nth j l 0)%nat.
Proof.
  induction 1 as [|x l H IH F]; intros i j Hij; cbn [length] in Hij; [lia|]. destruct j; [lia|]. destruct i; cbn [nth].
  - rewrite Forall_forall in F. apply F, nth_In. lia.
  - apply IH. lia.
Qed.

(** The remaining exponents are at least [eps] apart. *)
Lemma remove_separated c e eps c' e' : length c = length e ->
  remove_redundancies (map Fin c) (map Fin e) (Fin eps) = (map Fin c', map Fin e') -> separated eps e'.
Proof.
  intros H E. rewrite remove_eq in E by auto. injection E as _ E. apply map_Fin_inj in E. subst e'.
  destruct (kept_idx_spec eps e) as [S I]. intros i j Hij. rewrite map_length in Hij.
  assert (Nn : forall k, (k < length (kept_idx eps e))%nat ->
    nth k (map (fun i => nth i e 0) (kept_idx eps e)) 0 = nth (nth k (kept_idx eps e) 0%nat) e 0).
  { intros k Hk. rewrite (nth_indep _ 0 ((fun i => nth i e 0) 0%nat)) by (now rewrite map_length).
    apply (map_nth (fun i => nth i e 0)). }
  rewrite !Nn by lia.
  assert (X : In (nth j (kept_idx eps e) 0%nat) (kept_idx eps e)) by (apply nth_In; lia).
  apply I in X. destruct X as [_ X]. apply X. now apply sorted_nth.
Qed.

Lemma kept_all eps e : separated eps e -> kept_idx eps e = seq 0 (length e).
Proof.
  intros H. unfold kept_idx. assert (A : forall l, (forall i, In i l -> firstb eps e i = true) -> filter (firstb eps e) l = l).
  { induction l as [|x l IH]; intros F; [reflexivity|]. cbn [filter]. rewrite F by (now left). f_equal. apply IH.
    intros i Hi. apply F. now right. }
  apply A. intros i Hi. apply in_seq in Hi. apply firstb_iff. intros j Hj. apply H. lia.
Qed.
Lemma map_nth_seq (l : list R) : map (fun i => nth i l 0) (seq 0 (length l)) = l.
Proof.
  apply (nth_ext _ _ 0 0); [now rewrite map_length, seq_length|]. intros n Hn. rewrite map_length, seq_length in Hn.
  rewrite (nth_indep _ 0 ((fun i => nth i l 0) 0%nat)) by (rewrite map_length, seq_length; lia).
  rewrite (map_nth (fun i => nth i l 0)), seq_nth by lia. reflexivity.
Qed.

(** Separated input is returned as it is, and only then is nothing removed. *)
Lemma remove_unchanged c e eps : length c = length e ->
  (separated eps e -> remove_redundancies (map Fin c) (map Fin e) (Fin eps) = (map Fin c, map Fin e)) /\
  (length (fst (remove_redundancies (map Fin c) (map Fin e) (Fin eps))) = length c <-> separated eps e).
Proof.
  intros H.
  assert (S1 : separated eps e -> remove_redundancies (map Fin c) (map Fin e) (Fin eps) = (map Fin c, map Fin e)).
  { intros S. rewrite remove_eq by auto. rewrite kept_all by auto. rewrite map_nth_seq. f_equal. f_equal.
    transitivity (map (fun i => nth i c 0) (seq 0 (length e))); [|rewrite <- H; apply map_nth_seq]. apply map_ext_in. intros i Hi. apply in_seq in Hi.
    replace (later_close eps c e i) with 0; [ring|]. symmetry. unfold later_close. apply sumn_zero. intros j Hj.
    destruct (Nat.ltb_spec i j); [|reflexivity]. destruct (Rlt_dec _ _) as [L|]; [|reflexivity].
    specialize (S i j ltac:(lia)). lra. }
  split; [exact S1|]. split; [|intros S; rewrite S1 by auto; cbn [fst]; apply map_length].
  rewrite remove_eq by auto. cbn [fst]. rewrite !map_length. intros L i j Hij. rewrite H in L.
  assert (F : firstb eps e j = true).
  { unfold kept_idx in L. assert (A : forall l, length (filter (firstb eps e) l) = length l -> forall i, In i l -> firstb eps e i = true).
    { induction l as [|x l IH]; intros Q k Hk; [destruct Hk|]. cbn [filter] in Q.
      assert (B : forall l, (length (filter (firstb eps e) l) <= length l)%nat).
      { induction l0 as [|y l0 IH0]; cbn [filter]; [lia|]. destruct (firstb eps e y); cbn [length]; lia. }
      destruct (firstb eps e x) eqn:Fx; cbn [length] in Q.
      - destruct Hk as [Hk|Hk]; [now subst|]. apply IH; auto.
      - specialize (B l). lia. }
    apply (A (seq 0 (length e))); [now rewrite L, seq_length|apply in_seq; lia]. }
  apply firstb_iff in F. apply F. lia.
Qed.

(** ** The total weight *)
Lemma sumn_single n F k : (k < n)%nat -> (forall i, (i < n)%nat -> i <> k -> F i = 0) -> sumn n F = F k.
Proof.
  revert F k. induction n as [|n IH]; intros F k Hk H; [lia|]. rewrite sumn_S. destruct k.
  - rewrite sumn_zero; [ring|]. intros i Hi. apply H; lia.
  - rewrite (H 0%nat) by lia. rewrite (IH (fun i => F (S i)) k); [ring|lia|]. intros i Hi Hne. apply H; lia.
Qed.

Lemma filter_sum (P : nat -> bool) (F : nat -> R) l : rsum (map F (filter P l)) = rsum (map (fun i => if P i then F i else 0) l).
Proof.
  induction l as [|x l IH]; [reflexivity|]. cbn [filter map]. rewrite rsum_cons, <- IH. destruct (P x); cbn [map]; rewrite ?rsum_cons; ring.
Qed.

Lemma remove_weight c e eps c' e' : length c = length e -> clustered eps e ->
  remove_redundancies (map Fin c) (map Fin e) (Fin eps) = (map Fin c', map Fin e') -> rsum c' = rsum c.
Proof.
  intros H T E. rewrite remove_eq in E by auto. injection E as E _. apply map_Fin_inj in E. subst c'.
  unfold kept_idx. rewrite filter_sum. fold (sumn (length e) (fun i => if firstb eps e i then nth i c 0 + later_close eps c e i else 0)).
  rewrite rsum_sumn, H.
  set (G := fun i j => if firstb eps e i then
       (if Nat.eqb i j then nth j c 0 else if Nat.ltb i j then if Rlt_dec (Rabs (nth i e 0 - nth j e 0)) eps then nth j c 0 else 0 else 0) else 0).
  rewrite (sumn_ext _ _ (fun i => sumn (length e) (fun j => G i j))).
  - rewrite sumn_swap. apply sumn_ext. intros j Hj.
    assert (X : exists i, (i < length e)%nat /\ (i <= j)%nat /\ first_of_kind eps e i /\
       (i = j \/ (i < j)%nat /\ Rabs (nth i e 0 - nth j e 0) < eps)).
    { assert (Y : forall m j, (j <= m)%nat -> (j < length e)%nat -> exists i, (i < length e)%nat /\ (i <= j)%nat /\
         first_of_kind eps e i /\ (i = j \/ (i < j)%nat /\ Rabs (nth i e 0 - nth j e 0) < eps)); [|eapply Y; eauto].
      induction m as [|m IH]; intros j0 Hm Hj0.
      - exists j0. split; auto. split; auto. split; auto. intros k Hk. lia.
      - destruct (firstb eps e j0) eqn:Fb.
        + exists j0. split; auto. split; auto. split; [now apply firstb_iff|auto].
        + unfold firstb in Fb. apply negb_false_iff, existsb_exists in Fb. destruct Fb as (k & Hk & C).
          apply in_seq in Hk. apply closeb_iff in C. destruct (IH k ltac:(lia) ltac:(lia)) as (i & I1 & I2 & I3 & I4).
          exists i. split; auto. split; [lia|]. split; auto. right. split; [lia|].
          destruct I4 as [->|[I4 I5]]; [auto|]. apply (T i k j0); auto; lia. }
    destruct X as (i & I1 & I2 & I3 & I4).
    rewrite (sumn_single (length e) (fun i => G i j) i I1).
    + unfold G. apply firstb_iff in I3. rewrite I3. destruct (Nat.eqb_spec i j); [reflexivity|].
      destruct I4 as [->|[I4 I5]]; [contradiction|]. destruct (Nat.ltb_spec i j); [|lia]. destruct (Rlt_dec _ _); [reflexivity|contradiction].
    + intros k Hk Hne. unfold G. destruct (firstb eps e k) eqn:Fk; [|reflexivity]. apply firstb_iff in Fk.
      assert (Con : forall a b, (a < b)%nat -> first_of_kind eps e b -> Rabs (nth a e 0 - nth b e 0) < eps -> False).
      { intros a b Hab Fb L. specialize (Fb a Hab). lra. }
      assert (Sy : forall a b, Rabs (nth a e 0 - nth b e 0) < eps -> Rabs (nth b e 0 - nth a e 0) < eps).
      { intros a b L. now rewrite Rabs_minus_sym. }
      destruct (Nat.eqb_spec k j) as [Ekj|Nkj].
      * subst k. destruct I4 as [->|[I4 I5]]; [contradiction|]. exfalso. eauto.
      * destruct (Nat.ltb_spec k j); [|reflexivity]. destruct (Rlt_dec _ _) as [L|]; [|reflexivity]. exfalso.
        destruct I4 as [->|[I4 I5]]; [eauto|].
        assert (Cl : Rabs (nth i e 0 - nth k e 0) < eps) by (apply (T i j k); auto).
        destruct (lt_eq_lt_dec i k) as [[A|A]|A]; [eauto|congruence|]. eapply (Con k i); eauto.
  - intros i Hi. unfold G. destruct (firstb eps e i).
    + unfold later_close.
      assert (Sg : nth i c 0 = sumn (length e) (fun j => if Nat.eqb i j then nth j c 0 else 0)).
      { rewrite (sumn_single (length e) _ i Hi); [now rewrite Nat.eqb_refl|].
        intros k Hk Hne. destruct (Nat.eqb_spec i k); [congruence|reflexivity]. }
      rewrite Sg, <- sumn_plus. apply sumn_ext. intros j Hj.
      destruct (Nat.eqb_spec i j) as [->|]; [|ring]. destruct (Nat.ltb_spec j j); [lia|ring].
    + symmetry. apply sumn_zero. intros; reflexivity.
Qed.

(** C57 refuted: in a chain the last coefficient is lost, and an entry close to two kept ones is
    counted twice. *)
Lemma chain_loses c0 c1 c2 :
  remove_redundancies (map Fin [c0; c1; c2]) (map Fin [1; 10005/10000; 1001/1000]) (Fin (1/1000)) =
  (map Fin [c0 + c1], map Fin [1]).
Proof.
  rewrite remove_eq by reflexivity.
  assert (A : Rabs (1 - 10005/10000) = 5/10000) by (rewrite Rabs_left; lra).
  assert (B : Rabs (1 - 1001/1000) = 1/1000) by (rewrite Rabs_left; lra).
  assert (C : Rabs (10005/10000 - 1001/1000) = 5/10000) by (rewrite Rabs_left; lra).
  unfold kept_idx, firstb, closeb. cbn [length seq filter existsb nth]. rewrite A, B, C.
  rewrite (rltb_true (5/10000) (1/1000)) by lra. rewrite (rltb_false (1/1000) (1/1000)) by lra. cbn [orb negb map].
  unfold later_close, sumn. cbn [length seq map nth Nat.ltb Nat.leb]. rewrite A, B.
  destruct (Rlt_dec (5/10000) (1/1000)) as [_|]; [|lra]. destruct (Rlt_dec (1/1000) (1/1000)) as [|_]; [lra|].
  cbn [rsum map fold_right]; unfold rsum; cbn [fold_right]. match goal with |- ([Fin ?x], _) = ([Fin ?y], _) => replace x with y by ring end. reflexivity.
Qed.
Lemma double_counts c0 c1 c2 :
  remove_redundancies (map Fin [c0; c1; c2]) (map Fin [1; 10015/10000; 10008/10000]) (Fin (1/1000)) =
  (map Fin [c0 + c2; c1 + c2], map Fin [1; 10015/10000]).
Proof.
  rewrite remove_eq by reflexivity.
  assert (A : Rabs (1 - 10015/10000) = 15/10000) by (rewrite Rabs_left; lra).
  assert (B : Rabs (1 - 10008/10000) = 8/10000) by (rewrite Rabs_left; lra).
  assert (C : Rabs (10015/10000 - 10008/10000) = 7/10000) by (rewrite Rabs_right; lra).
  unfold kept_idx, firstb, closeb. cbn [length seq filter existsb nth]. rewrite A, B, C.
  rewrite (rltb_true (8/10000) (1/1000)) by lra. rewrite (rltb_true (7/10000) (1/1000)) by lra.
  rewrite (rltb_false (15/10000) (1/1000)) by lra. cbn [orb negb map].
  unfold later_close, sumn. cbn [length seq map nth Nat.ltb Nat.leb]. rewrite A, B, C.
  destruct (Rlt_dec (8/10000) (1/1000)) as [_|]; [|lra]. destruct (Rlt_dec (7/10000) (1/1000)) as [_|]; [|lra].
  destruct (Rlt_dec (15/10000) (1/1000)) as [|_]; [lra|].
  cbn [rsum map fold_right]; unfold rsum; cbn [fold_right].
  match goal with |- ([Fin ?x; Fin ?x2], _) = ([Fin ?y; Fin ?y2], _) => replace x with y by ring; replace x2 with y2 by ring end.
  reflexivity.
Qed.
