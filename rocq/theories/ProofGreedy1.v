(** Generation of guesses (C53-C56). *)
From Coq Require Import Reals List ZArith Lia Lra Bool Sorted.
From Verif Require Import XR SpecDens SpecFit ModelGreedy SpecGreedy Lists ProofDens.
Import ListNotations.
Local Open Scope R_scope.

Lemma insert_at_inserted {A} i (v : A) l : (i <= length l)%nat -> inserted i v l (insert_at i v l).
Proof.
  intros H. exists (firstn i l), (skipn i l). rewrite firstn_skipn, firstn_length_le by auto. auto.
Qed.
Lemma inserted_eq {A} i (v : A) l l' : inserted i v l l' -> l' = insert_at i v l /\ (i <= length l)%nat.
Proof.
  intros (l1 & l2 & -> & <- & ->). unfold insert_at.
  rewrite firstn_app, Nat.sub_diag, firstn_all, firstn_O, app_nil_r.
  rewrite skipn_app, Nat.sub_diag, skipn_all, skipn_O. rewrite app_length. split; [reflexivity|lia].
Qed.
Lemma insert_at_length {A} i (v : A) l : (i <= length l)%nat -> length (insert_at i v l) = S (length l).
Proof. intros H. unfold insert_at. rewrite app_length, firstn_length_le by auto. cbn [length]. rewrite skipn_length. lia. Qed.
Lemma insert_at_end {A} (v : A) l : insert_at (length l) v l = l ++ [v].
Proof. unfold insert_at. rewrite firstn_all, skipn_all. reflexivity. Qed.
Lemma nth_insert_lt {A} i j (v : A) l d : (i < j)%nat -> (j <= length l)%nat -> nth i (insert_at j v l) d = nth i l d.
Proof.
  intros H Hj. unfold insert_at. rewrite app_nth1 by (rewrite firstn_length_le; lia).
  rewrite <- (firstn_skipn j l) at 2. rewrite app_nth1; auto. rewrite firstn_length_le; lia.
Qed.
Lemma nth_insert_eq {A} j (v : A) l d : (j <= length l)%nat -> nth j (insert_at j v l) d = v.
Proof.
  intros Hj. unfold insert_at. rewrite app_nth2 by (rewrite firstn_length_le; lia).
  rewrite firstn_length_le, Nat.sub_diag by auto. reflexivity.
Qed.
Lemma nth_insert_gt {A} i j (v : A) l d : (j <= i)%nat -> (j <= length l)%nat -> nth (S i) (insert_at j v l) d = nth i l d.
Proof.
  intros H Hj. unfold insert_at. rewrite app_nth2 by (rewrite firstn_length_le; lia).
  rewrite firstn_length_le by auto. replace (S i - j)%nat with (S (i - j)) by lia. cbn [nth].
  rewrite <- (firstn_skipn j l) at 2. rewrite app_nth2 by (rewrite firstn_length_le; lia).
  rewrite firstn_length_le by auto. reflexivity.
Qed.
(** Two insertions commute. *)
Lemma insert_comm {A} i j (v w : A) l : (j < i)%nat -> (i <= length l)%nat ->
  insert_at j w (insert_at i v l) = insert_at (S i) v (insert_at j w l).
Proof.
  intros H Hi. apply (nth_ext _ _ v v).
  - rewrite !insert_at_length; rewrite ?insert_at_length; lia.
  - intros n Hn. rewrite !insert_at_length in Hn by (rewrite ?insert_at_length; lia).
    assert (L1 : (j <= length (insert_at i v l))%nat) by (rewrite insert_at_length; lia).
    assert (L2 : (S i <= length (insert_at j w l))%nat) by (rewrite insert_at_length; lia).
    destruct (lt_eq_lt_dec n j) as [[C|C]|C].
    + rewrite nth_insert_lt, nth_insert_lt, nth_insert_lt, nth_insert_lt; auto; lia.
    + subst n. rewrite nth_insert_eq, nth_insert_lt, nth_insert_eq; auto; lia.
    + destruct n as [|n]; [lia|]. rewrite nth_insert_gt by lia.
      destruct (lt_eq_lt_dec n i) as [[D|D]|D].
      * rewrite nth_insert_lt, nth_insert_lt, nth_insert_gt; auto; lia.
      * subst n. rewrite nth_insert_eq, nth_insert_eq; auto; lia.
      * destruct n as [|n]; [lia|]. rewrite nth_insert_gt, nth_insert_gt, nth_insert_gt; auto; lia.
Qed.

(** ** One step as a function *)
Definition newx (factor : xr) (e : list xr) (i : nat) : xr :=
  if Nat.eqb i (length e) then xmul (nth (length e - 1) e NaN) factor else new_exponent factor e i.
Definition ext (factor v : xr) (p : list xr * list xr) (i : nat) : list xr * list xr :=
  (insert_at i v (fst p), insert_at i (newx factor (snd p) i) (snd p)).

Lemma new_value_eq factor e i x : (0 < length e)%nat -> (new_value factor e i x <-> (i <= length e)%nat /\ x = newx factor e i).
Proof.
  intros Hn. unfold new_value, newx. split.
  - intros [(-> & ->)|[(H & ->)|(H & -> & ->)]].
    + split; [lia|]. destruct (Nat.eqb_spec 0 (length e)); [lia|reflexivity].
    + split; [lia|]. destruct (Nat.eqb_spec i (length e)); [lia|]. destruct i; [lia|]. cbn [new_exponent Nat.sub].
      rewrite Nat.sub_0_r. reflexivity.
    + split; [lia|]. now rewrite Nat.eqb_refl.
  - intros [Hi ->]. destruct (Nat.eqb_spec i (length e)) as [->|Hne]; [right; right; auto|].
    destruct i; [left; auto|]. right; left. split; [lia|]. cbn [new_exponent Nat.sub]. rewrite Nat.sub_0_r. reflexivity.
Qed.

Lemma extends_eq factor v i p q : (0 < length (snd p))%nat -> length (fst p) = length (snd p) ->
  (extends factor v i p q <-> (i <= length (snd p))%nat /\ q = ext factor v p i).
Proof.
  intros Hn Hl. unfold extends, ext. split.
  - intros (H1 & x & H2 & H3). apply new_value_eq in H2; auto. destruct H2 as [Hi ->].
    apply inserted_eq in H1, H3. destruct q as [q1 q2]. cbn [fst snd] in *. destruct H1 as [-> _], H3 as [-> _]. auto.
  - intros [Hi ->]. cbn [fst snd]. split; [apply insert_at_inserted; lia|].
    exists (newx factor (snd p) i). split; [now apply new_value_eq|now apply insert_at_inserted].
Qed.

Lemma ext_length factor v p i : length (fst p) = length (snd p) -> (i <= length (snd p))%nat ->
  length (fst (ext factor v p i)) = S (length (snd p)) /\ length (snd (ext factor v p i)) = S (length (snd p)).
Proof. intros H Hi. unfold ext. cbn [fst snd]. rewrite !insert_at_length; lia. Qed.

Lemma flat_map_last {A B} (F : A -> B) (G : list B) (P : nat -> A) m :
  flat_map (fun i => F (P i) :: (if Nat.eqb i (S m - 1) then G else [])) (seq 0 (S m)) =
  map (fun i => F (P i)) (seq 0 (S m)) ++ G.
Proof.
  rewrite seq_S, flat_map_app, map_app. cbn [flat_map map Nat.add].
  replace (Nat.eqb m (S m - 1)) with true by (symmetry; apply Nat.eqb_eq; lia).
  rewrite app_nil_r, <- app_assoc. f_equal.
  assert (H : forall k, (k <= m)%nat -> flat_map (fun i => F (P i) :: (if Nat.eqb i (S m - 1) then G else [])) (seq 0 k) =
     map (fun i => F (P i)) (seq 0 k)); [|apply H; auto].
  induction k as [|k IH]; intros Hk; [reflexivity|]. rewrite seq_S, flat_map_app, map_app, IH by lia. f_equal.
  cbn [flat_map map Nat.add]. replace (Nat.eqb k (S m - 1)) with false by (symmetry; apply Nat.eqb_neq; lia). reflexivity.
Qed.

Lemma next_pairs_eq factor c e v : (0 < length e)%nat -> length c = length e ->
  next_pairs factor c e v = map (ext factor v (c, e)) (seq 0 (S (length e))).
Proof.
  intros Hn Hl. unfold next_pairs. destruct (length e) as [|m] eqn:E; [lia|].
  assert (Q : forall i, In i (seq 0 (S m)) ->
    (insert_at i v c, insert_at i (new_exponent factor e i) e) :: (if Nat.eqb i (S m - 1) then
       [(c ++ [v], e ++ [xmul (nth i e NaN) factor])] else []) =
    ext factor v (c, e) i :: (if Nat.eqb i (S m - 1) then [ext factor v (c, e) (S m)] else [])).
  { intros i Hi. apply in_seq in Hi. unfold ext. cbn [fst snd]. unfold newx. rewrite E.
    replace (Nat.eqb i (S m)) with false by (symmetry; apply Nat.eqb_neq; lia). f_equal.
    destruct (Nat.eqb_spec i (S m - 1)) as [->|]; [|reflexivity]. rewrite Nat.eqb_refl.
    rewrite <- Hl, insert_at_end. rewrite Hl, <- E, insert_at_end. reflexivity. }
  rewrite (flat_map_concat_map _ (seq 0 (S m))). rewrite (map_ext_in _ _ _ Q). rewrite <- flat_map_concat_map.
  rewrite (flat_map_last (ext factor v (c, e)) [ext factor v (c, e) (S m)] (fun i => i) m).
  rewrite (seq_S (S m) 0), map_app. cbn [map Nat.add]. reflexivity.
Qed.

(** ** C53 *)
Lemma next_choices factor c e v : (0 < length e)%nat -> length c = length e ->
  let L := get_next_choices factor c e v in
  length L = S (length e) /\
  forall i, (i <= length e)%nat -> exists q, extends factor v i (c, e) q /\ nth i L [] = fst q ++ snd q /\
    length (fst q) = S (length e) /\ length (snd q) = S (length e).
Proof.
  intros Hn Hl L. unfold L, get_next_choices. rewrite next_pairs_eq by auto. split; [now rewrite !map_length, seq_length|].
  intros i Hi. exists (ext factor v (c, e) i). split; [apply extends_eq; auto|].
  split; [|apply (ext_length factor v (c, e) i); auto].
  rewrite map_map. rewrite (nth_indep _ [] ((fun p => fst (ext factor v (c, e) p) ++ snd (ext factor v (c, e) p)) 0%nat))
    by (rewrite map_length, seq_length; lia).
  rewrite (map_nth (fun p => fst (ext factor v (c, e) p) ++ snd (ext factor v (c, e) p))), seq_nth by lia. reflexivity.
Qed.

(** ** C54 *)
Lemma skipn_map_seq {A} (F : nat -> A) i n : (i <= n)%nat -> skipn i (map F (seq 0 n)) = map F (seq i (n - i)).
Proof.
  intros H. rewrite skipn_map. f_equal. replace n with (i + (n - i))%nat at 1 by lia.
  rewrite seq_app, skipn_app, seq_length, Nat.sub_diag. rewrite skipn_all2 by (rewrite seq_length; lia). reflexivity.
Qed.

Lemma two_pairs_eq factor c e v : (0 < length e)%nat -> length c = length e ->
  two_pairs factor c e v =
  flat_map (fun i => map (ext factor v (ext factor v (c, e) i)) (seq i (length e + 2 - i))) (seq 0 (S (length e))).
Proof.
  intros Hn Hl. unfold two_pairs. destruct (length e) as [|m] eqn:E; [lia|].
  set (F := fun i => map (ext factor v (ext factor v (c, e) i)) (seq i (S m + 2 - i))).
  assert (Q : forall i, In i (seq 0 (S m)) ->
    skipn i (next_pairs factor (insert_at i v c) (insert_at i (new_exponent factor e i) e) v) ++
    (if Nat.eqb i (S m - 1) then last_two (next_pairs factor (c ++ [v]) (e ++ [xmul (nth i e NaN) factor]) v) else []) =
    F i ++ (if Nat.eqb i (S m - 1) then F (S m) else [])).
  { intros i Hi. apply in_seq in Hi. f_equal.
    - rewrite next_pairs_eq; rewrite ?insert_at_length; try lia. rewrite skipn_map_seq by lia. unfold F.
      replace (S (S (length e)) - i)%nat with (S m + 2 - i)%nat by lia. apply map_ext. intros j. f_equal.
      unfold ext, newx. cbn [fst snd]. rewrite E. replace (Nat.eqb i (S m)) with false by (symmetry; apply Nat.eqb_neq; lia).
      reflexivity.
    - destruct (Nat.eqb_spec i (S m - 1)) as [->|]; [|reflexivity].
      rewrite next_pairs_eq; rewrite ?app_length; cbn [length]; try lia. unfold last_two.
      rewrite map_length, seq_length, skipn_map_seq by lia. unfold F.
      replace (S (length e + 1) - 2)%nat with (S m) by lia.
      replace (S (length e + 1) - S m)%nat with (S m + 2 - S m)%nat by lia. apply map_ext. intros j. f_equal.
      unfold ext, newx. cbn [fst snd]. rewrite E, Nat.eqb_refl.
      assert (I1 : insert_at (S m) v c = c ++ [v]) by (rewrite <- Hl; apply insert_at_end).
      assert (I2 : forall x, insert_at (S m) x e = e ++ [x]) by (intros x; rewrite <- E; apply insert_at_end).
      rewrite I1, I2. reflexivity. }
  rewrite (flat_map_concat_map _ (seq 0 (S m))). rewrite (map_ext_in _ _ _ Q). rewrite <- flat_map_concat_map.
  rewrite (seq_S (S m) 0), flat_map_app. cbn [flat_map Nat.add]. rewrite app_nil_r.
  rewrite seq_S, !flat_map_app. cbn [flat_map Nat.add].
  replace (Nat.eqb m (S m - 1)) with true by (symmetry; apply Nat.eqb_eq; lia). rewrite !app_nil_r, <- !app_assoc. f_equal.
  rewrite !flat_map_concat_map. f_equal. apply map_ext_in. intros i Hi. apply in_seq in Hi.
  replace (Nat.eqb i (S m - 1)) with false by (symmetry; apply Nat.eqb_neq; lia). apply app_nil_r.
Qed.

Lemma two_count {A} (F : nat -> nat -> A) n m : (m <= S n)%nat ->
  (2 * length (flat_map (fun i => map (F i) (seq i (n + 2 - i))) (seq 0 m)) + m * (m - 1) = 2 * (m * (n + 2)))%nat.
Proof.
  induction m as [|m IH]; intros Hm; [reflexivity|]. rewrite seq_S, flat_map_app, app_length. cbn [flat_map Nat.add].
  rewrite app_nil_r, map_length, seq_length. specialize (IH ltac:(lia)). nia.
Qed.

(** Adding at [i] and then at [j < i] is adding at [j] and then at [i+1]. *)
Lemma ext_comm factor v p i j : (0 < length (snd p))%nat -> length (fst p) = length (snd p) ->
  (j < i)%nat -> (i <= length (snd p))%nat ->
  ext factor v (ext factor v p i) j = ext factor v (ext factor v p j) (S i).
Proof.
  intros Hn Hl Hj Hi. destruct p as [c e]. cbn [fst snd] in *. unfold ext. cbn [fst snd].
  f_equal; [apply insert_comm; lia|].
  assert (E1 : newx factor (insert_at i (newx factor e i) e) j = newx factor e j).
  { unfold newx at 1 3. rewrite insert_at_length by auto.
    replace (Nat.eqb j (S (length e))) with false by (symmetry; apply Nat.eqb_neq; lia).
    replace (Nat.eqb j (length e)) with false by (symmetry; apply Nat.eqb_neq; lia).
    destruct j; cbn [new_exponent]; rewrite !nth_insert_lt by lia; reflexivity. }
  assert (E2 : newx factor (insert_at j (newx factor e j) e) (S i) = newx factor e i).
  { unfold newx at 1 3. rewrite insert_at_length by lia.
    destruct (Nat.eqb_spec i (length e)) as [Ei|Ei].
    - replace (Nat.eqb (S i) (S (length e))) with true by (symmetry; apply Nat.eqb_eq; lia).
      replace (S (length e) - 1)%nat with (S (length e - 1)) by lia. rewrite nth_insert_gt by lia. reflexivity.
    - replace (Nat.eqb (S i) (S (length e))) with false by (symmetry; apply Nat.eqb_neq; lia).
      destruct i as [|i]; [lia|]. cbn [new_exponent]. rewrite !nth_insert_gt by lia. reflexivity. }
  rewrite E1, E2. apply insert_comm; auto.
Qed.

Lemma two_choices factor c e v : (0 < length e)%nat -> length c = length e ->
  let n := length e in
  let L := get_two_next_choices factor c e v in
  (length L = n * (n + 5) / 2 + 2)%nat /\
  (forall p, In p L <-> exists i j q1 q2, extends factor v i (c, e) q1 /\ extends factor v j q1 q2 /\
     p = fst q2 ++ snd q2) /\
  (forall p, In p L -> length p = (2 * (n + 2))%nat).
Proof.
  intros Hn Hl n L.
  assert (X1 : forall i q, extends factor v i (c, e) q <-> (i <= n)%nat /\ q = ext factor v (c, e) i)
    by (intros; apply extends_eq; auto).
  assert (X2 : forall i, (i <= n)%nat -> forall j q2, extends factor v j (ext factor v (c, e) i) q2 <->
     (j <= S n)%nat /\ q2 = ext factor v (ext factor v (c, e) i) j).
  { intros i Hi j q2. destruct (ext_length factor v (c, e) i Hl Hi) as [A B]. cbn [snd] in *.
    rewrite extends_eq by lia. rewrite B. reflexivity. }
  assert (IN : forall p, In p L <-> exists i j q1 q2, extends factor v i (c, e) q1 /\ extends factor v j q1 q2 /\
     p = fst q2 ++ snd q2).
  { intros p. unfold L, get_two_next_choices. rewrite two_pairs_eq by auto. rewrite in_map_iff. split.
    - intros (q & <- & Hq). apply in_flat_map in Hq. destruct Hq as (i & Hi & Hq). apply in_seq in Hi.
      apply in_map_iff in Hq. destruct Hq as (j & <- & Hj). apply in_seq in Hj.
      exists i, j, (ext factor v (c, e) i), (ext factor v (ext factor v (c, e) i) j).
      split; [apply X1; split; [unfold n; lia|reflexivity]|]. split; [|reflexivity].
      apply X2; [unfold n; lia|]. split; [unfold n; lia|reflexivity].
    - intros (i & j & q1 & q2 & H1 & H2 & ->). apply X1 in H1. destruct H1 as [Hi ->]. apply X2 in H2; auto.
      destruct H2 as [Hj ->]. unfold n in *.
      destruct (le_lt_dec i j) as [Hij|Hij].
      + exists (ext factor v (ext factor v (c, e) i) j). split; auto. apply in_flat_map. exists i.
        split; [apply in_seq; lia|]. apply in_map. apply in_seq. lia.
      + rewrite ext_comm by auto. exists (ext factor v (ext factor v (c, e) j) (S i)). split; auto.
        apply in_flat_map. exists j. split; [apply in_seq; lia|]. apply in_map. apply in_seq. lia. }
  split; [|split; [exact IN|]].
  - unfold L, get_two_next_choices. rewrite map_length, two_pairs_eq by auto.
    pose proof (two_count (fun i => ext factor v (ext factor v (c, e) i)) (length e) (S (length e)) ltac:(lia)) as T.
    fold n in T |- *. set (X := length (flat_map _ _)) in *.
    assert (E : (2 * X = n * (n + 5) + 2 * 2)%nat) by nia.
    replace (n * (n + 5))%nat with ((X - 2) * 2)%nat by nia. rewrite Nat.div_mul by lia. nia.
  - intros p Hp. apply IN in Hp. destruct Hp as (i & j & q1 & q2 & H1 & H2 & ->). apply X1 in H1. destruct H1 as [Hi ->].
    apply X2 in H2; auto. destruct H2 as [Hj ->]. destruct (ext_length factor v (c, e) i Hl Hi) as [A B].
    destruct (ext_length factor v (ext factor v (c, e) i) j) as [C D]; cbn [snd] in *; unfold n in *; try lia.
    rewrite app_length, C, D. lia.
Qed.

(** ** C55 *)
Lemma halves {A} (a b : list A) : length a = length b -> half1 (a ++ b) = a /\ half2 (a ++ b) = b.
Proof.
  intros H. unfold half1, half2. rewrite app_length, <- H.
  replace ((length a + length a) / 2)%nat with (length a) by (replace (length a + length a)%nat with (length a * 2)%nat by lia; rewrite Nat.div_mul; lia).
  rewrite firstn_app, Nat.sub_diag, firstn_all, firstn_O, app_nil_r, skipn_app, Nat.sub_diag, skipn_all, skipn_O. auto.
Qed.
Lemma delete_at_removed {A} i (l : list A) : (i < length l)%nat -> removed i l (delete_at i l).
Proof.
  intros H. destruct (nth_error l i) as [x|] eqn:E; [|apply nth_error_None in E; lia].
  apply nth_error_split in E. destruct E as (l1 & l2 & -> & <-). exists l1, x, l2. split; auto. split; auto.
  unfold delete_at. rewrite firstn_app, Nat.sub_diag, firstn_all, firstn_O, app_nil_r.
  replace (S (length l1)) with (length l1 + 1)%nat by lia. rewrite skipn_app, skipn_all2 by lia.
  replace (length l1 + 1 - length l1)%nat with 1%nat by lia. reflexivity.
Qed.
Lemma removed_eq {A} i (l l' : list A) : removed i l l' -> l' = delete_at i l /\ (i < length l)%nat.
Proof.
  intros (l1 & x & l2 & -> & <- & ->). split; [|rewrite app_length; cbn; lia].
  unfold delete_at. rewrite firstn_app, Nat.sub_diag, firstn_all, firstn_O, app_nil_r.
  replace (S (length l1)) with (length l1 + 1)%nat by lia. rewrite skipn_app, skipn_all2 by lia.
  replace (length l1 + 1 - length l1)%nat with 1%nat by lia. reflexivity.
Qed.

Lemma flat_map_length_const {A B} (F : A -> list B) k l : (forall x, In x l -> length (F x) = k) ->
  length (flat_map F l) = (length l * k)%nat.
Proof.
  induction l as [|x l IH]; intros H; [reflexivity|]. cbn [flat_map length]. rewrite app_length, IH, H; auto.
  - now left.
  - intros y Hy. apply H. now right.
Qed.

Lemma lose_one factor c e v : (0 < length e)%nat -> length c = length e ->
  let n := length e in
  let L := pick_two_lose_one factor c e v in
  (length L = (n * (n + 5) / 2 + 2) * (n + 2))%nat /\
  (forall p, In p L <-> exists i j q1 q2 k c' e', extends factor v i (c, e) q1 /\ extends factor v j q1 q2 /\
     removed k (fst q2) c' /\ removed k (snd q2) e' /\ p = c' ++ e') /\
  (forall p, In p L -> length p = (2 * (n + 1))%nat).
Proof.
  intros Hn Hl n L. destruct (two_choices factor c e v Hn Hl) as (H1 & H2 & H3). fold n in H1, H3.
  assert (LQ : forall i j q1 q2, extends factor v i (c, e) q1 -> extends factor v j q1 q2 ->
     length (fst q2) = (n + 2)%nat /\ length (snd q2) = (n + 2)%nat).
  { intros i j q1 q2 A B. apply extends_eq in A; auto. destruct A as [A ->].
    destruct (ext_length factor v (c, e) i Hl A) as [C D]. cbn [snd] in *.
    apply extends_eq in B; try lia. destruct B as [B ->].
    destruct (ext_length factor v (ext factor v (c, e) i) j) as [E F]; lia. }
  assert (IN : forall p, In p L <-> exists i j q1 q2 k c' e', extends factor v i (c, e) q1 /\ extends factor v j q1 q2 /\
     removed k (fst q2) c' /\ removed k (snd q2) e' /\ p = c' ++ e').
  { intros p. unfold L, pick_two_lose_one. rewrite in_flat_map. split.
    - intros (x & Hx & Hp). apply in_map_iff in Hp. destruct Hp as (k & <- & Hk). apply in_seq in Hk.
      rewrite (H3 x Hx) in Hk. replace (2 * (n + 2))%nat with ((n + 2) * 2)%nat in Hk by lia. rewrite Nat.div_mul in Hk by lia.
      apply H2 in Hx. destruct Hx as (i & j & q1 & q2 & A & B & ->). destruct (LQ _ _ _ _ A B) as [E F].
      destruct (halves (fst q2) (snd q2)) as [-> ->]; [lia|].
      exists i, j, q1, q2, k, (delete_at k (fst q2)), (delete_at k (snd q2)).
      split; auto. split; auto. split; [apply delete_at_removed; lia|]. split; [apply delete_at_removed; lia|reflexivity].
    - intros (i & j & q1 & q2 & k & c' & e' & A & B & C & D & ->). destruct (LQ _ _ _ _ A B) as [E F].
      apply removed_eq in C, D. destruct C as [-> C], D as [-> D]. exists (fst q2 ++ snd q2).
      split; [apply H2; eauto 8|]. apply in_map_iff. exists k. destruct (halves (fst q2) (snd q2)) as [-> ->]; [lia|].
      split; auto. apply in_seq. rewrite app_length, E, F. replace (n + 2 + (n + 2))%nat with ((n + 2) * 2)%nat by lia.
      rewrite Nat.div_mul by lia. lia. }
  split; [|split; [exact IN|]].
  - unfold L, pick_two_lose_one. rewrite (flat_map_length_const _ (n + 2)); [fold n; now rewrite H1|].
    intros x Hx. rewrite map_length, seq_length, (H3 x Hx). replace (2 * (n + 2))%nat with ((n + 2) * 2)%nat by lia.
    apply Nat.div_mul. lia.
  - intros p Hp. apply IN in Hp. destruct Hp as (i & j & q1 & q2 & k & c' & e' & A & B & C & D & ->).
    destruct (LQ _ _ _ _ A B) as [E F]. apply removed_eq in C, D. destruct C as [-> C], D as [-> D].
    unfold delete_at. rewrite !app_length, !firstn_length_le, !skipn_length by lia. lia.
Qed.
