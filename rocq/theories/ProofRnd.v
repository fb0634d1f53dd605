(** Rounded arithmetic: errors, signs and order of sums, integrals and models. *)
From Coq Require Import Reals List ZArith Lia Lra Permutation Sorted.
From Verif Require Import SpecDens SpecGrid SpecRnd ModelRnd.
Import ListNotations.
Local Open Scope R_scope.

(** ** Sums over the leaves of a tree *)
Fixpoint tsum (t : order) (v : list R) : R :=
  match t with Nil => 0 | At i => nth i v 0 | Plus l r => tsum l v + tsum r v end.

Lemma rsum_app : forall a b, rsum (a ++ b) = rsum a + rsum b.
Proof. induction a; intro b; simpl; [unfold rsum; simpl; ring | unfold rsum in *; simpl; rewrite IHa; ring]. Qed.

Lemma rsum_perm : forall a b, Permutation a b -> rsum a = rsum b.
Proof. induction 1; unfold rsum in *; simpl; lra. Qed.

Lemma tsum_leaves : forall t v, tsum t v = rsum (map (fun i => nth i v 0) (leaves t)).
Proof.
  induction t; intro v; simpl.
  - reflexivity.
  - unfold rsum; simpl; ring.
  - rewrite map_app, rsum_app, IHt1, IHt2; reflexivity.
Qed.

Lemma map_nth_seq : forall (v : list R) d, map (fun i => nth i v d) (seq 0 (length v)) = v.
Proof.
  induction v as [|a v IH]; intro d; [reflexivity|].
  cbn [length seq map nth]. f_equal. rewrite <- seq_shift, map_map. apply IH.
Qed.

Lemma tsum_all : forall t v, orders (length v) t -> tsum t v = rsum v.
Proof.
  intros t v H. rewrite tsum_leaves.
  rewrite (rsum_perm _ _ (Permutation_map (fun i => nth i v 0) H)), map_nth_seq; reflexivity.
Qed.

Lemma orders_lt : forall n t i, orders n t -> In i (leaves t) -> (i < n)%nat.
Proof.
  intros n t i H I. apply (Permutation_in _ H) in I. apply in_seq in I. lia.
Qed.

Section Arith.
Context (u eta : R) (fmt : R -> Prop) (rnd : R -> R) (H : rounding u eta fmt rnd).

Lemma rnd_0 : rnd 0 = 0.
Proof. apply (rd_id _ _ _ _ H), (rd_zero _ _ _ _ H). Qed.
Lemma rnd_pos : forall x, 0 <= x -> 0 <= rnd x.
Proof. intros x Hx. rewrite <- rnd_0. apply (rd_mono _ _ _ _ H), Hx. Qed.

Lemma u_pos : 0 <= u. Proof. apply (rd_u _ _ _ _ H). Qed.
Lemma pow_ge1 : forall k, 1 <= (1 + u) ^ k.
Proof. intro k. apply pow_R1_Rle. generalize u_pos; lra. Qed.
Lemma pow_mono : forall j k, (j <= k)%nat -> (1 + u) ^ j <= (1 + u) ^ k.
Proof. intros j k L. apply Rle_pow; [generalize u_pos; lra | exact L]. Qed.

(** [a] is [b] up to [k] roundings relative to [B >= |b|] and an absolute error [e]. *)
Definition close (k : nat) (e a b B : R) : Prop :=
  Rabs b <= B /\ Rabs (a - b) <= ((1 + u) ^ k - 1) * B + e.

Lemma close_B : forall k e a b B, close k e a b B -> 0 <= B.
Proof. intros k e a b B [C _]. generalize (Rabs_pos b); lra. Qed.

Lemma close_refl : forall b, close 0 0 b b (Rabs b).
Proof. intro b. split; [lra|]. replace (b - b) with 0 by ring. rewrite Rabs_R0. simpl. lra. Qed.

Lemma close_weaken : forall k k' e e' a b B, (k <= k')%nat -> e <= e' -> close k e a b B -> close k' e' a b B.
Proof.
  intros k k' e e' a b B L L' C. assert (HB := close_B _ _ _ _ _ C). destruct C as [C D]. split; [exact C|].
  generalize (Rmult_le_compat_r B _ _ HB (pow_mono _ _ L)); lra.
Qed.

Lemma close_abs : forall k e a b B, close k e a b B -> Rabs a <= (1 + u) ^ k * B + e.
Proof.
  intros k e a b B [C D]. replace a with (b + (a - b)) by ring.
  eapply Rle_trans; [apply Rabs_triang|]. lra.
Qed.

Lemma close_any : forall k e z a b B r, close k e a b B -> Rabs (r - a) <= u * Rabs a + z ->
  close (S k) ((1 + u) * e + z) r b B.
Proof.
  intros k e z a b B r C L. assert (A := close_abs _ _ _ _ _ C). destruct C as [C D]. split; [exact C|].
  replace (r - b) with ((r - a) + (a - b)) by ring.
  eapply Rle_trans; [apply Rabs_triang|].
  assert (u * Rabs a <= u * ((1 + u) ^ k * B + e)) by (apply Rmult_le_compat_l; [apply u_pos | exact A]).
  cbn [pow]. lra.
Qed.

Lemma close_rnd : forall k e a b B, close k e a b B -> close (S k) ((1 + u) * e + eta) (rnd a) b B.
Proof. intros. eapply close_any; eauto. apply (rd_err _ _ _ _ H). Qed.

Lemma close_plus : forall k e e' a a' b b' B B', close k e a b B -> close k e' a' b' B' ->
  close k (e + e') (a + a') (b + b') (B + B').
Proof.
  intros k e e' a a' b b' B B' [C D] [C' D']. split.
  - eapply Rle_trans; [apply Rabs_triang|]. lra.
  - replace (a + a' - (b + b')) with ((a - b) + (a' - b')) by ring.
    eapply Rle_trans; [apply Rabs_triang|]. lra.
Qed.

Lemma close_rnd_plus : forall k e e' a a' b b' B B', fmt a -> fmt a' ->
  close k e a b B -> close k e' a' b' B' ->
  close (S k) ((1 + u) * (e + e')) (rnd (a + a')) (b + b') (B + B').
Proof.
  intros k e e' a a' b b' B B' F F' C C'.
  replace ((1 + u) * (e + e')) with ((1 + u) * (e + e') + 0) by ring.
  eapply close_any; [apply close_plus; eauto|]. rewrite Rplus_0_r. apply (rd_add _ _ _ _ H); assumption.
Qed.

Lemma close_mult : forall k k' a a' b b' B B', close k 0 a b B -> close k' 0 a' b' B' ->
  close (k + k') 0 (a * a') (b * b') (B * B').
Proof.
  intros k k' a a' b b' B B' C C'.
  assert (HB := close_B _ _ _ _ _ C). assert (HB' := close_B _ _ _ _ _ C').
  assert (A' := close_abs _ _ _ _ _ C'). destruct C as [C D]. destruct C' as [C' D'].
  rewrite Rplus_0_r in *. split.
  - rewrite Rabs_mult. apply Rmult_le_compat; auto using Rabs_pos.
  - replace (a * a' - b * b') with ((a - b) * a' + b * (a' - b')) by ring.
    eapply Rle_trans; [apply Rabs_triang|]. rewrite !Rabs_mult.
    assert (P1 : Rabs (a - b) * Rabs a' <= (((1 + u) ^ k - 1) * B) * ((1 + u) ^ k' * B')).
    { apply Rmult_le_compat; auto using Rabs_pos. }
    assert (P2 : Rabs b * Rabs (a' - b') <= B * (((1 + u) ^ k' - 1) * B')).
    { apply Rmult_le_compat; auto using Rabs_pos. }
    rewrite pow_add. lra.
Qed.

Lemma close_scale : forall k e a b B s, 0 <= s -> close k e a b B -> close k (e * s) (a * s) (b * s) (B * s).
Proof.
  intros k e a b B s Hs [C D]. split.
  - rewrite Rabs_mult, (Rabs_pos_eq s Hs). apply Rmult_le_compat_r; assumption.
  - replace (a * s - b * s) with ((a - b) * s) by ring. rewrite Rabs_mult, (Rabs_pos_eq s Hs).
    generalize (Rmult_le_compat_r s _ _ Hs D); lra.
Qed.

(** *** Sums in any order *)
Lemma fl_sum_fmt : forall t v, Forall fmt v -> fmt (fl_sum rnd t v).
Proof.
  induction t; intros v F; simpl.
  - apply (rd_zero _ _ _ _ H).
  - destruct (Nat.lt_ge_cases i (length v)) as [L|L].
    + rewrite Forall_forall in F. apply F, nth_In, L.
    + rewrite nth_overflow by exact L. apply (rd_zero _ _ _ _ H).
  - apply (rd_fmt _ _ _ _ H).
Qed.

Lemma e_pos_pow : forall e j k, 0 <= e -> (j <= k)%nat -> (1 + u) ^ j * e <= (1 + u) ^ k * e.
Proof. intros e j k He L. apply Rmult_le_compat_r; [exact He | apply pow_mono, L]. Qed.

Lemma tsum_const_pos : forall t v, (forall i, 0 <= nth i v 0) -> 0 <= tsum t v.
Proof. induction t; intros v P; simpl; [lra | apply P | specialize (IHt1 v P); specialize (IHt2 v P); lra]. Qed.

Lemma fl_sum_close : forall t v w B E k, Forall fmt v -> (forall i, 0 <= nth i E 0) ->
  (forall i, In i (leaves t) -> close k (nth i E 0) (nth i v 0) (nth i w 0) (nth i B 0)) ->
  close (height t + k) ((1 + u) ^ height t * tsum t E) (fl_sum rnd t v) (tsum t w) (tsum t B).
Proof.
  induction t as [|i|l IHl r IHr]; intros v w B E k F P C; simpl.
  - rewrite Rmult_0_r. split; [rewrite Rabs_R0; lra|]. replace (0 - 0) with 0 by ring. rewrite Rabs_R0. lra.
  - rewrite Rmult_1_l. apply C. left; reflexivity.
  - assert (Cl : close (height l + k) ((1 + u) ^ height l * tsum l E) (fl_sum rnd l v) (tsum l w) (tsum l B)).
    { apply IHl; auto. intros i I. apply C. apply in_or_app; left; exact I. }
    assert (Cr : close (height r + k) ((1 + u) ^ height r * tsum r E) (fl_sum rnd r v) (tsum r w) (tsum r B)).
    { apply IHr; auto. intros i I. apply C. apply in_or_app; right; exact I. }
    set (h := Nat.max (height l) (height r)).
    assert (Ll : (height l <= h)%nat) by (unfold h; lia). assert (Lr : (height r <= h)%nat) by (unfold h; lia).
    apply close_weaken with (k' := (h + k)%nat) (e' := (1 + u) ^ h * tsum l E) in Cl;
      [| lia | apply e_pos_pow; [apply tsum_const_pos; exact P | exact Ll]].
    apply close_weaken with (k' := (h + k)%nat) (e' := (1 + u) ^ h * tsum r E) in Cr;
      [| lia | apply e_pos_pow; [apply tsum_const_pos; exact P | exact Lr]].
    replace ((1 + u) * (1 + u) ^ h * (tsum l E + tsum r E))
      with ((1 + u) * ((1 + u) ^ h * tsum l E + (1 + u) ^ h * tsum r E)) by ring.
    apply close_rnd_plus; auto using fl_sum_fmt.
Qed.

(** The same when the terms need not be numbers of the format. *)
Lemma fl_sum_close_any : forall t v w B E k, (forall i, 0 <= nth i E 0) ->
  (forall i, In i (leaves t) -> close k (nth i E 0) (nth i v 0) (nth i w 0) (nth i B 0)) ->
  close (height t + k) ((1 + u) ^ height t * (tsum t E + INR (additions t) * eta)) (fl_sum rnd t v) (tsum t w) (tsum t B).
Proof.
  assert (He := rd_eta _ _ _ _ H).
  induction t as [|i|l IHl r IHr]; intros v w B E k P C; cbn [height additions leaves tsum fl_sum].
  - simpl. split; [rewrite Rabs_R0; lra|]. replace (0 - 0) with 0 by ring. rewrite Rabs_R0. lra.
  - simpl. replace (1 * (nth i E 0 + 0 * eta)) with (nth i E 0) by ring. apply C. left; reflexivity.
  - assert (Cl := IHl v w B E k P (fun i I => C i (in_or_app _ _ _ (or_introl I)))).
    assert (Cr := IHr v w B E k P (fun i I => C i (in_or_app _ _ _ (or_intror I)))).
    set (h := Nat.max (height l) (height r)) in *.
    assert (Ll : (height l <= h)%nat) by (unfold h; lia). assert (Lr : (height r <= h)%nat) by (unfold h; lia).
    assert (Pl := tsum_const_pos l E P). assert (Pr := tsum_const_pos r E P).
    assert (Nl : 0 <= INR (additions l) * eta) by (apply Rmult_le_pos; [apply pos_INR | exact He]).
    assert (Nr : 0 <= INR (additions r) * eta) by (apply Rmult_le_pos; [apply pos_INR | exact He]).
    apply close_weaken with (k' := (h + k)%nat) (e' := (1 + u) ^ h * (tsum l E + INR (additions l) * eta)) in Cl;
      [| lia | apply e_pos_pow; [lra | exact Ll]].
    apply close_weaken with (k' := (h + k)%nat) (e' := (1 + u) ^ h * (tsum r E + INR (additions r) * eta)) in Cr;
      [| lia | apply e_pos_pow; [lra | exact Lr]].
    eapply close_weaken; [| | apply close_rnd, (close_plus _ _ _ _ _ _ _ _ _ Cl Cr)]; [simpl; lia|].
    rewrite S_INR, plus_INR. cbn [pow].
    assert (G := pow_ge1 (S h)). cbn [pow] in G.
    assert (1 * eta <= (1 + u) * (1 + u) ^ h * eta) by (apply Rmult_le_compat_r; lra). lra.
Qed.

Lemma fl_sum_mono : forall t v w, (forall i, nth i v 0 <= nth i w 0) -> fl_sum rnd t v <= fl_sum rnd t w.
Proof.
  induction t; intros v w L; simpl; [lra | apply L |].
  apply (rd_mono _ _ _ _ H). generalize (IHt1 v w L) (IHt2 v w L); lra.
Qed.

Lemma fl_sum_zero : forall t, fl_sum rnd t [] = 0.
Proof.
  induction t; simpl; [reflexivity | destruct i; reflexivity |].
  rewrite IHt1, IHt2, Rplus_0_r. apply rnd_0.
Qed.

Lemma fl_sum_pos : forall t v, (forall i, 0 <= nth i v 0) -> 0 <= fl_sum rnd t v.
Proof.
  intros t v P. rewrite <- (fl_sum_zero t). apply fl_sum_mono. intro i. destruct i; apply P.
Qed.

End Arith.
