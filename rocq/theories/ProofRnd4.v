(** Rounded arithmetic: the coefficient update of the fixed point method. *)
From Coq Require Import Reals List ZArith Lia Lra Permutation Sorted.
From Verif Require Import SpecDens SpecGrid SpecRnd ModelRnd ProofRnd ProofRnd2 ProofRnd3.
Import ListNotations.
Local Open Scope R_scope.

(** ** Signs, with underflow *)
Section Signs.
Context (u eta : R) (fmt : R -> Prop) (rnd : R -> R) (H : rounding u eta fmt rnd).

Lemma ratio_pos : forall mask f g, 0 <= mask -> 0 <= f -> 0 <= fl_ratio rnd mask f g.
Proof.
  intros mask f g Hm Hf. unfold fl_ratio. destruct (Rle_dec g mask) as [L|L]; [lra|].
  apply (rnd_pos u eta fmt rnd H). apply Rmult_le_pos; [exact Hf|]. left. apply Rinv_0_lt_compat. lra.
Qed.

Lemma nth_pos : forall l i, Forall (Rle 0) l -> 0 <= nth i l 0.
Proof.
  intros l i P. destruct (Nat.lt_ge_cases i (length l)) as [I|I]; [|rewrite nth_overflow by exact I; lra].
  rewrite Forall_forall in P. apply P, nth_In, I.
Qed.

Lemma fl_mul_Forall_pos : forall w y, Forall (Rle 0) w -> Forall (Rle 0) y -> Forall (Rle 0) (fl_mul rnd w y).
Proof.
  intros w y P. revert y. induction P as [|a w Ha P IH]; intros y Q; [constructor|].
  destruct Q as [|b y Hb Q]; constructor; [|apply IH; exact Q].
  apply (rnd_pos u eta fmt rnd H). apply Rmult_le_pos; assumption.
Qed.

Lemma integrand_pos : forall mask f g b, 0 <= mask -> Forall (Rle 0) f -> Forall (Rle 0) b ->
  Forall (Rle 0) (fl_integrand rnd mask f g b).
Proof.
  intros mask f g b Hm Hf Hb. unfold fl_integrand. apply fl_mul_Forall_pos; [|exact Hb].
  revert g. induction Hf as [|a f Ha Hf IH]; intro g; [constructor|]. destruct g as [|g0 g]; constructor; [|apply IH].
  apply ratio_pos; assumption.
Qed.

Lemma sphere_pos : forall p x y, 0 <= p -> Forall (Rle 0) y -> Forall (Rle 0) (fl_sphere rnd p x y).
Proof.
  intros p x y Hp P. revert x. induction P as [|b y Hb P IH]; intros [|r x]; try constructor; [|apply IH].
  apply (rnd_pos u eta fmt rnd H). apply Rmult_le_pos; [|apply (rnd_pos u eta fmt rnd H), Rle_0_sqr].
  apply (rnd_pos u eta fmt rnd H). apply Rmult_le_pos; [|exact Hp]. apply (rnd_pos u eta fmt rnd H). lra.
Qed.

Lemma spherical_pos : forall p t x y, ascending x -> 0 <= p -> Forall (Rle 0) y -> 0 <= fl_spherical rnd p t x y.
Proof. intros. apply (trapz_pos u eta fmt rnd H); [assumption | apply sphere_pos; assumption]. Qed.

Lemma update_pos : forall quadr fused t mask N f M c, 0 <= mask -> 0 <= N ->
  (forall y, Forall (Rle 0) y -> 0 <= quadr y) ->
  Forall (Rle 0) f -> Forall (Forall (Rle 0)) M -> Forall (Rle 0) c -> 0 < rnd (quadr f / N) ->
  Forall (Rle 0) (fl_update rnd quadr fused t mask N f M c).
Proof.
  intros quadr fused t mask N f M c Hm HN Q Hf HM Hc Hl. unfold fl_update. apply Forall_map. apply Forall_forall. intros k _.
  apply (rnd_pos u eta fmt rnd H). apply Rmult_le_pos; [|left; apply Rinv_0_lt_compat; exact Hl].
  apply (rnd_pos u eta fmt rnd H). apply Rmult_le_pos; [apply nth_pos, Hc|].
  apply Q, integrand_pos; auto. apply Forall_map. eapply Forall_impl; [|exact HM]. intros row P. apply nth_pos, P.
Qed.

End Signs.

(** ** Relative errors without underflow *)
Section Relative.
Context (u : R) (fmt : R -> Prop) (rnd : R -> R) (H : rounding u 0 fmt rnd).

Notation within := (within u).

Lemma q_bounds : 0 < 1 - u <= 1.
Proof. generalize (rd_u _ _ _ _ H); lra. Qed.
Lemma q_pow : forall k, 0 < (1 - u) ^ k <= 1.
Proof.
  intro k. assert (Q := q_bounds). split; [apply pow_lt; lra|]. assert (G := pow_incr (1 - u) 1 k). rewrite pow1 in G. apply G. lra.
Qed.

Lemma within_refl : forall b, within 0 b b.
Proof. intro b. split; simpl; lra. Qed.

Lemma within_weaken : forall k k' a b, (k <= k')%nat -> 0 <= a -> 0 <= b -> within k a b -> within k' a b.
Proof.
  intros k k' a b L Ha Hb [C D]. replace k' with ((k' - k) + k)%nat by lia. unfold SpecRnd.within. rewrite pow_add.
  assert (Q := q_pow (k' - k)). assert (Q' := q_pow k).
  assert (A : 0 <= (1 - u) ^ k * b) by (apply Rmult_le_pos; lra).
  assert (A' : 0 <= (1 - u) ^ k * a) by (apply Rmult_le_pos; lra).
  rewrite !Rmult_assoc. split.
  - assert ((1 - u) ^ (k' - k) * ((1 - u) ^ k * b) <= 1 * ((1 - u) ^ k * b)) by (apply Rmult_le_compat_r; lra). lra.
  - assert ((1 - u) ^ (k' - k) * ((1 - u) ^ k * a) <= 1 * ((1 - u) ^ k * a)) by (apply Rmult_le_compat_r; lra). lra.
Qed.

Lemma within_rnd : forall k a b, 0 <= a -> within k a b -> within (S k) (rnd a) b.
Proof.
  intros k a b Ha [C D]. assert (Hu := rd_u _ _ _ _ H). assert (E := rd_err _ _ _ _ H a).
  rewrite (Rabs_pos_eq a Ha), Rplus_0_r in E.
  assert (Q := q_pow k). unfold SpecRnd.within. cbn [pow].
  assert (E1 : rnd a <= (1 + u) * a) by (generalize (Rle_abs (rnd a - a)); lra).
  assert (E2 : (1 - u) * a <= rnd a) by (generalize (Rle_abs (- (rnd a - a))); rewrite Rabs_Ropp; lra).
  split.
  - assert ((1 - u) * ((1 - u) ^ k * b) <= (1 - u) * a) by (apply Rmult_le_compat_l; lra). lra.
  - assert (F : (1 - u) * rnd a <= a).
    { assert ((1 - u) * rnd a <= (1 - u) * ((1 + u) * a)) by (apply Rmult_le_compat_l; lra).
      assert (0 <= u * u * a) by (apply Rmult_le_pos; [apply Rle_0_sqr | exact Ha]). lra. }
    assert ((1 - u) ^ k * ((1 - u) * rnd a) <= (1 - u) ^ k * a) by (apply Rmult_le_compat_l; lra). lra.
Qed.

Lemma within_plus : forall k a b a' b', within k a b -> within k a' b' -> within k (a + a') (b + b').
Proof. intros k a b a' b' [C D] [C' D']. unfold SpecRnd.within. lra. Qed.

Lemma within_mult : forall k k' a b a' b', 0 <= a -> 0 <= b -> 0 <= a' -> 0 <= b' ->
  within k a b -> within k' a' b' -> within (k + k') (a * a') (b * b').
Proof.
  intros k k' a b a' b' Ha Hb Ha' Hb' [C D] [C' D']. unfold SpecRnd.within. rewrite pow_add.
  assert (Q := q_pow k). assert (Q' := q_pow k').
  split.
  - replace ((1 - u) ^ k * (1 - u) ^ k' * (b * b')) with (((1 - u) ^ k * b) * ((1 - u) ^ k' * b')) by ring.
    apply Rmult_le_compat; auto; apply Rmult_le_pos; lra.
  - replace ((1 - u) ^ k * (1 - u) ^ k' * (a * a')) with (((1 - u) ^ k * a) * ((1 - u) ^ k' * a')) by ring.
    apply Rmult_le_compat; auto; apply Rmult_le_pos; lra.
Qed.

Lemma within_inv : forall k a b, 0 < a -> 0 < b -> within k a b -> within k (/ a) (/ b).
Proof.
  intros k a b Ha Hb [C D]. assert (Q := q_pow k). split.
  - apply Rmult_le_reg_r with b; [exact Hb|]. rewrite Rmult_assoc, Rinv_l, Rmult_1_r by lra.
    apply Rmult_le_reg_l with a; [exact Ha|]. rewrite <- Rmult_assoc, Rinv_r by lra. lra.
  - apply Rmult_le_reg_r with a; [exact Ha|]. rewrite Rmult_assoc, Rinv_l, Rmult_1_r by lra.
    apply Rmult_le_reg_l with b; [exact Hb|]. rewrite <- Rmult_assoc, Rinv_r by lra. lra.
Qed.

Lemma within_pos : forall k a b, 0 < b -> within k a b -> 0 < a.
Proof.
  intros k a b Hb [C _]. assert (Q := q_pow k). assert (0 < (1 - u) ^ k * b) by (apply Rmult_lt_0_compat; lra). lra.
Qed.
Lemma within_pos' : forall k a b, 0 < a -> within k a b -> 0 < b.
Proof.
  intros k a b Ha [_ C]. assert (Q := q_pow k). assert (0 < (1 - u) ^ k * a) by (apply Rmult_lt_0_compat; lra). lra.
Qed.

Lemma within_div : forall k k' a b a' b', 0 <= a -> 0 <= b -> 0 < a' -> 0 < b' ->
  within k a b -> within k' a' b' -> within (k + k') (a / a') (b / b').
Proof.
  intros k k' a b a' b' Ha Hb Ha' Hb' C C'. apply within_mult; auto.
  - left. apply Rinv_0_lt_compat, Ha'.
  - left. apply Rinv_0_lt_compat, Hb'.
  - apply within_inv; auto.
Qed.

Lemma within_trans : forall k k' a b c, within k a b -> within k' b c -> within (k + k') a c.
Proof.
  intros k k' a b c [C D] [C' D']. assert (Q := q_pow k). assert (Q' := q_pow k'). unfold SpecRnd.within. rewrite pow_add. split.
  - rewrite Rmult_assoc. assert ((1 - u) ^ k * ((1 - u) ^ k' * c) <= (1 - u) ^ k * b) by (apply Rmult_le_compat_l; lra). lra.
  - replace ((1 - u) ^ k * (1 - u) ^ k' * a) with ((1 - u) ^ k' * ((1 - u) ^ k * a)) by ring.
    assert ((1 - u) ^ k' * ((1 - u) ^ k * a) <= (1 - u) ^ k' * b) by (apply Rmult_le_compat_l; lra). lra.
Qed.

(** *** Sums in any order *)
Lemma fl_sum_within : forall t v w k, (forall i, In i (leaves t) -> 0 <= nth i w 0) -> 
  (forall i, In i (leaves t) -> 0 <= nth i v 0) ->
  (forall i, In i (leaves t) -> within k (nth i v 0) (nth i w 0)) ->
  0 <= tsum t w /\ 0 <= fl_sum rnd t v /\ within (height t + k) (fl_sum rnd t v) (tsum t w).
Proof.
  induction t as [|i|l IHl r IHr]; intros v w k P P' C; cbn [height leaves tsum fl_sum] in *.
  - repeat split; try lra; rewrite Rmult_0_r; lra.
  - split; [|split]; [apply P; left; reflexivity | apply P'; left; reflexivity | apply C; left; reflexivity].
  - destruct (IHl v w k) as (A1 & A2 & A3); [intros; apply P, in_or_app; auto | intros; apply P', in_or_app; auto | intros; apply C, in_or_app; auto |].
    destruct (IHr v w k) as (B1 & B2 & B3); [intros; apply P, in_or_app; auto | intros; apply P', in_or_app; auto | intros; apply C, in_or_app; auto |].
    split; [lra|]. split; [apply (rnd_pos u 0 fmt rnd H); lra|].
    cbn [plus]. apply within_rnd; [lra|].
    apply within_plus; [eapply within_weaken; [| | |exact A3] | eapply within_weaken; [| | |exact B3]]; auto; lia.
Qed.

Lemma sum_within : forall t v w k, length v = length w -> orders (length w) t ->
  Forall (Rle 0) v -> Forall (Rle 0) w ->
  (forall i, (i < length w)%nat -> within k (nth i v 0) (nth i w 0)) ->
  0 <= fl_sum rnd t v /\ within (height t + k) (fl_sum rnd t v) (rsum w).
Proof.
  intros t v w k L O P Q C. rewrite <- (tsum_all t w O).
  apply fl_sum_within.
  - intros i I. apply nth_pos, Q.
  - intros i I. apply nth_pos, P.
  - intros i I. apply C. exact (orders_lt _ _ _ O I).
Qed.

(** *** Quadratures that are accurate for non-negative integrands *)
Definition accurate (k : nat) (W : list R) (quadr : list R -> R) : Prop :=
  forall y, length y = length W -> Forall fmt y -> Forall (Rle 0) y ->
    0 <= quadr y /\ within k (quadr y) (wsum W y).

Lemma wsum_pos : forall W y, Forall (Rle 0) W -> Forall (Rle 0) y -> 0 <= wsum W y.
Proof.
  intros W y P. revert y. induction P as [|a W Ha P IH]; intros y Q; [simpl; lra|].
  destruct Q as [|b y Hb Q]; [simpl; lra|]. cbn [wsum]. assert (0 <= a * b) by (apply Rmult_le_pos; assumption).
  specialize (IH y Q). lra.
Qed.

Lemma wsum_within : forall k W y z, Forall (Rle 0) W -> Forall2 (within k) y z -> within k (wsum W y) (wsum W z).
Proof.
  intros k W y z P. revert y z. induction P as [|a W Ha P IH]; intros y z B.
  - split; simpl; lra.
  - destruct B as [|b b' y z [C D] B]; [split; simpl; lra|]. cbn [wsum]. apply within_plus; [|apply IH; exact B].
    split.
    + replace ((1 - u) ^ k * (a * b')) with (a * ((1 - u) ^ k * b')) by ring. apply Rmult_le_compat_l; assumption.
    + replace ((1 - u) ^ k * (a * b)) with (a * ((1 - u) ^ k * b)) by ring. apply Rmult_le_compat_l; assumption.
Qed.

Lemma mul_terms_pos : forall w y, Forall (Rle 0) w -> Forall (Rle 0) y -> Forall (Rle 0) (mul_terms w y).
Proof.
  intros w y P. revert y. induction P as [|a w Ha P IH]; intros y Q; [constructor|].
  destruct Q as [|b y Hb Q]; constructor; [apply Rmult_le_pos; assumption | apply IH; exact Q].
Qed.

Lemma fl_mul_length : forall w y, length (fl_mul rnd w y) = length (mul_terms w y).
Proof. induction w as [|a w IH]; intros [|b y]; try reflexivity. simpl. rewrite IH. reflexivity. Qed.

Lemma cubic_accurate : forall t w, orders (length w) t -> Forall (Rle 0) w -> accurate (height t + 1) w (fl_cubic rnd t w).
Proof.
  intros t w O P y L F Q. unfold fl_cubic. rewrite <- mul_terms_sum.
  assert (L1 := mul_terms_length w y (eq_sym L)).
  apply sum_within.
  - apply fl_mul_length.
  - rewrite L1. exact O.
  - apply (fl_mul_Forall_pos u 0 fmt rnd H); assumption.
  - apply mul_terms_pos; assumption.
  - intros i I. rewrite L1 in I. rewrite (nth_fl_mul rnd), nth_mul_terms by auto.
    apply within_rnd; [|apply within_refl]. apply Rmult_le_pos; apply nth_pos; assumption.
Qed.

(** Weights of the trapezoid rule. *)
Fixpoint tweights (x : list R) (left : R) : list R :=
  match x with
  | [] => []
  | x0 :: x' => match x' with
                | [] => [left / 2]
                | x1 :: _ => (left + (x1 - x0)) / 2 :: tweights x' (x1 - x0)
                end
  end.

Lemma tweights_length : forall x l, length (tweights x l) = length x.
Proof. induction x as [|x0 x IH]; intro l; [reflexivity|]. destruct x as [|x1 x]; [reflexivity|]. cbn [tweights length]. f_equal. apply (IH (x1 - x0)). Qed.

Lemma tweights_pos : forall x l, ascending x -> 0 <= l -> Forall (Rle 0) (tweights x l).
Proof.
  induction x as [|x0 x IH]; intros l A Hl; [constructor|]. destruct x as [|x1 x]; [constructor; [lra | constructor]|].
  inversion A as [|? ? A' A1]; subst. inversion A1 as [|? ? A2]; subst. cbn [tweights].
  constructor; [lra|]. apply IH; [exact A' | lra].
Qed.

Lemma tweights_sum : forall x y l, length x = length y ->
  wsum (tweights x l) y = trap x y + match y with [] => 0 | y0 :: _ => l / 2 * y0 end.
Proof.
  induction x as [|x0 x IH]; intros y l L; [destruct y; [simpl; ring | discriminate]|].
  destruct y as [|y0 y]; [discriminate|]. destruct x as [|x1 x].
  - destruct y; [simpl; field | discriminate].
  - destruct y as [|y1 y]; [discriminate|].
    change (wsum (tweights (x0 :: x1 :: x) l) (y0 :: y1 :: y)) with ((l + (x1 - x0)) / 2 * y0 + wsum (tweights (x1 :: x) (x1 - x0)) (y1 :: y)).
    rewrite IH by (simpl in *; lia).
    change (trap (x0 :: x1 :: x) (y0 :: y1 :: y)) with ((x1 - x0) * (y0 + y1) / 2 + trap (x1 :: x) (y1 :: y)). field.
Qed.

Lemma trap_wsum : forall x y, length x = length y -> wsum (tweights x 0) y = trap x y.
Proof. intros x y L. rewrite tweights_sum by exact L. destruct y; lra. Qed.

Lemma trap_terms_pos : forall x y, ascending x -> Forall (Rle 0) y -> Forall (Rle 0) (trap_terms x y).
Proof.
  induction x as [|x0 x IH]; intros y A P; [constructor|].
  destruct x as [|x1 x]; [destruct y; constructor|]. destruct P as [|y0 y Py0 P]; [constructor|]. destruct P as [|y1 y Py1 P]; [constructor|].
  inversion A as [|? ? A' A1]; subst. inversion A1 as [|? ? A2]; subst. cbn [trap_terms]. constructor.
  - apply Rmult_le_pos; [|lra]. apply Rmult_le_pos; lra.
  - apply (IH (y1 :: y)); [exact A' | constructor; assumption].
Qed.

Lemma fl_trap_terms_pos : forall x y, ascending x -> Forall (Rle 0) y -> Forall (Rle 0) (fl_trap_terms rnd x y).
Proof.
  induction x as [|x0 x IH]; intros y A P; [constructor|].
  destruct x as [|x1 x]; [destruct y; constructor|]. destruct P as [|y0 y Py0 P]; [constructor|]. destruct P as [|y1 y Py1 P]; [constructor|].
  inversion A as [|? ? A' A1]; subst. inversion A1 as [|? ? A2]; subst. cbn [fl_trap_terms]. constructor.
  - apply (rnd_pos u 0 fmt rnd H). apply Rmult_le_pos; [|lra]. apply (rnd_pos u 0 fmt rnd H).
    apply Rmult_le_pos; apply (rnd_pos u 0 fmt rnd H); lra.
  - apply (IH (y1 :: y)); [exact A' | constructor; assumption].
Qed.

Lemma trap_terms_within : forall x y i, length x = length y -> ascending x -> Forall (Rle 0) y ->
  (i < length (trap_terms x y))%nat -> within 4 (nth i (fl_trap_terms rnd x y) 0) (nth i (trap_terms x y) 0).
Proof.
  induction x as [|x0 x IH]; intros y i L A P I; [simpl in I; lia|].
  destruct x as [|x1 x]; [destruct y; simpl in I; lia|]. destruct P as [|y0 y Py0 P]; [simpl in I; lia|]. destruct P as [|y1 y Py1 P]; [simpl in I; lia|].
  inversion A as [|? ? A' A1]; subst. inversion A1 as [|? ? A2]; subst.
  destruct i as [|i].
  - cbn [fl_trap_terms trap_terms nth].
    assert (P1 : 0 <= rnd (x1 - x0)) by (apply (rnd_pos u 0 fmt rnd H); lra).
    assert (P2 : 0 <= rnd (y1 + y0)) by (apply (rnd_pos u 0 fmt rnd H); lra).
    assert (P3 : 0 <= rnd (rnd (x1 - x0) * rnd (y1 + y0))) by (apply (rnd_pos u 0 fmt rnd H), Rmult_le_pos; assumption).
    apply within_rnd; [lra|].
    assert (C : within 3 (rnd (rnd (x1 - x0) * rnd (y1 + y0))) ((x1 - x0) * (y0 + y1))).
    { apply within_rnd; [apply Rmult_le_pos; assumption|].
      apply (within_mult 1 1); try lra; (apply within_rnd; [lra|]).
      - apply within_refl.
      - rewrite Rplus_comm. apply within_refl. }
    destruct C as [C D]. split; lra.
  - cbn [fl_trap_terms trap_terms nth] in *. apply (IH (y1 :: y) i); auto; try (simpl in *; lia).
Qed.

Lemma trapz_within : forall t x y, length x = length y -> ascending x -> Forall (Rle 0) y -> orders (pred (length x)) t ->
  0 <= fl_trapz rnd t x y /\ within (height t + 4) (fl_trapz rnd t x y) (trap x y).
Proof.
  intros t x y L A P O. rewrite <- trap_terms_sum. unfold fl_trapz. apply sum_within.
  - apply fl_trap_terms_length.
  - rewrite trap_terms_length by exact L. exact O.
  - apply fl_trap_terms_pos; assumption.
  - apply trap_terms_pos; assumption.
  - intros i I. apply trap_terms_within; assumption.
Qed.

Lemma trapz_accurate : forall t x, ascending x -> orders (pred (length x)) t ->
  accurate (height t + 4) (tweights x 0) (fl_trapz rnd t x).
Proof.
  intros t x A O y L F P. rewrite tweights_length in L. rewrite trap_wsum by auto. apply trapz_within; auto.
Qed.

Fixpoint sphere (p : R) (x y : list R) : list R :=
  match x, y with r :: x', b :: y' => 4 * p * (r * r) * b :: sphere p x' y' | _, _ => [] end.
Fixpoint sweights (p : R) (x W : list R) : list R :=
  match x, W with r :: x', b :: y' => 4 * p * (r * r) * b :: sweights p x' y' | _, _ => [] end.

Lemma sweights_sum : forall p x W y, wsum (sweights p x W) y = wsum W (sphere p x y).
Proof.
  intro p. induction x as [|r x IH]; intros W y; [destruct W; reflexivity|]. destruct W as [|a W]; [reflexivity|].
  destruct y as [|b y]; [reflexivity|]. cbn [sweights sphere wsum]. rewrite IH. ring.
Qed.
Lemma sweights_length : forall p x W, length x = length W -> length (sweights p x W) = length x.
Proof. intro p. induction x as [|r x IH]; intros [|a W] L; try reflexivity; try discriminate. simpl. rewrite IH; [reflexivity | simpl in L; lia]. Qed.
Lemma sphere_length : forall p x y, length x = length y -> length (sphere p x y) = length x.
Proof. intro p. induction x as [|r x IH]; intros [|a W] L; try reflexivity; try discriminate. simpl. rewrite IH; [reflexivity | simpl in L; lia]. Qed.
Lemma sweights_pos : forall p x W, 0 <= p -> Forall (Rle 0) W -> Forall (Rle 0) (sweights p x W).
Proof.
  intros p x W Hp P. revert x. induction P as [|a W Ha P IH]; intros [|r x]; try constructor; [|apply IH].
  apply Rmult_le_pos; [|exact Ha]. apply Rmult_le_pos; [lra | apply Rle_0_sqr].
Qed.
Lemma fl_sphere_length : forall p x y, length x = length y -> length (fl_sphere rnd p x y) = length x.
Proof. intro p. induction x as [|r x IH]; intros [|a W] L; try reflexivity; try discriminate. simpl. rewrite IH; [reflexivity | simpl in L; lia]. Qed.

Lemma sphere_within : forall p x y, 0 <= p -> length x = length y -> Forall (Rle 0) y ->
  Forall2 (within 4) (fl_sphere rnd p x y) (sphere p x y).
Proof.
  intros p x y Hp L P. revert x L. induction P as [|b y Hb P IH]; intros [|r x] L; try discriminate; [constructor|].
  cbn [fl_sphere sphere]. constructor; [|apply IH; simpl in L; lia].
  assert (R4 : 0 <= rnd (b * 4)) by (apply (rnd_pos u 0 fmt rnd H); lra).
  assert (RR : 0 <= r * r) by apply Rle_0_sqr.
  assert (Rr : 0 <= rnd (r * r)) by (apply (rnd_pos u 0 fmt rnd H); exact RR).
  assert (Rp : 0 <= rnd (rnd (b * 4) * p)) by (apply (rnd_pos u 0 fmt rnd H), Rmult_le_pos; assumption).
  apply within_rnd; [apply Rmult_le_pos; assumption|].
  replace (4 * p * (r * r) * b) with ((b * 4 * p) * (r * r)) by ring.
  apply (within_mult 2 1); auto.
  - apply Rmult_le_pos; lra.
  - apply within_rnd; [apply Rmult_le_pos; assumption|].
    apply (within_mult 1 0); auto; [lra | apply within_rnd; [lra | apply within_refl] | apply within_refl].
  - apply within_rnd; [exact RR | apply within_refl].
Qed.

Lemma spherical_accurate : forall p t x, 0 <= p -> ascending x -> orders (pred (length x)) t ->
  accurate (height t + 8) (sweights p x (tweights x 0)) (fl_spherical rnd p t x).
Proof.
  intros p t x Hp A O y L F P. rewrite sweights_length in L by (rewrite tweights_length; reflexivity).
  rewrite sweights_sum. unfold fl_spherical.
  destruct (trapz_within t x (fl_sphere rnd p x y)) as [C D]; auto.
  - rewrite fl_sphere_length; auto.
  - apply (sphere_pos u 0 fmt rnd H); assumption.
  - split; [exact C|]. replace (height t + 8)%nat with ((height t + 4) + 4)%nat by lia.
    eapply within_trans; [exact D|]. rewrite <- trap_wsum by (rewrite fl_sphere_length; auto).
    apply wsum_within; [apply tweights_pos; [exact A | lra] | apply sphere_within; auto].
Qed.

(** *** The sum of the updated coefficients *)
Fixpoint lcomb (c : list R) (row : list R) : R :=
  match row, c with b :: row', a :: c' => b * a + lcomb c' row' | _, _ => 0 end.

Lemma fl_prods_pos : forall fused m c k, Forall (Rle 0) m -> Forall (Rle 0) c -> Forall (Rle 0) (fl_prods rnd fused k m c).
Proof.
  intros fused m c k P. revert c k. induction P as [|a m Ha P IH]; intros c k Q; [constructor|].
  destruct Q as [|b c Hb Q]; constructor; [|apply IH; exact Q].
  assert (0 <= a * b) by (apply Rmult_le_pos; assumption).
  destruct (fused k); [assumption | apply (rnd_pos u 0 fmt rnd H); assumption].
Qed.

Lemma dot_within : forall fused t m c, length m = length c -> orders (length c) t -> Forall (Rle 0) m -> Forall (Rle 0) c ->
  0 <= fl_dot rnd fused t m c /\ within (height t + 1) (fl_dot rnd fused t m c) (wsum m c).
Proof.
  intros fused t m c L O P Q. unfold fl_dot. rewrite <- mul_terms_sum.
  assert (L1 := mul_terms_length m c L).
  apply sum_within.
  - rewrite (fl_prods_length rnd), L1 by exact L. auto.
  - rewrite L1, L. exact O.
  - apply fl_prods_pos; assumption.
  - apply mul_terms_pos; assumption.
  - intros i I. rewrite L1, L in I. rewrite (nth_fl_prods rnd), nth_mul_terms by (rewrite ?L; auto). 
    assert (Pi : 0 <= nth i m 0 * nth i c 0) by (apply Rmult_le_pos; apply nth_pos; assumption).
    destruct (fused (0 + i)%nat); [|apply within_rnd; [exact Pi | apply within_refl]].
    apply within_weaken with (k := 0%nat); auto. apply within_refl.
Qed.

End Relative.
