(** Rounded arithmetic: the integrals of the grids. *)
From Coq Require Import Reals List ZArith Lia Lra Permutation Sorted.
From Verif Require Import SpecDens SpecGrid SpecRnd ModelRnd ProofRnd.
Import ListNotations.
Local Open Scope R_scope.

(** Exact terms of the trapezoid rule and their absolute values. *)
Fixpoint trap_terms (x y : list R) : list R :=
  match x, y with
  | x0 :: ((x1 :: _) as x'), y0 :: ((y1 :: _) as y') => (x1 - x0) * (y0 + y1) / 2 :: trap_terms x' y'
  | _, _ => []
  end.

Lemma trap_terms_sum : forall x y, rsum (trap_terms x y) = trap x y.
Proof.
  induction x as [|x0 x IH]; intro y; [reflexivity|].
  destruct x as [|x1 x]; [destruct y; reflexivity|]. destruct y as [|y0 y]; [reflexivity|]. destruct y as [|y1 y]; [reflexivity|].
  specialize (IH (y1 :: y)). cbn [trap_terms trap] in *. unfold rsum in *. cbn [fold_right]. rewrite IH. reflexivity.
Qed.

Lemma trap_terms_length : forall x y, length x = length y -> length (trap_terms x y) = pred (length x).
Proof.
  induction x as [|x0 x IH]; intros y L; [reflexivity|].
  destruct x as [|x1 x]; [destruct y; reflexivity|]. destruct y as [|y0 y]; [discriminate|]. destruct y as [|y1 y]; [discriminate|].
  cbn [trap_terms length pred]. f_equal. apply (IH (y1 :: y)). simpl in *. lia.
Qed.

Lemma fl_trap_terms_length : forall rnd x y, length (fl_trap_terms rnd x y) = length (trap_terms x y).
Proof.
  intro rnd. induction x as [|x0 x IH]; intro y; [reflexivity|].
  destruct x as [|x1 x]; [destruct y; reflexivity|]. destruct y as [|y0 y]; [reflexivity|]. destruct y as [|y1 y]; [reflexivity|].
  cbn [trap_terms fl_trap_terms length]. f_equal. apply (IH (y1 :: y)).
Qed.

(** With exact arithmetic these are the sums of the specification. *)
Lemma fl_sum_exact : forall t v, fl_sum (fun x => x) t v = tsum t v.
Proof. induction t; intro v; simpl; [reflexivity | reflexivity | rewrite IHt1, IHt2; reflexivity]. Qed.

Lemma fl_trap_terms_exact : forall x y, fl_trap_terms (fun x => x) x y = trap_terms x y.
Proof.
  induction x as [|x0 x IH]; intro y; [reflexivity|].
  destruct x as [|x1 x]; [destruct y; reflexivity|]. destruct y as [|y0 y]; [reflexivity|]. destruct y as [|y1 y]; [reflexivity|].
  specialize (IH (y1 :: y)). cbn [trap_terms fl_trap_terms] in *. f_equal; [field | exact IH].
Qed.

Lemma trapz_exact : forall t x y, length x = length y -> orders (pred (length x)) t ->
  fl_trapz (fun x => x) t x y = trap x y.
Proof.
  intros t x y L O. unfold fl_trapz. rewrite fl_sum_exact, fl_trap_terms_exact, tsum_all; [apply trap_terms_sum|].
  rewrite trap_terms_length; assumption.
Qed.

Lemma cubic_exact : forall t w y, length w = length y -> orders (length w) t ->
  fl_cubic (fun x => x) t w y = wsum w y.
Proof.
  intros t w y L O. unfold fl_cubic. rewrite fl_sum_exact.
  assert (E : length (fl_mul (fun x => x) w y) = length w /\ rsum (fl_mul (fun x => x) w y) = wsum w y).
  { clear O. revert y L. induction w as [|a w IH]; intros [|b y] L; try discriminate L; [split; reflexivity|].
    destruct (IH y) as [E1 E2]; [simpl in L; lia|]. cbn [fl_mul length wsum]. split; [lia|].
    unfold rsum in *. cbn [fold_right]. rewrite E2. reflexivity. }
  destruct E as [E1 E2]. rewrite tsum_all; [exact E2 | rewrite E1; exact O].
Qed.

Section Arith.
Context (u eta : R) (fmt : R -> Prop) (rnd : R -> R) (H : rounding u eta fmt rnd).

Notation close := (close u).

Lemma fl_trap_terms_fmt : forall x y, Forall fmt (fl_trap_terms rnd x y).
Proof.
  induction x as [|x0 x IH]; intro y; [constructor|].
  destruct x as [|x1 x]; [destruct y; constructor|]. destruct y as [|y0 y]; [constructor|]. destruct y as [|y1 y]; [constructor|].
  cbn [fl_trap_terms]. constructor; [apply (rd_fmt _ _ _ _ H) | apply (IH (y1 :: y))].
Qed.

Lemma term_close : forall x0 x1 y0 y1, fmt x0 -> fmt x1 -> fmt y0 -> fmt y1 -> x0 <= x1 ->
  close 4 (2 * eta) (rnd (rnd (rnd (x1 - x0) * rnd (y1 + y0)) / 2))
    ((x1 - x0) * (y0 + y1) / 2) ((x1 - x0) * (Rabs y0 + Rabs y1) / 2).
Proof.
  intros x0 x1 y0 y1 Fx0 Fx1 Fy0 Fy1 L.
  assert (He := rd_eta _ _ _ _ H). assert (Hu := rd_u _ _ _ _ H).
  assert (D : close 1 0 (rnd (x1 - x0)) (x1 - x0) (x1 - x0)).
  { split; [rewrite Rabs_pos_eq; lra|].
    unfold Rminus at 2. eapply Rle_trans; [apply (rd_add _ _ _ _ H); auto; apply (rd_opp _ _ _ _ H); auto|].
    rewrite Rabs_pos_eq by lra. simpl. lra. }
  assert (S : close 1 0 (rnd (y1 + y0)) (y0 + y1) (Rabs y0 + Rabs y1)).
  { split; [apply Rabs_triang|].
    rewrite (Rplus_comm y0 y1). eapply Rle_trans; [apply (rd_add _ _ _ _ H); auto|].
    assert (Rabs (y1 + y0) <= Rabs y0 + Rabs y1) by (rewrite Rplus_comm; apply Rabs_triang).
    simpl. replace (((1 + u) * 1 - 1) * (Rabs y0 + Rabs y1) + 0) with (u * (Rabs y0 + Rabs y1)) by ring.
    apply Rmult_le_compat_l; lra. }
  assert (P := close_mult u _ _ _ _ _ _ _ _ D S).
  apply (close_rnd u eta fmt rnd H) in P. apply (close_scale u) with (s := / 2) in P; [|lra].
  apply (close_rnd u eta fmt rnd H) in P.
  eapply (close_weaken u eta fmt rnd H); [| |exact P]; [simpl; lia|]. 
  assert (u * eta <= 1 * eta) by (apply Rmult_le_compat_r; lra). lra.
Qed.

Lemma terms_close : forall x y i, length x = length y -> Forall fmt x -> Forall fmt y -> ascending x ->
  (i < length (trap_terms x y))%nat ->
  close 4 (2 * eta) (nth i (fl_trap_terms rnd x y) 0) (nth i (trap_terms x y) 0) (nth i (trap_terms x (map Rabs y)) 0).
Proof.
  induction x as [|x0 x IH]; intros y i L Fx Fy A I; [simpl in I; lia|].
  destruct x as [|x1 x]; [destruct y; simpl in I; lia|]. destruct y as [|y0 y]; [simpl in I; lia|]. destruct y as [|y1 y]; [simpl in I; lia|].
  inversion Fx as [|? ? Fx0 Fx']; subst. inversion Fy as [|? ? Fy0 Fy']; subst.
  inversion Fx' as [|? ? Fx1 Fx'']; subst. inversion Fy' as [|? ? Fy1 Fy'']; subst.
  inversion A as [|? ? A' A1]; subst. inversion A1 as [|? ? A2]; subst.
  destruct i as [|i].
  - cbn [trap_terms fl_trap_terms map nth]. apply term_close; assumption.
  - cbn [trap_terms fl_trap_terms map nth]. cbn [trap_terms length] in I.
    apply (IH (y1 :: y) i); auto; try (simpl in *; lia).
Qed.

Lemma nth_repeat0 : forall (a : R) n i, nth i (repeat a n) 0 = if (i <? n)%nat then a else 0.
Proof.
  intros a n. induction n as [|n IH]; intro i; [destruct i; reflexivity|].
  destruct i as [|i]; [reflexivity|]. cbn [repeat nth]. rewrite IH. reflexivity.
Qed.

Lemma rsum_repeat : forall (a : R) n, rsum (repeat a n) = INR n * a.
Proof.
  intros a n. induction n as [|n IH]; [unfold rsum; simpl; ring|].
  cbn [repeat]. rewrite S_INR. unfold rsum in *. cbn [fold_right]. rewrite IH. ring.
Qed.

(** *** Error of the trapezoid rule *)
Lemma trapz_error : forall t x y, length x = length y -> Forall fmt x -> Forall fmt y -> ascending x ->
  orders (pred (length x)) t ->
  Rabs (fl_trapz rnd t x y - trap x y) <=
    ((1 + u) ^ (height t + 4) - 1) * trap x (map Rabs y) + (1 + u) ^ height t * (INR (pred (length x)) * (2 * eta)).
Proof.
  intros t x y L Fx Fy A O.
  assert (He := rd_eta _ _ _ _ H).
  assert (L1 := trap_terms_length x y L).
  assert (L2 : length (trap_terms x (map Rabs y)) = pred (length x)).
  { apply trap_terms_length. rewrite map_length. exact L. }
  set (n := pred (length x)) in *.
  assert (C : close (height t + 4) ((1 + u) ^ height t * tsum t (repeat (2 * eta) n)) (fl_sum rnd t (fl_trap_terms rnd x y))
    (tsum t (trap_terms x y)) (tsum t (trap_terms x (map Rabs y)))).
  { apply (fl_sum_close u eta fmt rnd H).
    - apply fl_trap_terms_fmt.
    - intro i. rewrite nth_repeat0. destruct (i <? n)%nat; lra.
    - intros i I. apply (orders_lt _ _ _ O) in I. rewrite nth_repeat0.
      rewrite (proj2 (Nat.ltb_lt i n) I). apply terms_close; auto. lia. }
  rewrite (tsum_all t (trap_terms x y)) in C by (rewrite L1; exact O).
  rewrite (tsum_all t (trap_terms x (map Rabs y))) in C by (rewrite L2; exact O).
  rewrite (tsum_all t (repeat (2 * eta) n)) in C by (rewrite repeat_length; exact O).
  rewrite !trap_terms_sum, rsum_repeat in C. destruct C as [_ C]. exact C.
Qed.

(** *** Order and sign *)
Lemma trap_terms_mono : forall x y z, ascending x -> below y z ->
  forall i, nth i (fl_trap_terms rnd x y) 0 <= nth i (fl_trap_terms rnd x z) 0.
Proof.
  induction x as [|x0 x IH]; intros y z A B i; [destruct i; simpl; lra|].
  destruct x as [|x1 x]; [destruct B, i; simpl; lra|]. destruct B as [|y0 z0 y z B0 B]; [destruct i; simpl; lra|].
  destruct B as [|y1 z1 y z B1 B]; [destruct i; simpl; lra|].
  inversion A as [|? ? A' A1]; subst. inversion A1 as [|? ? A2]; subst.
  destruct i as [|i].
  - cbn [fl_trap_terms nth]. apply (rd_mono _ _ _ _ H). apply Rmult_le_compat_r; [lra|].
    apply (rd_mono _ _ _ _ H). apply Rmult_le_compat_l; [apply (rnd_pos u eta fmt rnd H); lra|].
    apply (rd_mono _ _ _ _ H). lra.
  - cbn [fl_trap_terms nth]. apply (IH (y1 :: y) (z1 :: z)); [exact A' | constructor; assumption].
Qed.

Lemma trapz_mono : forall t x y z, ascending x -> below y z -> fl_trapz rnd t x y <= fl_trapz rnd t x z.
Proof. intros. apply (fl_sum_mono u eta fmt rnd H). apply trap_terms_mono; assumption. Qed.

Lemma trapz_pos : forall t x y, ascending x -> Forall (Rle 0) y -> 0 <= fl_trapz rnd t x y.
Proof.
  intros t x y A P. unfold fl_trapz. apply (fl_sum_pos u eta fmt rnd H).
  revert y P. induction x as [|x0 x IH]; intros y P i; [destruct i; simpl; lra|].
  destruct x as [|x1 x]; [destruct y, i; simpl; lra|]. destruct y as [|y0 y]; [destruct i; simpl; lra|].
  destruct y as [|y1 y]; [destruct i; simpl; lra|].
  inversion A as [|? ? A' A1]; subst. inversion A1 as [|? ? A2]; subst.
  inversion P as [|? ? P0 P']; subst. inversion P' as [|? ? P1 P'']; subst.
  destruct i as [|i]; cbn [fl_trap_terms nth].
  - apply (rnd_pos u eta fmt rnd H). apply Rmult_le_pos; [|lra]. apply (rnd_pos u eta fmt rnd H).
    apply Rmult_le_pos; apply (rnd_pos u eta fmt rnd H); lra.
  - apply (IH A' (y1 :: y)). exact P'.
Qed.

(** *** Cubic grids *)
Fixpoint mul_terms (w y : list R) : list R :=
  match w, y with a :: w', b :: y' => a * b :: mul_terms w' y' | _, _ => [] end.

Lemma mul_terms_sum : forall w y, rsum (mul_terms w y) = wsum w y.
Proof.
  induction w as [|a w IH]; intros [|b y]; try reflexivity. cbn [mul_terms wsum]. unfold rsum in *. cbn [fold_right]. rewrite IH. reflexivity.
Qed.
Lemma mul_terms_length : forall w y, length w = length y -> length (mul_terms w y) = length w.
Proof. induction w as [|a w IH]; intros [|b y] L; try reflexivity; try discriminate. simpl. rewrite IH; [reflexivity | simpl in L; lia]. Qed.
Lemma fl_mul_fmt : forall w y, Forall fmt (fl_mul rnd w y).
Proof. induction w as [|a w IH]; intros [|b y]; constructor; [apply (rd_fmt _ _ _ _ H) | apply IH]. Qed.
Lemma nth_fl_mul : forall w y i, (i < length w)%nat -> length w = length y ->
  nth i (fl_mul rnd w y) 0 = rnd (nth i w 0 * nth i y 0).
Proof.
  induction w as [|a w IH]; intros [|b y] i I L; simpl in I; try lia; try discriminate.
  destruct i as [|i]; [reflexivity|]. cbn [fl_mul nth]. apply IH; simpl in L; lia.
Qed.
Lemma nth_mul_terms : forall w y i, (i < length w)%nat -> length w = length y ->
  nth i (mul_terms w y) 0 = nth i w 0 * nth i y 0.
Proof.
  induction w as [|a w IH]; intros [|b y] i I L; simpl in I; try lia; try discriminate.
  destruct i as [|i]; [reflexivity|]. cbn [mul_terms nth]. apply IH; simpl in L; lia.
Qed.

Lemma cubic_error : forall t w y, length w = length y -> orders (length w) t ->
  Rabs (fl_cubic rnd t w y - wsum w y) <=
    ((1 + u) ^ (height t + 1) - 1) * wsum (map Rabs w) (map Rabs y) + (1 + u) ^ height t * (INR (length w) * eta).
Proof.
  intros t w y L O. assert (He := rd_eta _ _ _ _ H).
  assert (L1 := mul_terms_length w y L).
  assert (L2 : length (mul_terms (map Rabs w) (map Rabs y)) = length w).
  { rewrite mul_terms_length; rewrite !map_length; auto. }
  set (n := length w) in *.
  assert (C : close (height t + 1) ((1 + u) ^ height t * tsum t (repeat eta n)) (fl_sum rnd t (fl_mul rnd w y))
    (tsum t (mul_terms w y)) (tsum t (mul_terms (map Rabs w) (map Rabs y)))).
  { apply (fl_sum_close u eta fmt rnd H).
    - apply fl_mul_fmt.
    - intro i. rewrite nth_repeat0. destruct (i <? n)%nat; lra.
    - intros i I. apply (orders_lt _ _ _ O) in I. rewrite nth_repeat0, (proj2 (Nat.ltb_lt i n) I).
      rewrite nth_fl_mul, !nth_mul_terms by (rewrite ?map_length; auto).
      
      replace (nth i (map Rabs w) 0) with (Rabs (nth i w 0)) by (rewrite <- (map_nth Rabs), Rabs_R0; reflexivity).
      replace (nth i (map Rabs y) 0) with (Rabs (nth i y 0)) by (rewrite <- (map_nth Rabs), Rabs_R0; reflexivity).
      replace eta with ((1 + u) * 0 + eta) by ring. apply (close_rnd u eta fmt rnd H).
      rewrite <- Rabs_mult. apply close_refl. }
  rewrite (tsum_all t (mul_terms w y)) in C by (rewrite L1; exact O).
  rewrite (tsum_all t (mul_terms (map Rabs w) (map Rabs y))) in C by (rewrite L2; exact O).
  rewrite (tsum_all t (repeat eta n)) in C by (rewrite repeat_length; exact O).
  rewrite !mul_terms_sum, rsum_repeat in C. destruct C as [_ C]. exact C.
Qed.

Lemma mul_mono : forall w y z, Forall (Rle 0) w -> below y z ->
  forall i, nth i (fl_mul rnd w y) 0 <= nth i (fl_mul rnd w z) 0.
Proof.
  induction w as [|a w IH]; intros y z P B i; [destruct i; simpl; lra|].
  destruct B as [|b b' y z B0 B]; [destruct i; simpl; lra|]. inversion P; subst.
  destruct i as [|i]; cbn [fl_mul nth].
  - apply (rd_mono _ _ _ _ H). apply Rmult_le_compat_l; assumption.
  - apply IH; assumption.
Qed.

Lemma cubic_mono : forall t w y z, Forall (Rle 0) w -> below y z -> fl_cubic rnd t w y <= fl_cubic rnd t w z.
Proof. intros. apply (fl_sum_mono u eta fmt rnd H). apply mul_mono; assumption. Qed.

Lemma fl_mul_pos : forall w y i, Forall (Rle 0) w -> Forall (Rle 0) y -> 0 <= nth i (fl_mul rnd w y) 0.
Proof.
  induction w as [|a w IH]; intros [|b y] i P Q; try (destruct i; simpl; lra).
  inversion P; inversion Q; subst. destruct i as [|i]; cbn [fl_mul nth]; [|auto].
  apply (rnd_pos u eta fmt rnd H). apply Rmult_le_pos; assumption.
Qed.

Lemma cubic_pos : forall t w y, Forall (Rle 0) w -> Forall (Rle 0) y -> 0 <= fl_cubic rnd t w y.
Proof. intros. apply (fl_sum_pos u eta fmt rnd H). intro i. apply fl_mul_pos; assumption. Qed.

End Arith.
