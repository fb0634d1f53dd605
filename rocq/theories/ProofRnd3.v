(** Rounded arithmetic: values of Gaussian models. *)
From Coq Require Import Reals List ZArith Lia Lra Permutation.
From Verif Require Import SpecDens SpecRnd ModelRnd ProofRnd ProofRnd2.
Import ListNotations.
Local Open Scope R_scope.

(** ** Error of the exponential of a perturbed argument *)
Lemma exp_ge_2x : forall s, 2 * s <= exp s.
Proof.
  intro s. destruct (Rle_lt_dec s 0) as [L|L]; [generalize (exp_pos s); lra|].
  replace s with ((s - 1) + 1) at 2 by ring. rewrite exp_plus.
  assert (A := exp_ineq1_le (s - 1)). assert (B := exp_ineq1_le 1).
  replace (2 * s) with (s * 2) by ring. apply Rmult_le_compat; lra.
Qed.

Lemma exp_gap : forall m M, m <= M -> exp (- m) - exp (- M) <= (M - m) * exp (- m).
Proof.
  intros m M L. replace (- M) with (- m + - (M - m)) by ring. rewrite exp_plus.
  assert (A := exp_ineq1_le (- (M - m))). assert (P := exp_pos (- m)).
  assert (exp (- m) * (1 + - (M - m)) <= exp (- m) * exp (- (M - m))) by (apply Rmult_le_compat_l; lra). lra.
Qed.

Lemma exp_perturb : forall t t' g d, 0 <= t -> 0 <= g <= 1 / 2 -> 0 <= d ->
  Rabs (t' - t) <= g * t + d -> Rabs (exp (- t') - exp (- t)) <= (g + d) * exp d.
Proof.
  intros t t' g d Ht Hg Hd L.
  assert (K : Rabs (exp (- t') - exp (- t)) <= Rabs (t' - t) * exp (- Rmin t t')).
  { destruct (Rle_lt_dec t t') as [C|C].
    - rewrite Rmin_left by exact C. rewrite (Rabs_pos_eq (t' - t)) by lra.
      rewrite Rabs_minus_sym, Rabs_pos_eq; [apply exp_gap; exact C|].
      assert (exp (- t') <= exp (- t)); [|lra]. destruct C as [C|C]; [left; apply exp_increasing; lra | subst; lra].
    - rewrite Rmin_right by lra. rewrite (Rabs_minus_sym t' t), (Rabs_pos_eq (t - t')) by lra.
      rewrite Rabs_pos_eq; [apply exp_gap; lra|].
      assert (exp (- t) < exp (- t')) by (apply exp_increasing; lra). lra. }
  assert (Lm : t / 2 - d <= Rmin t t').
  { apply Rmin_glb; [lra|].
    assert (- (g * t + d) <= t' - t) by (generalize (Rle_abs (- (t' - t))); rewrite Rabs_Ropp; lra).
    assert (g * t <= 1 / 2 * t) by (apply Rmult_le_compat_r; lra). lra. }
  assert (E : exp (- Rmin t t') <= exp (- (t / 2)) * exp d).
  { rewrite <- exp_plus. destruct Lm as [Lm|Lm]; [left; apply exp_increasing; lra | right; f_equal; lra]. }
  eapply Rle_trans; [exact K|].
  eapply Rle_trans; [apply Rmult_le_compat; [apply Rabs_pos | left; apply exp_pos | exact L | exact E]|].
  rewrite <- Rmult_assoc. apply Rmult_le_compat_r; [left; apply exp_pos|].
  assert (P := exp_pos (- (t / 2))).
  assert (E1 : exp (- (t / 2)) <= 1).
  { rewrite <- exp_0. destruct Ht as [Ht|Ht]; [left; apply exp_increasing; lra | right; f_equal; lra]. }
  assert (T1 : t * exp (- (t / 2)) <= 1).
  { rewrite exp_Ropp. apply Rmult_le_reg_r with (exp (t / 2)); [apply exp_pos|].
    rewrite Rmult_assoc, Rinv_l by (generalize (exp_pos (t / 2)); lra). generalize (exp_ge_2x (t / 2)); lra. }
  replace ((g * t + d) * exp (- (t / 2))) with (g * (t * exp (- (t / 2))) + d * exp (- (t / 2))) by ring.
  assert (g * (t * exp (- (t / 2))) <= g * 1) by (apply Rmult_le_compat_l; lra).
  assert (d * exp (- (t / 2)) <= d * 1) by (apply Rmult_le_compat_l; lra). lra.
Qed.

Section Arith.
Context (u eta : R) (fmt : R -> Prop) (rnd : R -> R) (H : rounding u eta fmt rnd).
Context (v z : R) (fexp : R -> R) (X : exp_error v z fexp).

Notation close := (close u).

Lemma rnd_neg : forall x, x <= 0 -> rnd x <= 0.
Proof. intros x L. rewrite <- (rnd_0 u eta fmt rnd H). apply (rd_mono _ _ _ _ H), L. Qed.

Lemma arg_neg : forall a r, 0 <= a -> rnd (- a * rnd (r * r)) <= 0.
Proof.
  intros a r Ha. apply rnd_neg. assert (0 <= rnd (r * r)) by (apply (rnd_pos u eta fmt rnd H), Rle_0_sqr).
  assert (0 <= a * rnd (r * r)) by (apply Rmult_le_pos; assumption). lra.
Qed.

Lemma gauss_close : forall a r M, 0 <= a <= M -> u <= 1 / 8 ->
  Rabs (fexp (rnd (- a * rnd (r * r))) - exp (- a * (r * r))) <= gauss_error u eta v z M.
Proof.
  intros a r M Ha Hu8. assert (He := rd_eta _ _ _ _ H). assert (Hu := rd_u _ _ _ _ H).
  destruct X as (Hv & Hz & HX).
  set (s := rnd (- a * rnd (r * r))).
  assert (Hs : s <= 0) by (apply arg_neg; lra).
  set (t := a * (r * r)).
  assert (Ht : 0 <= t) by (apply Rmult_le_pos; [lra | apply Rle_0_sqr]).
  assert (C : close 2 ((1 + u) * (eta * a) + eta) s (- a * (r * r)) t).
  { unfold s. apply (close_rnd u eta fmt rnd H).
    assert (C1 := close_rnd u eta fmt rnd H _ _ _ _ _ (close_refl u (r * r))).
    rewrite (Rabs_pos_eq (r * r)) in C1 by apply Rle_0_sqr.
    apply (close_scale u) with (s := a) in C1; [|lra].
    destruct C1 as [D1 D2]. split.
    - replace (- a * (r * r)) with (- (r * r * a)) by ring. rewrite Rabs_Ropp. unfold t. lra.
    - replace (- a * rnd (r * r) - - a * (r * r)) with (- (rnd (r * r) * a - r * r * a)) by ring.
      rewrite Rabs_Ropp. unfold t. replace (a * (r * r)) with (r * r * a) by ring.
      replace ((1 + u) * 0 + eta) with eta in D2 by ring. exact D2. }
  destruct C as [_ C].
  set (d := ((1 + u) * M + 1) * eta).
  assert (Hd : (1 + u) * (eta * a) + eta <= d).
  { unfold d. assert ((1 + u) * eta * a <= (1 + u) * eta * M); [|lra].
    apply Rmult_le_compat_l; [apply Rmult_le_pos; lra | lra]. }
  assert (Hd0 : 0 <= d).
  { unfold d. apply Rmult_le_pos; [|exact He]. assert (0 <= (1 + u) * M) by (apply Rmult_le_pos; lra). lra. }
  assert (P : Rabs (exp (- - s) - exp (- t)) <= ((1 + u) ^ 2 - 1 + d) * exp d).
  { apply exp_perturb; auto.
    - assert (u * u <= 1 / 8 * (1 / 8)) by (apply Rmult_le_compat; lra).
      assert (0 <= u * u) by (apply Rmult_le_pos; lra). simpl. lra.
    - replace (- s - t) with (- (s - - a * (r * r))) by (unfold t; ring). rewrite Rabs_Ropp. lra. }
  rewrite Ropp_involutive in P. replace (- t) with (- a * (r * r)) in P by (unfold t; ring).
  destruct (HX s Hs) as [_ Q].
  assert (Es : exp s <= 1).
  { rewrite <- exp_0. destruct Hs as [Hs|Hs]; [left; apply exp_increasing; lra | rewrite Hs; lra]. }
  assert (v * exp s <= v * 1) by (apply Rmult_le_compat_l; lra).
  replace (fexp s - exp (- a * (r * r))) with ((fexp s - exp s) + (exp s - exp (- a * (r * r)))) by ring.
  eapply Rle_trans; [apply Rabs_triang|]. unfold gauss_error. fold d. lra.
Qed.

Lemma fl_prods_length : forall fused m c i, length m = length c -> length (fl_prods rnd fused i m c) = length c.
Proof.
  intro fused. induction m as [|a m IH]; intros [|b c] i L; try reflexivity; try discriminate.
  cbn [fl_prods length]. rewrite IH; [reflexivity | simpl in L; lia].
Qed.

Lemma nth_fl_prods : forall fused m c i j, length m = length c -> (j < length c)%nat ->
  nth j (fl_prods rnd fused i m c) 0 =
    if fused (i + j)%nat then nth j m 0 * nth j c 0 else rnd (nth j m 0 * nth j c 0).
Proof.
  intro fused. induction m as [|a m IH]; intros [|b c] i j L J; simpl in J; try lia; try discriminate.
  destruct j as [|j]; cbn [fl_prods nth].
  - rewrite Nat.add_0_r. reflexivity.
  - rewrite IH by (simpl in L; lia). rewrite <- Nat.add_succ_comm. reflexivity.
Qed.

Fixpoint gterms (c e : list R) (r : R) : list R :=
  match c, e with c0 :: c', e0 :: e' => c0 * exp (- e0 * (r * r)) :: gterms c' e' r | _, _ => [] end.

Lemma gterms_sum : forall c e r, rsum (gterms c e r) = gauss_sum c e r.
Proof. induction c as [|a c IH]; intros [|b e] r; try reflexivity. cbn [gterms gauss_sum]. unfold rsum in *. cbn [fold_right]. rewrite IH. reflexivity. Qed.
Lemma gterms_length : forall c e r, length c = length e -> length (gterms c e r) = length c.
Proof. induction c as [|a c IH]; intros [|b e] r L; try reflexivity; try discriminate. simpl. rewrite IH; [reflexivity | simpl in L; lia]. Qed.
Lemma nth_gterms : forall c e r j, length c = length e -> (j < length c)%nat ->
  nth j (gterms c e r) 0 = nth j c 0 * exp (- nth j e 0 * (r * r)).
Proof.
  induction c as [|a c IH]; intros [|b e] r j L J; simpl in J; try lia; try discriminate.
  destruct j as [|j]; [reflexivity|]. cbn [gterms nth]. apply IH; simpl in L; lia.
Qed.

Lemma nth_fl_row : forall e r j, (j < length e)%nat ->
  nth j (fl_row rnd fexp e r) 0 = fexp (rnd (- nth j e 0 * rnd (r * r))).
Proof.
  intros e r j J. unfold fl_row. rewrite (nth_indep _ 0 ((fun a => fexp (rnd (- a * rnd (r * r)))) 0)) by (rewrite map_length; exact J).
  apply (map_nth (fun a => fexp (rnd (- a * rnd (r * r))))).
Qed.

Lemma nth_map_default : forall (f : R -> R) l j, (j < length l)%nat -> nth j (map f l) 0 = f (nth j l 0).
Proof. intros f l j J. rewrite (nth_indep _ 0 (f 0)) by (rewrite map_length; exact J). apply map_nth. Qed.

Lemma rsum_affine : forall (l : list R) p q, rsum (map (fun c => Rabs c * p + q) l) = rsum (map Rabs l) * p + INR (length l) * q.
Proof.
  induction l as [|a l IH]; intros p q; [unfold rsum; simpl; ring|].
  cbn [map length]. rewrite S_INR. specialize (IH p q). unfold rsum in *. cbn [fold_right]. rewrite IH. ring.
Qed.

Lemma gauss_error_pos : forall M, 0 <= M -> 0 <= gauss_error u eta v z M.
Proof.
  intros M HM. assert (He := rd_eta _ _ _ _ H). assert (Hu := rd_u _ _ _ _ H). destruct X as (Hv & Hz & _).
  unfold gauss_error.
  assert (Hd0 : 0 <= ((1 + u) * M + 1) * eta).
  { apply Rmult_le_pos; [|exact He]. assert (0 <= (1 + u) * M) by (apply Rmult_le_pos; lra). lra. }
  assert (1 <= (1 + u) ^ 2) by (apply pow_R1_Rle; lra).
  assert (0 <= ((1 + u) ^ 2 - 1 + ((1 + u) * M + 1) * eta) * exp (((1 + u) * M + 1) * eta)).
  { apply Rmult_le_pos; [lra | left; apply exp_pos]. }
  lra.
Qed.

Lemma eval_error : forall fused t c e r M, length c = length e -> orders (length c) t ->
  Forall (fun a => 0 <= a <= M) e -> 0 <= M -> u <= 1 / 8 ->
  Rabs (fl_eval rnd fexp fused t c e r - gauss_sum c e r) <=
    ((1 + u) ^ (height t + 1) * (1 + gauss_error u eta v z M) - 1) * rsum (map Rabs c)
    + (1 + u) ^ height t * (INR (length c + additions t) * eta).
Proof.
  intros fused t c e r M L O Fe HM Hu8. assert (He := rd_eta _ _ _ _ H). assert (Hu := rd_u _ _ _ _ H).
  set (A := gauss_error u eta v z M). assert (HA : 0 <= A) by (apply gauss_error_pos; exact HM).
  set (p := (1 + u) * (1 + A) - 1).
  assert (Hp : 0 <= p). { unfold p. assert (0 <= u * (1 + A)) by (apply Rmult_le_pos; lra). lra. }
  set (n := length c) in *.
  assert (Lr : length (fl_row rnd fexp e r) = length c) by (unfold fl_row; rewrite map_length; auto).
  assert (C : close (height t + 0) ((1 + u) ^ height t * (tsum t (map (fun c => Rabs c * p + eta) c) + INR (additions t) * eta))
     (fl_sum rnd t (fl_prods rnd fused 0 (fl_row rnd fexp e r) c)) (tsum t (gterms c e r)) (tsum t (map Rabs c))).
  { apply (fl_sum_close_any u eta fmt rnd H).
    - intro i. destruct (Nat.lt_ge_cases i n) as [I|I].
      + rewrite (nth_map_default (fun c => Rabs c * p + eta)) by exact I.
        assert (0 <= Rabs (nth i c 0) * p) by (apply Rmult_le_pos; [apply Rabs_pos | exact Hp]). lra.
      + rewrite nth_overflow by (rewrite map_length; exact I). lra.
    - intros i I. apply (orders_lt _ _ _ O) in I.
      rewrite (nth_map_default (fun c => Rabs c * p + eta)) by exact I. rewrite (nth_map_default Rabs) by exact I.
      rewrite nth_gterms by auto. rewrite nth_fl_prods by auto. rewrite Nat.add_0_l. rewrite nth_fl_row by (rewrite <- L; exact I).
      assert (Ei : 0 <= nth i e 0 <= M).
      { rewrite Forall_forall in Fe. apply Fe, nth_In. rewrite <- L. exact I. }
      set (c0 := nth i c 0). set (e0 := nth i e 0) in *.
      assert (G := gauss_close e0 r M Ei Hu8). fold A in G.
      set (g' := fexp (rnd (- e0 * rnd (r * r)))) in *. set (g := exp (- e0 * (r * r))) in *.
      assert (Hg : 0 <= g <= 1).
      { unfold g. split; [left; apply exp_pos|]. rewrite <- exp_0.
        assert (Hn : 0 <= e0 * (r * r)) by (apply Rmult_le_pos; [lra | apply Rle_0_sqr]).
        replace (- e0 * (r * r)) with (- (e0 * (r * r))) by ring.
        destruct Hn as [Hn|Hn]; [left; apply exp_increasing; lra | rewrite <- Hn, Ropp_0; lra]. }
      assert (Hc := Rabs_pos c0).
      assert (D : Rabs (g' * c0 - c0 * g) <= Rabs c0 * A).
      { replace (g' * c0 - c0 * g) with (c0 * (g' - g)) by ring. rewrite Rabs_mult. apply Rmult_le_compat_l; [exact Hc | exact G]. }
      assert (Ab : Rabs (g' * c0) <= Rabs c0 * (1 + A)).
      { replace (g' * c0) with ((g' * c0 - c0 * g) + c0 * g) by ring. eapply Rle_trans; [apply Rabs_triang|].
        rewrite (Rabs_mult c0 g), (Rabs_pos_eq g) by lra.
        assert (Rabs c0 * g <= Rabs c0 * 1) by (apply Rmult_le_compat_l; lra). lra. }
      split.
      + rewrite Rabs_mult, (Rabs_pos_eq g) by lra. assert (Rabs c0 * g <= Rabs c0 * 1) by (apply Rmult_le_compat_l; lra). lra.
      + cbn [pow]. replace ((1 - 1) * Rabs c0 + (Rabs c0 * p + eta)) with (Rabs c0 * p + eta) by ring.
        assert (Ap : Rabs c0 * A <= Rabs c0 * p).
        { apply Rmult_le_compat_l; [exact Hc|]. unfold p. assert (0 <= u * (1 + A)) by (apply Rmult_le_pos; lra). lra. }
        destruct (fused i); [lra|].
        replace (rnd (g' * c0) - c0 * g) with ((rnd (g' * c0) - g' * c0) + (g' * c0 - c0 * g)) by ring.
        eapply Rle_trans; [apply Rabs_triang|].
        assert (E := rd_err _ _ _ _ H (g' * c0)).
        assert (u * Rabs (g' * c0) <= u * (Rabs c0 * (1 + A))) by (apply Rmult_le_compat_l; lra).
        unfold p. lra. }
  rewrite (tsum_all t (map (fun c => Rabs c * p + eta) c)) in C by (rewrite map_length; exact O).
  rewrite (tsum_all t (map Rabs c)) in C by (rewrite map_length; exact O).
  rewrite (tsum_all t (gterms c e r)) in C by (rewrite gterms_length by exact L; exact O).
  rewrite gterms_sum, rsum_affine in C. destruct C as [_ C]. unfold fl_eval, fl_dot.
  eapply Rle_trans; [exact C|]. right. rewrite Nat.add_0_r, plus_INR, pow_add. fold n. unfold p. simpl. ring.
Qed.

Lemma dot_pos : forall fused t m c, Forall (Rle 0) m -> Forall (Rle 0) c -> 0 <= fl_dot rnd fused t m c.
Proof.
  intros fused t m c P Q. unfold fl_dot. apply (fl_sum_pos u eta fmt rnd H). generalize 0%nat.
  revert c Q. induction m as [|a m IH]; intros [|b c] Q k i; try (destruct i; simpl; lra).
  inversion P; inversion Q; subst. destruct i as [|i]; cbn [fl_prods nth]; [|auto].
  assert (0 <= a * b) by (apply Rmult_le_pos; assumption).
  destruct (fused k); [assumption | apply (rnd_pos u eta fmt rnd H); assumption].
Qed.

Lemma row_pos : forall e r, Forall (Rle 0) e -> Forall (Rle 0) (fl_row rnd fexp e r).
Proof.
  intros e r P. unfold fl_row. induction P as [|a e Ha P IH]; constructor; [|exact IH].
  destruct X as (_ & _ & HX). apply HX, arg_neg, Ha.
Qed.

Lemma eval_pos : forall fused t c e r, Forall (Rle 0) c -> Forall (Rle 0) e -> 0 <= fl_eval rnd fexp fused t c e r.
Proof. intros. apply dot_pos; [apply row_pos|]; assumption. Qed.

End Arith.
