(** Rounded arithmetic: values of models with normalized and with p-type functions. *)
From Coq Require Import Reals List ZArith Lia Lra Permutation.
From Verif Require Import XR SpecDens SpecRnd SpecRnd2 ModelRnd ModelRnd2 ProofRnd ProofRnd2 ProofRnd3.
Import ListNotations.
Local Open Scope R_scope.

Section Model.
Context (u eta : R) (fmt : R -> Prop) (rnd : R -> R) (H : rounding u eta fmt rnd) (Hu8 : u <= 1 / 8).

Notation within := (within u).
Notation q := (/ (1 - u)).

Lemma u0 : 0 <= u. Proof. apply (rd_u _ _ _ _ H). Qed.
Lemma q_inv : (1 - u) * q = 1. Proof. apply Rinv_r. generalize u0; lra. Qed.
Lemma q_ge : 1 + u <= q.
Proof.
  assert (U := u0). apply Rmult_le_reg_l with (1 - u); [lra|]. rewrite q_inv.
  assert (0 <= u * u) by (apply Rmult_le_pos; lra). lra.
Qed.
Lemma q_87 : q <= 8 / 7.
Proof. apply Rmult_le_reg_l with (1 - u); [lra|]. rewrite q_inv. lra. Qed.
Lemma q_pow1 : forall k, 1 <= q ^ k.
Proof. intro k. apply pow_R1_Rle. generalize q_ge, u0; lra. Qed.
Lemma q_mono : forall j k, (j <= k)%nat -> q ^ j <= q ^ k.
Proof. intros j k L. apply Rle_pow; [generalize q_ge, u0; lra | exact L]. Qed.
Lemma q_pow_inv : forall k, (1 - u) ^ k * q ^ k = 1.
Proof. intro k. rewrite <- Rpow_mult_distr, q_inv, pow1. reflexivity. Qed.
Lemma uq_pos : forall k, 0 < (1 - u) ^ k. Proof. intro k. apply pow_lt. lra. Qed.

Lemma within_up : forall k a b, within k a b -> a <= q ^ k * b.
Proof.
  intros k a b [_ L]. apply Rmult_le_reg_l with ((1 - u) ^ k); [apply uq_pos|].
  rewrite <- Rmult_assoc, q_pow_inv. lra.
Qed.

Lemma within_diff : forall k a b, 0 <= b -> within k a b -> Rabs (a - b) <= (q ^ k - 1) * b.
Proof.
  intros k a b Hb W. assert (U := within_up _ _ _ W). destruct W as [W _]. apply Rabs_le. split; [|lra].
  assert (E := q_pow_inv k). assert (Q := q_pow1 k). assert (P := uq_pos k).
  assert (2 <= q ^ k + (1 - u) ^ k).
  { set (x := (1 - u) ^ k) in *. set (y := q ^ k) in *. clearbody x y.
    assert (0 <= (y - 1) * (y - 1)) by apply Rle_0_sqr. 
    assert (x * ((y - 1) * (y - 1)) = y + x - 2) by (replace (x * ((y - 1) * (y - 1))) with ((x * y) * y - 2 * (x * y) + x) by ring; rewrite E; ring).
    assert (0 <= x * ((y - 1) * (y - 1))) by (apply Rmult_le_pos; lra). lra. }
  assert (0 <= (q ^ k + (1 - u) ^ k - 2) * b) by (apply Rmult_le_pos; lra). lra.
Qed.

(** [m'] approximates [m], which lies in [0 .. F]: [A] is the error of the Gaussian, [k] the number
    of roundings, [e] the error of underflow. *)
Definition appr (A : R) (k : nat) (e m' m F : R) : Prop :=
  0 <= m <= F /\ Rabs (m' - m) <= (q ^ k * (1 + A) - 1) * F + e.

Lemma appr_abs : forall A k e m' m F, appr A k e m' m F -> Rabs m' <= q ^ k * (1 + A) * F + e.
Proof.
  intros A k e m' m F [B C]. replace m' with (m + (m' - m)) by ring. eapply Rle_trans; [apply Rabs_triang|].
  rewrite (Rabs_pos_eq m) by lra. lra.
Qed.

Lemma appr_weaken : forall A k k' e e' m' m F, 0 <= A -> (k <= k')%nat -> e <= e' -> appr A k e m' m F -> appr A k' e' m' m F.
Proof.
  intros A k k' e e' m' m F HA L L' [B C]. split; [exact B|].
  assert (Q := q_mono _ _ L). assert (q ^ k * ((1 + A) * F) <= q ^ k' * ((1 + A) * F)).
  { apply Rmult_le_compat_r; [apply Rmult_le_pos; lra | exact Q]. }
  lra.
Qed.

Lemma appr_rnd : forall A k e m' m F, 0 <= A -> 0 <= e -> appr A k e m' m F -> appr A (S k) (q * e + eta) (rnd m') m F.
Proof.
  intros A k e m' m F HA He X. assert (B := appr_abs _ _ _ _ _ _ X). destruct X as [X Y]. split; [exact X|].
  assert (E := rd_err _ _ _ _ H m'). assert (G := q_ge). assert (U := u0).
  replace (rnd m' - m) with ((rnd m' - m') + (m' - m)) by ring. eapply Rle_trans; [apply Rabs_triang|].
  assert (u * Rabs m' <= (q - 1) * (q ^ k * (1 + A) * F + e)).
  { apply Rmult_le_compat; [exact U | apply Rabs_pos | lra | exact B]. }
  cbn [pow]. lra.
Qed.

Lemma appr_mult : forall A k j e m' m F f' f, 0 <= A -> 0 <= e -> 0 <= f -> 0 <= f' -> within j f' f ->
  appr A k e m' m F -> appr A (k + j) (e * (q ^ j * f)) (m' * f') (m * f) (F * f).
Proof.
  intros A k j e m' m F f' f HA He Hf Hf' W [B C].
  assert (Up := within_up _ _ _ W). assert (Df := within_diff _ _ _ Hf W).
  split; [split; [apply Rmult_le_pos; lra | apply Rmult_le_compat_r; lra]|].
  replace (m' * f' - m * f) with ((m' - m) * f' + m * (f' - f)) by ring.
  eapply Rle_trans; [apply Rabs_triang|]. rewrite !Rabs_mult, (Rabs_pos_eq f' Hf'), (Rabs_pos_eq m) by lra.
  assert (HF : 0 <= F) by lra.
  assert (Q := q_pow1 k). assert (Q' := q_pow1 j).
  assert (T1 : Rabs (m' - m) * f' <= ((q ^ k * (1 + A) - 1) * F + e) * (q ^ j * f)).
  { apply Rmult_le_compat; [apply Rabs_pos | exact Hf' | exact C | exact Up]. }
  assert (T2 : m * Rabs (f' - f) <= F * ((q ^ j - 1) * f)).
  { apply Rmult_le_compat; [lra | apply Rabs_pos | lra | exact Df]. }
  rewrite pow_add. lra.
Qed.

(** *** Powers *)
Lemma within_Rpower : forall k k' s x y, 0 < x -> 0 < y -> 0 <= s -> s * INR k <= INR k' ->
  within k x y -> within k' (Rpower x s) (Rpower y s).
Proof.
  intros k k' s x y Hx Hy Hs L. assert (U := u0).
  assert (P : forall a b, 0 < a -> 0 < b -> (1 - u) ^ k * b <= a -> (1 - u) ^ k' * Rpower b s <= Rpower a s).
  { intros a b Ha Hb Ln. apply Rle_trans with (Rpower ((1 - u) ^ k * b) s).
    - rewrite <- Rpower_mult_distr by (auto; apply uq_pos). apply Rmult_le_compat_r; [left; apply exp_pos|].
      rewrite <- !Rpower_pow by lra. rewrite Rpower_mult.
      assert (Ln1 : ln (1 - u) <= 0).
      { rewrite <- ln_1. destruct (Req_dec u 0) as [->|N]; [rewrite Rminus_0_r; lra | left; apply ln_increasing; lra]. }
      unfold Rpower. assert (E : INR k' * ln (1 - u) <= INR k * s * ln (1 - u)).
      { apply Ropp_le_cancel. rewrite !Ropp_mult_distr_r. apply Rmult_le_compat_r; lra. }
      destruct E as [E|E]; [left; apply exp_increasing; exact E | rewrite E; lra].
    - destruct Ln as [Ln|Ln]; [|rewrite Ln; lra].
      apply Rle_Rpower_l; [exact Hs|]. split; [apply Rmult_lt_0_compat; [apply uq_pos | exact Hb] | lra]. }
  intros [W1 W2]. split; apply P; assumption.
Qed.

(** The rounding of a product or quotient that does not underflow. *)
Lemma within_normal : forall x, 0 <= x -> Rabs (rnd x - x) <= u * Rabs x -> within 1 (rnd x) x.
Proof.
  intros x Hx E. assert (U := u0). rewrite (Rabs_pos_eq x Hx) in E.
  assert (E1 : rnd x <= (1 + u) * x) by (generalize (Rle_abs (rnd x - x)); lra).
  assert (E2 : (1 - u) * x <= rnd x) by (generalize (Rle_abs (- (rnd x - x))); rewrite Rabs_Ropp; lra).
  split; simpl; rewrite Rmult_1_r; [exact E2|].
  assert ((1 - u) * rnd x <= (1 - u) * ((1 + u) * x)) by (apply Rmult_le_compat_l; lra).
  assert (0 <= u * u * x) by (apply Rmult_le_pos; [apply Rmult_le_pos; lra | exact Hx]). lra.
Qed.

Lemma within_weak : forall k k' a b, (k <= k')%nat -> 0 <= a -> 0 <= b -> within k a b -> within k' a b.
Proof.
  intros k k' a b L Ha Hb [C D]. assert (U := u0).
  assert (P : (1 - u) ^ k' <= (1 - u) ^ k).
  { replace k' with ((k' - k) + k)%nat by lia. rewrite pow_add.
    assert ((1 - u) ^ (k' - k) <= 1) by (assert (T := pow_incr (1 - u) 1 (k' - k)); rewrite pow1 in T; apply T; lra).
    assert (Q := uq_pos k). assert ((1 - u) ^ (k' - k) * (1 - u) ^ k <= 1 * (1 - u) ^ k) by (apply Rmult_le_compat_r; lra). lra. }
  split; [assert ((1 - u) ^ k' * b <= (1 - u) ^ k * b) by (apply Rmult_le_compat_r; lra); lra
         | assert ((1 - u) ^ k' * a <= (1 - u) ^ k * a) by (apply Rmult_le_compat_r; lra); lra].
Qed.

Lemma within_tr : forall k k' a b c, within k a b -> within k' b c -> within (k + k') a c.
Proof.
  intros k k' a b c [C D] [C' D']. assert (Q := uq_pos k). assert (Q' := uq_pos k'). unfold SpecRnd.within. rewrite pow_add. split.
  - rewrite Rmult_assoc. assert ((1 - u) ^ k * ((1 - u) ^ k' * c) <= (1 - u) ^ k * b) by (apply Rmult_le_compat_l; lra). lra.
  - replace ((1 - u) ^ k * (1 - u) ^ k' * a) with ((1 - u) ^ k' * ((1 - u) ^ k * a)) by ring.
    assert ((1 - u) ^ k' * ((1 - u) ^ k * a) <= (1 - u) ^ k' * b) by (apply Rmult_le_compat_l; lra). lra.
Qed.

Lemma within_quot : forall k k' a b a' b', 0 <= a -> 0 <= b -> 0 < a' -> 0 < b' ->
  within k a b -> within k' a' b' -> within (k + k') (a / a') (b / b').
Proof.
  intros k k' a b a' b' Ha Hb Ha' Hb' [C D] [C' D']. unfold SpecRnd.within. rewrite pow_add.
  assert (Q := uq_pos k). assert (Q' := uq_pos k').
  assert (G : forall x y x' y', 0 <= x -> 0 <= y -> 0 < x' -> 0 < y' -> (1 - u) ^ k * y <= x -> (1 - u) ^ k' * x' <= y' ->
    (1 - u) ^ k * (1 - u) ^ k' * (y / y') <= x / x').
  { intros x y x' y' Hx Hy Hx' Hy' L L'. apply Rmult_le_reg_r with (x' * y'); [apply Rmult_lt_0_compat; assumption|].
    replace ((1 - u) ^ k * (1 - u) ^ k' * (y / y') * (x' * y')) with (((1 - u) ^ k * y) * ((1 - u) ^ k' * x')) by (field; lra).
    replace (x / x' * (x' * y')) with (x * y') by (field; lra).
    apply Rmult_le_compat; auto; apply Rmult_le_pos; lra. }
  split; apply G; auto.
Qed.

Lemma within_gt : forall k a b, 0 < b -> within k a b -> 0 < a.
Proof. intros k a b Hb [C _]. assert (0 < (1 - u) ^ k * b) by (apply Rmult_lt_0_compat; [apply uq_pos | exact Hb]). lra. Qed.

Lemma pi_within : forall pi, Rabs (pi - PI) <= u * PI -> 1 < pi /\ within 1 pi PI.
Proof.
  intros pi E. assert (U := u0). assert (P3 : 3 < PI) by (generalize PI2_3_2; lra).
  assert (E1 : pi <= (1 + u) * PI) by (generalize (Rle_abs (pi - PI)); lra).
  assert (E2 : (1 - u) * PI <= pi) by (generalize (Rle_abs (- (pi - PI))); rewrite Rabs_Ropp; lra).
  assert (7 / 8 * 3 <= (1 - u) * PI) by (apply Rmult_le_compat; lra).
  split; [lra|]. split; simpl; rewrite Rmult_1_r; [exact E2|].
  assert ((1 - u) * pi <= (1 - u) * ((1 + u) * PI)) by (apply Rmult_le_compat_l; lra).
  assert (0 <= u * u * PI) by (apply Rmult_le_pos; [apply Rmult_le_pos; lra | lra]). lra.
Qed.

Lemma Rpower_ge1 : forall x s, 1 <= x -> 0 <= s -> 1 <= Rpower x s.
Proof.
  intros x s Hx Hs. rewrite <- (Rpower_O x) by lra. destruct Hx as [Hx|Hx].
  - apply Rle_Rpower; lra.
  - rewrite <- Hx. unfold Rpower. rewrite ln_1, !Rmult_0_r. lra.
Qed.

Lemma pow_78 : forall k, (k <= 3)%nat -> 1 / 2 <= (1 - u) ^ k.
Proof.
  intros k L. assert (U := u0). apply Rle_trans with ((7 / 8) ^ k).
  - destruct k as [|[|[|[|k]]]]; [simpl; lra | simpl; lra | simpl; lra | simpl; lra | lia].
  - apply pow_incr. lra.
Qed.

Section Norm.
Context (lo : R) (k : nat) (fpow : R -> R -> R) (pi : R).
Hypothesis (Hlo : 0 < lo <= 1 / 2) (Nr : normal u lo rnd) (Pw : pow_error u lo k fpow)
  (Hpi : Rabs (pi - PI) <= u * PI) (Hk : 1 / 2 <= (1 - u) ^ (2 * k + 2)).

Lemma norm_pos : forall p a, 0 <= a -> 0 <= fl_norm rnd fpow pi p a.
Proof.
  intros p a Ha. destruct (pi_within pi Hpi) as [P1 _]. destruct Pw as [Pp _]. unfold fl_norm. destruct p.
  - apply (rnd_pos u eta fmt rnd H).
    assert (A := Pp a (5 / 2) Ha). assert (B := Pp pi (3 / 2) ltac:(lra)).
    destruct B as [B|B]; [apply Rmult_le_pos; [exact A | left; apply Rinv_0_lt_compat, B]|].
    rewrite <- B. unfold Rdiv at 1. rewrite Rinv_0. lra.
  - apply Pp, (rnd_pos u eta fmt rnd H). apply Rmult_le_pos; [exact Ha | left; apply Rinv_0_lt_compat; lra].
Qed.

Lemma norm_s : forall a, 0 < a -> 2 * lo <= norm_const false a ->
  within (k + 3) (fl_norm rnd fpow pi false a) (norm_const false a).
Proof.
  intros a Ha L. unfold fl_norm, norm_const in *. destruct (pi_within pi Hpi) as [P1 Wpi]. destruct Pw as [_ Pp].
  assert (HPI := PI_RGT_0). set (x := a / PI) in *.
  assert (Hx : 0 < x) by (apply Rdiv_lt_0_compat; assumption).
  assert (Lx : 2 * lo <= x).
  { destruct (Rle_lt_dec 1 x) as [G|G]; [lra|].
    apply Rle_trans with (Rpower x (3 / 2)); [exact L|]. rewrite <- (Rpower_1 x) at 2 by exact Hx.
    unfold Rpower. assert (ln x < 0) by (rewrite <- ln_1; apply ln_increasing; lra). left. apply exp_increasing. lra. }
  assert (W0 : within (0 + 1) (a / pi) x).
  { apply within_quot; try lra; [split; simpl; lra | exact Wpi]. }
  assert (Hq : 0 < a / pi) by (apply Rdiv_lt_0_compat; lra).
  assert (Lq : lo <= Rabs (a / pi)).
  { rewrite Rabs_pos_eq by lra. destruct W0 as [W0 _].
    assert (1 / 2 * x <= (1 - u) ^ (0 + 1) * x) by (apply Rmult_le_compat_r; [lra | apply pow_78; simpl; lia]). lra. }
  assert (W1 := within_normal _ (Rlt_le _ _ Hq) (Nr _ Lq)).
  assert (W2 := within_tr _ _ _ _ _ W1 W0). simpl in W2.
  assert (Hr : 0 < rnd (a / pi)) by (eapply within_gt; [exact Hx | exact W2]).
  assert (W3 : within 3 (Rpower (rnd (a / pi)) (3 / 2)) (Rpower x (3 / 2))).
  { apply (within_Rpower 2); auto; [lra | simpl; lra]. }
  eapply within_tr; [|exact W3]. apply Pp; [exact Hr|].
  destruct W3 as [W3 _]. assert (Px : 0 < Rpower x (3 / 2)) by apply exp_pos.
  assert (1 / 2 * Rpower x (3 / 2) <= (1 - u) ^ 3 * Rpower x (3 / 2)) by (apply Rmult_le_compat_r; [lra | apply pow_78; lia]). lra.
Qed.

Lemma norm_p : forall a, 0 < a -> 2 * lo <= norm_const true a ->
  within (2 * k + 3) (fl_norm rnd fpow pi true a) (3 / 2 * norm_const true a).
Proof.
  intros a Ha L. unfold fl_norm, norm_const in *. destruct (pi_within pi Hpi) as [P1 Wpi]. destruct Pw as [Pn Pp].
  assert (P3 : 3 < PI) by (generalize PI2_3_2; lra).
  set (A := Rpower a (5 / 2)) in *. set (B := Rpower PI (3 / 2)) in *.
  assert (HA : 0 < A) by apply exp_pos.
  assert (HB : 1 <= B) by (apply Rpower_ge1; lra).
  replace (3 / 2 * (2 / 3 * (A / B))) with (A / B) by lra.
  assert (LA : 3 * lo <= A).
  { assert (3 * lo * B <= A / B * B) by (apply Rmult_le_compat_r; lra).
    replace (A / B * B) with A in * by (field; lra).
    assert (3 * lo * 1 <= 3 * lo * B) by (apply Rmult_le_compat_l; lra). lra. }
  assert (W1 : within k (fpow a (5 / 2)) A) by (apply Pp; [exact Ha | fold A; lra]).
  assert (LB : 1 <= Rpower pi (3 / 2)) by (apply Rpower_ge1; lra).
  assert (W2 : within k (fpow pi (3 / 2)) (Rpower pi (3 / 2))) by (apply Pp; lra).
  assert (W3 : within 2 (Rpower pi (3 / 2)) B) by (apply (within_Rpower 1); try lra; [simpl; lra | exact Wpi]).
  assert (W4 := within_tr _ _ _ _ _ W2 W3).
  assert (Hf : 0 < fpow pi (3 / 2)) by (eapply within_gt; [|exact W4]; lra).
  assert (Ha' : 0 < fpow a (5 / 2)) by (eapply within_gt; [|exact W1]; exact HA).
  assert (W5 : within (k + (k + 2)) (fpow a (5 / 2) / fpow pi (3 / 2)) (A / B)) by (apply within_quot; auto; lra).
  assert (HAB : 0 < A / B) by (apply Rdiv_lt_0_compat; lra).
  assert (Hq : 0 < fpow a (5 / 2) / fpow pi (3 / 2)) by (apply Rdiv_lt_0_compat; assumption).
  replace (2 * k + 3)%nat with (1 + (k + (k + 2)))%nat by lia.
  eapply within_tr; [|exact W5]. apply within_normal; [lra|]. apply Nr. rewrite Rabs_pos_eq by lra.
  destruct W5 as [W5 _]. replace (k + (k + 2))%nat with (2 * k + 2)%nat in W5 by lia.
  assert (1 / 2 * (A / B) <= (1 - u) ^ (2 * k + 2) * (A / B)) by (apply Rmult_le_compat_r; lra). lra.
Qed.

Section Exp.
Context (v z : R) (fexp : R -> R) (X : exp_error v z fexp) (M : R) (HM : 0 <= M).
Notation A := (gauss_error u eta v z M).

Lemma A_pos : 0 <= A.
Proof. apply (gauss_error_pos u eta fmt rnd H v z fexp X), HM. Qed.

Lemma exp_unit : forall a r, 0 <= a -> 0 <= exp (- a * (r * r)) <= 1.
Proof.
  intros a r Ha. split; [left; apply exp_pos|]. rewrite <- exp_0.
  assert (Hn : 0 <= a * (r * r)) by (apply Rmult_le_pos; [lra | apply Rle_0_sqr]).
  replace (- a * (r * r)) with (- (a * (r * r))) by ring.
  destruct Hn as [Hn|Hn]; [left; apply exp_increasing; lra | rewrite <- Hn, Ropp_0; lra].
Qed.

Lemma gauss_appr : forall a r, 0 <= a <= M ->
  appr A 0 0 (fexp (rnd (- a * rnd (r * r)))) (exp (- a * (r * r))) 1.
Proof.
  intros a r Ha. split; [apply exp_unit; lra|].
  assert (G := gauss_close u eta fmt rnd H v z fexp X a r M Ha Hu8). simpl. lra.
Qed.

Lemma square_within : forall r, r = 0 \/ lo <= r ^ 2 -> within 1 (rnd (r * r)) (r * r).
Proof.
  intros r [->|L].
  - rewrite Rmult_0_l, (rnd_0 u eta fmt rnd H). split; lra.
  - assert (S := Rle_0_sqr r). unfold Rsqr in S. apply within_normal; [exact S|]. apply Nr. rewrite Rabs_pos_eq by exact S.
    simpl in L. rewrite Rmult_1_r in L. exact L.
Qed.

Lemma size_pos : forall norm p a, 0 < size norm p a.
Proof.
  intros norm p a. unfold size, norm_const. destruct norm; [|lra]. destruct p; [|apply exp_pos].
  apply Rmult_lt_0_compat; [lra|]. apply Rdiv_lt_0_compat; apply exp_pos.
Qed.

Lemma elem_appr : forall norm p r a, 0 <= a <= M -> safe lo norm p r a ->
  appr A (roundings norm p k) (eta * (2 + q ^ (2 * k + 5) * size norm p a))
    (fl_elem rnd fexp fpow pi norm p r a) (basis_fn norm p a r) (top norm p r a).
Proof.
  intros norm p r a Ha [S1 S2]. assert (He := rd_eta _ _ _ _ H). assert (HA := A_pos). assert (Q1 := q_pow1 (2 * k + 5)).
  assert (G := gauss_appr a r Ha). set (g' := fexp (rnd (- a * rnd (r * r)))) in *.
  assert (Er : r ^ 2 = r * r) by (simpl; ring).
  assert (Sz := size_pos norm p a).
  assert (Ee : eta <= eta * (2 + q ^ (2 * k + 5) * size norm p a)).
  { assert (0 <= q ^ (2 * k + 5) * size norm p a) by (apply Rmult_le_pos; lra).
    rewrite <- (Rmult_1_r eta) at 1. apply Rmult_le_compat_l; lra. }
  unfold fl_elem, basis_fn, top. fold g'. rewrite !Er. destruct p.
  - assert (Wr := square_within r (S2 eq_refl)).
    assert (R0 : 0 <= r * r) by apply Rle_0_sqr.
    assert (R1 : 0 <= rnd (r * r)) by (apply (rnd_pos u eta fmt rnd H), R0).
    assert (G1 := appr_mult _ _ _ _ _ _ _ _ _ HA (Rle_refl 0) R0 R1 Wr G). rewrite Rmult_0_l in G1.
    apply (appr_rnd _ _ _ _ _ _ HA (Rle_refl 0)) in G1.
    rewrite Rmult_0_r, Rplus_0_l in G1. cbn [Nat.add] in G1.
    destruct norm; unfold roundings, size in *.
    + destruct (S1 eq_refl) as [A0 Ln].
      assert (Wn := norm_p a A0 Ln). assert (Pn := norm_pos true a (Rlt_le _ _ A0)).
      set (N := norm_const true a) in *. set (N' := fl_norm rnd fpow pi true a) in *.
      assert (G2 := appr_mult _ _ _ _ _ _ _ N' (3 / 2 * N) HA He ltac:(lra) Pn Wn G1).
      set (e2 := eta * (q ^ (2 * k + 3) * (3 / 2 * N))) in *.
      assert (He2 : 0 <= e2).
      { unfold e2. apply Rmult_le_pos; [exact He|]. apply Rmult_le_pos; [generalize (q_pow1 (2 * k + 3)); lra | lra]. }
      assert (G3 := appr_rnd _ _ _ _ _ _ HA He2 G2).
      set (e3 := q * e2 + eta) in *.
      assert (Hq := q_ge). assert (U := u0). assert (Hq8 := q_87).
      assert (He3 : 0 <= e3) by (unfold e3; assert (0 <= q * e2) by (apply Rmult_le_pos; lra); lra).
      assert (W0 : within 0 (/ (3 / 2)) (/ (3 / 2))) by (split; simpl; lra).
      assert (G4 := appr_mult _ _ _ _ _ _ _ (/ (3 / 2)) (/ (3 / 2)) HA He3 ltac:(lra) ltac:(lra) W0 G3).
      assert (He4 : 0 <= e3 * (q ^ 0 * / (3 / 2))) by (apply Rmult_le_pos; [exact He3 | simpl; lra]).
      assert (G5 := appr_rnd _ _ _ _ _ _ HA He4 G4).
      replace (N * (r * r) * exp (- a * (r * r))) with (exp (- a * (r * r)) * (r * r) * (3 / 2 * N) * / (3 / 2)) by field.
      replace (N * (r * r)) with (1 * (r * r) * (3 / 2 * N) * / (3 / 2)) by field.
      eapply appr_weaken; [exact HA | | | exact G5]; [lia|].
      unfold e3, e2. replace (2 * k + 5)%nat with (S (S (2 * k + 3))) by lia. cbn [pow].
      replace (q * ((q * (eta * (q ^ (2 * k + 3) * (3 / 2 * N))) + eta) * (1 * / (3 / 2))) + eta)
        with (eta * (q * (q * q ^ (2 * k + 3)) * N + (q * / (3 / 2) + 1))) by (clear; set (Q := q ^ (2 * k + 3)); clearbody Q; set (qq := q); clearbody qq; field).
      apply Rmult_le_compat_l; [exact He|]. lra.
    + replace (1 * (r * r) * exp (- a * (r * r))) with (exp (- a * (r * r)) * (r * r)) by ring.
      eapply appr_weaken; [exact HA | | | exact G1]; [lia | exact Ee].
  - destruct norm; unfold roundings, size in *.
    + destruct (S1 eq_refl) as [A0 Ln].
      assert (Wn := norm_s a A0 Ln). assert (Pn := norm_pos false a (Rlt_le _ _ A0)).
      set (N := norm_const false a) in *. set (N' := fl_norm rnd fpow pi false a) in *.
      assert (G2 := appr_mult _ _ _ _ _ _ _ N' N HA (Rle_refl 0) ltac:(lra) Pn Wn G). rewrite Rmult_0_l in G2.
      apply (appr_rnd _ _ _ _ _ _ HA (Rle_refl 0)) in G2. rewrite Rmult_0_r, Rplus_0_l in G2.
      replace (N * 1 * exp (- a * (r * r))) with (exp (- a * (r * r)) * N) by ring.
      replace (N * 1) with (1 * N) by ring.
      eapply appr_weaken; [exact HA | | | exact G2]; [lia | exact Ee].
    + replace (1 * 1 * exp (- a * (r * r))) with (exp (- a * (r * r))) by ring. replace (1 * 1) with 1 by ring.
      eapply appr_weaken; [exact HA | | | exact G]; [lia|]. lra.
Qed.

Lemma elem_pos : forall norm p r a, 0 <= a -> 0 <= fl_elem rnd fexp fpow pi norm p r a.
Proof.
  intros norm p r a Ha. unfold fl_elem. set (g' := fexp (rnd (- a * rnd (r * r)))).
  assert (Hg : 0 <= g') by (destruct X as (_ & _ & HX); apply HX, (arg_neg u eta fmt rnd H), Ha).
  assert (R1 : 0 <= rnd (r * r)) by (apply (rnd_pos u eta fmt rnd H), Rle_0_sqr).
  assert (Pt := norm_pos true a Ha). assert (Pf := norm_pos false a Ha).
  assert (Pg : 0 <= rnd (g' * rnd (r * r))) by (apply (rnd_pos u eta fmt rnd H), Rmult_le_pos; assumption).
  destruct p, norm; try assumption; apply (rnd_pos u eta fmt rnd H).
  - assert (0 <= rnd (rnd (g' * rnd (r * r)) * fl_norm rnd fpow pi true a)); [|lra].
    apply (rnd_pos u eta fmt rnd H), Rmult_le_pos; assumption.
  - apply Rmult_le_pos; assumption.
Qed.

Lemma basis_pos : forall norm lay e, Forall (Rle 0) e -> Forall (Rle 0) (fl_basis rnd fexp fpow pi norm lay e).
Proof.
  intros norm. induction lay as [|[p r] lay IH]; intros e P; [constructor|]. destruct P as [|a e Ha P]; constructor.
  - apply elem_pos, Ha.
  - apply IH, P.
Qed.

Lemma model_pos : forall fused t norm lay c e, Forall (Rle 0) c -> Forall (Rle 0) e ->
  0 <= fl_model rnd fexp fpow pi fused t norm lay c e.
Proof. intros. apply (dot_pos u eta fmt rnd H); [apply basis_pos|]; assumption. Qed.

(** *** The sum *)
Lemma basis_length : forall norm lay e, length lay = length e -> length (fl_basis rnd fexp fpow pi norm lay e) = length e.
Proof.
  intro norm. induction lay as [|[p r] lay IH]; intros [|a e] L; try discriminate; [reflexivity|].
  cbn [fl_basis length]. rewrite IH; [reflexivity | simpl in L; lia].
Qed.

Lemma nth_basis : forall norm lay e i, length lay = length e -> (i < length e)%nat ->
  nth i (fl_basis rnd fexp fpow pi norm lay e) 0 = fl_elem rnd fexp fpow pi norm (fst (nth i lay (false, 0))) (snd (nth i lay (false, 0))) (nth i e 0).
Proof.
  intro norm. induction lay as [|[p r] lay IH]; intros [|a e] i L I; try discriminate; [simpl in I; lia|].
  destruct i as [|i]; [reflexivity|]. cbn [fl_basis nth]. apply IH; simpl in *; lia.
Qed.

Lemma rsum_pos_nth : forall l, (forall i, 0 <= nth i l 0) -> 0 <= rsum l.
Proof.
  induction l as [|a l IH]; intro P; unfold rsum in *; cbn [fold_right]; [lra|].
  assert (P0 := P 0%nat). assert (0 <= fold_right Rplus 0 l) by (apply IH; intro i; apply (P (S i))). simpl in P0. lra.
Qed.

(** Terms of a sum over the basis functions. *)
Fixpoint terms (F : bool -> R -> R -> R -> R) (lay : list (bool * R)) (cs es : list R) : list R :=
  match lay, cs, es with
  | (p, r) :: l, c :: cs', a :: es' => F p r a c :: terms F l cs' es'
  | _, _, _ => []
  end.
Lemma terms_length : forall F lay c e, length lay = length c -> length e = length c -> length (terms F lay c e) = length c.
Proof.
  intro F. induction lay as [|[p r] lay IH]; intros [|b c] [|a e] L L'; try discriminate; [reflexivity|].
  cbn [terms length]. rewrite IH; [reflexivity | simpl in *; lia | simpl in *; lia].
Qed.
Lemma nth_terms : forall F lay c e i, length lay = length c -> length e = length c -> (i < length c)%nat ->
  nth i (terms F lay c e) 0 = F (fst (nth i lay (false, 0))) (snd (nth i lay (false, 0))) (nth i e 0) (nth i c 0).
Proof.
  intro F. induction lay as [|[p r] lay IH]; intros [|b c] [|a e] i L L' I; try discriminate; [simpl in I; lia|].
  destruct i as [|i]; [reflexivity|]. cbn [terms nth]. apply IH; simpl in *; lia.
Qed.
Lemma terms_gsum : forall norm lay c e, rsum (terms (fun p r a c => c * basis_fn norm p a r) lay c e) = gsum norm lay c e.
Proof.
  intro norm. induction lay as [|[p r] lay IH]; intros [|b c] [|a e]; try reflexivity.
  cbn [terms gsum]. rewrite <- IH. reflexivity.
Qed.
Lemma terms_spread : forall F lay c e, rsum (terms (fun p r a c => Rabs c * F p r a) lay c e) = spread F lay c e.
Proof.
  intro F. induction lay as [|[p r] lay IH]; intros [|b c] [|a e]; try reflexivity.
  cbn [terms spread]. rewrite <- IH. reflexivity.
Qed.
Lemma terms_affine : forall F G x y w lay c e, length lay = length c -> length e = length c ->
  rsum (terms (fun p r a c => Rabs c * (x * F p r a + y * G p r a) + w) lay c e) =
    x * spread F lay c e + y * spread G lay c e + INR (length c) * w.
Proof.
  intros F G x y w. induction lay as [|[p r] lay IH]; intros [|b c] [|a e] L L'; try discriminate; [simpl; unfold rsum; simpl; ring|].
  cbn [terms spread length]. rewrite S_INR. unfold rsum in *. cbn [fold_right]. rewrite IH by (simpl in *; lia). ring.
Qed.

Lemma safe_at : forall norm lay e i, length lay = length e -> (i < length e)%nat ->
  Forall2 (fun pr a => 0 <= a <= M /\ safe lo norm (fst pr) (snd pr) a) lay e ->
  0 <= nth i e 0 <= M /\ safe lo norm (fst (nth i lay (false, 0))) (snd (nth i lay (false, 0))) (nth i e 0).
Proof.
  intros norm lay e i L I F. revert i I. induction F as [|[p r] a lay e P F IH]; intros i I; [simpl in I; lia|].
  destruct i as [|i]; [exact P|]. cbn [nth]. apply IH; simpl in *; lia.
Qed.

Lemma model_error : forall fused t norm lay c e K, length lay = length c -> length e = length c -> orders (length c) t ->
  Forall2 (fun pr a => 0 <= a <= M /\ safe lo norm (fst pr) (snd pr) a) lay e ->
  Forall (fun pr => (roundings norm (fst pr) k <= K)%nat) lay ->
  Rabs (fl_model rnd fexp fpow pi fused t norm lay c e - gsum norm lay c e) <=
    (q ^ (height t + 1 + K) * (1 + A) - 1) * spread (top norm) lay c e
    + q ^ (height t + 1) * (eta * (spread (fun p r a => 2 + q ^ (2 * k + 5) * size norm p a) lay c e + INR (length c + additions t))).
Proof.
  intros fused t norm lay c e K Ll Le O Sf RK. assert (He := rd_eta _ _ _ _ H). assert (HA := A_pos).
  assert (U := u0). assert (Hq := q_ge).
  set (G := fun (p : bool) (r a : R) => 2 + q ^ (2 * k + 5) * size norm p a).
  assert (HG : forall p r a, 0 <= G p r a).
  { intros p r a. unfold G. assert (0 <= q ^ (2 * k + 5) * size norm p a); [|lra].
    apply Rmult_le_pos; [generalize (q_pow1 (2 * k + 5)); lra | left; apply size_pos]. }
  assert (HT : forall p r a, 0 <= top norm p r a).
  { intros p r a. unfold top. apply Rmult_le_pos; [left; apply size_pos|]. destruct p; [apply pow2_ge_0 | lra]. }
  set (x := q ^ (K + 1) * (1 + A) - 1).
  assert (Hx : 0 <= x).
  { unfold x. assert (1 * 1 <= q ^ (K + 1) * (1 + A)) by (apply Rmult_le_compat; [lra | lra | apply q_pow1 | lra]). lra. }
  set (E := fun p r a c => Rabs c * (x * top norm p r a + (q * eta) * G p r a) + eta).
  assert (HE : forall p r a c, 0 <= E p r a c).
  { intros p r a c0. unfold E. assert (0 <= Rabs c0 * (x * top norm p r a + q * eta * G p r a)); [|lra].
    apply Rmult_le_pos; [apply Rabs_pos|]. specialize (HT p r a). specialize (HG p r a).
    assert (0 <= x * top norm p r a) by (apply Rmult_le_pos; assumption).
    assert (0 <= q * eta * G p r a) by (apply Rmult_le_pos; [apply Rmult_le_pos; lra | assumption]). lra. }
  assert (C : close u (height t + 0) ((1 + u) ^ height t * (tsum t (terms E lay c e) + INR (additions t) * eta))
     (fl_sum rnd t (fl_prods rnd fused 0 (fl_basis rnd fexp fpow pi norm lay e) c))
     (tsum t (terms (fun p r a c => c * basis_fn norm p a r) lay c e))
     (tsum t (terms (fun p r a c => Rabs c * top norm p r a) lay c e))).
  { apply (fl_sum_close_any u eta fmt rnd H).
    - intro i. destruct (Nat.lt_ge_cases i (length c)) as [I|I].
      + rewrite nth_terms by auto. apply HE.
      + rewrite nth_overflow by (rewrite terms_length by auto; exact I). lra.
    - intros i I. apply (orders_lt _ _ _ O) in I.
      assert (Lb : length (fl_basis rnd fexp fpow pi norm lay e) = length c) by (rewrite basis_length by lia; exact Le).
      rewrite !nth_terms by auto. rewrite nth_fl_prods by auto. rewrite Nat.add_0_l. rewrite nth_basis by lia.
      destruct (safe_at norm lay e i ltac:(lia) ltac:(lia) Sf) as [Ai Si].
      assert (Ri : (roundings norm (fst (nth i lay (false, 0%R))) k <= K)%nat).
      { rewrite Forall_forall in RK. apply (RK (nth i lay (false, 0))), nth_In. lia. }
      set (p := fst (nth i lay (false, 0))) in *. set (r := snd (nth i lay (false, 0))) in *.
      set (c0 := nth i c 0). set (a := nth i e 0) in *.
      assert (Ap := elem_appr norm p r a Ai Si).
      change (eta * (2 + q ^ (2 * k + 5) * size norm p a)) with (eta * G p r a) in Ap.
      apply (appr_weaken _ _ K _ (eta * G p r a)) in Ap; [|exact HA | exact Ri | lra].
      set (m' := fl_elem rnd fexp fpow pi norm p r a) in *. set (m := basis_fn norm p a r) in *. set (T := top norm p r a) in *.
      assert (HGi := HG p r a). assert (HTi := HT p r a). fold T in HTi. set (g := G p r a) in *.
      assert (Ab := appr_abs _ _ _ _ _ _ Ap). destruct Ap as [Bm Em].
      assert (Hc := Rabs_pos c0).
      assert (E1 : Rabs (m' * c0 - c0 * m) <= Rabs c0 * ((q ^ K * (1 + A) - 1) * T + eta * g)).
      { replace (m' * c0 - c0 * m) with (c0 * (m' - m)) by ring. rewrite Rabs_mult. apply Rmult_le_compat_l; assumption. }
      assert (Up : u <= q - 1) by lra.
      assert (Z : 0 <= q ^ K * (1 + A) * T + eta * g) by (generalize (Rabs_pos m'); lra).
      assert (D : (q ^ K * (1 + A) - 1) * T + eta * g + u * (q ^ K * (1 + A) * T + eta * g) <= x * T + q * eta * g).
      { unfold x. rewrite pow_add, pow_1.
        assert (u * (q ^ K * (1 + A) * T + eta * g) <= (q - 1) * (q ^ K * (1 + A) * T + eta * g)) by (apply Rmult_le_compat_r; lra). lra. }
      split.
      + rewrite Rabs_mult, (Rabs_pos_eq m) by lra. apply Rmult_le_compat_l; lra.
      + cbn [pow]. replace ((1 - 1) * (Rabs c0 * T) + E p r a c0) with (E p r a c0) by ring. unfold E. fold T g.
        assert (Zu : 0 <= u * (q ^ K * (1 + A) * T + eta * g)) by (apply Rmult_le_pos; lra).
        assert (D' : Rabs c0 * ((q ^ K * (1 + A) - 1) * T + eta * g + u * (q ^ K * (1 + A) * T + eta * g)) <= Rabs c0 * (x * T + q * eta * g))
          by (apply Rmult_le_compat_l; assumption).
        assert (Zc : 0 <= Rabs c0 * (u * (q ^ K * (1 + A) * T + eta * g))) by (apply Rmult_le_pos; assumption).
        rewrite Rmult_plus_distr_l in D'.
        destruct (fused i); [lra|].
        replace (rnd (m' * c0) - c0 * m) with ((rnd (m' * c0) - m' * c0) + (m' * c0 - c0 * m)) by ring.
        eapply Rle_trans; [apply Rabs_triang|].
        assert (Er := rd_err _ _ _ _ H (m' * c0)). rewrite (Rabs_mult m' c0) in Er.
        assert (u * (Rabs m' * Rabs c0) <= Rabs c0 * (u * (q ^ K * (1 + A) * T + eta * g))).
        { replace (u * (Rabs m' * Rabs c0)) with (Rabs c0 * (u * Rabs m')) by ring.
          apply Rmult_le_compat_l; [exact Hc|]. apply Rmult_le_compat_l; assumption. }
        lra. }
  assert (Lt : forall F, length (terms F lay c e) = length c) by (intro F; apply terms_length; auto).
  rewrite (tsum_all t (terms E lay c e)) in C by (rewrite Lt; exact O).
  rewrite !(tsum_all t (terms _ lay c e)) in C by (rewrite Lt; exact O).
  rewrite terms_gsum, terms_spread in C. unfold E in C. rewrite terms_affine in C by auto. destruct C as [_ C].
  unfold fl_model, fl_dot. eapply Rle_trans; [exact C|]. clear C. rewrite Nat.add_0_r.
  assert (Pq : (1 + u) ^ height t <= q ^ height t) by (apply pow_incr; lra).
  assert (P1 : 1 <= (1 + u) ^ height t) by (apply pow_R1_Rle; lra).
  set (S1 := spread (top norm) lay c e) in *. set (S2 := spread G lay c e) in *.
  assert (HS1 : 0 <= S1) by (unfold S1; rewrite <- terms_spread; apply rsum_pos_nth; intro i; destruct (Nat.lt_ge_cases i (length c)) as [I|I];
     [rewrite nth_terms by auto; apply Rmult_le_pos; [apply Rabs_pos | apply HT] | rewrite nth_overflow by (rewrite Lt; exact I); lra]).
  assert (HS2 : 0 <= S2) by (unfold S2; rewrite <- terms_spread; apply rsum_pos_nth; intro i; destruct (Nat.lt_ge_cases i (length c)) as [I|I];
     [rewrite nth_terms by auto; apply Rmult_le_pos; [apply Rabs_pos | apply HG] | rewrite nth_overflow by (rewrite Lt; exact I); lra]).
  rewrite !pow_add, plus_INR, pow_1.
  set (P := (1 + u) ^ height t) in *. set (Q := q ^ height t) in *.
  assert (Hn : 0 <= INR (length c)) by apply pos_INR. assert (Hd : 0 <= INR (additions t)) by apply pos_INR.
  set (n := INR (length c)) in *. set (d := INR (additions t)) in *.
  unfold x. rewrite pow_add, pow_1. set (B := q ^ K * (1 + A)) in *. replace (q ^ K * q * (1 + A)) with (B * q) by (unfold B; ring).
  assert (HB : 0 <= B * q * S1).
  { unfold B. apply Rmult_le_pos; [|exact HS1]. apply Rmult_le_pos; [|lra]. apply Rmult_le_pos; [generalize (q_pow1 K); lra | lra]. }
  assert (T1 : P * (B * q * S1) <= Q * (B * q * S1)) by (apply Rmult_le_compat_r; assumption).
  assert (HZ : 0 <= q * (eta * S2) + (n + d) * eta).
  { assert (0 <= q * (eta * S2)) by (apply Rmult_le_pos; [lra | apply Rmult_le_pos; assumption]).
    assert (0 <= (n + d) * eta) by (apply Rmult_le_pos; lra). lra. }
  assert (T2 : P * (q * (eta * S2) + (n + d) * eta) <= Q * (q * (eta * S2) + (n + d) * eta)) by (apply Rmult_le_compat_r; assumption).
  assert (T3 : Q * ((n + d) * eta) <= Q * (q * ((n + d) * eta))).
  { apply Rmult_le_compat_l; [lra|]. assert (0 <= (n + d) * eta) by (apply Rmult_le_pos; lra).
    assert (1 * ((n + d) * eta) <= q * ((n + d) * eta)) by (apply Rmult_le_compat_r; lra). lra. }
  replace ((Q * q * q ^ K * (1 + A) - 1) * S1) with (Q * (B * q * S1) - S1) by (unfold B; ring).
  clearbody P Q B S1 S2 n d. clear -T1 T2 T3. revert T1 T2 T3. generalize q. intros y T1 T2 T3.
  set (m := (n + d) * eta) in *. set (a := eta * S2) in *.
  replace ((P - 1) * S1 + P * ((B * y - 1) * S1 + y * eta * S2 + n * eta + d * eta))
    with (P * (B * y * S1) - S1 + P * (y * a + m)) by (unfold a, m; ring).
  replace (Q * y * (eta * (S2 + (n + d)))) with (Q * (y * a) + Q * (y * m)) by (unfold a, m; ring).
  lra.
Qed.

End Exp.
End Norm.
End Model.
