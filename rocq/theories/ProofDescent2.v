(** Rounded arithmetic: the objective of [ScipyFit] and its gradient for Gaussian models. *)
From Coq Require Import Reals List ZArith Lia Lra Arith.
From Flocq Require Raux.
From Verif Require Import SpecDens SpecRnd SpecRnd2 SpecRnd3 SpecRnd4 SpecSlope SpecDescent ModelRnd ModelRnd2 ModelRnd4 ModelSlope ModelDescent
  ProofRnd ProofRnd2 ProofRnd3 ProofRnd8 ProofRnd13 ProofRnd16 ProofSlope ProofSlope2.
Import ListNotations.
Local Open Scope R_scope.

Section Rounded.
Context (u eta : R) (fmt : R -> Prop) (rnd : R -> R) (H : rounding u eta fmt rnd) (Hu8 : u <= 1 / 8).
Notation q := (/ (1 - u)).

Lemma bounds_u : 0 <= u < 1 /\ 0 <= eta.
Proof. exact (conj (rd_u _ _ _ _ H) (rd_eta _ _ _ _ H)). Qed.

(** *** Measures of a model with an error *)
Lemma residual_near : forall f g g' d, Rabs (g' - g) <= d -> Rabs (rnd (f - g') - (f - g)) <= residual_bound u eta (f - g) d.
Proof.
  intros f g g' d D. destruct bounds_u as [U E]. assert (R1 := rd_err _ _ _ _ H (f - g')). unfold residual_bound.
  assert (T : Rabs (f - g') <= Rabs (f - g) + d).
  { replace (f - g') with ((f - g) + - (g' - g)) by ring. eapply Rle_trans; [apply Rabs_triang|]. rewrite Rabs_Ropp. lra. }
  replace (rnd (f - g') - (f - g)) with ((rnd (f - g') - (f - g')) + - (g' - g)) by ring. eapply Rle_trans; [apply Rabs_triang|]. rewrite Rabs_Ropp.
  assert (u * Rabs (f - g') <= u * (Rabs (f - g) + d)) by (apply Rmult_le_compat_l; lra). lra.
Qed.
Lemma square_all : forall w z fsq, square_error w z fsq -> forall f g g' d, Rabs (g' - g) <= d ->
  Rabs (fl_square rnd fsq f g' - square_loss f g) <= square_total u eta w z f g d.
Proof.
  intros w z fsq (Hw & Hz & _ & S) f g g' d D. unfold fl_square, square_loss, square_total. assert (N := residual_near f g g' d D).
  set (x := f - g) in *. set (y := rnd (f - g')) in *. set (b := residual_bound u eta x d) in *. destruct (S y) as [_ S1]. clearbody x y b.
  assert (B : Rabs y <= Rabs x + b) by (replace y with (x + (y - x)) by ring; eapply Rle_trans; [apply Rabs_triang|]; lra).
  assert (Y0 := Rabs_pos y). assert (X0 := Rabs_pos x). assert (Q1 : y * y <= (Rabs x + b) ^ 2).
  { replace (y * y) with (Rabs y * Rabs y) by (rewrite <- Rabs_mult; apply Rabs_pos_eq, Rle_0_sqr). replace ((Rabs x + b) ^ 2) with ((Rabs x + b) * (Rabs x + b)) by ring. apply Rmult_le_compat; assumption. }
  assert (Q2 : Rabs (y * y - x * x) <= (Rabs x + b) ^ 2 - x ^ 2).
  { replace (y * y - x * x) with ((y - x) * (y + x)) by ring. rewrite Rabs_mult.
    assert (X2 : x ^ 2 = Rabs x * Rabs x) by (rewrite <- Rabs_mult; rewrite Rabs_pos_eq by apply Rle_0_sqr; ring).
    assert (P : Rabs (y + x) <= b + 2 * Rabs x) by (eapply Rle_trans; [apply Rabs_triang|]; lra).
    assert (M := Rmult_le_compat _ _ _ _ (Rabs_pos (y - x)) (Rabs_pos (y + x)) N P). rewrite X2. eapply Rle_trans; [exact M|]. apply Req_le. ring. }
  replace (fsq y - x ^ 2) with ((fsq y - y * y) + (y * y - x * x)) by ring. eapply Rle_trans; [apply Rabs_triang|].
  assert (w * (y * y) <= w * (Rabs x + b) ^ 2) by (apply Rmult_le_compat_l; assumption). lra.
Qed.
Lemma square_change_all : forall f g g' d, Rabs (g' - g) <= d ->
  Rabs (fl_square_slope rnd f g' - square_change f g) <= square_change_total u eta f g d.
Proof.
  intros f g g' d D. unfold fl_square_slope, square_change, square_change_total. apply (prod_rnd u eta fmt rnd H Hu8); [apply near_refl | apply residual_near, D].
Qed.

Lemma ln_shift : forall g g' d, Rabs (g' - g) <= d -> d < g -> 0 < g' /\ Rabs (ln g' - ln g) <= ln (g / (g - d)).
Proof.
  intros g g' d D L. apply Raux.Rabs_le_inv in D. split; [lra|]. unfold Rdiv. rewrite ln_mult, ln_Rinv by (try apply Rinv_0_lt_compat; lra).
  assert (A : ln (g - d) <= ln g') by (destruct (Rle_lt_or_eq_dec (g - d) g' ltac:(lra)) as [X| ->]; [apply Rlt_le, ln_increasing; lra | apply Rle_refl]).
  assert (B : ln g' - ln g <= ln g - ln (g - d)).
  { assert (C : ln (g' * (g - d)) <= ln (g * g)).
    { assert (Q1 : g' * (g - d) <= g * g) by (apply Rle_trans with ((g + d) * (g - d)); [apply Rmult_le_compat_r; lra | nra]).
      assert (Q0 : 0 < g' * (g - d)) by (apply Rmult_lt_0_compat; lra).
      destruct (Rle_lt_or_eq_dec _ _ Q1) as [X|X]; [apply Rlt_le, ln_increasing; assumption | rewrite X; apply Rle_refl]. }
    rewrite !ln_mult in C by lra. lra. }
  apply Rabs_le. lra.
Qed.
Lemma kl_all : forall lo, normal u lo rnd -> forall w z flog, log_error w z flog -> forall mask f g g' d, Rabs (g' - g) <= d ->
  0 < f -> d < g -> mask < g - d -> lo <= f / (g + d) ->
  Rabs (fl_kl rnd flog mask f g' - kl_loss f g) <= kl_total u eta w z f g d.
Proof.
  intros lo Nr w z flog E mask f g g' d D F L M Lo. destruct (ln_shift g g' d D L) as [G' S]. assert (D' := Raux.Rabs_le_inv _ _ D).
  unfold fl_kl, kl_loss, kl_total. rewrite ratio_kept by lra. apply (prod_rnd u eta fmt rnd H Hu8); [apply near_refl|].
  assert (R1 : lo <= f / g').
  { eapply Rle_trans; [exact Lo|]. apply Rmult_le_compat_l; [lra|]. apply Rinv_le_contravar; lra. }
  assert (P : 0 < f / g') by (apply Rdiv_lt_0_compat; assumption).
  assert (N := log_near u eta fmt rnd H Hu8 w z flog E (f / g') (rnd (f / g')) P (ratio_within u eta fmt rnd H Hu8 lo Nr f g' F G' R1)).
  assert (T : Rabs (ln (f / g') - ln (f / g)) <= ln (g / (g - d))).
  { assert (X : ln (f / g') - ln (f / g) = - (ln g' - ln g)).
    { unfold Rdiv. rewrite !ln_mult, !ln_Rinv by (try apply Rinv_0_lt_compat; lra). ring. }
    rewrite X, Rabs_Ropp. exact S. }
  destruct E as (Hw & Hz & _). set (a := ln (f / g')) in *. set (b := ln (f / g)) in *. set (s := ln (g / (g - d))) in *. clearbody a b s.
  assert (AB : Rabs a <= Rabs b + s) by (replace a with (b + (a - b)) by ring; eapply Rle_trans; [apply Rabs_triang|]; lra).
  assert (w * (Rabs a + ln q) <= w * (Rabs b + (s + ln q))) by (apply Rmult_le_compat_l; lra).
  replace (flog (rnd (f / g')) - b) with ((flog (rnd (f / g')) - a) + (a - b)) by ring. eapply Rle_trans; [apply Rabs_triang|]. lra.
Qed.
Lemma kl_change_all : forall mask f g g' d, Rabs (g' - g) <= d -> d < g -> mask < g - d ->
  Rabs (fl_kl_slope rnd mask f g' - kl_change f g) <= kl_change_total u eta f g d.
Proof.
  intros mask f g g' d D L M. assert (D' := Raux.Rabs_le_inv _ _ D). assert (D0 := Rle_trans _ _ _ (Rabs_pos _) D). destruct bounds_u as [U _].
  assert (S := kl_slope_near u eta fmt rnd H mask f g' ltac:(lra)). unfold kl_change, kl_change_total. assert (F := Rabs_pos f).
  assert (I : / g' <= / (g - d)) by (apply Rinv_le_contravar; lra).
  assert (A : Rabs (f / g') <= Rabs f / (g - d)).
  { unfold Rdiv. rewrite Rabs_mult, (Rabs_pos_eq (/ g')) by (apply Rlt_le, Rinv_0_lt_compat; lra). apply Rmult_le_compat_l; assumption. }
  assert (B : Rabs (- (f / g') - - (f / g)) <= Rabs f * d / (g * (g - d))).
  { replace (- (f / g') - - (f / g)) with (f * (g' - g) * (/ g * / g')) by (field; lra). rewrite !Rabs_mult.
    rewrite (Rabs_pos_eq (/ g)), (Rabs_pos_eq (/ g')) by (apply Rlt_le, Rinv_0_lt_compat; lra). unfold Rdiv. rewrite Rinv_mult.
    assert (0 < / g) by (apply Rinv_0_lt_compat; lra). assert (0 < / g') by (apply Rinv_0_lt_compat; lra).
    apply Rmult_le_compat; [apply Rmult_le_pos; apply Rabs_pos | apply Rmult_le_pos; lra | apply Rmult_le_compat_l; assumption | apply Rmult_le_compat_l; lra]. }
  assert (C : u * Rabs (f / g') <= u * (Rabs f / (g - d))) by (apply Rmult_le_compat_l; lra).
  replace (fl_kl_slope rnd mask f g' - - (f / g)) with ((fl_kl_slope rnd mask f g' - - (f / g')) + (- (f / g') - - (f / g))) by ring.
  eapply Rle_trans; [apply Rabs_triang|]. lra.
Qed.

(** *** Objectives *)
Section Lists.
Context (X : Type) (n : nat) (quadr Q : list R -> R) (B : list (R * R) -> R) (S : sound_rule fmt n quadr Q B).
Lemma objective_all : forall (om f g k dk : X -> R) (m : R -> R -> R) pts, length pts = n ->
  (forall x, In x pts -> Rabs (m (f x) (g x) - k x) <= dk x) ->
  Rabs (fl_objective rnd quadr (map om pts) (fl_map2 m (map f pts) (map g pts)) - Q (map (fun x => om x * k x) pts)) <=
    B (map (fun x => (om x * k x, weighted_bound u eta (om x) (k x) (dk x))) pts).
Proof.
  intros om f g k dk m pts L E. unfold fl_objective.
  replace (map (fun x => om x * k x) pts) with (map fst (map (fun x => (om x * k x, weighted_bound u eta (om x) (k x) (dk x))) pts)) by (rewrite map_map; reflexivity).
  apply S; [rewrite map_length; exact L|]. clear L. unfold fl_map2. induction pts as [|x pts IH]; cbn [map combine fl_mul fst snd]; [constructor|].
  constructor; [|apply IH; intros; apply E; right; assumption]. cbn [fst snd]. split; [apply (rd_fmt _ _ _ _ H)|].
  apply (prod_rnd u eta fmt rnd H Hu8); [apply near_refl | apply E; left; reflexivity].
Qed.
Lemma gradient_all : forall (om f g k dk b' b db : X -> R) (m : R -> R -> R) pts, length pts = n ->
  (forall x, In x pts -> Rabs (m (f x) (g x) - k x) <= dk x /\ Rabs (b' x - b x) <= db x) ->
  Rabs (fl_gradient rnd quadr (map om pts) (fl_map2 m (map f pts) (map g pts)) (map b' pts) - Q (map (fun x => om x * k x * b x) pts)) <=
    B (map (fun x => (om x * k x * b x, gradient_bound u eta (om x) (k x) (dk x) (b x) (db x))) pts).
Proof.
  intros om f g k dk b' b db m pts L E. unfold fl_gradient.
  replace (map (fun x => om x * k x * b x) pts) with (map fst (map (fun x => (om x * k x * b x, gradient_bound u eta (om x) (k x) (dk x) (b x) (db x))) pts)) by (rewrite map_map; reflexivity).
  apply S; [rewrite map_length; exact L|]. clear L. unfold fl_map2. induction pts as [|x pts IH]; cbn [map combine fl_mul fst snd]; [constructor|].
  constructor; [|apply IH; intros; apply E; right; assumption]. cbn [fst snd]. split; [apply (rd_fmt _ _ _ _ H)|].
  destruct (E x (or_introl eq_refl)) as [E1 E2].
  apply (prod_rnd u eta fmt rnd H Hu8); [|exact E2]. apply (prod_rnd u eta fmt rnd H Hu8); [apply near_refl | exact E1].
Qed.
End Lists.

(** *** Gaussian models *)
Context (lo : R) (k : nat) (fpow : R -> R -> R) (pi : R).
Hypothesis (Hlo : 0 < lo <= 1 / 2) (Nr : normal u lo rnd) (Pw : pow_error u lo k fpow)
  (Hpi : Rabs (pi - PI) <= u * PI) (Half : 1 / 2 <= (1 - u) ^ (2 * k + 2)).
Context (v z : R) (fexp : R -> R) (X : exp_error v z fexp) (M : R) (HM : 0 <= M).
Notation A := (gauss_error u eta v z M).

Lemma basis_each : forall norm lay e i, length e = length lay -> (i < length lay)%nat ->
  length (fl_basis rnd fexp fpow pi norm lay e) = length lay /\
  nth i (fl_basis rnd fexp fpow pi norm lay e) 0 = fl_elem rnd fexp fpow pi norm (fst (nth i lay (false, 0))) (snd (nth i lay (false, 0))) (nth i e 0).
Proof.
  intros norm lay. assert (LL : forall e, length e = length lay -> length (fl_basis rnd fexp fpow pi norm lay e) = length lay).
  { induction lay as [|[p r] lay IH]; intros [|a e] L; try discriminate; [reflexivity|]. cbn. f_equal. apply IH. injection L as L. exact L. }
  intros e i L I. split; [apply LL, L|]. clear LL. revert e i L I. induction lay as [|[p r] lay IH]; intros [|a e] [|i] L I; try discriminate; try (inversion I; fail); [reflexivity|].
  cbn. apply IH; [injection L as L; exact L | cbn in I; lia].
Qed.

Lemma curve_near : forall norm lay c e fused t, length e = length c -> fits lo M norm lay c e t ->
  Rabs (fl_model rnd fexp fpow pi fused t norm lay c e - gsum norm lay c e) <= model_bound u eta k A t norm lay c e.
Proof.
  intros norm lay c e fused t L (L1 & O & F). unfold model_bound.
  apply (model_error u eta fmt rnd H Hu8 lo k fpow pi Hlo Nr Pw Hpi Half v z fexp X M HM fused t norm lay c e (most norm k) L1 L O).
  - clear -F. induction F as [|pr a lay e [P (S & _)] F IH]; constructor; [split; assumption | exact IH].
  - apply Forall_forall. intros [p r] _. unfold roundings, most. destruct p, norm; cbn [fst]; lia.
Qed.
Lemma column_near : forall norm lay c e i t, length e = length c -> fits lo M norm lay c e t -> (i < 2 * length c)%nat ->
  Rabs (nth i (fl_basis rnd fexp fpow pi norm lay e ++ fl_slopes rnd fexp fpow pi norm lay c e) 0 - model_slope norm lay c e i) <= param_bound u eta k A norm lay c e i.
Proof.
  intros norm lay c e i t L (L1 & _ & F) I. unfold model_slope, param_bound.
  assert (E : forall j, (j < length c)%nat -> 0 <= nth j e 0 <= M /\ smooth lo norm (fst (nth j lay (false, 0))) (snd (nth j lay (false, 0))) (nth j e 0)).
  { clear -F L1. intros j J. rewrite <- L1 in J. clear L1 c. revert j J. induction F as [|pr a lay e P F IH]; intros [|j] J; try (inversion J; fail); [exact P | apply IH; cbn in J; lia]. }
  destruct (i <? length c)%nat eqn:T.
  - apply Nat.ltb_lt in T. destruct (basis_each norm lay e i ltac:(congruence) ltac:(lia)) as [LB EB]. rewrite app_nth1, EB by lia.
    destruct (E i T) as [P (Sf & _)]. destruct (nth i lay (false, 0)) as [p r]. cbn [fst snd] in *.
    exact (elem_error u eta fmt rnd H Hu8 lo k fpow pi Hlo Nr Pw Hpi Half v z fexp X M HM norm p r (nth i e 0) P Sf).
  - apply Nat.ltb_ge in T. destruct (basis_each norm lay e 0 ltac:(congruence) ltac:(lia)) as [LB _].
    destruct (slopes_each rnd fexp fpow pi norm lay c e L1 L) as [_ EB]. rewrite app_nth2, LB, L1 by lia. cbv zeta. set (j := (i - length c)%nat). assert (J : (j < length c)%nat) by (unfold j; lia).
    rewrite (EB j J). destruct (E j J) as [P Sm]. destruct (nth j lay (false, 0)) as [p r]. cbn [fst snd] in *.
    exact (slope_error u eta fmt rnd H Hu8 lo k fpow pi Hlo Nr Pw Hpi Half v z fexp X M HM norm p r (nth j c 0) (nth j e 0) P Sm).
Qed.

Context (fu : list (bool * R) -> nat -> bool) (to : list (bool * R) -> order).
Context (n : nat) (quadr Q : list R -> R) (B : list (R * R) -> R) (Sq : sound_rule fmt n quadr Q B).

(** Any measure. *)
Lemma func_near : forall norm pts c e (m' m : R -> R -> R) (d : R -> R -> R -> R), length pts = n -> length e = length c ->
  (forall x, In x pts -> fits lo M norm (lays x) c e (to (lays x)) /\
    let g := gsum norm (lays x) c e in let dg := model_bound u eta k A (to (lays x)) norm (lays x) c e in
    forall g', Rabs (g' - g) <= dg -> Rabs (m' (dens x) g' - m (dens x) g) <= d (dens x) g dg) ->
  Rabs (fl_func rnd fexp fpow pi fu to quadr m' norm pts c e - objective Q m norm pts c e) <=
    B (map (fun x => let g := gsum norm (lays x) c e in let dg := model_bound u eta k A (to (lays x)) norm (lays x) c e in
        (weight x * m (dens x) g, weighted_bound u eta (weight x) (m (dens x) g) (d (dens x) g dg))) pts).
Proof.
  intros norm pts c e m' m d L Le E. unfold fl_func, objective, fl_curve.
  apply (objective_all place n quadr Q B Sq weight dens _ (fun x => m (dens x) (gsum norm (lays x) c e))
    (fun x => d (dens x) (gsum norm (lays x) c e) (model_bound u eta k A (to (lays x)) norm (lays x) c e)) m' pts L).
  intros x I. destruct (E x I) as [F G]. cbv zeta in G. apply G, curve_near; assumption.
Qed.
Lemma jac_near : forall norm pts c e i (m' m : R -> R -> R) (d : R -> R -> R -> R), length pts = n -> length e = length c -> (i < 2 * length c)%nat ->
  (forall x, In x pts -> fits lo M norm (lays x) c e (to (lays x)) /\
    let g := gsum norm (lays x) c e in let dg := model_bound u eta k A (to (lays x)) norm (lays x) c e in
    forall g', Rabs (g' - g) <= dg -> Rabs (m' (dens x) g' - m (dens x) g) <= d (dens x) g dg) ->
  Rabs (fl_jac rnd fexp fpow pi fu to quadr m' norm pts c e i - descent Q m norm pts c e i) <=
    B (map (fun x => let g := gsum norm (lays x) c e in let dg := model_bound u eta k A (to (lays x)) norm (lays x) c e in
        let s := model_slope norm (lays x) c e i in
        (weight x * m (dens x) g * s, gradient_bound u eta (weight x) (m (dens x) g) (d (dens x) g dg) s (param_bound u eta k A norm (lays x) c e i))) pts).
Proof.
  intros norm pts c e i m' m d L Le I E. unfold fl_jac, descent, fl_curve, fl_column.
  apply (gradient_all place n quadr Q B Sq weight dens _ (fun x => m (dens x) (gsum norm (lays x) c e))
    (fun x => d (dens x) (gsum norm (lays x) c e) (model_bound u eta k A (to (lays x)) norm (lays x) c e)) _ (fun x => model_slope norm (lays x) c e i)
    (fun x => param_bound u eta k A norm (lays x) c e i) m' pts L).
  intros x Ix. destruct (E x Ix) as [F G]. cbv zeta in G. split; [apply G, curve_near; assumption | apply (column_near _ _ _ _ _ (to (lays x))); assumption].
Qed.
End Rounded.

Lemma squares_near : forall u eta fmt rnd, rounding u eta fmt rnd -> u <= 1 / 8 ->
  forall lo k fpow pi, 0 < lo <= 1 / 2 -> normal u lo rnd -> pow_error u lo k fpow ->
  Rabs (pi - PI) <= u * PI -> 1 / 2 <= (1 - u) ^ (2 * k + 2) ->
  forall v z fexp, exp_error v z fexp -> forall M, 0 <= M -> forall fu to n quadr Q B, sound_rule fmt n quadr Q B ->
  forall w z2 fsq, square_error w z2 fsq ->
  forall norm pts c e, length pts = n -> length e = length c -> Forall (fun x => fits lo M norm (lays x) c e (to (lays x))) pts ->
  let A := gauss_error u eta v z M in
  let g x := gsum norm (lays x) c e in let dg x := model_bound u eta k A (to (lays x)) norm (lays x) c e in
  Rabs (fl_func rnd fexp fpow pi fu to quadr (fl_square rnd fsq) norm pts c e - objective Q square_loss norm pts c e) <=
    B (map (fun x => (weight x * square_loss (dens x) (g x),
        weighted_bound u eta (weight x) (square_loss (dens x) (g x)) (square_total u eta w z2 (dens x) (g x) (dg x)))) pts) /\
  forall i, (i < 2 * length c)%nat ->
  Rabs (fl_jac rnd fexp fpow pi fu to quadr (fl_square_slope rnd) norm pts c e i - descent Q square_change norm pts c e i) <=
    B (map (fun x => (weight x * square_change (dens x) (g x) * model_slope norm (lays x) c e i,
        gradient_bound u eta (weight x) (square_change (dens x) (g x)) (square_change_total u eta (dens x) (g x) (dg x))
          (model_slope norm (lays x) c e i) (param_bound u eta k A norm (lays x) c e i))) pts).
Proof.
  intros u eta fmt rnd H Hu8 lo k fpow pi Hlo Nr Pw Hpi Half v z fexp X M HM fu to n quadr Q B Sq w z2 fsq E norm pts c e L Le F. cbv zeta.
  rewrite Forall_forall in F. split; [|intros i I].
  - apply (func_near u eta fmt rnd H Hu8 lo k fpow pi Hlo Nr Pw Hpi Half v z fexp X M HM fu to n quadr Q B Sq norm pts c e (fl_square rnd fsq) square_loss
      (square_total u eta w z2) L Le).
    intros x Ix. split; [apply F, Ix|]. cbv zeta. intros g' D. apply (square_all u eta fmt rnd H w z2 fsq E), D.
  - apply (jac_near u eta fmt rnd H Hu8 lo k fpow pi Hlo Nr Pw Hpi Half v z fexp X M HM fu to n quadr Q B Sq norm pts c e i (fl_square_slope rnd) square_change
      (square_change_total u eta) L Le I).
    intros x Ix. split; [apply F, Ix|]. cbv zeta. intros g' D. apply (square_change_all u eta fmt rnd H Hu8), D.
Qed.
Lemma kl_near_all : forall u eta fmt rnd, rounding u eta fmt rnd -> u <= 1 / 8 ->
  forall lo k fpow pi, 0 < lo <= 1 / 2 -> normal u lo rnd -> pow_error u lo k fpow ->
  Rabs (pi - PI) <= u * PI -> 1 / 2 <= (1 - u) ^ (2 * k + 2) ->
  forall v z fexp, exp_error v z fexp -> forall M, 0 <= M -> forall fu to n quadr Q B, sound_rule fmt n quadr Q B ->
  forall w z2 flog mask, log_error w z2 flog ->
  forall norm pts c e, length pts = n -> length e = length c ->
  let A := gauss_error u eta v z M in
  let g x := gsum norm (lays x) c e in let dg x := model_bound u eta k A (to (lays x)) norm (lays x) c e in
  Forall (fun x => fits lo M norm (lays x) c e (to (lays x)) /\ 0 < dens x /\ dg x < g x /\ mask < g x - dg x /\ lo <= dens x / (g x + dg x)) pts ->
  Rabs (fl_func rnd fexp fpow pi fu to quadr (fl_kl rnd flog mask) norm pts c e - objective Q kl_loss norm pts c e) <=
    B (map (fun x => (weight x * kl_loss (dens x) (g x),
        weighted_bound u eta (weight x) (kl_loss (dens x) (g x)) (kl_total u eta w z2 (dens x) (g x) (dg x)))) pts) /\
  forall i, (i < 2 * length c)%nat ->
  Rabs (fl_jac rnd fexp fpow pi fu to quadr (fl_kl_slope rnd mask) norm pts c e i - descent Q kl_change norm pts c e i) <=
    B (map (fun x => (weight x * kl_change (dens x) (g x) * model_slope norm (lays x) c e i,
        gradient_bound u eta (weight x) (kl_change (dens x) (g x)) (kl_change_total u eta (dens x) (g x) (dg x))
          (model_slope norm (lays x) c e i) (param_bound u eta k A norm (lays x) c e i))) pts).
Proof.
  intros u eta fmt rnd H Hu8 lo k fpow pi Hlo Nr Pw Hpi Half v z fexp X M HM fu to n quadr Q B Sq w z2 flog mask E norm pts c e L Le. cbv zeta. intro F.
  rewrite Forall_forall in F. split; [|intros i I].
  - apply (func_near u eta fmt rnd H Hu8 lo k fpow pi Hlo Nr Pw Hpi Half v z fexp X M HM fu to n quadr Q B Sq norm pts c e (fl_kl rnd flog mask) kl_loss
      (kl_total u eta w z2) L Le).
    intros x Ix. destruct (F x Ix) as (F1 & F2 & F3 & F4 & F5). split; [exact F1|]. cbv zeta. intros g' D. apply (kl_all u eta fmt rnd H Hu8 lo Nr w z2 flog E); assumption.
  - apply (jac_near u eta fmt rnd H Hu8 lo k fpow pi Hlo Nr Pw Hpi Half v z fexp X M HM fu to n quadr Q B Sq norm pts c e i (fl_kl_slope rnd mask) kl_change
      (kl_change_total u eta) L Le I).
    intros x Ix. destruct (F x Ix) as (F1 & F2 & F3 & F4 & F5). split; [exact F1|]. cbv zeta. intros g' D. apply (kl_change_all u eta fmt rnd H); assumption.
Qed.
