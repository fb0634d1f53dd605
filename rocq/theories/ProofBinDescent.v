(** The objective of [ScipyFit], its gradient and its constraint in floating-point formats: finite results are those
    of the rounded program. *)
From Coq Require Import Reals List ZArith Bool Lia Lra.
From Flocq Require Import Core IEEE754.BinarySingleNaN.
From Verif Require Import SpecDens SpecRnd SpecBin SpecRnd2 SpecRnd3 SpecRnd4 SpecBin64 SpecBinModel SpecSlope SpecDescent SpecBinDescent
  ModelRnd ModelRnd2 ModelRnd4 ModelBin64 ModelBinModel ModelSlope ModelDescent ModelBinDescent
  ProofRnd ProofBin64 ProofBin64b ProofBinModel ProofBinModel3 ProofBinModel4 ProofSlope ProofSlope2 ProofSlope3 ProofDescent2 ProofDescent3 ProofDescent4.
From Coq Require Import List.
Import ListNotations.
Local Open Scope R_scope.

Section Format.
Variable fm : format.
Local Notation rnd := (near fm).
Context (bexp : number fm -> number fm) (fexp : R -> R) (bpow : number fm -> number fm -> number fm) (fpow : R -> R -> R) (pi : number fm).
Hypothesis (He : exponential bexp fexp) (Hp : library2 bpow fpow) (Hc : circle bpow pi (b_lit 3 (-1)))
  (Ht : finite (b_mul (b_lit 3 0) (bpow pi (b_lit 3 (-1))))).
Context (fu : list (bool * R) -> nat -> bool) (to : list (bool * R) -> order).
Context (norm : bool) (pts : list (bplace fm)) (c e : list (number fm)) (Fe : Forall finite e).
Hypothesis G : Forall (good_place fu to) pts.
Notation bg x := (b_model bexp bpow pi (fu (lays (real_place x))) (to (lays (real_place x))) norm (laysb x) c e).
Notation rg x := (fl_model rnd fexp fpow (value pi) (fu (lays (real_place x))) (to (lays (real_place x))) norm (lays (real_place x)) (map value c) (map value e)).

Lemma each_model : forall x, In x pts -> agrees (bg x) (rg x).
Proof.
  intros x I. rewrite Forall_forall in G. destruct (G x I) as (M & Fu & Lo). exact (model_agrees fm bexp fexp bpow fpow pi He Hp Hc _ _ norm (laysb x) c e Fu Lo M Fe).
Qed.
Lemma each_slope : forall i x, In x pts ->
  agrees (nth i (b_basis bexp bpow pi norm (laysb x) e ++ b_slopes bexp bpow pi norm (laysb x) c e) b_zero)
    (nth i (fl_basis rnd fexp fpow (value pi) norm (lays (real_place x)) (map value e) ++ fl_slopes rnd fexp fpow (value pi) norm (lays (real_place x)) (map value c) (map value e)) 0).
Proof.
  intros i x I. rewrite Forall_forall in G. destruct (G x I) as (M & _). apply nth_agrees, Forall2_app.
  - exact (basis_agree fm bexp fexp bpow fpow pi He Hp Hc norm (laysb x) e M Fe).
  - exact (slopes_agree fm bexp fexp bpow fpow pi He Hp Hc Ht norm (laysb x) c e M Fe).
Qed.

Lemma maps_agree : forall (f : bplace fm -> number fm) (h : place -> R) l, (forall x, In x l -> agrees (f x) (h (real_place x))) ->
  Forall2 agrees (map f l) (map h (map real_place l)).
Proof.
  intros f h l E. induction l as [|x l IH]; cbn [map]; constructor; [apply E; left; reflexivity | apply IH; intros; apply E; right; assumption].
Qed.
Lemma curve_agree : Forall2 agrees (b_curve bexp bpow pi fu to norm pts c e) (fl_curve rnd fexp fpow (value pi) fu to norm (map real_place pts) (map value c) (map value e)).
Proof. unfold b_curve, fl_curve. apply (maps_agree _ (fun x => fl_model rnd fexp fpow (value pi) (fu (lays x)) (to (lays x)) norm (lays x) (map value c) (map value e))). exact each_model. Qed.

Section Measure.
Context (m : number fm -> number fm -> number fm) (m' : R -> R -> R).
Hypothesis A : forall x, In x pts -> agrees (m (densb x) (bg x)) (m' (value (densb x)) (rg x)).
Lemma measure_agree : Forall2 agrees (b_map2 m (map densb pts) (b_curve bexp bpow pi fu to norm pts c e))
  (fl_map2 m' (map dens (map real_place pts)) (fl_curve rnd fexp fpow (value pi) fu to norm (map real_place pts) (map value c) (map value e))).
Proof.
  unfold b_curve, fl_curve. rewrite map2_maps. unfold b_map2.
  replace (map (fun p => m (fst p) (snd p)) (combine (map densb pts) (map (fun x => bg x) pts))) with (map (fun x => m (densb x) (bg x)) pts)
    by (clear; induction pts as [|x l IH]; [reflexivity|]; cbn; f_equal; exact IH).
  apply (maps_agree _ (fun x => m' (dens x) (fl_model rnd fexp fpow (value pi) (fu (lays x)) (to (lays x)) norm (lays x) (map value c) (map value e)))). exact A.
Qed.
Lemma weights_agree : Forall2 agrees (map weightb pts) (map weight (map real_place pts)).
Proof. apply maps_agree. intros x _ _. reflexivity. Qed.
Context (quadr : list (number fm) -> number fm) (quadr' : list R -> R) (Q : same_rule quadr quadr').
Lemma func_agrees : agrees (b_func bexp bpow pi fu to quadr m norm pts c e)
  (fl_func rnd fexp fpow (value pi) fu to quadr' m' norm (map real_place pts) (map value c) (map value e)).
Proof. apply Q, mulv_agree; [exact weights_agree | exact measure_agree]. Qed.
Lemma jac_agrees : forall i, agrees (b_jac bexp bpow pi fu to quadr m norm pts c e i)
  (fl_jac rnd fexp fpow (value pi) fu to quadr' m' norm (map real_place pts) (map value c) (map value e) i).
Proof.
  intro i. apply Q, mulv_agree; [apply mulv_agree; [exact weights_agree | exact measure_agree]|]. unfold b_column, fl_column.
  apply (maps_agree _ (fun x => nth i (fl_basis rnd fexp fpow (value pi) norm (lays x) (map value e) ++ fl_slopes rnd fexp fpow (value pi) norm (lays x) (map value c) (map value e)) 0)).
  apply each_slope.
Qed.
End Measure.

Lemma constraint_agrees : forall quadr quadr', same_rule quadr quadr' -> forall N, agrees (b_constraint bexp bpow pi fu to quadr N norm pts c e)
  (fl_constraint rnd fexp fpow (value pi) fu to quadr' (value N) norm (map real_place pts) (map value c) (map value e)).
Proof. intros quadr quadr' Q N. apply sub_agrees; [apply self_agrees | apply Q, curve_agree]. Qed.

Lemma squares_point : forall bsq fsq, library bsq fsq -> forall x, In x pts -> agrees (b_square bsq (densb x) (bg x)) (fl_square rnd fsq (value (densb x)) (rg x)).
Proof. intros bsq fsq L x I. apply (square_agrees fm bsq fsq); [exact L | apply self_agrees | apply each_model, I]. Qed.
Lemma squares_change_point : forall x, In x pts -> agrees (b_square_slope (densb x) (bg x)) (fl_square_slope rnd (value (densb x)) (rg x)).
Proof. intros x I. apply square_slope_agrees; [apply self_agrees | apply each_model, I]. Qed.
Lemma kl_point : forall blog flog, library blog flog -> forall mask x, In x pts -> seen mask (densb x) (bg x) ->
  agrees (b_kl blog mask (densb x) (bg x)) (fl_kl rnd flog (value mask) (value (densb x)) (rg x)).
Proof.
  intros blog flog L mask x I S. rewrite <- (each_model x I (proj1 (proj2 (proj2 S)))). apply kl_agrees; assumption.
Qed.
Lemma kl_change_point : forall mask x, In x pts -> seen mask (densb x) (bg x) ->
  agrees (b_kl_slope mask (densb x) (bg x)) (fl_kl_slope rnd (value mask) (value (densb x)) (rg x)).
Proof.
  intros mask x I S. rewrite <- (each_model x I (proj1 (proj2 (proj2 S)))). apply kl_slope_agrees; assumption.
Qed.

Lemma top_agrees : forall (a b : number fm) x y, a <> B754_infinity true -> b <> B754_infinity true -> agrees a x -> agrees b y ->
  agrees (b_top a b) (Rmax x y) /\ b_top a b <> B754_infinity true.
Proof.
  intros a b x y Na Nb A B. split; [|unfold b_top; destruct (is_nan a), (is_nan b), (Bleb a b); assumption].
  assert (Two : finite (b_top a b) -> finite a /\ finite b).
  { intro F. destruct a as [sa|[]| |sa ma ea Ha]; try (destruct (Na eq_refl)); try discriminate F; destruct b as [sb|[]| |sb mb eb Hb]; try (destruct (Nb eq_refl)); try discriminate F; split; reflexivity. }
  intro F. destruct (Two F) as [Fa Fb]. rewrite <- (A Fa), <- (B Fb). unfold b_top.
  replace (is_nan a) with false by (destruct a; try reflexivity; discriminate Fa). replace (is_nan b) with false by (destruct b; try reflexivity; discriminate Fb).
  assert (L := leb_spec fm a b Fa Fb). destruct (Bleb a b).
  - rewrite Rmax_right; [reflexivity | apply L; reflexivity].
  - rewrite Rmax_left; [reflexivity|]. destruct (Rle_or_lt (value a) (value b)) as [T|T]; [apply L in T; discriminate T | lra].
Qed.
Lemma max_agrees : forall (l : list (number fm)) r, Forall (fun a => a <> B754_infinity true) l -> Forall2 agrees l r -> agrees (b_max l) (fl_max r).
Proof.
  intros l r N F. destruct F as [|a x l r A F]; [discriminate|]. apply Forall_cons_iff in N. destruct N as [Na N]. cbn [b_max fl_max]. revert a x Na A.
  induction F as [|b y l r B F IH]; intros a x Na A; [exact A|]. apply Forall_cons_iff in N. destruct N as [Nb N]. cbn [fold_left].
  destruct (top_agrees a b x y Na Nb A B) as [T Nt]. exact (IH N (b_top a b) (Rmax x y) Nt T).
Qed.
Lemma diff_no : forall f g : list (number fm), Forall (fun a => a <> B754_infinity true) (b_diff f g).
Proof. intros f g. unfold b_diff, b_map2. apply Forall_map, Forall_forall. intros p _. destruct (b_sub (fst p) (snd p)); discriminate. Qed.
Lemma agree_values : forall (v : list (number fm)) v', Forall2 agrees v v' -> Forall finite v -> v' = map value v.
Proof.
  intros v v' A. induction A as [|a x v v' A1 A IH]; intro F; [reflexivity|]. apply Forall_cons_iff in F. destruct F as [Fa F]. cbn [map]. rewrite (A1 Fa), <- (IH F). reflexivity.
Qed.
Lemma quality_agree : forall bsq fsq blog flog neg mask quadr quadr', library bsq fsq -> library blog flog -> same_rule quadr quadr' -> (forall x, In x pts -> seen mask (densb x) (bg x)) ->
  Forall2 agrees (b_quality bexp bpow pi fu to bsq blog quadr neg mask norm pts c e)
    (fl_quality rnd fexp fpow (value pi) fu to fsq flog quadr' (value neg) (value mask) norm (map real_place pts) (map value c) (map value e)).
Proof.
  intros bsq fsq blog flog neg mask quadr quadr' Ls Ll Q S. unfold b_quality, fl_quality, fl_goodness. cbv zeta.
  assert (Fg : Forall finite (b_curve bexp bpow pi fu to norm pts c e)) by (unfold b_curve; apply Forall_map, Forall_forall; intros x I; apply (S x I)).
  rewrite (agree_values _ _ curve_agree Fg). replace (map dens (map real_place pts)) with (map value (map densb pts)) by (rewrite !map_map; reflexivity).
  assert (Sl : forall a b, In (a, b) (combine (map densb pts) (b_curve bexp bpow pi fu to norm pts c e)) -> seen mask a b).
  { unfold b_curve. clear - S. induction pts as [|x l IH]; intros a b I; [destruct I|]. cbn [map combine] in I. destruct I as [I|I].
    - apply pair_equal_spec in I. destruct I as [<- <-]. apply S. left. reflexivity.
    - apply IH; [intros z Iz; apply S; right; exact Iz | exact I]. }
  assert (Ln : length (map densb pts) = length (b_curve bexp bpow pi fu to norm pts c e)) by (unfold b_curve; rewrite !map_length; reflexivity).
  constructor; [apply Q, selves_agree|]. constructor; [apply Q, diff_agree|]. constructor; [apply max_agrees; [apply diff_no | apply diff_agree]|].
  constructor; [apply Q, map2_agree; intros a b _; apply (square_agrees fm bsq fsq); [exact Ls | apply self_agrees | apply self_agrees]|].
  constructor; [|constructor]. apply Q. apply kl_values_agree; try assumption.
Qed.
End Format.

Section Values.
Variable fm : format.
Local Notation rnd := (near fm).
Local Notation u := (Raux.bpow radix2 (- digits fm)).
Local Notation eta := (Raux.bpow radix2 (bottom fm - 1)).
Local Notation lo := (Raux.bpow radix2 (bottom fm + digits fm - 1)).
Local Notation fmt := (bin_fmt (bottom fm) (digits fm)).
Context (bexp : number fm -> number fm) (fexp : R -> R) (bpow : number fm -> number fm -> number fm) (fpow : R -> R -> R) (pi : number fm).
Hypothesis (He : exponential bexp fexp) (Hp : library2 bpow fpow) (Hc : circle bpow pi (b_lit 3 (-1)))
  (Ht : finite (b_mul (b_lit 3 0) (bpow pi (b_lit 3 (-1))))).
Context (k : nat) (v z : R) (Pw : pow_error u lo k fpow) (Hpi : Rabs (value pi - PI) <= u * PI) (Half : 1 / 2 <= (1 - u) ^ (2 * k + 2)) (X : exp_error v z fexp).
Context (M : R) (HM : 0 <= M) (fu : list (bool * R) -> nat -> bool) (to : list (bool * R) -> order).
Context (n : nat) (quadr : list (number fm) -> number fm) (quadr' Q : list R -> R) (B : list (R * R) -> R) (Same : same_rule quadr quadr') (Sq : sound_rule fmt n quadr' Q B).

Lemma squares_value : forall bsq fsq w z2, library bsq fsq -> square_error w z2 fsq ->
  forall norm pts c e, length pts = n -> length e = length c -> Forall finite e -> Forall (good_place fu to) pts ->
  let c' := map value c in let e' := map value e in let pts' := map real_place pts in
  Forall (fun x => SpecDescent.fits lo M norm (lays x) c' e' (to (lays x))) pts' ->
  let A := gauss_error u eta v z M in
  let g x := gsum norm (lays x) c' e' in let dg x := model_bound u eta k A (to (lays x)) norm (lays x) c' e' in
  (finite (b_func bexp bpow pi fu to quadr (b_square bsq) norm pts c e) ->
   Rabs (value (b_func bexp bpow pi fu to quadr (b_square bsq) norm pts c e) - objective Q square_loss norm pts' c' e') <=
    B (map (fun x => (weight x * square_loss (dens x) (g x),
        weighted_bound u eta (weight x) (square_loss (dens x) (g x)) (square_total u eta w z2 (dens x) (g x) (dg x)))) pts')) /\
  forall i, (i < 2 * length c)%nat -> finite (b_jac bexp bpow pi fu to quadr b_square_slope norm pts c e i) ->
  Rabs (value (b_jac bexp bpow pi fu to quadr b_square_slope norm pts c e i) - descent Q square_change norm pts' c' e' i) <=
    B (map (fun x => (weight x * square_change (dens x) (g x) * model_slope norm (lays x) c' e' i,
        gradient_bound u eta (weight x) (square_change (dens x) (g x)) (square_change_total u eta (dens x) (g x) (dg x))
          (model_slope norm (lays x) c' e' i) (param_bound u eta k A norm (lays x) c' e' i))) pts').
Proof.
  intros bsq fsq w z2 Lib Err norm pts c e Ln Le Fe G c' e' pts' Fit A g dg.
  assert (L1 : length pts' = n) by (unfold pts'; rewrite map_length; exact Ln). assert (L2 : length e' = length c') by (unfold c', e'; rewrite !map_length; exact Le).
  destruct (squares_near u eta fmt rnd (r64 fm) (u_eighth fm) lo k fpow (value pi) (lo_small fm) (fm_normal fm) Pw Hpi Half v z fexp X M HM fu to n quadr' Q B Sq w z2 fsq Err
    norm pts' c' e' L1 L2 Fit) as [V J]. split.
  - intro F. rewrite (func_agrees fm bexp fexp bpow fpow pi fu to norm pts c e _ _
      (squares_point fm bexp fexp bpow fpow pi He Hp Hc fu to norm pts c e Fe G bsq fsq Lib) quadr quadr' Same F). exact V.
  - intros i Li F. rewrite (jac_agrees fm bexp fexp bpow fpow pi He Hp Hc Ht fu to norm pts c e Fe G _ _
      (squares_change_point fm bexp fexp bpow fpow pi He Hp Hc fu to norm pts c e Fe G) quadr quadr' Same i F). apply J. unfold c'. rewrite map_length. exact Li.
Qed.

Lemma kl_value : forall blog flog w z2 mask, library blog flog -> log_error w z2 flog ->
  forall norm pts c e, length pts = n -> length e = length c -> Forall finite e -> Forall (good_place fu to) pts ->
  Forall (fun x => seen mask (densb x) (b_model bexp bpow pi (fu (lays (real_place x))) (to (lays (real_place x))) norm (laysb x) c e)) pts ->
  let c' := map value c in let e' := map value e in let pts' := map real_place pts in
  let A := gauss_error u eta v z M in
  let g x := gsum norm (lays x) c' e' in let dg x := model_bound u eta k A (to (lays x)) norm (lays x) c' e' in
  Forall (fun x => SpecDescent.fits lo M norm (lays x) c' e' (to (lays x)) /\ 0 < dens x /\ dg x < g x /\ value mask < g x - dg x /\ lo <= dens x / (g x + dg x)) pts' ->
  (finite (b_func bexp bpow pi fu to quadr (b_kl blog mask) norm pts c e) ->
   Rabs (value (b_func bexp bpow pi fu to quadr (b_kl blog mask) norm pts c e) - objective Q kl_loss norm pts' c' e') <=
    B (map (fun x => (weight x * kl_loss (dens x) (g x),
        weighted_bound u eta (weight x) (kl_loss (dens x) (g x)) (kl_total u eta w z2 (dens x) (g x) (dg x)))) pts')) /\
  forall i, (i < 2 * length c)%nat -> finite (b_jac bexp bpow pi fu to quadr (b_kl_slope mask) norm pts c e i) ->
  Rabs (value (b_jac bexp bpow pi fu to quadr (b_kl_slope mask) norm pts c e i) - descent Q kl_change norm pts' c' e' i) <=
    B (map (fun x => (weight x * kl_change (dens x) (g x) * model_slope norm (lays x) c' e' i,
        gradient_bound u eta (weight x) (kl_change (dens x) (g x)) (kl_change_total u eta (dens x) (g x) (dg x))
          (model_slope norm (lays x) c' e' i) (param_bound u eta k A norm (lays x) c' e' i))) pts').
Proof.
  intros blog flog w z2 mask Lib Err norm pts c e Ln Le Fe G Se c' e' pts' A g dg Fit. rewrite Forall_forall in Se.
  assert (L1 : length pts' = n) by (unfold pts'; rewrite map_length; exact Ln). assert (L2 : length e' = length c') by (unfold c', e'; rewrite !map_length; exact Le).
  destruct (kl_near_all u eta fmt rnd (r64 fm) (u_eighth fm) lo k fpow (value pi) (lo_small fm) (fm_normal fm) Pw Hpi Half v z fexp X M HM fu to n quadr' Q B Sq w z2 flog (value mask) Err
    norm pts' c' e' L1 L2 Fit) as [V J]. split.
  - intro F. rewrite (func_agrees fm bexp fexp bpow fpow pi fu to norm pts c e _ _
      (fun x I => kl_point fm bexp fexp bpow fpow pi He Hp Hc fu to norm pts c e Fe G blog flog Lib mask x I (Se x I)) quadr quadr' Same F). exact V.
  - intros i Li F. rewrite (jac_agrees fm bexp fexp bpow fpow pi He Hp Hc Ht fu to norm pts c e Fe G _ _
      (fun x I => kl_change_point fm bexp fexp bpow fpow pi He Hp Hc fu to norm pts c e Fe G mask x I (Se x I)) quadr quadr' Same i F). apply J. unfold c'. rewrite map_length. exact Li.
Qed.
End Values.

Section Values2.
Variable fm : format.
Local Notation rnd := (near fm).
Local Notation u := (Raux.bpow radix2 (- digits fm)).
Local Notation eta := (Raux.bpow radix2 (bottom fm - 1)).
Local Notation lo := (Raux.bpow radix2 (bottom fm + digits fm - 1)).
Local Notation fmt := (bin_fmt (bottom fm) (digits fm)).
Context (bexp : number fm -> number fm) (fexp : R -> R) (bpow : number fm -> number fm -> number fm) (fpow : R -> R -> R) (pi : number fm).
Hypothesis (He : exponential bexp fexp) (Hp : library2 bpow fpow) (Hc : circle bpow pi (b_lit 3 (-1))).
Context (k : nat) (v z : R) (Pw : pow_error u lo k fpow) (Hpi : Rabs (value pi - PI) <= u * PI) (Half : 1 / 2 <= (1 - u) ^ (2 * k + 2)) (X : exp_error v z fexp).
Context (M : R) (HM : 0 <= M) (fu : list (bool * R) -> nat -> bool) (to : list (bool * R) -> order).
Context (n : nat) (quadr : list (number fm) -> number fm) (quadr' Q : list R -> R) (B : list (R * R) -> R) (Same : same_rule quadr quadr') (Sq : sound_rule fmt n quadr' Q B).
Context (norm : bool) (pts : list (bplace fm)) (c e : list (number fm)) (Ln : length pts = n) (Le : length e = length c) (Fe : Forall finite e) (G : Forall (good_place fu to) pts).
Local Notation c' := (map value c).
Local Notation e' := (map value e).
Local Notation pts' := (map real_place pts).
Hypothesis Fit : Forall (fun x => SpecDescent.fits lo M norm (lays x) c' e' (to (lays x))) pts'.
Local Notation A := (gauss_error u eta v z M).
Local Notation g x := (gsum norm (lays x) c' e').
Local Notation dg x := (model_bound u eta k A (to (lays x)) norm (lays x) c' e').

Lemma whole : Forall (fun x => fmt (dens x) /\ SpecDescent.fits lo M norm (lays x) c' e' (to (lays x)) /\ lone (fu (lays x)) (to (lays x)) = false) pts'.
Proof.
  apply Forall_map. rewrite Forall_map in Fit. rewrite Forall_forall in *. intros x I. split; [apply value_fmt|]. split; [exact (Fit x I) | apply (G x I)].
Qed.
Lemma lengths : length pts' = n /\ length e' = length c'.
Proof. rewrite !map_length. split; assumption. Qed.

Lemma constraint_value : forall N N0 dN, Rabs (value N - N0) <= dN -> finite (b_constraint bexp bpow pi fu to quadr N norm pts c e) ->
  Rabs (value (b_constraint bexp bpow pi fu to quadr N norm pts c e) - (N0 - Q (map (fun x => g x) pts'))) <=
    residual_bound u eta (N0 - Q (map (fun x => g x) pts')) (dN + B (map (fun x => (g x, dg x)) pts')).
Proof.
  intros N N0 dN EN F. rewrite (constraint_agrees fm bexp fexp bpow fpow pi He Hp Hc fu to norm pts c e Fe G quadr quadr' Same N F).
  exact (constraint_near u eta fmt rnd (r64 fm) (u_eighth fm) lo k fpow (value pi) (lo_small fm) (fm_normal fm) Pw Hpi Half v z fexp X M HM fu to n quadr' Q B Sq
    norm pts' c' e' (proj1 lengths) (proj2 lengths) whole (value N) N0 dN EN).
Qed.

Lemma quality_value : forall bsq fsq blog flog w z2 w' z3, library bsq fsq -> library blog flog -> square_error w z2 fsq -> (forall x, fmt (fsq x)) -> log_error w' z3 flog ->
  forall neg mask, 0 <= value mask ->
  (forall x, In x pts -> seen mask (densb x) (b_model bexp bpow pi (fu (lays (real_place x))) (to (lays (real_place x))) norm (laysb x) c e)) ->
  forall q1 q2 q3 q4 q5, b_quality bexp bpow pi fu to bsq blog quadr neg mask norm pts c e = [q1; q2; q3; q4; q5] ->
  (finite q1 -> Rabs (value q1 - Q (map (fun x => g x) pts')) <= B (map (fun x => (g x, dg x)) pts')) /\
  (finite q2 -> Rabs (value q2 - Q (map (fun x => Rabs (dens x - g x)) pts')) <= B (map (fun x => (Rabs (dens x - g x), residual_bound u eta (dens x - g x) (dg x))) pts')) /\
  (finite q3 -> forall m D, is_max m (map (fun x => Rabs (dens x - g x)) pts') -> (forall x, In x pts' -> residual_bound u eta (dens x - g x) (dg x) <= D) -> Rabs (value q3 - m) <= D) /\
  (finite q4 -> Rabs (value q4 - Q (map (fun x => square_loss (dens x) (g x)) pts')) <= B (map (fun x => (square_loss (dens x) (g x), square_total u eta w z2 (dens x) (g x) (dg x))) pts')) /\
  (finite q5 -> (forall x, In x pts' -> 0 < dens x /\ value mask < g x - dg x /\ lo <= dens x / (g x + dg x)) ->
   Rabs (value q5 - Q (map (fun x => kl_loss (dens x) (g x)) pts')) <= B (map (fun x => (kl_loss (dens x) (g x), kl_total u eta w' z3 (dens x) (g x) (dg x))) pts')).
Proof.
  intros bsq fsq blog flog w z2 w' z3 Ls Ll Es Fs El neg mask Pm Se q1 q2 q3 q4 q5 Eq.
  assert (T := quality_agree fm bexp fexp bpow fpow pi He Hp Hc fu to norm pts c e Fe G bsq fsq blog flog neg mask quadr quadr' Ls Ll Same Se). rewrite Eq in T.
  assert (V := quality_near u eta fmt rnd (r64 fm) (u_eighth fm) lo k fpow (value pi) (lo_small fm) (fm_normal fm) Pw Hpi Half v z fexp X M HM fu to n quadr' Q B Sq
    norm pts' c' e' (proj1 lengths) (proj2 lengths) whole w z2 fsq w' z3 flog Es Fs El (value neg) (value mask) Pm).
  inversion T as [|? r1 ? l1 A1 T1 X1 Y1]; subst. inversion T1 as [|? r2 ? l2 A2 T2 X2 Y2]; subst. inversion T2 as [|? r3 ? l3 A3 T3 X3 Y3]; subst.
  inversion T3 as [|? r4 ? l4 A4 T4 X4 Y4]; subst. inversion T4 as [|? r5 ? l5 A5 T5 X5 Y5]; subst. inversion T5; subst.
  destruct (V _ _ _ _ _ eq_refl) as (V1 & V2 & V3 & V4 & V5).
  split; [intro F; rewrite (A1 F); exact V1|]. split; [intro F; rewrite (A2 F); exact V2|]. split; [intro F; rewrite (A3 F); exact V3|]. split; [intro F; rewrite (A4 F); exact V4|].
  intro F; rewrite (A5 F); exact V5.
Qed.
End Values2.
