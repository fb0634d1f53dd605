(** IEEE 754 double precision: finite results are those of the rounded model. *)
From Coq Require Import Reals List ZArith Bool Lia Lra.
From Flocq Require Import Core IEEE754.BinarySingleNaN.
From Verif Require Import SpecGrid SpecRnd SpecBin SpecBin64 ModelRnd ModelRnd4 ModelBin64 ProofRnd ProofRnd2 ProofRnd4 ProofRnd6.
From Verif Require SpecDens.
From Coq Require Import List.
Import ListNotations.
Local Open Scope R_scope.

Section Format.
Variable fm : format.
Local Notation finite := (@SpecBin64.finite fm).
Local Notation value := (@SpecBin64.value fm).
Local Notation represents := (@SpecBin64.represents fm).
Local Notation agrees := (@SpecBin64.agrees fm).
Local Notation library := (@SpecBin64.library fm).
Local Notation library2 := (@SpecBin64.library2 fm).
Local Notation seen := (@SpecBin64.seen fm).
Local Notation same_rule := (@SpecBin64.same_rule fm).
Local Notation computes := (@SpecBin64.computes fm).
Local Notation computes2 := (@SpecBin64.computes2 fm).
Local Notation finite_rule := (@SpecBin64.finite_rule fm).
Local Notation b_add := (@ModelBin64.b_add fm).
Local Notation b_sub := (@ModelBin64.b_sub fm).
Local Notation b_mul := (@ModelBin64.b_mul fm).
Local Notation b_div := (@ModelBin64.b_div fm).
Local Notation b_zero := (@ModelBin64.b_zero fm).
Local Notation b_lit := (@ModelBin64.b_lit fm).
Local Notation b_sum := (@ModelBin64.b_sum fm).
Local Notation b_trap_terms := (@ModelBin64.b_trap_terms fm).
Local Notation b_trapz := (@ModelBin64.b_trapz fm).
Local Notation b_mulv := (@ModelBin64.b_mulv fm).
Local Notation b_cubic := (@ModelBin64.b_cubic fm).
Local Notation b_sphere := (@ModelBin64.b_sphere fm).
Local Notation b_spherical := (@ModelBin64.b_spherical fm).
Local Notation b_map2 := (@ModelBin64.b_map2 fm).
Local Notation b_square := (@ModelBin64.b_square fm).
Local Notation b_square_slope := (@ModelBin64.b_square_slope fm).
Local Notation b_ratio := (@ModelBin64.b_ratio fm).
Local Notation b_kl := (@ModelBin64.b_kl fm).
Local Notation b_kl_slope := (@ModelBin64.b_kl_slope fm).
Local Notation b_kl_values := (@ModelBin64.b_kl_values fm).
Local Notation b_tsallis := (@ModelBin64.b_tsallis fm).
Local Notation b_objective := (@ModelBin64.b_objective fm).
Local Notation b_gradient := (@ModelBin64.b_gradient fm).
Local Notation b_diff := (@ModelBin64.b_diff fm).
Local Notation b_update := (@ModelBin64.b_update fm).

Lemma facts : (53 <= digits fm /\ 1024 <= top fm /\ digits fm < top fm /\ bottom fm = 3 - top fm - digits fm)%Z.
Proof. assert (W := wide fm). unfold bottom. lia. Qed.
Local Ltac flia := assert (Facts := facts); lia.

Lemma nan_inf : forall (a : number fm) s, B2SF a = SpecFloat.S754_infinity s -> ~ finite a.
Proof. intros a s E F. unfold SpecBin64.finite in F. rewrite <- is_finite_SF_B2SF, E in F. discriminate. Qed.

Lemma small_dec : forall x, Rabs x < (largest fm) -> Rlt_bool (Rabs x) (bpow radix2 (top fm)) = true.
Proof. intros x L. apply Rlt_bool_true, L. Qed.

(** *** Sums, differences, products, quotients *)
Lemma add_finite : forall a b, finite (b_add a b) -> finite a /\ finite b.
Proof. intros [s|s| |s m e Ha] [s'|s'| |s' m' e' Hb]; cbn; intro F; try (split; reflexivity); try discriminate; destruct s, s'; discriminate. Qed.
Lemma sub_finite : forall a b, finite (b_sub a b) -> finite a /\ finite b.
Proof. intros [s|s| |s m e Ha] [s'|s'| |s' m' e' Hb]; cbn; intro F; try (split; reflexivity); try discriminate; destruct s, s'; discriminate. Qed.
Lemma mul_finite : forall a b, finite (b_mul a b) -> finite a /\ finite b.
Proof. intros [s|s| |s m e Ha] [s'|s'| |s' m' e' Hb]; cbn; intro F; try (split; reflexivity); try discriminate. Qed.
Lemma div_finite : forall a b, finite b -> finite (b_div a b) -> finite a /\ value b <> 0.
Proof.
  intros a b Fb F. destruct b as [s'|s'| |s' m' e' Hb]; try discriminate Fb.
  - destruct a as [s|s| |s m e Ha]; discriminate F.
  - split; [destruct a as [s|s| |s m e Ha]; try discriminate F; reflexivity|].
    intro E. apply (F2R_neq_0 radix2 (Float radix2 (cond_Zopp s' (Zpos m')) e')) in E; [exact E|]. destruct s'; discriminate.
Qed.

Lemma add_exact : forall a b, finite a -> finite b ->
  (Rabs ((near fm) (value a + value b)) < (largest fm) -> represents (b_add a b) ((near fm) (value a + value b))) /\
  ((largest fm) <= Rabs ((near fm) (value a + value b)) -> ~ finite (b_add a b)).
Proof.
  intros a b Fa Fb. assert (C := Bplus_correct (digits fm) (top fm) (digits_pos fm) (digits_top fm) mode_NE a b Fa Fb). split; intro L.
  - rewrite Rlt_bool_true in C by exact L. destruct C as (E & F & _). split; [exact F | exact E].
  - rewrite Rlt_bool_false in C by exact L. destruct C as (E & _). exact (nan_inf _ _ E).
Qed.
Lemma sub_exact : forall a b, finite a -> finite b ->
  (Rabs ((near fm) (value a - value b)) < (largest fm) -> represents (b_sub a b) ((near fm) (value a - value b))) /\
  ((largest fm) <= Rabs ((near fm) (value a - value b)) -> ~ finite (b_sub a b)).
Proof.
  intros a b Fa Fb. assert (C := Bminus_correct (digits fm) (top fm) (digits_pos fm) (digits_top fm) mode_NE a b Fa Fb). split; intro L.
  - rewrite Rlt_bool_true in C by exact L. destruct C as (E & F & _). split; [exact F | exact E].
  - rewrite Rlt_bool_false in C by exact L. destruct C as (E & _). exact (nan_inf _ _ E).
Qed.
Lemma mul_exact : forall a b, finite a -> finite b ->
  (Rabs ((near fm) (value a * value b)) < (largest fm) -> represents (b_mul a b) ((near fm) (value a * value b))) /\
  ((largest fm) <= Rabs ((near fm) (value a * value b)) -> ~ finite (b_mul a b)).
Proof.
  intros a b Fa Fb. assert (C := Bmult_correct (digits fm) (top fm) (digits_pos fm) (digits_top fm) mode_NE a b). split; intro L.
  - rewrite Rlt_bool_true in C by exact L. destruct C as (E & F & _). split; [|exact E]. unfold SpecBin64.finite, ModelBin64.b_mul. rewrite F, Fa, Fb. reflexivity.
  - rewrite Rlt_bool_false in C by exact L. exact (nan_inf _ _ C).
Qed.
Lemma div_exact : forall a b, finite a -> finite b -> value b <> 0 ->
  (Rabs ((near fm) (value a / value b)) < (largest fm) -> represents (b_div a b) ((near fm) (value a / value b))) /\
  ((largest fm) <= Rabs ((near fm) (value a / value b)) -> ~ finite (b_div a b)).
Proof.
  intros a b Fa Fb Nb. assert (C := Bdiv_correct (digits fm) (top fm) (digits_pos fm) (digits_top fm) mode_NE a b Nb). split; intro L.
  - rewrite Rlt_bool_true in C by exact L. destruct C as (E & F & _). split; [|exact E]. unfold SpecBin64.finite, ModelBin64.b_div. rewrite F. exact Fa.
  - rewrite Rlt_bool_false in C by exact L. exact (nan_inf _ _ C).
Qed.

Lemma add_agrees : forall a b x y, agrees a x -> agrees b y -> agrees (b_add a b) ((near fm) (x + y)).
Proof.
  intros a b x y A B F. destruct (add_finite a b F) as [Fa Fb]. rewrite <- (A Fa), <- (B Fb). destruct (add_exact a b Fa Fb) as [U V].
  destruct (Rlt_or_le (Rabs ((near fm) (value a + value b))) (largest fm)) as [L|L]; [apply (U L) | elim (V L F)].
Qed.
Lemma sub_agrees : forall a b x y, agrees a x -> agrees b y -> agrees (b_sub a b) ((near fm) (x - y)).
Proof.
  intros a b x y A B F. destruct (sub_finite a b F) as [Fa Fb]. rewrite <- (A Fa), <- (B Fb). destruct (sub_exact a b Fa Fb) as [U V].
  destruct (Rlt_or_le (Rabs ((near fm) (value a - value b))) (largest fm)) as [L|L]; [apply (U L) | elim (V L F)].
Qed.
Lemma mul_agrees : forall a b x y, agrees a x -> agrees b y -> agrees (b_mul a b) ((near fm) (x * y)).
Proof.
  intros a b x y A B F. destruct (mul_finite a b F) as [Fa Fb]. rewrite <- (A Fa), <- (B Fb). destruct (mul_exact a b Fa Fb) as [U V].
  destruct (Rlt_or_le (Rabs ((near fm) (value a * value b))) (largest fm)) as [L|L]; [apply (U L) | elim (V L F)].
Qed.
Lemma div_agrees : forall a b x y, agrees a x -> represents b y -> agrees (b_div a b) ((near fm) (x / y)).
Proof.
  intros a b x y A [Fb <-] F. destruct (div_finite a b Fb F) as [Fa N]. rewrite <- (A Fa). destruct (div_exact a b Fa Fb N) as [U V].
  destruct (Rlt_or_le (Rabs ((near fm) (value a / value b))) (largest fm)) as [L|L]; [apply (U L) | elim (V L F)].
Qed.

Lemma self_agrees : forall a, agrees a (value a).
Proof. intros a _. reflexivity. Qed.
Lemma selves_agree : forall l, Forall2 agrees l (map value l).
Proof. induction l; constructor; [apply self_agrees | assumption]. Qed.
Lemma rep_agrees : forall a x, represents a x -> agrees a x.
Proof. intros a x [_ E] _. exact E. Qed.
Lemma abs_agrees : forall a x, agrees a x -> agrees (Babs a) (Rabs x).
Proof. intros a x A F. unfold SpecBin64.finite in F. rewrite is_finite_Babs in F. unfold SpecBin64.value. rewrite B2R_Babs. f_equal. apply (A F). Qed.
Lemma opp_agrees : forall a x, agrees a x -> agrees (Bopp a) (- x).
Proof. intros a x A F. unfold SpecBin64.finite in F. rewrite is_finite_Bopp in F. unfold SpecBin64.value. rewrite B2R_Bopp. f_equal. apply (A F). Qed.

(** *** Numbers in the text of the program *)
Lemma lit_rep : forall m e, bin_fmt (bottom fm) (digits fm) (IZR m * bpow radix2 e) -> Rabs (IZR m * bpow radix2 e) < (largest fm) -> represents (b_lit m e) (IZR m * bpow radix2 e).
Proof.
  intros m e F L. assert (C := binary_normalize_correct (digits fm) (top fm) (digits_pos fm) (digits_top fm) mode_NE m e false). cbv zeta in C.
  change (F2R (Float radix2 m e)) with (IZR m * bpow radix2 e) in C.
  assert (I : round radix2 (SpecFloat.fexp (digits fm) (top fm)) (round_mode mode_NE) (IZR m * bpow radix2 e) = IZR m * bpow radix2 e)
    by (apply round_generic; [apply valid_rnd_round_mode | exact F]).
  rewrite I, Rlt_bool_true in C by exact L. destruct C as (E & Fi & _). split; [exact Fi | exact E].
Qed.
Lemma lit_int : forall m, (Z.abs m < 2 ^ 53)%Z -> represents (b_lit m 0) (IZR m).
Proof.
  intros m L. replace (IZR m) with (IZR m * bpow radix2 0) by (simpl; ring). apply lit_rep.
  - simpl (bpow radix2 0). rewrite Rmult_1_r. apply int_fmt; [flia | flia |]. eapply Z.lt_le_trans; [exact L|]. apply Z.pow_le_mono_r; flia.
  - simpl (bpow radix2 0). rewrite Rmult_1_r, <- abs_IZR. unfold largest. apply Rlt_trans with (IZR (2 ^ 53)); [apply IZR_lt, L|].
    change (IZR (2 ^ 53)) with (bpow radix2 53). apply bpow_lt. flia.
Qed.
Lemma lit_tiny : represents (b_lit 1 (-1022)) (/ 2 ^ 1022).
Proof.
  assert (E : / 2 ^ 1022 = IZR 1 * bpow radix2 (-1022)).
  { rewrite Rmult_1_l. change (-1022)%Z with (- (1022))%Z. rewrite bpow_opp. f_equal. rewrite <- (IZR_Zpower radix2 1022) by discriminate.
    rewrite pow_IZR. reflexivity. }
  rewrite E. apply lit_rep.
  - rewrite Rmult_1_l. apply generic_format_bpow. unfold FLT_exp. apply Z.max_lub; flia.
  - rewrite Rmult_1_l, Rabs_pos_eq by apply bpow_ge_0. unfold largest. apply bpow_lt. flia.
Qed.

(** *** Sums and integrals *)
Lemma nth_agrees : forall v r i, Forall2 agrees v r -> agrees (nth i v b_zero) (nth i r 0).
Proof. intros v r i A. revert i. induction A as [|a x v r A0 A IH]; intros [|i]; simpl; auto; intros _; reflexivity. Qed.
Lemma sum_agrees : forall t v r, Forall2 agrees v r -> agrees (b_sum t v) (fl_sum (near fm) t r).
Proof.
  induction t as [|i|l IHl r0 IHr]; intros v r A; cbn [ModelBin64.b_sum fl_sum].
  - intros _; reflexivity.
  - apply nth_agrees, A.
  - apply add_agrees; [apply IHl, A | apply IHr, A].
Qed.
Lemma terms_agree : forall x x' y y', Forall2 agrees x x' -> Forall2 agrees y y' -> Forall2 agrees (b_trap_terms x y) (fl_trap_terms (near fm) x' y').
Proof.
  intros x x' y y' X. revert y y'. induction X as [|x0 x0' x x' X0 X IH]; intros y y' Y; [constructor|].
  destruct X as [|x1 x1' x x' X1 X]; [destruct Y; constructor|]. destruct Y as [|y0 y0' y y' Y0 Y]; [constructor|].
  destruct Y as [|y1 y1' y y' Y1 Y]; [constructor|].
  change (b_trap_terms (x0 :: x1 :: x) (y0 :: y1 :: y)) with (b_div (b_mul (b_sub x1 x0) (b_add y1 y0)) (b_lit 2 0) :: b_trap_terms (x1 :: x) (y1 :: y)).
  change (fl_trap_terms (near fm) (x0' :: x1' :: x') (y0' :: y1' :: y')) with
    ((near fm) ((near fm) ((near fm) (x1' - x0') * (near fm) (y1' + y0')) / 2) :: fl_trap_terms (near fm) (x1' :: x') (y1' :: y')).
  constructor; [|apply IH; constructor; assumption].
  apply div_agrees; [|apply (lit_int 2); reflexivity]. apply mul_agrees; [apply sub_agrees; assumption | apply add_agrees; assumption].
Qed.
Lemma trapz_agrees : forall t x x' y y', Forall2 agrees x x' -> Forall2 agrees y y' -> agrees (b_trapz t x y) (fl_trapz (near fm) t x' y').
Proof. intros t x x' y y' X Y. apply sum_agrees, terms_agree; assumption. Qed.
Lemma mulv_agree : forall x x' y y', Forall2 agrees x x' -> Forall2 agrees y y' -> Forall2 agrees (b_mulv x y) (fl_mul (near fm) x' y').
Proof.
  intros x x' y y' X. revert y y'. induction X as [|a a' x x' A X IH]; intros y y' Y; [constructor|].
  destruct Y as [|b b' y y' B Y]; cbn [ModelBin64.b_mulv fl_mul]; constructor; [apply mul_agrees; assumption | apply IH, Y].
Qed.
Lemma cubic_agrees : forall t w w' y y', Forall2 agrees w w' -> Forall2 agrees y y' -> agrees (b_cubic t w y) (fl_cubic (near fm) t w' y').
Proof. intros t w w' y y' W Y. apply sum_agrees, mulv_agree; assumption. Qed.
Lemma sphere_agree : forall p p' x x' y y', agrees p p' -> Forall2 agrees x x' -> Forall2 agrees y y' ->
  Forall2 agrees (b_sphere p x y) (fl_sphere (near fm) p' x' y').
Proof.
  intros p p' x x' y y' P X. revert y y'. induction X as [|r r' x x' R X IH]; intros y y' Y; [constructor|].
  destruct Y as [|b b' y y' B Y]; cbn [ModelBin64.b_sphere fl_sphere]; constructor; [|apply IH, Y].
  assert (F4 := rep_agrees _ _ (lit_int 4 eq_refl)). repeat apply mul_agrees; assumption.
Qed.
Lemma spherical_agrees : forall p p' t x x' y y', agrees p p' -> Forall2 agrees x x' -> Forall2 agrees y y' ->
  agrees (b_spherical p t x y) (fl_spherical (near fm) p' t x' y').
Proof. intros. apply trapz_agrees; [assumption | apply sphere_agree; assumption]. Qed.

(** *** Measures *)
Lemma lib_agrees : forall bf ff a x, library bf ff -> agrees a x -> agrees (bf a) (ff x).
Proof. intros bf ff a x L A F. destruct (L a F) as [Fa E]. rewrite E, (A Fa). reflexivity. Qed.

Lemma square_agrees : forall bsq fsq a b x y, library bsq fsq -> agrees a x -> agrees b y -> agrees (b_square bsq a b) (fl_square (near fm) fsq x y).
Proof. intros bsq fsq a b x y L A B. apply (lib_agrees bsq fsq _ _ L), sub_agrees; assumption. Qed.
Lemma square_slope_agrees : forall a b x y, agrees a x -> agrees b y -> agrees (b_square_slope a b) (fl_square_slope (near fm) x y).
Proof. intros. apply mul_agrees; [apply (rep_agrees _ _ (lit_int (-2) eq_refl)) | apply sub_agrees; assumption]. Qed.

(** A ratio that the division of masked arrays does not hide is that of the rounded model. *)
Definition r64 := bin_rounding (bottom fm) (digits fm) ltac:(flia).
Lemma value_fmt : forall a, bin_fmt (bottom fm) (digits fm) (value a).
Proof. intro a. apply (generic_format_B2R (digits fm) (top fm) a). Qed.
Lemma abs_fmt64 : forall x, bin_fmt (bottom fm) (digits fm) x -> bin_fmt (bottom fm) (digits fm) (Rabs x).
Proof. intros x F. apply generic_format_abs, F. Qed.
(** Rounding does not leave an interval that ends in a number of the format. *)
Lemma rnd_bound : forall M x, bin_fmt (bottom fm) (digits fm) M -> Rabs x <= M -> Rabs ((near fm) x) <= M.
Proof.
  intros M x F L. assert (L1 := Rle_abs x). assert (L2 := Rle_abs (- x)). rewrite Rabs_Ropp in L2.
  assert (A : (near fm) x <= M) by (rewrite <- (rd_id _ _ _ _ r64 M F); apply (rd_mono _ _ _ _ r64); lra).
  assert (B : - M <= (near fm) x) by (rewrite <- (rd_id _ _ _ _ r64 (- M) (rd_opp _ _ _ _ r64 M F)); apply (rd_mono _ _ _ _ r64); lra).
  apply Rabs_le. lra.
Qed.
Lemma bpow_fmt : forall e, (bottom fm <= e)%Z -> bin_fmt (bottom fm) (digits fm) (bpow radix2 e).
Proof. intros e L. apply generic_format_bpow. unfold FLT_exp. apply Z.max_lub; flia. Qed.

Lemma div_kept : forall f g, finite f -> finite g -> (near fm) (Rabs (value f) * / 2 ^ 1022) < Rabs (value g) ->
  represents (b_div f g) ((near fm) (value f / value g)).
Proof.
  intros f g Ff Fg K. set (t := / 2 ^ 1022) in *.
  assert (Pt : 0 < t) by (apply Rinv_0_lt_compat, pow_lt; lra).
  assert (L : Rabs (value f) * t < Rabs (value g)).
  { apply Rnot_le_lt. intro C. apply Rlt_not_le in K. apply K.
    rewrite <- (rd_id _ _ _ _ r64 _ (abs_fmt64 _ (value_fmt g))) at 1. apply (rd_mono _ _ _ _ r64), C. }
  assert (Pg : 0 < Rabs (value g)). { eapply Rle_lt_trans; [|exact L]. apply Rmult_le_pos; [apply Rabs_pos | lra]. }
  assert (N : value g <> 0) by (intro E; rewrite E, Rabs_R0 in Pg; lra).
  apply (div_exact f g Ff Fg N). apply Rle_lt_trans with (bpow radix2 1022); [|apply bpow_lt; flia].
  apply rnd_bound; [apply bpow_fmt; flia|]. unfold Rdiv. rewrite Rabs_mult, Rabs_inv.
  apply Rmult_le_reg_r with (Rabs (value g) * t); [apply Rmult_lt_0_compat; assumption|].
  replace (Rabs (value f) * / Rabs (value g) * (Rabs (value g) * t)) with (Rabs (value f) * t) by (field; lra).
  assert (E : bpow radix2 1022 * t = 1).
  { unfold t. replace (2 ^ 1022) with (bpow radix2 1022); [apply Rinv_r, Rgt_not_eq, bpow_gt_0|].
    rewrite <- (IZR_Zpower radix2 1022) by discriminate. rewrite pow_IZR. reflexivity. }
  replace (bpow radix2 1022 * (Rabs (value g) * t)) with (bpow radix2 1022 * t * Rabs (value g)) by ring. rewrite E. lra.
Qed.

Lemma leb_spec : forall a b, finite a -> finite b -> (Bleb a b = true <-> value a <= value b).
Proof.
  intros a b Fa Fb. rewrite (Bleb_correct (digits fm) (top fm) a b Fa Fb). split; intro L.
  - destruct (Rle_bool_spec (B2R a) (B2R b)); [assumption | discriminate].
  - apply Rle_bool_true, L.
Qed.
Lemma ltb_spec : forall a b, finite a -> finite b -> (Bltb a b = true <-> value a < value b).
Proof.
  intros a b Fa Fb. rewrite (Bltb_correct (digits fm) (top fm) a b Fa Fb). split; intro L.
  - destruct (Rlt_bool_spec (B2R a) (B2R b)); [assumption | discriminate].
  - apply Rlt_bool_true, L.
Qed.

Lemma tiny_rep : forall f, finite f -> represents (b_mul (Babs f) (b_lit 1 (-1022))) ((near fm) (Rabs (value f) * / 2 ^ 1022)).
Proof.
  intros f Ff. destruct lit_tiny as [Ft Et]. assert (Fa : finite (Babs f)) by (unfold SpecBin64.finite; rewrite is_finite_Babs; exact Ff).
  assert (Ea : value (Babs f) = Rabs (value f)) by apply B2R_Babs.
  destruct (mul_exact (Babs f) (b_lit 1 (-1022)) Fa Ft) as [U _]. rewrite Ea, Et in U. apply U.
  apply Rle_lt_trans with (Rabs (value f)).
  - apply rnd_bound; [apply abs_fmt64, value_fmt|]. rewrite Rabs_mult, Rabs_Rabsolu.
    rewrite <- (Rmult_1_r (Rabs (value f))) at 2. apply Rmult_le_compat_l; [apply Rabs_pos|].
    assert (P : 1 <= 2 ^ 1022) by (apply pow_R1_Rle; lra). rewrite Rabs_pos_eq by (left; apply Rinv_0_lt_compat; lra).
    rewrite <- Rinv_1. apply Rinv_le_contravar; lra.
  - unfold SpecBin64.value. apply abs_B2R_lt_emax.
Qed.

Lemma ratio_spec : forall fill mask f g, finite mask -> finite f -> finite g ->
  (value g <= value mask \/ Rabs (value g) <= (near fm) (Rabs (value f) * / 2 ^ 1022) -> b_ratio fill mask f g = fill) /\
  (value mask < value g -> (near fm) (Rabs (value f) * / 2 ^ 1022) < Rabs (value g) ->
    b_ratio fill mask f g = b_div f g /\ represents (b_ratio fill mask f g) ((near fm) (value f / value g))).
Proof.
  intros fill mask f g Fm Ff Fg. destruct (tiny_rep f Ff) as [Ft Et]. assert (Fa : finite (Babs g)) by (unfold SpecBin64.finite; rewrite is_finite_Babs; exact Fg).
  assert (Ea : value (Babs g) = Rabs (value g)) by apply B2R_Babs. unfold ModelBin64.b_ratio. split.
  - intros [L|L].
    + rewrite (proj2 (leb_spec g mask Fg Fm) L). reflexivity.
    + rewrite (proj2 (leb_spec (Babs g) _ Fa Ft)) by (rewrite Ea, Et; exact L). rewrite orb_true_r. reflexivity.
  - intros L K. assert (D := div_kept f g Ff Fg K). destruct (Bleb g mask) eqn:E1.
    { apply (leb_spec g mask Fg Fm) in E1. lra. }
    destruct (Bleb (Babs g) _) eqn:E2.
    { apply (leb_spec (Babs g) _ Fa Ft) in E2. rewrite Ea, Et in E2. lra. }
    assert (Fd : is_finite (b_div f g) = true) by apply D. rewrite Fd. simpl. split; [reflexivity | exact D].
Qed.

Lemma ratio_rep : forall mask f g, seen mask f g ->
  represents (b_ratio (b_lit 1 0) mask f g) (fl_ratio (near fm) (value mask) (value f) (value g)) /\
  represents (b_ratio b_zero mask f g) (fl_ratio0 (near fm) (value mask) (value f) (value g)).
Proof.
  intros mask f g (Fm & Ff & Fg & C).
  destruct (ratio_spec (b_lit 1 0) mask f g Fm Ff Fg) as [A1 B1]. destruct (ratio_spec b_zero mask f g Fm Ff Fg) as [A0 B0].
  unfold fl_ratio, fl_ratio0. destruct (Rle_dec (value g) (value mask)) as [L|L].
  - rewrite A1, A0 by (left; exact L). split; [exact (lit_int 1 eq_refl) | split; reflexivity].
  - destruct C as [C|C]; [lra|]. split; [apply B1 | apply B0]; lra.
Qed.
Lemma kl_agrees : forall blog flog mask f g, library blog flog -> seen mask f g ->
  agrees (b_kl blog mask f g) (fl_kl (near fm) flog (value mask) (value f) (value g)).
Proof.
  intros blog flog mask f g L S. destruct (ratio_rep mask f g S) as [R _]. apply mul_agrees; [apply self_agrees|].
  apply (lib_agrees _ _ _ _ L), rep_agrees, R.
Qed.
Lemma kl_slope_agrees : forall mask f g, seen mask f g -> agrees (b_kl_slope mask f g) (fl_kl_slope (near fm) (value mask) (value f) (value g)).
Proof. intros mask f g S. apply opp_agrees, rep_agrees, (ratio_rep mask f g S). Qed.

Lemma tsallis_agrees : forall bpow fpow alpha mask f g, library2 bpow fpow -> seen mask f g -> finite alpha -> finite (b_sub alpha (b_lit 1 0)) ->
  agrees (b_tsallis bpow alpha mask f g) (fl_tsallis (near fm) fpow (value alpha) (value mask) (value f) (value g)).
Proof.
  intros bpow fpow alpha mask f g L S Fa Fs. destruct (ratio_rep mask f g S) as [_ R]. unfold ModelBin64.b_tsallis, fl_tsallis. cbv zeta.
  assert (A : value (b_sub alpha (b_lit 1 0)) = (near fm) (value alpha - 1)).
  { apply (sub_agrees alpha (b_lit 1 0) (value alpha) 1 (self_agrees _) (rep_agrees _ _ (lit_int 1 eq_refl)) Fs). }
  apply div_agrees; [|split; [exact Fs | exact A]]. apply mul_agrees; [apply self_agrees|].
  apply sub_agrees; [|apply (rep_agrees _ _ (lit_int 1 eq_refl))].
  intro F. assert (E := L _ _ (proj1 R) Fs F). rewrite E, A, (proj2 R). reflexivity.
Qed.

(** *** Arrays *)
Lemma map2_agree : forall (m : (number fm) -> (number fm) -> (number fm)) (m' : R -> R -> R) f g,
  (forall a b, In (a, b) (combine f g) -> agrees (m a b) (m' (value a) (value b))) ->
  Forall2 agrees (b_map2 m f g) (fl_map2 m' (map value f) (map value g)).
Proof.
  intros m m' f. unfold ModelBin64.b_map2, fl_map2. induction f as [|a f IH]; intros [|b g] E; cbn [combine map]; try constructor.
  - apply E. left; reflexivity.
  - apply IH. intros. apply E. right; assumption.
Qed.

Lemma objective_agrees : forall quadr quadr' m m' om f g, same_rule quadr quadr' ->
  (forall a b, In (a, b) (combine f g) -> agrees (m a b) (m' (value a) (value b))) ->
  agrees (b_objective quadr om (b_map2 m f g)) (fl_objective (near fm) quadr' (map value om) (fl_map2 m' (map value f) (map value g))).
Proof. intros quadr quadr' m m' om f g Q E. apply Q, mulv_agree; [apply selves_agree | apply map2_agree, E]. Qed.
Lemma gradient_agrees : forall quadr quadr' m m' om f g b, same_rule quadr quadr' ->
  (forall x y, In (x, y) (combine f g) -> agrees (m x y) (m' (value x) (value y))) ->
  agrees (b_gradient quadr om (b_map2 m f g) b) (fl_gradient (near fm) quadr' (map value om) (fl_map2 m' (map value f) (map value g)) (map value b)).
Proof. intros quadr quadr' m m' om f g b Q E. apply Q, mulv_agree; [apply mulv_agree; [apply selves_agree | apply map2_agree, E] | apply selves_agree]. Qed.
Lemma diff_agree : forall f g, Forall2 agrees (b_diff f g) (fl_diff (near fm) (map value f) (map value g)).
Proof. intros f g. apply (map2_agree (fun a b => Babs (b_sub a b)) (fun a b => Rabs ((near fm) (a - b)))). intros a b _. apply abs_agrees, sub_agrees; apply self_agrees. Qed.

Lemma kl_values_agree : forall blog flog neg mask f g, library blog flog -> length f = length g ->
  (forall a b, In (a, b) (combine f g) -> seen mask a b) -> Forall finite g ->
  Forall2 agrees (b_kl_values blog neg mask f g) (fl_kl_values (near fm) flog (value neg) (value mask) (map value f) (map value g)).
Proof.
  intros blog flog neg mask f g L Len S Fg. unfold ModelBin64.b_kl_values, fl_kl_values.
  replace (existsb (fun b => if Rlt_dec b 0 then true else false) (map value g)) with (existsb (fun b => Bltb b b_zero) g).
  - destruct (existsb (fun b => Bltb b b_zero) g).
    + clear. induction g; constructor; [apply self_agrees | assumption].
    + apply map2_agree. intros a b I. apply kl_agrees; [exact L | apply S, I].
  - clear - Fg. induction Fg as [|b g Fb Fg IH]; [reflexivity|]. cbn [existsb map]. f_equal; [|exact IH].
    assert (Z : value b_zero = 0) by reflexivity. destruct (Rlt_dec (value b) 0) as [Lt|Lt].
    + apply (ltb_spec b b_zero Fb eq_refl). rewrite Z. exact Lt.
    + apply not_true_iff_false. intro E. apply (ltb_spec b b_zero Fb eq_refl) in E. rewrite Z in E. lra.
Qed.

Lemma update_agrees : forall quadr quadr' mask N f g b c, same_rule quadr quadr' ->
  (forall x y, In (x, y) (combine f g) -> seen mask x y) -> finite N -> finite (b_div (quadr f) N) ->
  agrees (b_update quadr mask N f g b c)
    ((near fm) ((near fm) (value c * quadr' (fl_integrand (near fm) (value mask) (map value f) (map value g) (map value b))) / (near fm) (quadr' (map value f) / value N))).
Proof.
  intros quadr quadr' mask N f g b c Q S FN FL. unfold ModelBin64.b_update. apply div_agrees.
  - apply mul_agrees; [apply self_agrees|]. apply Q. unfold fl_integrand. apply mulv_agree; [|apply selves_agree].
    apply (map2_agree (b_ratio (b_lit 1 0) mask) (fl_ratio (near fm) (value mask))). intros x y I. apply rep_agrees, (ratio_rep mask x y (S x y I)).
  - split; [exact FL|]. apply div_agrees; [apply Q, selves_agree | split; [exact FN | reflexivity] | exact FL].
Qed.

(** *** Results that cannot overflow *)
Lemma mult_fmt : forall n e, (Z.of_nat n < 2 ^ digits fm)%Z -> (bottom fm <= e)%Z -> bin_fmt (bottom fm) (digits fm) (INR n * bpow radix2 e).
Proof.
  intros n e L E. apply generic_format_FLT. exists (Float radix2 (Z.of_nat n) e); [|simpl; rewrite Z.abs_eq; lia | exact E].
  unfold F2R. simpl. rewrite INR_IZR_INZ. reflexivity.
Qed.

Lemma sum_rep : forall t v r e, (bottom fm <= e)%Z -> (Z.of_nat (length (leaves t)) < 2 ^ digits fm)%Z -> INR (length (leaves t)) * bpow radix2 e < (largest fm) ->
  Forall2 represents v r -> Forall (fun x => Rabs x <= bpow radix2 e) r ->
  represents (b_sum t v) (fl_sum (near fm) t r) /\ Rabs (fl_sum (near fm) t r) <= INR (length (leaves t)) * bpow radix2 e.
Proof.
  intros t v r e E N M V B. assert (Pe := bpow_ge_0 radix2 e). induction t as [|i|t1 IH1 t2 IH2]; cbn [ModelBin64.b_sum fl_sum leaves].
  - split; [split; reflexivity|]. rewrite Rabs_R0. simpl. lra.
  - split.
    + clear - V. revert i. induction V as [|a x v r A V IH]; intros [|i]; simpl; auto; split; reflexivity.
    + simpl. rewrite Rmult_1_l. destruct (nth_in_or_default i r 0) as [I|D]; [|rewrite D, Rabs_R0; exact Pe].
      rewrite Forall_forall in B. apply B, I.
  - cbn [leaves] in N, M. rewrite app_length in *. rewrite plus_INR in *.
    assert (P1 := pos_INR (length (leaves t1))). assert (P2 := pos_INR (length (leaves t2))).
    assert (Q1 := Rmult_le_pos _ _ P1 Pe). assert (Q2 := Rmult_le_pos _ _ P2 Pe).
    destruct IH1 as [[F1 V1] B1]; [lia | lra|]. destruct IH2 as [[F2 V2] B2]; [lia | lra|].
    assert (Bd : Rabs ((near fm) (fl_sum (near fm) t1 r + fl_sum (near fm) t2 r)) <= (INR (length (leaves t1)) + INR (length (leaves t2))) * bpow radix2 e).
    { rewrite <- plus_INR. apply rnd_bound; [apply mult_fmt; assumption|]. rewrite plus_INR.
      eapply Rle_trans; [apply Rabs_triang|]. lra. }
    split; [|exact Bd]. destruct (add_exact _ _ F1 F2) as [U _]. rewrite V1, V2 in U. apply U. lra.
Qed.

Lemma pow_lt_largest : forall e, (e < top fm)%Z -> bpow radix2 e < (largest fm).
Proof. intros e L. apply bpow_lt, L. Qed.

Lemma mul_rep : forall a b x y e e', represents a x -> represents b y -> Rabs x <= bpow radix2 e -> Rabs y <= bpow radix2 e' ->
  (bottom fm <= e + e' < top fm)%Z -> represents (b_mul a b) ((near fm) (x * y)) /\ Rabs ((near fm) (x * y)) <= bpow radix2 (e + e').
Proof.
  intros a b x y e e' [Fa Va] [Fb Vb] X Y E.
  assert (Bd : Rabs ((near fm) (x * y)) <= bpow radix2 (e + e')).
  { apply rnd_bound; [apply bpow_fmt; lia|]. rewrite Rabs_mult, bpow_plus. apply Rmult_le_compat; try apply Rabs_pos; assumption. }
  split; [|exact Bd]. destruct (mul_exact a b Fa Fb) as [U _]. rewrite Va, Vb in U. apply U.
  eapply Rle_lt_trans; [exact Bd | apply pow_lt_largest; lia].
Qed.
Lemma double_pow : forall e, bpow radix2 e + bpow radix2 e = bpow radix2 (e + 1).
Proof. intro e. rewrite bpow_plus. change (bpow radix2 1) with 2. ring. Qed.

Lemma terms_rep : forall x x' y y' a b, (bottom fm <= a)%Z -> (bottom fm <= b)%Z -> (bottom fm <= a + b)%Z -> (a + b + 2 < top fm)%Z -> (a + 1 < top fm)%Z -> (b + 1 < top fm)%Z ->
  Forall2 represents x x' -> Forall2 represents y y' -> Forall (fun r => Rabs r <= bpow radix2 a) x' -> Forall (fun r => Rabs r <= bpow radix2 b) y' ->
  Forall2 represents (b_trap_terms x y) (fl_trap_terms (near fm) x' y') /\ Forall (fun r => Rabs r <= bpow radix2 (a + b + 1)) (fl_trap_terms (near fm) x' y').
Proof.
  intros x x' y y' a b Ea Eb Eab E La Lb X. revert y y'. induction X as [|x0 x0' x x' X0 X IH]; intros y y' Y BX BY; [split; constructor|].
  destruct X as [|x1 x1' x x' X1 X]; [destruct Y; split; constructor|]. destruct Y as [|y0 y0' y y' Y0 Y]; [split; constructor|].
  destruct Y as [|y1 y1' y y' Y1 Y]; [split; constructor|].
  change (b_trap_terms (x0 :: x1 :: x) (y0 :: y1 :: y)) with (b_div (b_mul (b_sub x1 x0) (b_add y1 y0)) (b_lit 2 0) :: b_trap_terms (x1 :: x) (y1 :: y)).
  change (fl_trap_terms (near fm) (x0' :: x1' :: x') (y0' :: y1' :: y')) with
    ((near fm) ((near fm) ((near fm) (x1' - x0') * (near fm) (y1' + y0')) / 2) :: fl_trap_terms (near fm) (x1' :: x') (y1' :: y')).
  inversion BX as [|? ? Bx0 BX' [P Q]]; subst. inversion BX' as [|? ? Bx1 BX'' [P Q]]; subst.
  inversion BY as [|? ? By0 BY' [P Q]]; subst. inversion BY' as [|? ? By1 BY'' [P Q]]; subst.
  destruct (IH (y1 :: y) (y1' :: y')) as [I1 I2]; [constructor; assumption.. |].
  assert (D1 : represents (b_sub x1 x0) ((near fm) (x1' - x0')) /\ Rabs ((near fm) (x1' - x0')) <= bpow radix2 (a + 1)).
  { assert (Bd : Rabs ((near fm) (x1' - x0')) <= bpow radix2 (a + 1)).
    { apply rnd_bound; [apply bpow_fmt; lia|]. rewrite <- double_pow. unfold Rminus. eapply Rle_trans; [apply Rabs_triang|]. rewrite Rabs_Ropp. lra. }
    split; [|exact Bd]. destruct X0 as [F0 V0], X1 as [F1 V1]. destruct (sub_exact x1 x0 F1 F0) as [U _]. rewrite V0, V1 in U. apply U.
    eapply Rle_lt_trans; [exact Bd | apply pow_lt_largest; lia]. }
  assert (D2 : represents (b_add y1 y0) ((near fm) (y1' + y0')) /\ Rabs ((near fm) (y1' + y0')) <= bpow radix2 (b + 1)).
  { assert (Bd : Rabs ((near fm) (y1' + y0')) <= bpow radix2 (b + 1)).
    { apply rnd_bound; [apply bpow_fmt; lia|]. rewrite <- double_pow. eapply Rle_trans; [apply Rabs_triang|]. lra. }
    split; [|exact Bd]. destruct Y0 as [F0 V0], Y1 as [F1 V1]. destruct (add_exact y1 y0 F1 F0) as [U _]. rewrite V0, V1 in U. apply U.
    eapply Rle_lt_trans; [exact Bd | apply pow_lt_largest; lia]. }
  destruct D1 as [R1 B1], D2 as [R2 B2].
  destruct (mul_rep _ _ _ _ (a + 1) (b + 1) R1 R2 B1 B2) as [R3 B3]; [lia|].
  set (m := (near fm) ((near fm) (x1' - x0') * (near fm) (y1' + y0'))) in *.
  assert (Bd : Rabs ((near fm) (m / 2)) <= bpow radix2 (a + b + 1)).
  { apply rnd_bound; [apply bpow_fmt; lia|]. unfold Rdiv. rewrite Rabs_mult, (Rabs_pos_eq (/ 2)) by lra.
    replace (a + 1 + (b + 1))%Z with (a + b + 1 + 1)%Z in B3 by ring. rewrite <- double_pow in B3. lra. }
  assert (R4 : represents (b_div (b_mul (b_sub x1 x0) (b_add y1 y0)) (b_lit 2 0)) ((near fm) (m / 2))).
  { destruct (lit_int 2 eq_refl) as [F2 V2]. destruct R3 as [F3 V3]. destruct (div_exact _ _ F3 F2) as [U _]; [rewrite V2; lra|].
    rewrite V2, V3 in U. apply U. eapply Rle_lt_trans; [exact Bd | apply pow_lt_largest; lia]. }
  split; constructor; assumption.
Qed.

Lemma lift_reps : forall l, Forall finite l -> Forall2 represents l (map value l).
Proof. intros l F. induction F; constructor; [split; [assumption | reflexivity] | assumption]. Qed.

Lemma leaves_count : forall n t, orders n t -> length (leaves t) = n.
Proof. intros n t O. rewrite (Permutation.Permutation_length O). apply seq_length. Qed.

Lemma trapz_rep : forall t x x' y y' a b, (bottom fm <= a)%Z -> (a + 1 < top fm)%Z -> (bottom fm <= b)%Z -> (b + 1 < top fm)%Z -> (bottom fm <= a + b)%Z ->
  length x = length y -> orders (Nat.pred (length x)) t -> (Z.of_nat (length x) < 2 ^ digits fm)%Z -> INR (length x) * bpow radix2 (a + b + 2) < (largest fm) ->
  Forall2 represents x x' -> Forall2 represents y y' -> Forall (fun r => Rabs r <= bpow radix2 a) x' -> Forall (fun r => Rabs r <= bpow radix2 b) y' ->
  represents (b_trapz t x y) (fl_trapz (near fm) t x' y').
Proof.
  intros t x x' y y' a b Ea La Eb Lb Eab Len O N M X Y BX BY. unfold ModelBin64.b_trapz, fl_trapz. assert (C := leaves_count _ _ O).
  destruct (Nat.eq_dec (length x) 0) as [Z|Z].
  { destruct x; [|discriminate Z]. inversion X; subst. simpl in C. destruct Y; [|discriminate Len]. simpl.
    apply (sum_rep t [] [] 0); [flia | rewrite C; apply Z.pow_pos_nonneg; flia | rewrite C; simpl; rewrite Rmult_0_l; apply bpow_gt_0 | constructor | constructor]. }
  assert (P := bpow_gt_0 radix2 (a + b + 2)). assert (L1 : 1 <= INR (length x)) by (change 1 with (INR 1); apply le_INR; lia).
  assert (E : (a + b + 2 < top fm)%Z).
  { apply (lt_bpow radix2). unfold largest in M. eapply Rle_lt_trans; [|exact M]. rewrite <- (Rmult_1_l (bpow radix2 (a + b + 2))) at 1. apply Rmult_le_compat_r; lra. }
  destruct (terms_rep x x' y y' a b Ea Eb Eab E La Lb X Y BX BY) as [T1 T2].
  apply (sum_rep t _ _ (a + b + 1)); try assumption; [lia | lia |].
  rewrite C. eapply Rle_lt_trans; [|exact M]. apply Rmult_le_compat; [apply pos_INR | apply bpow_ge_0 | apply le_INR; lia | apply bpow_le; lia].
Qed.

Lemma mulv_rep : forall x x' y y' a b, (bottom fm <= a + b < top fm)%Z -> Forall2 represents x x' -> Forall2 represents y y' ->
  Forall (fun r => Rabs r <= bpow radix2 a) x' -> Forall (fun r => Rabs r <= bpow radix2 b) y' ->
  Forall2 represents (b_mulv x y) (fl_mul (near fm) x' y') /\ Forall (fun r => Rabs r <= bpow radix2 (a + b)) (fl_mul (near fm) x' y').
Proof.
  intros x x' y y' a b E X. revert y y'. induction X as [|x0 x0' x x' X0 X IH]; intros y y' Y BX BY; [split; constructor|].
  destruct Y as [|y0 y0' y y' Y0 Y]; [split; constructor|]. inversion BX as [|? ? Bx BX' [P Q]]; subst. inversion BY as [|? ? By BY' [P Q]]; subst.
  destruct (IH y y' Y BX' BY') as [I1 I2]. destruct (mul_rep _ _ _ _ a b X0 Y0 Bx By E) as [R B]. split; constructor; assumption.
Qed.

Lemma zero_rep : forall t, length (leaves t) = 0%nat -> represents (b_sum t []) (fl_sum (near fm) t []).
Proof.
  intros t C. apply (sum_rep t [] [] 0); [flia | rewrite C; apply Z.pow_pos_nonneg; flia | rewrite C; simpl; rewrite Rmult_0_l; apply bpow_gt_0 | constructor | constructor].
Qed.
Lemma room : forall n e, (0 < n)%nat -> INR n * bpow radix2 e < (largest fm) -> (e < top fm)%Z.
Proof.
  intros n e N M. apply (lt_bpow radix2). unfold largest in M. eapply Rle_lt_trans; [|exact M].
  assert (L1 : 1 <= INR n) by (change 1 with (INR 1); apply le_INR; lia). assert (P := bpow_gt_0 radix2 e).
  rewrite <- (Rmult_1_l (bpow radix2 e)) at 1. apply Rmult_le_compat_r; lra.
Qed.

Lemma cubic_rep : forall t w w' y y' a b, (bottom fm <= a + b)%Z ->
  length w = length y -> orders (length w) t -> (Z.of_nat (length w) < 2 ^ digits fm)%Z -> INR (length w) * bpow radix2 (a + b) < (largest fm) ->
  Forall2 represents w w' -> Forall2 represents y y' -> Forall (fun r => Rabs r <= bpow radix2 a) w' -> Forall (fun r => Rabs r <= bpow radix2 b) y' ->
  represents (b_cubic t w y) (fl_cubic (near fm) t w' y').
Proof.
  intros t w w' y y' a b E Len O N M X Y BX BY. unfold ModelBin64.b_cubic, fl_cubic. assert (C := leaves_count _ _ O).
  destruct (Nat.eq_dec (length w) 0) as [Z|Z].
  { destruct w; [|discriminate Z]. inversion X; subst. simpl. apply zero_rep, C. }
  destruct (mulv_rep w w' y y' a b) as [T1 T2]; try assumption. { split; [exact E | apply (room (length w)); [lia | exact M]]. }
  apply (sum_rep t _ _ (a + b)); try assumption; [lia | rewrite C; exact M].
Qed.

Lemma weaken_pow : forall l a b, (a <= b)%Z -> Forall (fun r => Rabs r <= bpow radix2 a) l -> Forall (fun r => Rabs r <= bpow radix2 b) l.
Proof. intros l a b L F. eapply Forall_impl; [|exact F]. simpl. intros r B. eapply Rle_trans; [exact B | apply bpow_le, L]. Qed.

Lemma sphere_rep : forall p p' x x' y y' a b, (0 <= a)%Z -> (bottom fm <= b)%Z -> (2 * a + b + 4 < top fm)%Z -> (2 * a < top fm)%Z ->
  represents p p' -> Rabs p' <= 4 -> Forall2 represents x x' -> Forall2 represents y y' ->
  Forall (fun r => Rabs r <= bpow radix2 a) x' -> Forall (fun r => Rabs r <= bpow radix2 b) y' ->
  Forall2 represents (b_sphere p x y) (fl_sphere (near fm) p' x' y') /\ Forall (fun r => Rabs r <= bpow radix2 (2 * a + b + 4)) (fl_sphere (near fm) p' x' y').
Proof.
  intros p p' x x' y y' a b Ea Eb E La P BP X. assert (Facts := facts). revert y y'. induction X as [|x0 x0' x x' X0 X IH]; intros y y' Y BX BY; [split; constructor|].
  destruct Y as [|y0 y0' y y' Y0 Y]; [split; constructor|]. inversion BX as [|? ? Bx BX' [U V]]; subst. inversion BY as [|? ? By BY' [U V]]; subst.
  destruct (IH y y' Y BX' BY') as [I1 I2]. assert (B4 : Rabs 4 <= bpow radix2 2) by (rewrite Rabs_pos_eq by lra; change (bpow radix2 2) with 4; lra).
  destruct (mul_rep _ _ _ _ b 2 Y0 (lit_int 4 eq_refl) By B4) as [R1 B1]; [lia|].
  destruct (mul_rep _ _ _ _ (b + 2) 2 R1 P B1 BP) as [R2 B2]; [lia|].
  destruct (mul_rep _ _ _ _ a a X0 X0 Bx Bx) as [R3 B3]; [lia|].
  destruct (mul_rep _ _ _ _ (b + 2 + 2) (a + a) R2 R3 B2 B3) as [R4 B4']; [lia|].
  replace (b + 2 + 2 + (a + a))%Z with (2 * a + b + 4)%Z in B4' by ring. split; constructor; assumption.
Qed.

Lemma spherical_rep : forall p p' t x x' y y' a b, (0 <= a)%Z -> (2 * a < top fm)%Z -> (bottom fm <= b)%Z ->
  represents p p' -> Rabs p' <= 4 -> length x = length y -> orders (Nat.pred (length x)) t -> (Z.of_nat (length x) < 2 ^ digits fm)%Z ->
  INR (length x) * bpow radix2 (3 * a + b + 6) < (largest fm) ->
  Forall2 represents x x' -> Forall2 represents y y' -> Forall (fun r => Rabs r <= bpow radix2 a) x' -> Forall (fun r => Rabs r <= bpow radix2 b) y' ->
  represents (b_spherical p t x y) (fl_spherical (near fm) p' t x' y').
Proof.
  intros p p' t x x' y y' a b Ea La Eb P BP Len O N M X Y BX BY. unfold ModelBin64.b_spherical, fl_spherical. assert (Facts := facts).
  destruct x as [|x0 x].
  { inversion X; subst. destruct Y; [|discriminate Len]. apply zero_rep, (leaves_count _ _ O). }
  assert (E : (3 * a + b + 6 < top fm)%Z) by (apply (room (length (x0 :: x))); [simpl; lia | exact M]). remember (x0 :: x) as l eqn:El. clear x0 x El. rename l into x.
  destruct (sphere_rep p p' x x' y y' a b) as [S1 S2]; try assumption; try lia.
  assert (Ls : length (b_sphere p x y) = length x).
  { clear - Len. revert y Len. induction x; intros [|? y] L; try discriminate L; simpl; auto. }
  apply (trapz_rep t x x' _ _ a (2 * a + b + 4)); try assumption; try lia; try congruence.
  replace (a + (2 * a + b + 4) + 2)%Z with (3 * a + b + 6)%Z by ring. exact M.
Qed.

Lemma values_fmt : forall l, Forall (bin_fmt (bottom fm) (digits fm)) (map value l).
Proof. induction l; constructor; [apply value_fmt | assumption]. Qed.

(** *** End to end *)
Lemma trapz_binary : forall t x y, length x = length y ->
  Forall (bin_fmt (bottom fm) (digits fm)) x -> Forall (bin_fmt (bottom fm) (digits fm)) y -> ascending x ->
  orders (Nat.pred (length x)) t -> INR (height t + 4) <= bpow radix2 (digits fm - 1) ->
  Rabs (fl_trapz (near fm) t x y - trap x y) <=
    INR (height t + 4) * bpow radix2 (1 - digits fm) * trap x (map Rabs y) + INR (length x) * bpow radix2 (bottom fm + 2).
Proof.
  intros t x y L Fx Fy A O Hh.
  assert (B := trapz_error _ _ _ _ r64 t x y L Fx Fy A O).
  eapply Rle_trans; [exact B|].
  set (u := bpow radix2 (- digits fm)) in *. set (eta := bpow radix2 (bottom fm - 1)) in *.
  assert (Eu : bpow radix2 (1 - digits fm) = 2 * u).
  { unfold u. replace (1 - digits fm)%Z with (1 + - digits fm)%Z by ring. rewrite bpow_plus. reflexivity. }
  assert (Ee : bpow radix2 (bottom fm + 2) = 8 * eta).
  { unfold eta. replace (bottom fm + 2)%Z with (3 + (bottom fm - 1))%Z by ring. rewrite bpow_plus. reflexivity. }
  assert (Hu : 0 <= u) by apply bpow_ge_0.
  assert (He : 0 <= eta) by apply bpow_ge_0.
  assert (Hk : INR (height t + 4) * u <= 1 / 2).
  { assert (E : bpow radix2 (digits fm - 1) * (2 * u) = 1).
    { rewrite <- Eu, <- bpow_plus. replace (digits fm - 1 + (1 - digits fm))%Z with 0%Z by ring. reflexivity. }
    assert (INR (height t + 4) * (2 * u) <= bpow radix2 (digits fm - 1) * (2 * u)) by (apply Rmult_le_compat_r; lra). lra. }
  assert (T : 0 <= trap x (map Rabs y)).
  { rewrite <- trap_terms_sum. assert (P : Forall (Rle 0) (trap_terms x (map Rabs y))).
    { apply trap_terms_pos; [exact A|]. apply Forall_map, Forall_forall. intros; apply Rabs_pos. }
    induction P; [apply Rle_refl | unfold SpecDens.rsum in *; simpl; lra]. }
  rewrite Eu, Ee. apply Rplus_le_compat.
  - apply Rmult_le_compat_r; [exact T|]. assert (S := pow_small u (height t + 4) Hu Hk). lra.
  - assert (Hk' : INR (height t) * u <= 1 / 2).
    { assert (INR (height t) * u <= INR (height t + 4) * u); [|lra]. apply Rmult_le_compat_r; [exact Hu|]. apply le_INR; lia. }
    assert (S := pow_small u (height t) Hu Hk').
    assert (S2 : (1 + u) ^ height t <= 2) by lra.
    assert (Hn : INR (Nat.pred (length x)) <= INR (length x)) by (apply le_INR; lia).
    assert (Hn0 := pos_INR (Nat.pred (length x))).
    assert ((1 + u) ^ height t * (INR (Nat.pred (length x)) * (2 * eta)) <= 2 * (INR (length x) * (2 * eta))).
    { apply Rmult_le_compat; [apply pow_le; lra | apply Rmult_le_pos; lra | exact S2 | apply Rmult_le_compat_r; lra]. }
    assert (0 <= INR (length x) * eta) by (apply Rmult_le_pos; lra). lra.
Qed.
Lemma radial_near : forall t x y a b, (bottom fm <= a)%Z -> (a + 1 < top fm)%Z -> (bottom fm <= b)%Z -> (b + 1 < top fm)%Z -> (bottom fm <= a + b)%Z ->
  length x = length y -> orders (Nat.pred (length x)) t -> INR (height t + 4) <= bpow radix2 (digits fm - 1) ->
  (Z.of_nat (length x) < 2 ^ digits fm)%Z -> INR (length x) * bpow radix2 (a + b + 2) < largest fm ->
  Forall finite x -> Forall finite y -> ascending (map value x) ->
  Forall (fun r => Rabs (value r) <= bpow radix2 a) x -> Forall (fun r => Rabs (value r) <= bpow radix2 b) y ->
  finite (b_trapz t x y) /\
  Rabs (value (b_trapz t x y) - trap (map value x) (map value y)) <=
    INR (height t + 4) * bpow radix2 (1 - digits fm) * trap (map value x) (map Rabs (map value y)) + INR (length x) * bpow radix2 (bottom fm + 2).
Proof.
  intros t x y a b Ea La Eb Lb Eab Len O H N M Fx Fy A BX BY.
  destruct (trapz_rep t x (map value x) y (map value y) a b) as [F V]; try assumption; try (apply lift_reps; assumption); try (apply Forall_map; assumption).
  split; [exact F|]. rewrite V, <- (map_length value x). apply trapz_binary; rewrite ?map_length; try assumption; apply values_fmt.
Qed.

(** The least squares objective is not negative unless it is NaN or infinite. *)
Lemma squares_pos : forall bsq fsq t x om f g, library bsq fsq -> (forall r, 0 <= fsq r) ->
  ascending (map value x) -> Forall (fun r => 0 <= value r) om ->
  finite (b_objective (b_trapz t x) om (b_map2 (b_square bsq) f g)) ->
  0 <= value (b_objective (b_trapz t x) om (b_map2 (b_square bsq) f g)).
Proof.
  intros bsq fsq t x om f g L P A W F.
  assert (E := objective_agrees (b_trapz t x) (fl_trapz (near fm) t (map value x)) (b_square bsq) (fl_square (near fm) fsq) om f g
    (fun y y' Y => trapz_agrees t x (map value x) y y' (selves_agree x) Y)
    (fun a b _ => square_agrees bsq fsq a b _ _ L (self_agrees a) (self_agrees b)) F).
  rewrite E. apply (trapz_pos _ _ _ _ r64); [exact A|]. clear - W P.
  assert (K : Forall (Rle 0) (fl_map2 (fl_square (near fm) fsq) (map value f) (map value g))).
  { apply Forall_forall. intros r I. apply in_map_iff in I. destruct I as ((u & v) & <- & _). apply P. }
  revert K. generalize (fl_map2 (fl_square (near fm) fsq) (map value f) (map value g)) as k. induction W as [|w om Pw W IH]; intros k K; [constructor|].
  destruct K as [|k0 k K0 K]; [constructor|]. constructor; [|apply IH, K].
  rewrite <- (rd_id _ _ _ _ r64 0 (rd_zero _ _ _ _ r64)). apply (rd_mono _ _ _ _ r64), Rmult_le_pos; assumption.
Qed.

(** *** Overflow *)
Lemma fmt_lit : forall e, (bottom fm <= e < top fm)%Z -> represents (b_lit 1 e) (bpow radix2 e).
Proof.
  intros e E. rewrite <- (Rmult_1_l (bpow radix2 e)). apply (lit_rep 1 e); rewrite Rmult_1_l; [apply bpow_fmt; lia|].
  rewrite Rabs_pos_eq by apply bpow_ge_0. apply pow_lt_largest. lia.
Qed.
(** A double is a number of every wider format. *)
Lemma widen_rep : forall a : number binary64, SpecBin64.finite a -> exists a' : number fm, represents a' (SpecBin64.value a).
Proof.
  intros a F. destruct a as [s|s| |s m e Hb]; try discriminate F.
  - exists b_zero. split; reflexivity.
  - exists (b_lit (cond_Zopp s (Zpos m)) e). assert (G := generic_format_B2R 53 1024 (B754_finite s m e Hb)).
    assert (L := abs_B2R_lt_emax 53 1024 (B754_finite s m e Hb)).
    change (SpecBin64.value (B754_finite s m e Hb)) with (IZR (cond_Zopp s (Zpos m)) * bpow radix2 e). apply lit_rep.
    + apply generic_inclusion_mag with (2 := G). intros _. unfold SpecFloat.fexp, SpecFloat.emin, FLT_exp. flia.
    + eapply Rlt_le_trans; [exact L|]. apply bpow_le. flia.
Qed.
End Format.

Lemma overflow_witness :
  let z : number binary64 := b_zero in let q : number binary64 := b_lit 1 (-2) in let h : number binary64 := b_lit 1 1023 in
  b_trapz (At 0) [z; q] [h; h] = B754_infinity false /\
  trap (map value [z; q]) (map value [h; h]) = bpow radix2 1021.
Proof.
  cbv zeta. split; [vm_compute; reflexivity|]. cbn [map trap].
  rewrite (proj2 (fmt_lit binary64 (-2) ltac:(cbv; split; [discriminate | reflexivity]))), (proj2 (fmt_lit binary64 1023 ltac:(cbv; split; [discriminate | reflexivity]))).
  change (value b_zero) with 0. replace 1021%Z with (-2 + 1023)%Z by reflexivity. rewrite bpow_plus. field.
Qed.
