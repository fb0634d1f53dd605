(** Gaussian models and fixed point updates in floating-point formats: finite results are those of the
    rounded model. *)
From Coq Require Import Reals List ZArith Bool Lia Lra.
From Flocq Require Import Core IEEE754.BinarySingleNaN.
From Verif Require Import SpecGrid SpecRnd SpecBin SpecBin64 SpecBinModel ModelRnd ModelRnd2 ModelRnd4 ModelBin64 ModelBinModel ProofRnd ProofBin64 ProofBin64b.
From Coq Require Import List.
Import ListNotations.
Local Open Scope R_scope.

Section Format.
Variable fm : format.
Implicit Types a b : number fm.
Local Notation rnd := (near fm).

(** *** Fused multiply-add *)
Lemma fma_finite : forall a b (c : number fm), finite (b_fma a b c) -> finite a /\ finite b /\ finite c.
Proof.
  intros [s|s| |s m e Ha] [s'|s'| |s' m' e' Hb] [s0|s0| |s0 m0 e0 Hc]; cbn; intro F; try (split; [|split]; reflexivity); try discriminate;
    destruct (Bool.eqb _ _); discriminate.
Qed.
Lemma fma_exact : forall a b (c : number fm), finite a -> finite b -> finite c ->
  (fits fm (rnd (value a * value b + value c)) -> represents (b_fma a b c) (rnd (value a * value b + value c))) /\
  (largest fm <= Rabs (rnd (value a * value b + value c)) -> ~ finite (b_fma a b c)).
Proof.
  intros a b c Fa Fb Fc. assert (C := Bfma_correct (digits fm) (top fm) (digits_pos fm) (digits_top fm) mode_NE a b c Fa Fb Fc). cbv zeta in C. split; intro L.
  - rewrite Rlt_bool_true in C by exact L. destruct C as (E & F & _). split; [exact F | exact E].
  - rewrite Rlt_bool_false in C by exact L. eapply nan_inf, C.
Qed.
Lemma fma_agrees : forall a b (c : number fm) x y z, agrees a x -> agrees b y -> agrees c z -> agrees (b_fma a b c) (rnd (x * y + z)).
Proof.
  intros a b c x y z A B C F. destruct (fma_finite a b c F) as (Fa & Fb & Fc). rewrite <- (A Fa), <- (B Fb), <- (C Fc).
  destruct (fma_exact a b c Fa Fb Fc) as [U V]. destruct (Rlt_or_le (Rabs (rnd (value a * value b + value c))) (largest fm)) as [L|L]; [apply U, L | destruct (V L F)].
Qed.

(** *** Dot products *)
Lemma prods_nth : forall fused m c j i, (i < Nat.min (length m) (length c))%nat ->
  nth i (fl_prods rnd fused j m c) 0 = (if fused (j + i)%nat then nth i m 0 * nth i c 0 else rnd (nth i m 0 * nth i c 0)).
Proof.
  intros fused m. induction m as [|x m IH]; intros [|y c] j i L; simpl in L; try lia.
  destruct i as [|i]; cbn [fl_prods nth]; [rewrite Nat.add_0_r; reflexivity|]. rewrite IH by lia. replace (S j + i)%nat with (j + S i)%nat by lia. reflexivity.
Qed.
Lemma prods_length : forall fused m c j, length (fl_prods rnd fused j m c) = Nat.min (length m) (length c).
Proof. intros fused m. induction m as [|x m IH]; intros [|y c] j; simpl; auto. Qed.
Lemma rnd0 : rnd 0 = 0.
Proof. exact (rd_id _ _ _ _ (r64 fm) 0 (rd_zero _ _ _ _ (r64 fm))). Qed.

(** The product at a leaf as it enters a sum. *)
Lemma prods_at : forall fused m c i, nth i (fl_prods rnd fused 0 m c) 0 = (if fused i then nth i m 0 * nth i c 0 else rnd (nth i m 0 * nth i c 0)).
Proof.
  intros fused m c i. destruct (Nat.lt_ge_cases i (Nat.min (length m) (length c))) as [L|L]; [rewrite prods_nth by exact L; reflexivity|].
  rewrite nth_overflow by (rewrite prods_length; exact L).
  assert (E : nth i m 0 * nth i c 0 = 0).
  { destruct (Nat.min_spec (length m) (length c)) as [[_ E]|[_ E]]; rewrite E in L; [rewrite (nth_overflow m) by exact L | rewrite (nth_overflow c) by exact L]; ring. }
  rewrite E, rnd0. destruct (fused i); reflexivity.
Qed.
Lemma lone_leaf : forall fused t, lone fused t = true -> exists i, t = At i /\ fused i = true.
Proof. intros fused [|i|l r] L; try discriminate L. exists i. auto. Qed.
Lemma dot_agrees : forall fused t m m' c c', fusable fused t -> lone fused t = false -> Forall2 agrees m m' -> Forall2 agrees c c' ->
  agrees (b_dot (fm := fm) fused t m c) (fl_dot rnd fused t m' c').
Proof.
  intros fused t m m' c c' Fu Lo M C. unfold fl_dot. revert Fu Lo.
  induction t as [|i|l IHl r IHr]; intros Fu Lo; cbn [b_dot fl_sum].
  - intros _; reflexivity.
  - cbn [lone] in Lo. rewrite prods_at, Lo. apply mul_agrees; apply nth_agrees; assumption.
  - destruct Fu as (N & Fl & Fr). destruct (lone fused l) eqn:El.
    + destruct (lone_leaf _ _ El) as (i & -> & Ei). cbn [leaf fl_sum]. rewrite prods_at, Ei. apply fma_agrees; try (apply nth_agrees; assumption).
      apply IHr; [exact Fr | exact N].
    + destruct (lone fused r) eqn:Er.
      * destruct (lone_leaf _ _ Er) as (i & -> & Ei). cbn [leaf fl_sum]. rewrite prods_at, Ei, Rplus_comm. apply fma_agrees; try (apply nth_agrees; assumption).
        apply IHl; [exact Fl | reflexivity].
      * apply add_agrees; [apply IHl | apply IHr]; auto.
Qed.

(** *** Overflow in the exponent *)
Lemma sign_value : forall a, value a <> 0 -> Bsign a = true -> value a < 0.
Proof.
  intros [s|s| |s m e H] N S; unfold value in *; cbn in *; try lra. subst s.
  apply (F2R_lt_0 radix2 (Float radix2 (Zneg m) e)). reflexivity.
Qed.
Lemma sign_value' : forall a, value a <> 0 -> Bsign a = false -> 0 < value a.
Proof.
  intros [s|s| |s m e H] N S; unfold value in *; cbn in *; try lra. subst s.
  apply (F2R_gt_0 radix2 (Float radix2 (Zpos m) e)). reflexivity.
Qed.
Lemma mul_down : forall a b, finite a -> finite b -> b_mul a b = B754_infinity true -> rnd (value a * value b) <= - largest fm.
Proof.
  intros a b Fa Fb E. destruct (mul_exact fm a b Fa Fb) as [U _].
  assert (L : largest fm <= Rabs (rnd (value a * value b))).
  { apply Rnot_lt_le. intro L. destruct (U L) as [F _]. rewrite E in F. discriminate F. }
  assert (P : 0 < largest fm) by apply bpow_gt_0.
  assert (N : value a * value b <> 0). { intro Z. rewrite Z, rnd0, Rabs_R0 in L. lra. }
  assert (Na : value a <> 0) by (intro Z; apply N; rewrite Z; ring). assert (Nb : value b <> 0) by (intro Z; apply N; rewrite Z; ring).
  assert (C := Bmult_correct (digits fm) (top fm) (digits_pos fm) (digits_top fm) mode_NE a b). rewrite Rlt_bool_false in C by exact L.
  change (Bmult mode_NE a b) with (b_mul a b) in C. rewrite E in C. cbn in C. injection C as S.
  assert (H : value a * value b < 0).
  { destruct (Bsign a) eqn:Sa, (Bsign b) eqn:Sb; cbn in S; try discriminate S.
    - assert (X := sign_value a Na Sa). assert (Y := sign_value' b Nb Sb). nra.
    - assert (X := sign_value' a Na Sa). assert (Y := sign_value b Nb Sb). nra. }
  assert (H' : rnd (value a * value b) <= 0) by (rewrite <- rnd0; apply (rd_mono _ _ _ _ (r64 fm)); lra).
  rewrite Rabs_left1 in L by exact H'. lra.
Qed.
Lemma square_rep : forall r : number fm, moderate r -> represents (b_mul r r) (rnd (value r * value r)).
Proof. intros r [F L]. apply (mul_exact fm r r F F), L. Qed.
Lemma gauss_agrees : forall bexp fexp (r a : number fm), exponential bexp fexp -> moderate r -> finite a ->
  agrees (bexp (b_mul (Bopp a) (b_mul r r))) (fexp (rnd (- value a * rnd (value r * value r)))).
Proof.
  intros bexp fexp r a (E1 & E2 & E3 & E4 & E5) Mr Fa. destruct (square_rep r Mr) as [Fq Vq].
  destruct (opp_rep fm a (value a) (self_rep fm a Fa)) as [Fo Vo].
  destruct (mul_exact fm (Bopp a) (b_mul r r) Fo Fq) as [U V]. rewrite Vo, Vq in U, V.
  destruct (Rlt_or_le (Rabs (rnd (- value a * rnd (value r * value r)))) (largest fm)) as [L|L].
  - destruct (U L) as [F Vm]. intro Fe. rewrite <- Vm. apply E1; assumption.
  - intro Fe. specialize (V L). destruct (b_mul (Bopp a) (b_mul r r)) as [s|s| |s m e H] eqn:Em; try (destruct (V eq_refl)).
    + destruct s; [|contradiction]. rewrite (proj2 E2). symmetry. apply E3.
      assert (D := mul_down (Bopp a) (b_mul r r) Fo Fq Em). rewrite Vo, Vq in D. exact D.
    + contradiction.
Qed.

(** *** Basis functions *)
Section Basis.
Context (bexp : number fm -> number fm) (fexp : R -> R) (bpow : number fm -> number fm -> number fm) (fpow : R -> R -> R) (pi : number fm).
Hypothesis He : exponential bexp fexp.
Hypothesis Hp : library2 bpow fpow.
Hypothesis Hc : circle bpow pi (b_lit 3 (-1)).

Lemma half_rep : forall m : Z, (Z.abs m < 2 ^ 53)%Z -> represents (b_lit (fm := fm) m (-1)) (IZR m / 2).
Proof.
  intros m L. replace (IZR m / 2) with (IZR m * Raux.bpow radix2 (-1)) by (change (Raux.bpow radix2 (-1)) with (/ 2); field).
  apply lit_rep.
  - apply generic_format_FLT. exists (Float radix2 m (-1)); [reflexivity | | assert (F := facts fm); cbn [Fexp]; lia].
    cbn [Fnum]. eapply Z.lt_le_trans; [exact L|]. apply Z.pow_le_mono_r; [reflexivity|]. assert (F := facts fm). lia.
  - apply Rlt_trans with (Raux.bpow radix2 53); [|apply pow_lt_largest; assert (F := facts fm); lia].
    change (Raux.bpow radix2 (-1)) with (/ 2). rewrite Rabs_mult, (Rabs_pos_eq (/ 2)) by lra. rewrite <- abs_IZR.
    apply IZR_lt in L. change (Raux.bpow radix2 53) with (IZR (2 ^ 53)). assert (0 <= IZR (Z.abs m)) by (apply IZR_le; lia). lra.
Qed.
Lemma norm_agrees : forall p a, finite a -> agrees (b_norm bpow pi p a) (fl_norm rnd fpow (value pi) p (value a)).
Proof.
  intros p a Fa. destruct Hc as (Fpi & Ppi & Fh). destruct (half_rep 3 eq_refl) as [F3 V3]. destruct (half_rep 5 eq_refl) as [F5 V5].
  unfold b_norm, fl_norm. destruct p.
  - apply div_agrees.
    + intro F. rewrite (Hp a (b_lit 5 (-1)) Fa F5 F), V5. reflexivity.
    + split; [exact Fh|]. rewrite (Hp pi _ Fpi F3 Fh), V3. reflexivity.
  - assert (D : represents (b_div a pi) (rnd (value a / value pi))).
    { apply (div_exact fm a pi Fa Fpi); [lra|]. apply Rle_lt_trans with (Rabs (value a)); [|unfold value; apply abs_B2R_lt_emax].
      apply rnd_bound; [apply abs_fmt64, value_fmt|]. unfold Rdiv. rewrite Rabs_mult, Rabs_inv, (Rabs_pos_eq (value pi)) by lra.
      rewrite <- (Rmult_1_r (Rabs (value a))) at 2. apply Rmult_le_compat_l; [apply Rabs_pos|]. rewrite <- Rinv_1. apply Rinv_le_contravar; lra. }
    destruct D as [Fd Vd]. intro F. rewrite (Hp _ _ Fd F3 F), V3, Vd. reflexivity.
Qed.
Lemma elem_agrees : forall norm p r a, moderate r -> finite a ->
  agrees (b_elem bexp bpow pi norm p r a) (fl_elem rnd fexp fpow (value pi) norm p (value r) (value a)).
Proof.
  intros norm p r a Mr Fa. assert (G := gauss_agrees bexp fexp r a He Mr Fa). assert (Q := rep_agrees fm _ _ (square_rep r Mr)).
  unfold b_elem, fl_elem. cbv zeta. destruct p, norm.
  - apply div_agrees; [|exact (half_rep 3 eq_refl)]. apply mul_agrees; [apply mul_agrees; assumption | apply norm_agrees, Fa].
  - apply mul_agrees; assumption.
  - apply mul_agrees; [exact G | apply norm_agrees, Fa].
  - exact G.
Qed.
Lemma basis_agree : forall norm lay e, Forall (fun q => moderate (snd q)) lay -> Forall finite e ->
  Forall2 agrees (b_basis bexp bpow pi norm lay e) (fl_basis rnd fexp fpow (value pi) norm (map (fun q => (fst q, value (snd q))) lay) (map value e)).
Proof.
  intros norm lay e L. revert e. induction L as [|[p r] lay Mr L IH]; intros e E; [constructor|].
  destruct E as [|a e Fa E]; cbn [b_basis fl_basis map fst snd]; constructor; [apply elem_agrees; assumption | apply IH, E].
Qed.
Lemma model_agrees : forall fused t norm lay c e, fusable fused t -> lone fused t = false -> Forall (fun q => moderate (snd q)) lay -> Forall finite e ->
  agrees (b_model bexp bpow pi fused t norm lay c e)
    (fl_model rnd fexp fpow (value pi) fused t norm (map (fun q => (fst q, value (snd q))) lay) (map value c) (map value e)).
Proof. intros. apply dot_agrees; try assumption; [apply basis_agree; assumption | apply selves_agree]. Qed.

(** *** The fixed point update *)
Section Fit.
Context (quadr : list (number fm) -> number fm) (quadr' : list R -> R) (fused : nat -> bool) (t : order) (norm : bool) (mask N : number fm)
        (f : list (number fm)) (ty : list bool) (D : list (list (number fm))) (oc oe : bool).
Hypothesis Hq : same_rule quadr quadr'.
Hypothesis Ht : fusable fused t.
Hypothesis Hl : lone fused t = false.
Hypothesis HD : Forall (Forall moderate) D.
Hypothesis HN : finite N.

Lemma combine_values : forall (l : list bool) (ds : list (number fm)), map (fun q => (fst q, value (snd q))) (combine l ds) = combine l (map value ds).
Proof. induction l as [|b l IH]; intros [|d ds]; cbn; [reflexivity..|]. now rewrite IH. Qed.
Lemma combine_moderate : forall (l : list bool) ds, Forall moderate ds -> Forall (fun q : bool * number fm => moderate (snd q)) (combine l ds).
Proof. intros l ds F. revert l. induction F as [|d ds M F IH]; intros [|b l]; cbn; constructor; auto. Qed.
Lemma rows_agree : forall e, Forall finite e ->
  Forall2 (Forall2 agrees) (b_rows bexp bpow pi norm ty D e) (fl_rows rnd fexp fpow (value pi) norm ty (map (map value) D) (map value e)).
Proof.
  intros e Fe. unfold b_rows, fl_rows. clear - He Hp Hc HD Fe. induction HD as [|ds D' Md HD' IH]; cbn [map]; [apply Forall2_nil|]. apply Forall2_cons; [|exact (IH HD')].
  rewrite <- combine_values. apply basis_agree; [apply combine_moderate, Md | exact Fe].
Qed.
Lemma values_agree : forall c e, Forall finite e ->
  Forall2 agrees (b_values bexp bpow pi fused t norm ty D c e)
    (map (fun row => fl_dot rnd fused t row (map value c)) (fl_rows rnd fexp fpow (value pi) norm ty (map (map value) D) (map value e))).
Proof.
  intros c e Fe. unfold b_values. assert (R := rows_agree e Fe). induction R as [|m m' M M' A R IH]; cbn [map]; [constructor | constructor; [|exact IH]].
  apply dot_agrees; try assumption. apply selves_agree.
Qed.
Lemma col_agree : forall M M' k, Forall2 (Forall2 agrees) M M' -> Forall2 agrees (b_col (fm := fm) M k) (map (fun row => nth k row 0) M').
Proof. intros M M' k F. induction F as [|m m' M M' A F IH]; cbn; constructor; [apply nth_agrees, A | exact IH]. Qed.
Lemma lists_agree : Forall2 (Forall2 agrees) D (map (map value) D).
Proof. clear. induction D; constructor; [apply selves_agree | assumption]. Qed.
Lemma col_values : forall k, map value (b_col D k) = map (fun row => nth k row 0) (map (map value) D).
Proof. intro k. unfold b_col. rewrite !map_map. apply map_ext. intro l. change 0 with (value (fm := fm) b_zero). symmetry. apply map_nth. Qed.

(** Values of finite numbers that agree with real ones are these. *)
Lemma agree_values : forall l r, Forall2 (agrees (fm := fm)) l r -> Forall finite l -> map value l = r.
Proof. intros l r A. induction A as [|a x l r Ax A IH]; intro F; [reflexivity|]. inversion F; subst. cbn. rewrite IH, (Ax H1) by assumption. reflexivity. Qed.

Section Step.
Context (c e : list (number fm)).
Hypothesis Fe : Forall finite e.
Let g := b_values bexp bpow pi fused t norm ty D c e.
Let M := b_rows bexp bpow pi norm ty D e.
Let g' := map (fun row => fl_dot rnd fused t row (map value c)) (fl_rows rnd fexp fpow (value pi) norm ty (map (map value) D) (map value e)).
Let M' := fl_rows rnd fexp fpow (value pi) norm ty (map (map value) D) (map value e).
Hypothesis S : forall x y, In (x, y) (combine f g) -> seen mask x y.
Hypothesis Lf : (length f <= length D)%nat \/ Forall finite g.

Lemma ratios_agree : Forall2 agrees (b_map2 (b_ratio (b_lit 1 0) mask) f g) (map (fun q => fl_ratio rnd (value mask) (fst q) (snd q)) (combine (map value f) g')).
Proof.
  assert (A : Forall2 agrees g g') by (apply values_agree, Fe). clearbody g g'. clear - A S. unfold b_map2. revert f S.
  induction A as [|y y' g g' Ay A IH]; intros [|x f] S; cbn [combine map]; try constructor.
  - cbn [fst snd]. assert (Sy : seen mask x y) by (apply S; left; reflexivity). rewrite <- (Ay (proj1 (proj2 (proj2 Sy)))).
    apply rep_agrees, (ratio_rep fm mask x y Sy).
  - apply IH. intros u v I. apply S. right; exact I.
Qed.
Lemma avrg1_agrees : forall k, agrees (b_avrg1 quadr mask f g (b_col M k)) (fl_avrg1 rnd quadr' (value mask) (map value f) g' (map (fun row => nth k row 0) M')).
Proof. intro k. apply Hq. unfold fl_integrand. apply mulv_agree; [exact ratios_agree | apply col_agree, rows_agree, Fe]. Qed.
Lemma squares_agree : forall l, Forall2 agrees (map (fun x : number fm => b_mul x x) l) (map (fun x => rnd (x * x)) (map value l)).
Proof. induction l; cbn; constructor; [apply mul_agrees; apply self_agrees | assumption]. Qed.
Lemma avrg2_agrees : forall k, agrees (b_avrg2 quadr mask f g (b_col M k) (b_col D k))
  (fl_avrg2 rnd quadr' (value mask) (map value f) g' (map (fun row => nth k row 0) M') (map (fun ds => nth k ds 0) (map (map value) D))).
Proof.
  intro k. apply Hq. unfold fl_integrand. apply mulv_agree; [apply mulv_agree; [exact ratios_agree | apply col_agree, rows_agree, Fe]|].
  rewrite <- col_values. apply squares_agree.
Qed.
End Step.

Lemma maps_agree : forall (h : nat -> number fm) (h' : nat -> R) ks, (forall k, In k ks -> agrees (h k) (h' k)) -> Forall2 agrees (map h ks) (map h' ks).
Proof. intros h h' ks. induction ks as [|k ks IH]; intro A; cbn; constructor; [apply A; left; reflexivity | apply IH; intros; apply A; right; assumption]. Qed.

Lemma params_agree : forall c e cr er, Forall finite e -> clean bexp bpow pi quadr fused t norm mask N f ty D oc oe c e ->
  fl_params rnd fexp fpow (value pi) quadr' fused t norm (value mask) (value N) (map value f) ty (map (map value) D) oc oe (map value c) (map value e) = Some (cr, er) ->
  let q := b_params bexp bpow pi quadr fused t norm mask N f ty D oc oe c e in Forall2 agrees (fst q) cr /\ Forall2 agrees (snd q) er.
Proof.
  intros c e cr er Fe (_ & Sn & Lm & A2) E. unfold fl_params in E. cbv zeta in E. destruct (oe && _); [discriminate E|]. injection E as <- <-.
  cbv zeta. unfold b_params. cbn [fst snd]. rewrite map_length. split.
  - destruct oc; [|apply selves_agree]. apply maps_agree. intros k _. apply div_agrees.
    + apply mul_agrees; [apply nth_agrees, selves_agree | apply avrg1_agrees; assumption].
    + split; [apply Lm; reflexivity|]. apply div_agrees; [apply Hq, selves_agree | apply self_rep, HN | apply Lm; reflexivity].
  - destruct oe; [|apply selves_agree]. apply maps_agree. intros k I. apply in_seq in I. apply div_agrees.
    + apply mul_agrees; [|apply avrg1_agrees; assumption]. destruct (nth k ty false); apply rep_agrees; [exact (half_rep 5 eq_refl) | exact (half_rep 3 eq_refl)].
    + split; [apply (A2 eq_refl); lia|]. apply avrg2_agrees; try assumption. apply (A2 eq_refl); lia.
Qed.
Lemma params_some : forall c e, Forall finite e -> clean bexp bpow pi quadr fused t norm mask N f ty D oc oe c e ->
  Forall finite (snd (b_params bexp bpow pi quadr fused t norm mask N f ty D oc oe c e)) ->
  fl_params rnd fexp fpow (value pi) quadr' fused t norm (value mask) (value N) (map value f) ty (map (map value) D) oc oe (map value c) (map value e) <> None.
Proof.
  intros c e Fe (_ & Sn & Lm & A2) Fq E. unfold fl_params in E. cbv zeta in E. destruct oe; [|discriminate E]. cbn [andb] in E.
  destruct (existsb _ _) eqn:X in E; [|discriminate E]. apply existsb_exists in X. destruct X as (k & I & Z). rewrite map_length in I.
  destruct (Req_EM_T _ 0) as [Z0|] in Z; [|discriminate Z]. unfold b_params in Fq. cbn [snd] in Fq. rewrite Forall_forall in Fq.
  assert (K : (k < length c)%nat) by (apply in_seq in I; lia). assert (F := Fq _ (in_map _ _ _ I)). cbv beta in F.
  assert (V := avrg2_agrees c e Fe Sn k (A2 eq_refl k K)). rewrite Z0 in V.
  destruct (div_finite fm _ _ (A2 eq_refl k K) F) as [_ Nz]. exact (Nz V).
Qed.

Lemma run_agrees : forall n c e, clean_run bexp bpow pi quadr fused t norm mask N f ty D oc oe n c e ->
  let q := b_fit bexp bpow pi quadr fused t norm mask N f ty D oc oe n c e in
  fl_fit rnd fexp fpow (value pi) quadr' fused t norm (value mask) (value N) (map value f) ty (map (map value) D) oc oe n (map value c) (map value e)
    = Some (map value (fst q), map value (snd q)) /\ Forall finite (fst q) /\ Forall finite (snd q).
Proof.
  induction n as [|n IH]; intros c e (Fc & Fe & H); cbn [b_fit fl_fit]; [auto|]. destruct H as [Cl H]. cbv zeta in H.
  set (q := b_params bexp bpow pi quadr fused t norm mask N f ty D oc oe c e) in *.
  assert (Fq : Forall finite (fst q) /\ Forall finite (snd q)) by (destruct n; cbn in H; tauto).
  destruct (fl_params _ _ _ _ _ _ _ _ _ _ _ _ _ _ _ _ _) as [[cr er]|] eqn:E.
  - destruct (params_agree c e cr er Fe Cl E) as [A1 A2]. fold q in A1, A2.
    rewrite <- (agree_values _ _ A1 (proj1 Fq)), <- (agree_values _ _ A2 (proj2 Fq)). apply IH, H.
  - destruct (params_some c e Fe Cl (proj2 Fq) E).
Qed.
End Fit.
End Basis.
End Format.
