(** Gaussian models whose values do not overflow. *)
From Coq Require Import Reals List ZArith Bool Lia Lra.
From Flocq Require Import Core IEEE754.BinarySingleNaN.
From Verif Require Import SpecGrid SpecRnd SpecBin SpecBin64 SpecBinModel ModelRnd ModelRnd2 ModelBin64 ModelBinModel ProofRnd ProofBin64 ProofBin64b ProofBinModel.
From Coq Require Import List.
Import ListNotations.
Local Open Scope R_scope.

Section Format.
Variable fm : format.
Local Notation rnd := (near fm).
Local Notation pow2 := (Raux.bpow radix2).

Lemma nth_rep : forall (v : list (number fm)) r i, Forall2 represents v r -> represents (nth i v b_zero) (nth i r 0).
Proof. intros v r i F. revert i. induction F as [|a x v r A F IH]; intros [|i]; cbn [nth]; auto; split; reflexivity. Qed.
Lemma nth_bound : forall (r : list R) i B, 0 <= B -> Forall (fun x => Rabs x <= B) r -> Rabs (nth i r 0) <= B.
Proof. intros r i B P F. destruct (nth_in_or_default i r 0) as [I|D]; [|rewrite D, Rabs_R0; exact P]. rewrite Forall_forall in F. apply F, I. Qed.
Lemma fma_rep : forall (a b c : number fm) x y z, represents a x -> represents b y -> represents c z -> fits fm (rnd (x * y + z)) ->
  represents (b_fma a b c) (rnd (x * y + z)).
Proof. intros a b c x y z [Fa <-] [Fb <-] [Fc <-] L. apply fma_exact; assumption. Qed.

(** *** Dot products of small numbers are finite *)
Lemma dot_rep : forall fused t (m : list (number fm)) m' c c' a b, fusable fused t -> lone fused t = false ->
  (bottom fm <= a + b)%Z -> (Z.of_nat (length (leaves t)) < 2 ^ digits fm)%Z -> INR (length (leaves t)) * pow2 (a + b) < largest fm ->
  Forall2 represents m m' -> Forall2 represents c c' -> Forall (fun x => Rabs x <= pow2 a) m' -> Forall (fun x => Rabs x <= pow2 b) c' ->
  represents (b_dot fused t m c) (fl_dot rnd fused t m' c') /\ Rabs (fl_dot rnd fused t m' c') <= INR (length (leaves t)) * pow2 (a + b).
Proof.
  intros fused t m m' c c' a b Fu Lo E N M Rm Rc Bm Bc. unfold fl_dot.
  assert (P := bpow_ge_0 radix2 (a + b)).
  assert (Pr : forall i, Rabs (nth i m' 0 * nth i c' 0) <= pow2 (a + b)).
  { intro i. rewrite Rabs_mult, bpow_plus. apply Rmult_le_compat; try apply Rabs_pos; apply nth_bound; try assumption; apply bpow_ge_0. }
  assert (Bd : forall n x, (Z.of_nat n < 2 ^ digits fm)%Z -> Rabs x <= INR n * pow2 (a + b) -> Rabs (rnd x) <= INR n * pow2 (a + b)).
  { intros n x L X. apply rnd_bound; [apply mult_fmt; assumption | exact X]. }
  induction t as [|i|l IHl r IHr]; cbn [b_dot fl_sum leaves].
  - split; [split; reflexivity|]. rewrite Rabs_R0. simpl. lra.
  - cbn [lone] in Lo. rewrite prods_at, Lo. cbn [leaves length] in *.
    assert (B1 : Rabs (rnd (nth i m' 0 * nth i c' 0)) <= INR 1 * pow2 (a + b)) by (apply (Bd 1%nat); [exact N | simpl; rewrite Rmult_1_l; apply Pr]).
    split; [|exact B1]. apply mul_fits; try (apply nth_rep; assumption). unfold fits. lra.
  - destruct Fu as (Nl & Fl & Fr). cbn [leaves] in *. rewrite app_length in *. rewrite plus_INR in *.
    assert (P1 := pos_INR (length (leaves l))). assert (P2 := pos_INR (length (leaves r))).
    assert (Q1 := Rmult_le_pos _ _ P1 P). assert (Q2 := Rmult_le_pos _ _ P2 P).
    destruct (lone fused l) eqn:El; [|destruct (lone fused r) eqn:Er].
    + destruct (lone_leaf _ _ El) as (i & -> & Ei). cbn [leaf fl_sum leaves length] in *. rewrite prods_at, Ei.
      destruct IHr as [Rr Br]; [exact Fr | exact Nl | lia | lra|].
      assert (B1 : Rabs (rnd (nth i m' 0 * nth i c' 0 + fl_sum rnd r (fl_prods rnd fused 0 m' c'))) <= INR (1 + length (leaves r)) * pow2 (a + b)).
      { apply Bd; [exact N|]. rewrite plus_INR. eapply Rle_trans; [apply Rabs_triang|]. specialize (Pr i). simpl (INR 1). lra. }
      rewrite plus_INR in B1. split; [|exact B1]. apply fma_rep; try (apply nth_rep; assumption); [exact Rr|]. unfold fits. lra.
    + destruct (lone_leaf _ _ Er) as (i & -> & Ei). cbn [leaf fl_sum leaves length] in *. rewrite prods_at, Ei, Rplus_comm.
      destruct IHl as [Rl Bl]; [exact Fl | reflexivity | lia | lra|].
      assert (B1 : Rabs (rnd (nth i m' 0 * nth i c' 0 + fl_sum rnd l (fl_prods rnd fused 0 m' c'))) <= INR (length (leaves l) + 1) * pow2 (a + b)).
      { apply Bd; [exact N|]. rewrite plus_INR. eapply Rle_trans; [apply Rabs_triang|]. specialize (Pr i). simpl (INR 1). lra. }
      rewrite plus_INR in B1. split; [|exact B1]. apply fma_rep; try (apply nth_rep; assumption); [exact Rl|]. unfold fits. lra.
    + destruct IHl as [Rl Bl]; [exact Fl | reflexivity | lia | lra|]. destruct IHr as [Rr Br]; [exact Fr | reflexivity | lia | lra|].
      assert (B1 : Rabs (rnd (fl_sum rnd l (fl_prods rnd fused 0 m' c') + fl_sum rnd r (fl_prods rnd fused 0 m' c'))) <= INR (length (leaves l) + length (leaves r)) * pow2 (a + b)).
      { apply Bd; [exact N|]. rewrite plus_INR. eapply Rle_trans; [apply Rabs_triang|]. lra. }
      rewrite plus_INR in B1. split; [|exact B1]. apply add_fits; try assumption. unfold fits. lra.
Qed.

(** *** Exponentials that decay are finite *)
Lemma mul_drop : forall a b : number fm, finite a -> finite b -> value a * value b <= 0 -> largest fm <= Rabs (rnd (value a * value b)) ->
  b_mul a b = B754_infinity true.
Proof.
  intros a b Fa Fb S L. assert (P : 0 < largest fm) by apply bpow_gt_0.
  assert (N : value a * value b <> 0). { intro Z. rewrite Z, (rnd0 fm), Rabs_R0 in L. lra. }
  assert (Na : value a <> 0) by (intro Z; apply N; rewrite Z; ring). assert (Nb : value b <> 0) by (intro Z; apply N; rewrite Z; ring).
  assert (C := Bmult_correct (digits fm) (top fm) (digits_pos fm) (digits_top fm) mode_NE a b). rewrite Rlt_bool_false in C by exact L.
  change (Bmult mode_NE a b) with (b_mul a b) in C.
  assert (X : xorb (Bsign a) (Bsign b) = true).
  { destruct (Bsign a) eqn:Sa, (Bsign b) eqn:Sb; try reflexivity; exfalso.
    - assert (X := sign_value fm a Na Sa). assert (Y := sign_value fm b Nb Sb). nra.
    - assert (X := sign_value' fm a Na Sa). assert (Y := sign_value' fm b Nb Sb). nra. }
  rewrite X in C. destruct (b_mul a b) as [s|s| |s m e H]; cbn in C; try discriminate C. injection C as ->. reflexivity.
Qed.
Lemma gauss_rep : forall bexp fexp (r a : number fm), damping bexp fexp -> moderate r -> finite a -> 0 <= value a ->
  represents (bexp (b_mul (Bopp a) (b_mul r r))) (fexp (rnd (- value a * rnd (value r * value r)))) /\ 0 <= fexp (rnd (- value a * rnd (value r * value r))) <= 1.
Proof.
  intros bexp fexp r a (He & Hf & Hb) Mr Fa Pa. destruct (square_rep fm r Mr) as [Fq Vq].
  destruct (opp_rep fm a (value a) (self_rep fm a Fa)) as [Fo Vo].
  assert (Q : 0 <= rnd (value r * value r)) by (rewrite <- (rnd0 fm) at 1; apply (rd_mono _ _ _ _ (r64 fm)); nra).
  assert (S : - value a * rnd (value r * value r) <= 0) by nra.
  assert (S' : rnd (- value a * rnd (value r * value r)) <= 0) by (rewrite <- (rnd0 fm); apply (rd_mono _ _ _ _ (r64 fm)); exact S).
  split; [|apply Hb, S']. split; [|apply gauss_agrees; try assumption].
  - destruct (mul_exact fm (Bopp a) (b_mul r r) Fo Fq) as [U _]. rewrite Vo, Vq in U.
    destruct (Rlt_or_le (Rabs (rnd (- value a * rnd (value r * value r)))) (largest fm)) as [L|L].
    + destruct (U L) as [F V]. apply Hf; [exact F | rewrite V; exact S'].
    + rewrite (mul_drop (Bopp a) (b_mul r r) Fo Fq); rewrite ?Vo, ?Vq; try assumption. apply (proj1 (proj2 He)).
  - destruct (mul_exact fm (Bopp a) (b_mul r r) Fo Fq) as [U _]. rewrite Vo, Vq in U.
    destruct (Rlt_or_le (Rabs (rnd (- value a * rnd (value r * value r)))) (largest fm)) as [L|L].
    + destruct (U L) as [F V]. apply Hf; [exact F | rewrite V; exact S'].
    + rewrite (mul_drop (Bopp a) (b_mul r r) Fo Fq); rewrite ?Vo, ?Vq; try assumption. apply (proj1 (proj2 He)).
Qed.

(** *** Model values *)
Section Basis.
Context (bexp : number fm -> number fm) (fexp : R -> R) (bpow : number fm -> number fm -> number fm) (fpow : R -> R -> R) (pi : number fm).
Hypothesis Hd : damping bexp fexp.
Hypothesis Hp : library2 bpow fpow.
Hypothesis Hc : circle bpow pi (b_lit 3 (-1)).

Lemma elem_rep : forall (norm p : bool) r a s k, finite r -> Rabs (value r) <= pow2 s -> finite a -> 0 <= value a ->
  (0 <= s)%Z -> (0 <= k)%Z -> (2 * s + k < top fm)%Z -> (norm = true -> finite (b_norm bpow pi p a) /\ Rabs (value (b_norm bpow pi p a)) <= pow2 k) ->
  represents (b_elem bexp bpow pi norm p r a) (fl_elem rnd fexp fpow (value pi) norm p (value r) (value a)) /\
  Rabs (fl_elem rnd fexp fpow (value pi) norm p (value r) (value a)) <= pow2 (2 * s + k).
Proof.
  intros norm p r a s k Fr Br Fa Pa S K T Hn. assert (Facts := facts fm).
  destruct (mul_rep fm r r (value r) (value r) s s (self_rep fm r Fr) (self_rep fm r Fr) Br Br) as [Rq Bq]; [lia|].
  assert (Mr : moderate r). { split; [exact Fr|]. unfold fits. eapply Rle_lt_trans; [exact Bq | apply pow_lt_largest; lia]. }
  destruct (gauss_rep bexp fexp r a Hd Mr Fa Pa) as [Rg [G0 G1]].
  assert (Bg : Rabs (fexp (rnd (- value a * rnd (value r * value r)))) <= pow2 0) by (rewrite Rabs_pos_eq; assumption).
  assert (Le : forall x e e', (e <= e')%Z -> Rabs x <= pow2 e -> Rabs x <= pow2 e') by (intros x e e' L X; eapply Rle_trans; [exact X | apply bpow_le, L]).
  assert (Hn' : norm = true -> represents (b_norm bpow pi p a) (fl_norm rnd fpow (value pi) p (value a)) /\ Rabs (fl_norm rnd fpow (value pi) p (value a)) <= pow2 k).
  { intro E. destruct (Hn E) as [Fn Bn]. assert (V := norm_agrees fm bpow fpow pi Hp Hc p a Fa Fn). rewrite <- V. split; [split; [exact Fn | reflexivity] | exact Bn]. }
  unfold b_elem, fl_elem. cbv zeta. destruct p.
  - destruct (mul_rep fm _ _ _ _ _ _ Rg Rq Bg Bq) as [Rm Bm]; [lia|]. destruct norm; [|split; [exact Rm | apply (Le _ (0 + (s + s))%Z); [lia | exact Bm]]].
    destruct (Hn' eq_refl) as [Rn Bn]. destruct (mul_rep fm _ _ _ _ _ _ Rm Rn Bm Bn) as [Rw Bw]; [lia|].
    assert (Bd : Rabs (rnd (rnd (rnd (fexp (rnd (- value a * rnd (value r * value r))) * rnd (value r * value r)) * fl_norm rnd fpow (value pi) true (value a)) / (3 / 2))) <= pow2 (2 * s + k)).
    { apply rnd_bound; [apply bpow_fmt; lia|]. apply (Le _ _ (2 * s + k)%Z) in Bw; [|lia]. unfold Rdiv at 1. rewrite Rabs_mult, Rabs_inv, (Rabs_pos_eq (3 / 2)) by lra.
      assert (Q := Rabs_pos (rnd (rnd (fexp (rnd (- value a * rnd (value r * value r))) * rnd (value r * value r)) * fl_norm rnd fpow (value pi) true (value a)))).
      replace (/ (3 / 2)) with (2 / 3) by field. lra. }
    split; [|exact Bd]. apply div_fits; [exact Rw | exact (half_rep fm 3 eq_refl) | lra|]. unfold fits. eapply Rle_lt_trans; [exact Bd | apply pow_lt_largest; lia].
  - destruct norm; [|split; [exact Rg | apply (Le _ 0%Z); [lia | exact Bg]]].
    destruct (Hn' eq_refl) as [Rn Bn]. destruct (mul_rep fm _ _ _ _ _ _ Rg Rn Bg Bn) as [Rw Bw]; [lia|]. split; [exact Rw | apply (Le _ (0 + k)%Z); [lia | exact Bw]].
Qed.
Lemma basis_rep : forall norm lay e s k, (0 <= s)%Z -> (0 <= k)%Z -> (2 * s + k < top fm)%Z ->
  Forall (fun q : bool * number fm => finite (snd q) /\ Rabs (value (snd q)) <= pow2 s) lay -> Forall (fun a => finite a /\ 0 <= value a) e ->
  (norm = true -> forall p a, In (p, a) (combine (map fst lay) e) -> finite (b_norm bpow pi p a) /\ Rabs (value (b_norm bpow pi p a)) <= pow2 k) ->
  Forall2 represents (b_basis bexp bpow pi norm lay e) (fl_basis rnd fexp fpow (value pi) norm (map (fun q => (fst q, value (snd q))) lay) (map value e)) /\
  Forall (fun x => Rabs x <= pow2 (2 * s + k)) (fl_basis rnd fexp fpow (value pi) norm (map (fun q => (fst q, value (snd q))) lay) (map value e)).
Proof.
  intros norm lay e s k S K T L. revert e. induction L as [|[p r] lay [Fr Br] L IH]; intros e E Hn; [split; constructor|].
  destruct E as [|a e [Fa Pa] E]; cbn [b_basis fl_basis map fst snd]; [split; constructor|].
  destruct (elem_rep norm p r a s k Fr Br Fa Pa S K T) as [R1 B1]; [intro En; apply (Hn En); left; reflexivity|].
  destruct (IH e E) as [R2 B2]; [intros En q b I; apply (Hn En); right; exact I|]. split; constructor; assumption.
Qed.
Lemma model_rep : forall fused t norm lay c e s k b, fusable fused t -> lone fused t = false ->
  (0 <= s)%Z -> (0 <= k)%Z -> (2 * s + k < top fm)%Z -> (bottom fm <= 2 * s + k + b)%Z ->
  (Z.of_nat (length (leaves t)) < 2 ^ digits fm)%Z -> INR (length (leaves t)) * pow2 (2 * s + k + b) < largest fm ->
  Forall (fun q : bool * number fm => finite (snd q) /\ Rabs (value (snd q)) <= pow2 s) lay -> Forall (fun a => finite a /\ 0 <= value a) e ->
  Forall (fun x => finite x /\ Rabs (value x) <= pow2 b) c ->
  (norm = true -> forall p a, In (p, a) (combine (map fst lay) e) -> finite (b_norm bpow pi p a) /\ Rabs (value (b_norm bpow pi p a)) <= pow2 k) ->
  represents (b_model bexp bpow pi fused t norm lay c e)
    (fl_model rnd fexp fpow (value pi) fused t norm (map (fun q => (fst q, value (snd q))) lay) (map value c) (map value e)).
Proof.
  intros fused t norm lay c e s k b Fu Lo S K T B N M L E C Hn. destruct (basis_rep norm lay e s k S K T L E Hn) as [R1 B1].
  apply (dot_rep fused t _ _ c (map value c) (2 * s + k) b); try assumption.
  - apply lift_reps. eapply Forall_impl; [|exact C]. intros x X; apply X.
  - apply Forall_map. eapply Forall_impl; [|exact C]. intros x X; apply X.
Qed.
End Basis.
End Format.
