(** Derivatives with respect to the exponents that do not overflow. *)
From Coq Require Import Reals List ZArith Lia Lra.
From Flocq Require Import Core IEEE754.BinarySingleNaN.
From Verif Require Import SpecDens SpecRnd SpecRnd2 SpecBin SpecBin64 SpecBinModel SpecSlope ModelRnd ModelRnd2 ModelBin64 ModelBinModel ModelSlope
  ProofRnd ProofRnd2 ProofRnd8 ProofBin64 ProofBin64b ProofBinModel ProofBinModel2 ProofBinModel3 ProofSlope2.
From Coq Require Import List.
Import ListNotations.
Local Open Scope R_scope.

Section Format.
Variable fm : format.
Notation rnd := (near fm).
Local Notation pow2 := (Raux.bpow radix2).
Context (bexp : number fm -> number fm) (fexp : R -> R) (bpow : number fm -> number fm -> number fm) (fpow : R -> R -> R) (pi : number fm).
Hypothesis Hd : damping bexp fexp.
Hypothesis Hp : library2 bpow fpow.
Hypothesis Hc : circle bpow pi (b_lit 3 (-1)).
Hypothesis H1 : 1 <= value (bpow pi (b_lit 3 (-1))).
Hypothesis H3 : finite (b_mul (b_lit 3 0) (bpow pi (b_lit 3 (-1)))).

Lemma pow_fmt : forall e, (bottom fm <= e)%Z -> bin_fmt (bottom fm) (digits fm) (pow2 e).
Proof.
  intros e L. assert (F := facts fm). rewrite <- (Rmult_1_l (pow2 e)). change 1 with (INR 1). apply mult_fmt; [|exact L]. change (Z.of_nat 1) with (2 ^ 0)%Z. apply Z.pow_lt_mono_r; lia.
Qed.
Lemma quot_rep : forall (a b : number fm) x y e, represents a x -> represents b y -> Rabs x <= pow2 e -> 1 <= y -> (bottom fm <= e < top fm)%Z ->
  represents (b_div a b) (rnd (x / y)) /\ Rabs (rnd (x / y)) <= pow2 e.
Proof.
  intros a b x y e Ra Rb X Y E. assert (B : Rabs (rnd (x / y)) <= pow2 e).
  { apply rnd_bound; [apply pow_fmt; lia|]. unfold Rdiv. rewrite Rabs_mult, (Rabs_pos_eq (/ y)) by (left; apply Rinv_0_lt_compat; lra).
    assert (I : / y <= 1) by (rewrite <- Rinv_1; apply Rinv_le_contravar; lra). assert (0 <= / y) by (left; apply Rinv_0_lt_compat; lra). assert (P := Rabs_pos x). nra. }
  split; [|exact B]. apply div_fits; try assumption; [lra|]. unfold fits. eapply Rle_lt_trans; [exact B | apply pow_lt_largest; lia].
Qed.
Lemma slope_rep : forall (norm p : bool) r c a s k b j m, finite r -> Rabs (value r) <= pow2 s -> finite a -> 0 <= value a -> finite c -> Rabs (value c) <= pow2 b ->
  (0 <= s)%Z -> (0 <= k)%Z -> (0 <= b)%Z -> (0 <= j)%Z -> (4 * s + k + b <= m)%Z -> (norm = true -> 2 * s + 3 + b + j <= m)%Z -> (m + 1 < top fm)%Z ->
  (norm = true -> finite (b_norm bpow pi p a) /\ Rabs (value (b_norm bpow pi p a)) <= pow2 k) ->
  (norm = true -> let h := bpow a (b_lit (if p then 3 else 1) (-1)) in finite h /\ Rabs (value h) <= pow2 j) ->
  represents (b_slope bexp bpow pi norm p r c a) (fl_slope rnd fexp fpow (value pi) norm p (value r) (value c) (value a)) /\
  Rabs (fl_slope rnd fexp fpow (value pi) norm p (value r) (value c) (value a)) <= pow2 (m + 1).
Proof.
  intros norm p r c a s k b j m Fr Br Fa Pa Fc Bc S K B J M1 M2 T Hn Hj. assert (Facts := facts fm).
  assert (Le : forall x e e', (e <= e')%Z -> Rabs x <= pow2 e -> Rabs x <= pow2 e') by (intros x e e' L X; eapply Rle_trans; [exact X | apply bpow_le, L]).
  destruct (mul_rep fm r r (value r) (value r) s s (self_rep fm r Fr) (self_rep fm r Fr) Br Br) as [Rq Bq]; [lia|].
  assert (Mr : moderate r). { split; [exact Fr|]. unfold fits. eapply Rle_lt_trans; [exact Bq | apply pow_lt_largest; lia]. }
  destruct (gauss_rep fm bexp fexp r a Hd Mr Fa Pa) as [Rg [G0 G1]].
  assert (Bg : Rabs (fexp (rnd (- value a * rnd (value r * value r)))) <= pow2 0) by (rewrite Rabs_pos_eq; assumption).
  destruct (elem_rep fm bexp fexp bpow fpow pi Hd Hp Hc norm p r a s k Fr Br Fa Pa S K) as [Re Be]; [lia | exact Hn|].
  assert (Ro := opp_rep fm _ _ Re). rewrite <- Rabs_Ropp in Be.
  destruct (mul_rep fm _ _ _ _ _ _ Ro Rq Be Bq) as [R1 B1]; [lia|].
  destruct (mul_rep fm _ _ _ _ _ _ R1 (self_rep fm c Fc) B1 Bc) as [R2 B2]; [lia|].
  unfold b_slope, fl_slope. cbv zeta. destruct norm; [|split; [exact R2 | apply (Le _ (2 * s + k + (s + s) + b)%Z); [lia | exact B2]]].
  specialize (M2 eq_refl). specialize (Hj eq_refl). cbv zeta in Hj. destruct Hj as [Fj Bj]. destruct Hc as (Fpi & _ & Fh).
  destruct (half_rep fm 3 eq_refl) as [F3 V3]. assert (Vh : value (bpow pi (b_lit 3 (-1))) = fpow (value pi) (3 / 2)) by (rewrite (Hp pi _ Fpi F3 Fh), V3; reflexivity).
  assert (H1' := H1). rewrite Vh in H1'.
  assert (Y : forall y w, represents y w -> Rabs w <= pow2 m -> represents (b_add (b_mul (b_mul (Bopp (b_elem bexp bpow pi true p r a)) (b_mul r r)) c) y)
     (rnd (rnd (rnd (- fl_elem rnd fexp fpow (value pi) true p (value r) (value a) * rnd (value r * value r)) * value c) + w)) /\
     Rabs (rnd (rnd (rnd (- fl_elem rnd fexp fpow (value pi) true p (value r) (value a) * rnd (value r * value r)) * value c) + w)) <= pow2 (m + 1)).
  { intros y w Ry Bw. assert (B3 : Rabs (rnd (rnd (rnd (- fl_elem rnd fexp fpow (value pi) true p (value r) (value a) * rnd (value r * value r)) * value c) + w)) <= pow2 (m + 1)).
    { apply rnd_bound; [apply pow_fmt; lia|]. eapply Rle_trans; [apply Rabs_triang|]. rewrite bpow_plus. change (pow2 1) with 2.
      assert (L := Le _ (2 * s + k + (s + s) + b)%Z m ltac:(lia) B2). lra. }
    split; [|exact B3]. apply add_fits; [exact R2 | exact Ry|]. unfold fits. eapply Rle_lt_trans; [exact B3 | apply pow_lt_largest; lia]. }
  destruct p.
  - assert (Vj := Hp a _ Fa F3 Fj). rewrite V3 in Vj.
    destruct (mul_rep fm c (bpow a (b_lit 3 (-1))) _ _ _ _ (self_rep fm c Fc) (self_rep fm _ Fj) Bc Bj) as [R4 B4]; [lia|]. rewrite Vj in R4, B4.
    destruct (mul_rep fm _ _ _ _ _ _ Rg Rq Bg Bq) as [R5 B5]; [lia|].
    assert (B50 : Rabs 5 <= pow2 3) by (change (pow2 3) with 8; rewrite Rabs_pos_eq; lra).
    destruct (mul_rep fm _ _ _ _ _ _ (lit_int fm 5 eq_refl) R5 B50 B5) as [R6 B6]; [lia|].
    destruct (mul_rep fm _ _ _ _ _ _ R6 R4 B6 B4) as [R7 B7]; [lia|].
    assert (Rd : represents (b_mul (b_lit 3 0) (bpow pi (b_lit 3 (-1)))) (rnd (3 * fpow (value pi) (3 / 2)))).
    { split; [exact H3|]. rewrite <- Vh. exact (mul_agrees fm _ _ _ _ (rep_agrees fm _ _ (lit_int fm 3 eq_refl)) (self_agrees fm _) H3). }
    destruct (quot_rep _ _ _ _ _ R7 Rd B7) as [R8 B8]; [apply (rnd_int_le fm 1); [reflexivity | lra] | lia|].
    apply Y; [exact R8 | eapply Le; [|exact B8]; lia].
  - destruct (half_rep fm 1 eq_refl) as [F1 V1]. assert (Vj := Hp a _ Fa F1 Fj). rewrite V1 in Vj.
    destruct (mul_rep fm c (bpow a (b_lit 1 (-1))) _ _ _ _ (self_rep fm c Fc) (self_rep fm _ Fj) Bc Bj) as [R4 B4]; [lia|]. rewrite Vj in R4, B4.
    assert (B30 : Rabs (3 / 2) <= pow2 1) by (change (pow2 1) with 2; rewrite Rabs_pos_eq; lra).
    destruct (mul_rep fm _ _ _ _ _ _ (half_rep fm 3 eq_refl) Rg B30 Bg) as [R6 B6]; [lia|].
    destruct (mul_rep fm _ _ _ _ _ _ R6 R4 B6 B4) as [R7 B7]; [lia|].
    destruct (quot_rep _ _ _ _ _ R7 (conj Fh Vh) B7) as [R8 B8]; [exact H1' | lia|].
    apply Y; [exact R8 | eapply Le; [|exact B8]; lia].
Qed.
End Format.
Lemma ideal_one : forall fm : format, 1 <= value (ideal_pow fm (ideal_pi fm) (b_lit 3 (-1))).
Proof.
  intro fm. destruct (pi_rep fm) as [[F V] B]. destruct (ideal_circle fm) as (_ & _ & Fh). destruct (half_rep fm 3 eq_refl) as [F3 V3].
  assert (Vh := ideal_library fm _ _ F F3 Fh). cbv beta in Vh. rewrite V, V3 in Vh. rewrite Vh.
  apply (rnd_int_le fm 1); [reflexivity|]. apply Rpower_ge1; lra.
Qed.
