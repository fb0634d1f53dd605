(** Rounded derivatives with respect to the exponents: exact arithmetic, rows, and formats with overflow. *)
From Coq Require Import Reals List ZArith Lia Lra.
From Flocq Require Import Core IEEE754.BinarySingleNaN.
From Verif Require Import XR SpecDens SpecRnd SpecRnd2 SpecBin SpecBin64 SpecBinModel SpecSlope ModelRnd ModelRnd2 ModelBin64 ModelBinModel ModelSlope
  ProofRnd ProofRnd2 ProofRnd3 ProofRnd8 ProofRnd10 ProofBin64 ProofBin64b ProofBinModel ProofBinModel3 ProofBinModel4 ProofSlope.
From Coq Require Import List.
Import ListNotations.
Local Open Scope R_scope.

(** *** Exact arithmetic *)
Lemma elem_ideal : forall norm p r a, (norm = true -> 0 < a) -> fl_elem (fun x => x) exp Rpower PI norm p r a = basis_fn norm p a r.
Proof.
  intros norm p r a Ha. unfold fl_elem, fl_norm, basis_fn, norm_const. replace (r ^ 2) with (r * r) by (simpl; ring). destruct p, norm; field; apply Rgt_not_eq, exp_pos.
Qed.
Lemma slope_ideal : forall norm p r c a, (norm = true -> 0 < a) -> fl_slope (fun x => x) exp Rpower PI norm p r c a = c * basis_slope norm p a r.
Proof.
  intros norm p r c a Ha. unfold fl_slope, basis_slope. cbv zeta. rewrite elem_ideal by exact Ha. assert (Er : r ^ 2 = r * r) by (simpl; ring). destruct norm.
  - specialize (Ha eq_refl). rewrite Rmult_plus_distr_r, Rmult_plus_distr_l, Er. f_equal; [ring|]. unfold degree, basis_fn. rewrite Er. destruct p.
    + replace (5 / 2 / a * (norm_const true a * (r * r) * exp (- a * (r * r)))) with (5 / 2 / a * norm_const true a * ((r * r) * exp (- a * (r * r)))) by ring.
      rewrite second_p by exact Ha. field. apply Rgt_not_eq, exp_pos.
    + replace (3 / 2 / a * (norm_const false a * 1 * exp (- a * (r * r)))) with (3 / 2 / a * norm_const false a * exp (- a * (r * r))) by ring.
      rewrite second_s by exact Ha. field. apply Rgt_not_eq, exp_pos.
  - rewrite Er. ring.
Qed.
Lemma slopes_each : forall rnd fexp fpow pi norm lay c e, length lay = length c -> length e = length c ->
  length (fl_slopes rnd fexp fpow pi norm lay c e) = length c /\
  forall i, (i < length c)%nat -> nth i (fl_slopes rnd fexp fpow pi norm lay c e) 0 =
    fl_slope rnd fexp fpow pi norm (fst (nth i lay (false, 0))) (snd (nth i lay (false, 0))) (nth i c 0) (nth i e 0).
Proof.
  induction lay as [|[p r] lay IH]; intros [|b c] [|a e] L1 L2; try discriminate; [split; [reflexivity | intros i L; inversion L]|].
  injection L1 as L1. injection L2 as L2. destruct (IH c e L1 L2) as [I1 I2]. split; [cbn; f_equal; exact I1|].
  intros [|i] L; [reflexivity|]. apply I2. cbn in L. lia.
Qed.

(** *** Formats with overflow *)
Section Format.
Variable fm : format.
Notation rnd := (near fm).
Context (bexp : number fm -> number fm) (fexp : R -> R) (bpow : number fm -> number fm -> number fm) (fpow : R -> R -> R) (pi : number fm).
Hypothesis He : exponential bexp fexp.
Hypothesis Hp : library2 bpow fpow.
Hypothesis Hc : circle bpow pi (b_lit 3 (-1)).
Hypothesis H3 : finite (b_mul (b_lit 3 0) (bpow pi (b_lit 3 (-1)))).

Lemma slope_agrees : forall norm p r c a, moderate r -> finite a ->
  agrees (b_slope bexp bpow pi norm p r c a) (fl_slope rnd fexp fpow (value pi) norm p (value r) (value c) (value a)).
Proof.
  intros norm p r c a Mr Fa. assert (G := gauss_agrees fm bexp fexp r a He Mr Fa). assert (Q := rep_agrees fm _ _ (square_rep fm r Mr)).
  assert (E := elem_agrees fm bexp fexp bpow fpow pi He Hp Hc norm p r a Mr Fa). destruct (half_rep fm 3 eq_refl) as [F3 V3].
  destruct (half_rep fm 1 eq_refl) as [F1 V1]. assert (I3 := lit_int fm 3 eq_refl). assert (I5 := lit_int fm 5 eq_refl).
  destruct Hc as (Fpi & Ppi & Fh). assert (Vh : value (bpow pi (b_lit 3 (-1))) = fpow (value pi) (3 / 2)) by (rewrite (Hp pi _ Fpi F3 Fh), V3; reflexivity).
  assert (Px : agrees (b_mul (b_mul (Bopp (b_elem bexp bpow pi norm p r a)) (b_mul r r)) c)
    (rnd (rnd (- fl_elem rnd fexp fpow (value pi) norm p (value r) (value a) * rnd (value r * value r)) * value c))).
  { apply mul_agrees; [apply mul_agrees; [apply opp_agrees, E | exact Q] | apply self_agrees]. }
  assert (Pa : forall m : Z, represents (b_lit (fm := fm) m (-1)) (IZR m / 2) -> agrees (b_mul c (bpow a (b_lit m (-1)))) (rnd (value c * fpow (value a) (IZR m / 2)))).
  { intros m [Fm Vm]. apply mul_agrees; [apply self_agrees|]. intro F. rewrite (Hp a _ Fa Fm F), Vm. reflexivity. }
  unfold b_slope, fl_slope. cbv zeta. destruct norm; [|exact Px]. apply add_agrees; [exact Px|]. destruct p.
  - apply div_agrees.
    + apply mul_agrees; [apply mul_agrees; [apply rep_agrees, I5 | apply mul_agrees; [exact G | exact Q]] | apply Pa, half_rep; reflexivity].
    + split; [exact H3|]. assert (A3 := mul_agrees fm _ _ _ _ (rep_agrees fm _ _ I3) (self_agrees fm (bpow pi (b_lit 3 (-1)))) H3). rewrite Vh in A3. exact A3.
  - apply div_agrees.
    + apply mul_agrees; [apply mul_agrees; [apply rep_agrees, half_rep; reflexivity | exact G] | apply Pa, half_rep; reflexivity].
    + split; [exact Fh | exact Vh].
Qed.
Lemma slopes_agree : forall norm lay c e, Forall (fun q => moderate (snd q)) lay -> Forall finite e ->
  Forall2 agrees (b_slopes bexp bpow pi norm lay c e)
    (fl_slopes rnd fexp fpow (value pi) norm (map (fun q => (fst q, value (snd q))) lay) (map value c) (map value e)).
Proof.
  induction lay as [|[p r] lay IH]; intros [|b c] [|a e] Ml Fe; try constructor.
  - apply slope_agrees; [apply (Forall_inv Ml) | apply (Forall_inv Fe)].
  - apply IH; [exact (Forall_inv_tail Ml) | exact (Forall_inv_tail Fe)].
Qed.
Notation u := (Raux.bpow radix2 (- digits fm)).
Notation eta := (Raux.bpow radix2 (bottom fm - 1)).
Notation lo := (Raux.bpow radix2 (bottom fm + digits fm - 1)).
Lemma slope_value : forall k v z, pow_error u lo k fpow -> Rabs (value pi - PI) <= u * PI -> 1 / 2 <= (1 - u) ^ (2 * k + 2) -> exp_error v z fexp ->
  forall M norm p r c a, 0 <= M -> moderate r -> finite a -> 0 <= value a <= M -> smooth lo norm p (value r) (value a) ->
  finite (b_slope bexp bpow pi norm p r c a) ->
  let q := / (1 - u) in let A := gauss_error u eta v z M in
  Rabs (value (b_slope bexp bpow pi norm p r c a) - value c * basis_slope norm p (value a) (value r)) <=
    (q ^ slope_roundings norm k * (1 + A) - 1) * (Rabs (value c) * reach norm p (value r) (value a)) + slope_floor q eta A k norm p (value r) (value c) (value a).
Proof.
  intros k v z Ep Epi Hk Ee M norm p r c a PM Mr Fa Ha Sm Fin q A. rewrite (slope_agrees norm p r c a Mr Fa Fin).
  apply (slope_error u eta _ rnd (r64 fm) (u_eighth fm) lo k fpow (value pi) (lo_small fm) (fm_normal fm) Ep Epi Hk v z fexp Ee M PM); assumption.
Qed.
End Format.

Lemma ideal_third : forall fm : format, finite (b_mul (b_lit 3 0) (ideal_pow fm (ideal_pi fm) (b_lit 3 (-1)))).
Proof.
  intro fm. destruct (pi_rep fm) as [[F V] B]. destruct (ideal_circle fm) as (_ & _ & Fh). destruct (half_rep fm 3 eq_refl) as [F3 V3].
  assert (Vh := ideal_library fm _ _ F F3 Fh). cbv beta in Vh. rewrite V, V3 in Vh.
  assert (P : 0 < Rpower (near fm PI) (3 / 2) <= 16).
  { split; [apply exp_pos|]. apply Rle_trans with (Rpower 4 2).
    - apply Rle_trans with (Rpower (near fm PI) 2); [apply Rle_Rpower; lra | apply Rle_Rpower_l; lra].
    - replace 2 with (INR 2) by (simpl; ring). rewrite Rpower_pow by lra. simpl. lra. }
  assert (B16 : 0 <= near fm (Rpower (near fm PI) (3 / 2)) <= 16) by (split; [apply (rnd_int_le fm 0); [reflexivity | lra] | apply (rnd_le_int fm 16); [reflexivity | lra]]).
  destruct (lit_int fm 3 eq_refl) as [I3 J3]. apply (mul_exact fm _ _ I3 Fh). rewrite J3, Vh.
  apply (int_fits fm 48); [lia|]. split; [apply (rnd_int_le fm 0); [reflexivity | lra] | apply (rnd_le_int fm 48); [reflexivity | lra]].
Qed.
