(** The objective of [ScipyFit] and its gradient in floating-point formats: only the measure, the products and the
    integration can overflow when distances, coefficients and constants of normalization are moderate. *)
From Coq Require Import Reals List ZArith Bool Lia Lra.
From Flocq Require Import Core IEEE754.BinarySingleNaN.
From Verif Require Import SpecDens SpecRnd SpecBin SpecRnd2 SpecRnd3 SpecRnd4 SpecBin64 SpecBinModel SpecSlope SpecDescent SpecBinDescent
  ModelRnd ModelRnd2 ModelRnd4 ModelBin64 ModelBinModel ModelSlope ModelDescent ModelBinDescent
  ProofRnd ProofBin64 ProofBin64b ProofBinModel ProofBinModel2 ProofBinModel3 ProofBinModel4 ProofSlope ProofSlope2 ProofSlope3 ProofDescent2 ProofDescent3 ProofBinDescent.
From Coq Require Import List.
Import ListNotations.
Local Open Scope R_scope.

Section Format.
Variable fm : format.
Local Notation rnd := (near fm).
Local Notation pow2 e := (Raux.bpow radix2 e).
Context (bexp : number fm -> number fm) (fexp : R -> R) (bpow : number fm -> number fm -> number fm) (fpow : R -> R -> R) (pi : number fm).
Hypothesis (Hd : damping bexp fexp) (Hp : library2 bpow fpow) (Hc : circle bpow pi (b_lit 3 (-1))) (H1 : 1 <= value (bpow pi (b_lit 3 (-1))))
  (Ht : finite (b_mul (b_lit 3 0) (bpow pi (b_lit 3 (-1))))).
Context (fu : list (bool * R) -> nat -> bool) (to : list (bool * R) -> order).
Context (norm : bool) (pts : list (bplace fm)) (c e : list (number fm)) (s k b j M : Z).
Hypothesis (S0 : (0 <= s)%Z) (K0 : (0 <= k)%Z) (B0 : (0 <= b)%Z) (J0 : (0 <= j)%Z) (M1 : (4 * s + k + b <= M)%Z) (M2 : norm = true -> (2 * s + 3 + b + j <= M)%Z) (M3 : (M + 1 < top fm)%Z).
Hypothesis (Hn : norm = true -> forall p a, In a e -> finite (b_norm bpow pi p a) /\ Rabs (value (b_norm bpow pi p a)) <= pow2 k).
Hypothesis (Hj : norm = true -> forall (p : bool) a, In a e -> let h := bpow a (b_lit (if p then 3 else 1) (-1)) in finite h /\ Rabs (value h) <= pow2 j).
Hypothesis (E : Forall (fun a => finite a /\ 0 <= value a) e) (C : Forall (fun x => finite x /\ Rabs (value x) <= pow2 b) c).
Hypothesis G : Forall (sized_place s (2 * s + k + b) fu to) pts.

Lemma slopes_rep : forall lay, Forall (fun q : bool * number fm => finite (snd q) /\ Rabs (value (snd q)) <= pow2 s) lay ->
  Forall2 represents (b_slopes bexp bpow pi norm lay c e) (fl_slopes rnd fexp fpow (value pi) norm (map (fun q => (fst q, value (snd q))) lay) (map value c) (map value e)).
Proof.
  clear G. revert Hn Hj E C. generalize e, c. intros e' c' Hn' Hj' E' C' lay L. revert e' c' Hn' Hj' E' C'. induction L as [|[p r] lay [Fr Br] L IH]; intros e' c' Hn' Hj' E' C'; [constructor|].
  destruct c' as [|b0 c']; [constructor|]. destruct e' as [|a e']; [constructor|]. cbn [b_slopes fl_slopes map fst snd] in *.
  apply Forall_cons_iff in E'. destruct E' as [[Fa Pa] E']. apply Forall_cons_iff in C'. destruct C' as [[Fb Bb] C']. constructor.
  - apply (slope_rep fm bexp fexp bpow fpow pi Hd Hp Hc H1 Ht norm p r b0 a s k b j M); try assumption.
    + intro N. apply (Hn' N). left. reflexivity.
    + intro N. apply (Hj' N). left. reflexivity.
  - apply IH; try assumption; intros N q y I; [apply (Hn' N) | apply (Hj' N)]; right; exact I.
Qed.

Lemma in_exponents : forall (lay : list (bool * number fm)) (p : bool) a, In (p, a) (combine (map fst lay) e) -> In a e.
Proof. intros lay p a I. exact (in_combine_r _ _ _ _ I). Qed.

Lemma model_sized : forall x, In x pts ->
  represents (b_model bexp bpow pi (fu (lays (real_place x))) (to (lays (real_place x))) norm (laysb x) c e)
    (fl_model rnd fexp fpow (value pi) (fu (lays (real_place x))) (to (lays (real_place x))) norm (lays (real_place x)) (map value c) (map value e)).
Proof.
  intros x I. rewrite Forall_forall in G. destruct (G x I) as (D & Fu & Lo & N & T). assert (W := wide fm).
  apply (model_rep fm bexp fexp bpow fpow pi Hd Hp Hc _ _ norm (laysb x) c e s k b Fu Lo S0 K0); try assumption; try (unfold bottom; lia).
  intros Nm p a Ia. apply (Hn Nm), (in_exponents (laysb x) p a Ia).
Qed.
Lemma column_sized : forall i x, In x pts ->
  represents (nth i (b_basis bexp bpow pi norm (laysb x) e ++ b_slopes bexp bpow pi norm (laysb x) c e) b_zero)
    (nth i (fl_basis rnd fexp fpow (value pi) norm (lays (real_place x)) (map value e) ++ fl_slopes rnd fexp fpow (value pi) norm (lays (real_place x)) (map value c) (map value e)) 0).
Proof.
  intros i x I. rewrite Forall_forall in G. destruct (G x I) as (D & _). apply nth_rep, Forall2_app; [|apply slopes_rep, D].
  apply (basis_rep fm bexp fexp bpow fpow pi Hd Hp Hc norm (laysb x) e s k S0 K0); try assumption; [lia|].
  intros Nm p a Ia. apply (Hn Nm), (in_exponents (laysb x) p a Ia).
Qed.

Lemma maps_rep : forall (f : bplace fm -> number fm) (h : place -> R) l, (forall x, In x l -> represents (f x) (h (real_place x))) ->
  Forall2 represents (map f l) (map h (map real_place l)).
Proof.
  intros f h l P. induction l as [|x l IH]; cbn [map]; constructor; [apply P; left; reflexivity | apply IH; intros; apply P; right; assumption].
Qed.

Context (m : number fm -> number fm -> number fm) (m' : R -> R -> R).
Hypothesis A : forall x, In x pts ->
  represents (m (densb x) (b_model bexp bpow pi (fu (lays (real_place x))) (to (lays (real_place x))) norm (laysb x) c e))
    (m' (value (densb x)) (fl_model rnd fexp fpow (value pi) (fu (lays (real_place x))) (to (lays (real_place x))) norm (lays (real_place x)) (map value c) (map value e))).
Hypothesis W : Forall (fun x => finite (weightb x)) pts.
Context (P : list R -> Prop) (quadr : list (number fm) -> number fm) (quadr' : list R -> R) (Q : finite_rule P quadr quadr').
Notation pts' := (map real_place pts).
Notation vals := (fl_mul rnd (map weight pts') (fl_map2 m' (map dens pts') (fl_curve rnd fexp fpow (value pi) fu to norm pts' (map value c) (map value e)))).

Lemma measure_rep : Forall2 represents (b_map2 m (map densb pts) (b_curve bexp bpow pi fu to norm pts c e))
  (fl_map2 m' (map dens pts') (fl_curve rnd fexp fpow (value pi) fu to norm pts' (map value c) (map value e))).
Proof.
  unfold b_curve, fl_curve. rewrite map2_maps. unfold b_map2.
  replace (map (fun p => m (fst p) (snd p)) (combine (map densb pts) (map (fun x => b_model bexp bpow pi (fu (lays (real_place x))) (to (lays (real_place x))) norm (laysb x) c e) pts)))
    with (map (fun x => m (densb x) (b_model bexp bpow pi (fu (lays (real_place x))) (to (lays (real_place x))) norm (laysb x) c e)) pts)
    by (clear; induction pts as [|x l IH]; [reflexivity|]; cbn; f_equal; exact IH).
  apply (maps_rep _ (fun x => m' (dens x) (fl_model rnd fexp fpow (value pi) (fu (lays x)) (to (lays x)) norm (lays x) (map value c) (map value e)))). exact A.
Qed.
Lemma weights_rep : Forall2 represents (map weightb pts) (map weight pts').
Proof. apply maps_rep. rewrite Forall_forall in W. intros x I. split; [exact (W x I) | reflexivity]. Qed.

Lemma func_finite : Forall (SpecBin64.fits fm) vals -> P vals ->
  represents (b_func bexp bpow pi fu to quadr m norm pts c e) (fl_func rnd fexp fpow (value pi) fu to quadr' m' norm pts' (map value c) (map value e)).
Proof. intros L Pv. apply Q; [|exact Pv]. apply mulv_fits; [exact weights_rep | exact measure_rep | exact L]. Qed.
Lemma jac_finite : forall i, let v := fl_mul rnd vals (fl_column rnd fexp fpow (value pi) norm pts' (map value c) (map value e) i) in
  Forall (SpecBin64.fits fm) vals -> Forall (SpecBin64.fits fm) v -> P v ->
  represents (b_jac bexp bpow pi fu to quadr m norm pts c e i) (fl_jac rnd fexp fpow (value pi) fu to quadr' m' norm pts' (map value c) (map value e) i).
Proof.
  intros i v Lu Lv Pv. apply Q; [|exact Pv]. apply mulv_fits; [|unfold b_column, fl_column|exact Lv].
  - apply mulv_fits; [exact weights_rep | exact measure_rep | exact Lu].
  - apply (maps_rep _ (fun x => nth i (fl_basis rnd fexp fpow (value pi) norm (lays x) (map value e) ++ fl_slopes rnd fexp fpow (value pi) norm (lays x) (map value c) (map value e)) 0)).
    apply column_sized.
Qed.
End Format.
