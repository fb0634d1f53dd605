(** IEEE 754 arithmetic: the same parts of the program as in [ModelRnd.v] and [ModelRnd4.v],
    computed with the operations of Flocq's binary formats, so with overflow, infinities, NaN and signed
    zeros.  The format is a parameter: [float64], or [longdouble], the default of bfit/grid.py:88,141,196.  All roundings are to nearest, ties to even, as NumPy leaves them.  Products are not
    fused with additions. *)
From Coq Require Import Reals List ZArith Bool Lia.
From Flocq Require Import Core IEEE754.BinarySingleNaN.
From Verif Require Import SpecRnd SpecBin64.
Import ListNotations.

(** The operations + - * / of arrays of one floating-point type, as used in bfit/grid.py:73-77,408-413,
    bfit/fit.py:145-147,277-299 and bfit/measure.py:110-117,210-228,342-349. *)
Lemma digits_pos : forall fm, Prec_gt_0 (digits fm).
Proof. intros [p e W]. unfold Prec_gt_0. simpl. lia. Qed.
Lemma digits_top : forall fm, Prec_lt_emax (digits fm) (top fm).
Proof. intros [p e W]. unfold Prec_lt_emax. simpl. lia. Qed.
Section Format.
Context {fm : format}.
Definition b_add : (number fm) -> (number fm) -> (number fm) := @Bplus (digits fm) (top fm) (digits_pos fm) (digits_top fm) mode_NE.
Definition b_sub : (number fm) -> (number fm) -> (number fm) := @Bminus (digits fm) (top fm) (digits_pos fm) (digits_top fm) mode_NE.
Definition b_mul : (number fm) -> (number fm) -> (number fm) := @Bmult (digits fm) (top fm) (digits_pos fm) (digits_top fm) mode_NE.
Definition b_div : (number fm) -> (number fm) -> (number fm) := @Bdiv (digits fm) (top fm) (digits_pos fm) (digits_top fm) mode_NE.
Definition b_zero : (number fm) := B754_zero false.
(** The number m * 2^e, for the literals 1, 2, 4 and -2 in these lines and [np.finfo(float).tiny] of
    the division of masked arrays. *)
Definition b_lit (m e : Z) : (number fm) := binary_normalize (digits fm) (top fm) (digits_pos fm) (digits_top fm) mode_NE m e false.

(** Sum of an array in the order [t], bfit/grid.py:77,412, bfit/model.py:248. *)
Fixpoint b_sum (t : order) (v : list (number fm)) : (number fm) :=
  match t with
  | Nil => b_zero
  | At i => nth i v b_zero
  | Plus l r => b_add (b_sum l v) (b_sum r v)
  end.

(** The terms of [np.trapz] and [_BaseRadialGrid.integrate], bfit/grid.py:73-77. *)
Fixpoint b_trap_terms (x y : list (number fm)) : list (number fm) :=
  match x, y with
  | x0 :: ((x1 :: _) as x'), y0 :: ((y1 :: _) as y') =>
      b_div (b_mul (b_sub x1 x0) (b_add y1 y0)) (b_lit 2 0) :: b_trap_terms x' y'
  | _, _ => []
  end.
Definition b_trapz (t : order) (x y : list (number fm)) : (number fm) := b_sum t (b_trap_terms x y).

(** The product of two arrays, [CubicGrid.integrate], bfit/grid.py:408-413, and dot products,
    bfit/model.py:248. *)
Fixpoint b_mulv (x y : list (number fm)) : list (number fm) :=
  match x, y with a :: x', b :: y' => b_mul a b :: b_mulv x' y' | _, _ => [] end.
Definition b_cubic (t : order) (w y : list (number fm)) : (number fm) := b_sum t (b_mulv w y).

(** [integrate] of the fitting classes with [spherical], bfit/fit.py:145-146; [p] is [np.pi]. *)
Fixpoint b_sphere (p : (number fm)) (x y : list (number fm)) : list (number fm) :=
  match x, y with
  | r :: x', b :: y' => b_mul (b_mul (b_mul b (b_lit 4 0)) p) (b_mul r r) :: b_sphere p x' y'
  | _, _ => []
  end.
Definition b_spherical (p : (number fm)) (t : order) (x y : list (number fm)) : (number fm) := b_trapz t x (b_sphere p x y).

(** ** Measures *)
(** Elementwise on two arrays, bfit/measure.py:110-117,210-228,342-349. *)
Definition b_map2 (h : (number fm) -> (number fm) -> (number fm)) (f g : list (number fm)) : list (number fm) := map (fun p => h (fst p) (snd p)) (combine f g).
(** [SquaredDifference.evaluate], bfit/measure.py:110-116; [bsq] is [np.power(., 2)]. *)
Definition b_square (bsq : (number fm) -> (number fm)) (f g : (number fm)) : (number fm) := bsq (b_sub f g).
(** Its derivative, bfit/measure.py:114-116. *)
Definition b_square_slope (f g : (number fm)) : (number fm) := b_mul (b_lit (-2) 0) (b_sub f g).

(** [ratio] of the divergences, bfit/measure.py:218-219,343-344.  The division of masked arrays also masks results
    that are not finite and those with [|density| * tiny >= |model|]. *)
Definition b_ratio (fill mask f g : (number fm)) : (number fm) :=
  if Bleb g mask || negb (is_finite (b_div f g)) || Bleb (Babs g) (b_mul (Babs f) (b_lit 1 (-1022))) then fill else b_div f g.
(** [KLDivergence.evaluate], bfit/measure.py:210-228; [blog] is [np.log]. *)
Definition b_kl (blog : (number fm) -> (number fm)) (mask f g : (number fm)) : (number fm) := b_mul f (blog (b_ratio (b_lit 1 0) mask f g)).
(** Its derivative, bfit/measure.py:227-229. *)
Definition b_kl_slope (mask f g : (number fm)) : (number fm) := Bopp (b_ratio (b_lit 1 0) mask f g).
(** All values, [neg] where the model is negative somewhere, bfit/measure.py:210-215. *)
Definition b_kl_values (blog : (number fm) -> (number fm)) (neg mask : (number fm)) (f g : list (number fm)) : list (number fm) :=
  if existsb (fun b => Bltb b b_zero) g then map (fun _ => neg) g else b_map2 (b_kl blog mask) f g.
(** [TsallisDivergence.evaluate], bfit/measure.py:343-348; [bpow] is [np.power]. *)
Definition b_tsallis (bpow : (number fm) -> (number fm) -> (number fm)) (alpha mask f g : (number fm)) : (number fm) :=
  let a := b_sub alpha (b_lit 1 0) in b_div (b_mul f (b_sub (bpow (b_ratio b_zero mask f g) a) (b_lit 1 0))) a.

(** [obj] and [d_obj] of [ScipyFit.func], bfit/fit.py:720-725. *)
Definition b_objective (quadr : list (number fm) -> (number fm)) (om k : list (number fm)) : (number fm) := quadr (b_mulv om k).
Definition b_gradient (quadr : list (number fm) -> (number fm)) (om dk b : list (number fm)) : (number fm) := quadr (b_mulv (b_mulv om dk) b).

(** [np.abs(density - approx)], bfit/fit.py:184. *)
Definition b_diff (f g : list (number fm)) : list (number fm) := b_map2 (fun a b => Babs (b_sub a b)) f g.

(** [coeffs * avrg1 / self._lm] of one coefficient [c], bfit/fit.py:239,277-285,299; [g] are the
    values of the model and [b] the column of the coefficient. *)
Definition b_update (quadr : list (number fm) -> (number fm)) (mask N : (number fm)) (f g b : list (number fm)) (c : (number fm)) : (number fm) :=
  b_div (b_mul c (quadr (b_mulv (b_map2 (b_ratio (b_lit 1 0) mask) f g) b))) (b_div (quadr f) N).
End Format.
