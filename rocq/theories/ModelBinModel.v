(** IEEE 754 arithmetic with overflow: Gaussian models and the fixed point updates, the parts of the
    program in [ModelRnd2.v], in any binary format at least as wide as doubles. *)
From Coq Require Import Reals List ZArith Bool Lia.
From Flocq Require Import Core IEEE754.BinarySingleNaN.
From Verif Require Import SpecRnd SpecBin64 SpecBinModel ModelBin64.
Import ListNotations.

Section Format.
Context {fm : format}.
(** [bexp] and [bpow] are [np.exp] and the power of the library, [pi] is [np.pi]. *)
Context (bexp : number fm -> number fm) (bpow : number fm -> number fm -> number fm) (pi : number fm).

(** The fused multiply-add that BLAS may use in [np.dot], bfit/model.py:248,298. *)
Definition b_fma : number fm -> number fm -> number fm -> number fm := @Bfma (digits fm) (top fm) (digits_pos fm) (digits_top fm) mode_NE.

(** The index of a single product in [np.dot], bfit/model.py:248,298. *)
Definition leaf (t : order) : nat := match t with At i => i | _ => 0%nat end.
(** [np.dot] of a row of [matrix] with [coeffs] in the order [t], bfit/model.py:248,298; [fused i] tells
    that the i-th product is added without being rounded. *)
Fixpoint b_dot (fused : nat -> bool) (t : order) (m c : list (number fm)) : number fm :=
  match t with
  | Nil => b_zero
  | At i => b_mul (nth i m b_zero) (nth i c b_zero)
  | Plus l r =>
      if lone fused l then b_fma (nth (leaf l) m b_zero) (nth (leaf l) c b_zero) (b_dot fused r m c)
      else if lone fused r then b_fma (nth (leaf r) m b_zero) (nth (leaf r) c b_zero) (b_dot fused l m c)
      else b_add (b_dot fused l m c) (b_dot fused r m c)
  end.

(** [(expons[None, :] / np.pi) ** 1.5], bfit/model.py:246, and
    [expons[None, :]**2.5 / np.pi**1.5], bfit/model.py:296. *)
Definition b_norm (p : bool) (a : number fm) : number fm :=
  if p then b_div (bpow a (b_lit 5 (-1))) (bpow pi (b_lit 3 (-1))) else bpow (b_div a pi) (b_lit 3 (-1)).

(** One entry of [matrix]: bfit/model.py:198 and 245-246 for an s-type function, 198, 289 and 296
    for a p-type function, at the distance [r].  [np.power(x, 2)] is the product [x * x]. *)
Definition b_elem (norm p : bool) (r a : number fm) : number fm :=
  let g := bexp (b_mul (Bopp a) (b_mul r r)) in
  if p then
    let m := b_mul g (b_mul r r) in
    if norm then b_div (b_mul m (b_norm true a)) (b_lit 3 (-1)) else m
  else if norm then b_mul g (b_norm false a) else g.

(** The row of one point, bfit/model.py:198-216, and 467-489 for several centers: types of the basis
    functions and distances to their centers. *)
Fixpoint b_basis (norm : bool) (lay : list (bool * number fm)) (e : list (number fm)) : list (number fm) :=
  match lay, e with
  | (p, r) :: l, a :: e' => b_elem norm p r a :: b_basis norm l e'
  | _, _ => []
  end.
(** [evaluate] at one point, bfit/model.py:248,298,216 and 483,488. *)
Definition b_model (fused : nat -> bool) (t : order) (norm : bool) (lay : list (bool * number fm)) (c e : list (number fm)) : number fm :=
  b_dot fused t (b_basis norm lay e) c.

(** The values of the basis functions at all points, bfit/model.py:198-216,467-489. *)
Definition b_rows (norm : bool) (ty : list bool) (D : list (list (number fm))) (e : list (number fm)) : list (list (number fm)) :=
  map (fun ds => b_basis norm (combine ty ds) e) D.
(** The values of the model at all points, bfit/model.py:248,298. *)
Definition b_values (fused : nat -> bool) (t : order) (norm : bool) (ty : list bool) (D : list (list (number fm))) (c e : list (number fm)) : list (number fm) :=
  map (fun row => b_dot fused t row c) (b_rows norm ty D e).
(** [self.integrate(integrand)] and [self.integrate(integrand * radii**2)], bfit/fit.py:277-295, for
    model values [g] that are not negative; [b] is the column of [dm], [r] the distances. *)
Definition b_avrg1 (quadr : list (number fm) -> number fm) (mask : number fm) (f g b : list (number fm)) : number fm :=
  quadr (b_mulv (b_map2 (b_ratio (b_lit 1 0) mask) f g) b).
Definition b_avrg2 (quadr : list (number fm) -> number fm) (mask : number fm) (f g b r : list (number fm)) : number fm :=
  quadr (b_mulv (b_mulv (b_map2 (b_ratio (b_lit 1 0) mask) f g) b) (map (fun x => b_mul x x) r)).
(** The column of the k-th basis function and the distances to its center, bfit/fit.py:285-295. *)
Definition b_col (M : list (list (number fm))) (k : nat) : list (number fm) := map (fun row => nth k row b_zero) M.

(** [_update_params], bfit/fit.py:276-302, for model values that are not negative. *)
Definition b_params (quadr : list (number fm) -> number fm) (fused : nat -> bool) (t : order) (norm : bool) (mask N : number fm)
    (f : list (number fm)) (ty : list bool) (D : list (list (number fm))) (oc oe : bool) (c e : list (number fm)) : list (number fm) * list (number fm) :=
  let M := b_rows norm ty D e in
  let g := b_values fused t norm ty D c e in
  let ks := seq 0 (length c) in
  let lm := b_div (quadr f) N in
  (if oc then map (fun k => b_div (b_mul (nth k c b_zero) (b_avrg1 quadr mask f g (b_col M k))) lm) ks else c,
   if oe then map (fun k => b_div (b_mul (if nth k ty false then b_lit 5 (-1) else b_lit 3 (-1)) (b_avrg1 quadr mask f g (b_col M k)))
                                  (b_avrg2 quadr mask f g (b_col M k) (b_col D k))) ks else e).

(** [n] passes of the loop of [run], bfit/fit.py:387-399, without its stopping test. *)
Fixpoint b_fit (quadr : list (number fm) -> number fm) (fused : nat -> bool) (t : order) (norm : bool) (mask N : number fm)
    (f : list (number fm)) (ty : list bool) (D : list (list (number fm))) (oc oe : bool) (n : nat) (c e : list (number fm)) : list (number fm) * list (number fm) :=
  match n with
  | O => (c, e)
  | S n' => let q := b_params quadr fused t norm mask N f ty D oc oe c e in b_fit quadr fused t norm mask N f ty D oc oe n' (fst q) (snd q)
  end.

(** Nothing that is used in a pass is infinite, NaN or hidden: the model values are finite and not
    negative, their quotients with the density are seen, and the denominators are finite,
    bfit/fit.py:276-302. *)
Definition clean (quadr : list (number fm) -> number fm) (fused : nat -> bool) (t : order) (norm : bool) (mask N : number fm)
    (f : list (number fm)) (ty : list bool) (D : list (list (number fm))) (oc oe : bool) (c e : list (number fm)) : Prop :=
  let g := b_values fused t norm ty D c e in
  (forall y, In y g -> 0 <= value y)%R /\ (forall x y, In (x, y) (combine f g) -> seen mask x y) /\
  (oc = true -> finite (b_div (quadr f) N)) /\
  (oe = true -> forall k, (k < length c)%nat -> finite (b_avrg2 quadr mask f g (b_col (b_rows norm ty D e) k) (b_col D k))).
(** The same in each of [n] passes, with finite parameters before and after, bfit/fit.py:387-399. *)
Fixpoint clean_run (quadr : list (number fm) -> number fm) (fused : nat -> bool) (t : order) (norm : bool) (mask N : number fm)
    (f : list (number fm)) (ty : list bool) (D : list (list (number fm))) (oc oe : bool) (n : nat) (c e : list (number fm)) : Prop :=
  Forall finite c /\ Forall finite e /\
  match n with
  | O => True
  | S n' => clean quadr fused t norm mask N f ty D oc oe c e /\
      let q := b_params quadr fused t norm mask N f ty D oc oe c e in clean_run quadr fused t norm mask N f ty D oc oe n' (fst q) (snd q)
  end.
End Format.

(** A correctly rounded library, an ideal of the one that [np.exp], [**] and [np.pi] come from,
    bfit/model.py:198,246,296: the number nearest to the real [x], infinite when that is too large. *)
Definition nearest (fm : format) (x : R) : number fm :=
  b_lit (ZnearestE (scaled_mantissa radix2 (FLT_exp (bottom fm) (digits fm)) x)) (cexp radix2 (FLT_exp (bottom fm) (digits fm)) x).
Definition ideal_exp (fm : format) (x : number fm) : number fm :=
  match x with
  | B754_infinity true => b_zero
  | B754_infinity false => B754_infinity false
  | B754_nan => B754_nan
  | _ => nearest fm (exp (value x))
  end.
Definition ideal_pow (fm : format) (x y : number fm) : number fm := nearest fm (Rpower (value x) (value y)).
Definition ideal_pi (fm : format) : number fm := nearest fm PI.
