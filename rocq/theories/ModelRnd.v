(** Rounded arithmetic: what the grids, the Gaussian models and the fixed point updates compute
    when every operation on reals is followed by a rounding [rnd].  There is no overflow. *)
From Coq Require Import Reals List ZArith.
From Verif Require Import SpecRnd.
Import ListNotations.
Local Open Scope R_scope.

Section Rounded.
Context (rnd : R -> R).

(** Sum of an array in the order [t] (numpy and BLAS add blocks pairwise; which order they take
    is left open).  bfit/grid.py:77 ([np.trapz] ends in [.sum]), bfit/grid.py:412 ([np.sum]),
    bfit/model.py:248 ([np.dot]). *)
Fixpoint fl_sum (t : order) (v : list R) : R :=
  match t with
  | Nil => 0
  | At i => nth i v 0
  | Plus l r => rnd (fl_sum l v + fl_sum r v)
  end.

(** The terms [d * (y[1:] + y[:-1]) / 2.0] of [np.trapz], bfit/grid.py:77. *)
Fixpoint fl_trap_terms (x y : list R) : list R :=
  match x, y with
  | x0 :: ((x1 :: _) as x'), y0 :: ((y1 :: _) as y') =>
      rnd (rnd (rnd (x1 - x0) * rnd (y1 + y0)) / 2) :: fl_trap_terms x' y'
  | _, _ => []
  end.

(** [_BaseRadialGrid.integrate], bfit/grid.py:73-77 (arrays of the right shape). *)
Definition fl_trapz (t : order) (x y : list R) : R := fl_sum t (fl_trap_terms x y).

(** The product of two arrays of the same length. *)
Fixpoint fl_mul (x y : list R) : list R :=
  match x, y with a :: x', b :: y' => rnd (a * b) :: fl_mul x' y' | _, _ => [] end.

(** [CubicGrid.integrate], bfit/grid.py:408-413: [np.sum(self._weights * arr)]. *)
Definition fl_cubic (t : order) (w y : list R) : R := fl_sum t (fl_mul w y).

(** [integrand * 4.0 * np.pi * self.grid.points**2.0], bfit/fit.py:146; [p] is [np.pi]. *)
Fixpoint fl_sphere (p : R) (x y : list R) : list R :=
  match x, y with
  | r :: x', b :: y' => rnd (rnd (rnd (b * 4) * p) * rnd (r * r)) :: fl_sphere p x' y'
  | _, _ => []
  end.

(** One row of [np.exp(-expons[None, :] * np.power(self.radii, 2)[:, None])], bfit/model.py:198;
    [fexp] is the exponential function of the library. *)
Definition fl_row (fexp : R -> R) (e : list R) (r : R) : list R :=
  map (fun a => fexp (rnd (- a * rnd (r * r)))) e.

(** Product of a row of [matrix] with [coeffs], bfit/model.py:248.  [fused i] tells that the i-th
    product is not rounded before it is added (fused multiply-add). *)
Fixpoint fl_prods (fused : nat -> bool) (i : nat) (m c : list R) : list R :=
  match m, c with
  | a :: m', b :: c' => (if fused i then a * b else rnd (a * b)) :: fl_prods fused (S i) m' c'
  | _, _ => []
  end.
Definition fl_dot (fused : nat -> bool) (t : order) (m c : list R) : R :=
  fl_sum t (fl_prods fused 0 m c).

(** [AtomicGaussianDensity.evaluate] at one point: s-type, not normalized, without derivatives,
    bfit/model.py:198-203,248. *)
Definition fl_eval (fexp : R -> R) (fused : nat -> bool) (t : order) (c e : list R) (r : R) : R :=
  fl_dot fused t (fl_row fexp e r) c.

(** ** The coefficient update of the fixed point method *)
(** [ratio] of [KLDivergence.evaluate] at one point, bfit/measure.py:218-219: 1 where the model value is
    masked. *)
Definition fl_ratio (mask f g : R) : R := if Rle_dec g mask then 1 else rnd (f / g).

(** [integrand = -dk * dm[:, index]], bfit/fit.py:285; [dk] is minus the ratio. *)
Definition fl_integrand (mask : R) (f g b : list R) : list R :=
  fl_mul (map (fun q => fl_ratio mask (fst q) (snd q)) (combine f g)) b.

(** [coeffs * avrg1 / self._lm] with [_lm = integrate(density) / integral_dens],
    bfit/fit.py:239,277-285,299.  [quadr] is the integration of the grid (called without
    [spherical]) and [M] the rows of [matrix], the part of [dm] that belongs to the coefficients,
    bfit/model.py:254; the values of the model are their products with the coefficients. *)
Definition fl_update (quadr : list R -> R) (fused : nat -> bool) (t : order) (mask N : R)
    (f : list R) (M : list (list R)) (c : list R) : list R :=
  let g := map (fun row => fl_dot fused t row c) M in
  let lm := rnd (quadr f / N) in
  map (fun k => rnd (rnd (nth k c 0 * quadr (fl_integrand mask f g (map (fun row => nth k row 0) M))) / lm))
      (seq 0 (length c)).

End Rounded.

(** [integrate] of the fitting classes on a radial grid with [spherical], bfit/fit.py:145-146. *)
Definition fl_spherical (rnd : R -> R) (p : R) (t : order) (x y : list R) : R :=
  fl_trapz rnd t x (fl_sphere rnd p x y).

(** The coefficients after [n] updates with fixed exponents: the loop of
    [KLDivergenceFPI.run], bfit/fit.py:387-399, without its stopping test. *)
Fixpoint fl_updates (rnd : R -> R) (quadr : list R -> R) (fused : nat -> bool) (t : order) (mask N : R)
    (f : list R) (M : list (list R)) (n : nat) (c : list R) : list R :=
  match n with
  | O => c
  | S n' => fl_update rnd quadr fused t mask N f M (fl_updates rnd quadr fused t mask N f M n' c)
  end.
