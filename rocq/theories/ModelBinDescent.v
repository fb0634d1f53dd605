(** IEEE 754 arithmetic with overflow: the objective of [ScipyFit], its gradient and its constraint for Gaussian
    models, the parts of the program in [ModelDescent.v]. *)
From Coq Require Import Reals List ZArith.
From Flocq Require Import Core IEEE754.BinarySingleNaN.
From Verif Require Import SpecRnd SpecBin64 SpecBinModel SpecDescent SpecBinDescent ModelBin64 ModelBinModel ModelSlope.
Import ListNotations.

Section Format.
Context {fm : format}.
(** [bexp] and [bpow] are [np.exp] and the power of the library, [pi] is [np.pi]; the order of the products may
    depend on the point. *)
Context (bexp : number fm -> number fm) (bpow : number fm -> number fm -> number fm) (pi : number fm)
  (fu : list (bool * R) -> nat -> bool) (to : list (bool * R) -> order).

(** [m] and [dm[:, i]], bfit/fit.py:718,725. *)
Definition b_curve (norm : bool) (pts : list (bplace fm)) (c e : list (number fm)) : list (number fm) :=
  map (fun x => b_model bexp bpow pi (fu (lays (real_place x))) (to (lays (real_place x))) norm (laysb x) c e) pts.
Definition b_column (norm : bool) (pts : list (bplace fm)) (c e : list (number fm)) (i : nat) : list (number fm) :=
  map (fun x => nth i (b_basis bexp bpow pi norm (laysb x) e ++ b_slopes bexp bpow pi norm (laysb x) c e) b_zero) pts.
(** [obj] and [d_obj[i]] of [ScipyFit.func], bfit/fit.py:718-726. *)
Definition b_func (quadr : list (number fm) -> number fm) (m : number fm -> number fm -> number fm) (norm : bool) (pts : list (bplace fm)) (c e : list (number fm)) : number fm :=
  b_objective quadr (map weightb pts) (b_map2 m (map densb pts) (b_curve norm pts c e)).
Definition b_jac (quadr : list (number fm) -> number fm) (dm : number fm -> number fm -> number fm) (norm : bool) (pts : list (bplace fm)) (c e : list (number fm)) (i : nat) : number fm :=
  b_gradient quadr (map weightb pts) (b_map2 dm (map densb pts) (b_curve norm pts c e)) (b_column norm pts c e i).
(** [const_norm], bfit/fit.py:745-748. *)
Definition b_constraint (quadr : list (number fm) -> number fm) (N : number fm) (norm : bool) (pts : list (bplace fm)) (c e : list (number fm)) : number fm :=
  b_sub N (quadr (b_curve norm pts c e)).
(** [np.max]: NaN if there is one. *)
Definition b_top (a b : number fm) : number fm := if is_nan a then a else if is_nan b then b else if Bleb a b then b else a.
Definition b_max (l : list (number fm)) : number fm := match l with [] => B754_nan | a :: l' => fold_left b_top l' a end.
(** [goodness_of_fit] for given parameters, bfit/fit.py:183-192; [np.max] raises on an empty grid. *)
Definition b_quality (bsq blog : number fm -> number fm) (quadr : list (number fm) -> number fm) (neg mask : number fm) (norm : bool) (pts : list (bplace fm)) (c e : list (number fm)) : list (number fm) :=
  let f := map densb pts in let g := b_curve norm pts c e in
  [quadr g; quadr (b_diff f g); b_max (b_diff f g); quadr (b_map2 (b_square bsq) f g); quadr (b_kl_values blog neg mask f g)].
End Format.
