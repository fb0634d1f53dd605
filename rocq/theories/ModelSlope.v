(** Derivatives of Gaussian models with respect to the exponents, in rounded arithmetic and in
    floating-point formats with overflow. *)
From Coq Require Import Reals List ZArith.
From Flocq Require Import Core IEEE754.BinarySingleNaN.
From Verif Require Import SpecRnd SpecBin64 ModelRnd2 ModelBin64 ModelBinModel.
Import ListNotations.
Local Open Scope R_scope.

Section Rounded.
(** [fexp] and [fpow] are the exponential and the power of the library, [pi] is [np.pi]. *)
Context (rnd fexp : R -> R) (fpow : R -> R -> R) (pi : R).

(** One entry of [dg[:, coeffs.size:]]: bfit/model.py:256, and 258-259 for normalized s-type functions;
    305-308 for normalized p-type functions, and 291-293 with 256 for others. *)
Definition fl_slope (norm p : bool) (r c a : R) : R :=
  let g := fexp (rnd (- a * rnd (r * r))) in
  let x := rnd (rnd (- fl_elem rnd fexp fpow pi norm p r a * rnd (r * r)) * c) in
  if norm then
    rnd (x + if p then rnd (rnd (rnd (5 * rnd (g * rnd (r * r))) * rnd (c * fpow a (3 / 2))) / rnd (3 * fpow pi (3 / 2)))
             else rnd (rnd (rnd (3 / 2 * g) * rnd (c * fpow a (1 / 2))) / fpow pi (3 / 2)))
  else x.
(** The row of one point, bfit/model.py:198-216, and 467-489 for several centers. *)
Fixpoint fl_slopes (norm : bool) (lay : list (bool * R)) (c e : list R) : list R :=
  match lay, c, e with
  | (p, r) :: l, b :: c', a :: e' => fl_slope norm p r b a :: fl_slopes norm l c' e'
  | _, _, _ => []
  end.
End Rounded.

Section Format.
Context {fm : format}.
(** [bexp] and [bpow] are [np.exp] and the power of the library, [pi] is [np.pi]. *)
Context (bexp : number fm -> number fm) (bpow : number fm -> number fm -> number fm) (pi : number fm).
(** The same entry and row, bfit/model.py:256-259,305-308, with overflow. *)
Definition b_slope (norm p : bool) (r c a : number fm) : number fm :=
  let g := bexp (b_mul (Bopp a) (b_mul r r)) in
  let x := b_mul (b_mul (Bopp (b_elem bexp bpow pi norm p r a)) (b_mul r r)) c in
  if norm then
    b_add x (if p then b_div (b_mul (b_mul (b_lit 5 0) (b_mul g (b_mul r r))) (b_mul c (bpow a (b_lit 3 (-1))))) (b_mul (b_lit 3 0) (bpow pi (b_lit 3 (-1))))
             else b_div (b_mul (b_mul (b_lit 3 (-1)) g) (b_mul c (bpow a (b_lit 1 (-1))))) (bpow pi (b_lit 3 (-1))))
  else x.
(** The row of one point, bfit/model.py:198-216,467-489. *)
Fixpoint b_slopes (norm : bool) (lay : list (bool * number fm)) (c e : list (number fm)) : list (number fm) :=
  match lay, c, e with
  | (p, r) :: l, b :: c', a :: e' => b_slope norm p r b a :: b_slopes norm l c' e'
  | _, _, _ => []
  end.
End Format.
