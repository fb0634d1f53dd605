(** Rounded arithmetic: what the measures, the objectives of [ScipyFit] and [goodness_of_fit]
    compute when every operation on reals is followed by a rounding [rnd].  There is no overflow;
    arrays have fitting shapes. *)
From Coq Require Import Reals List.
From Verif Require Import SpecRnd ModelRnd.
Import ListNotations.
Local Open Scope R_scope.

Section Rounded.
(** [fsq], [flog] and [fpow] are [np.power(., 2)], [np.log] and [np.power]. *)
Context (rnd fsq flog : R -> R) (fpow : R -> R -> R).

(** Elementwise function of two arrays. *)
Definition fl_map2 (h : R -> R -> R) (f g : list R) : list R := map (fun p => h (fst p) (snd p)) (combine f g).

(** [residual], [value] and [-2 * residual] of [SquaredDifference.evaluate], bfit/measure.py:110-116. *)
Definition fl_square (f g : R) : R := fsq (rnd (f - g)).
Definition fl_square_slope (f g : R) : R := rnd (-2 * rnd (f - g)).

(** [value] and [-ratio] of [KLDivergence.evaluate] at a point, bfit/measure.py:218-228. *)
Definition fl_kl (mask f g : R) : R := rnd (f * flog (fl_ratio rnd mask f g)).
Definition fl_kl_slope (mask f g : R) : R := - fl_ratio rnd mask f g.
(** [KLDivergence.evaluate] with its large value for negative models, bfit/measure.py:210-215. *)
Definition fl_kl_values (neg mask : R) (f g : list R) : list R :=
  if existsb (fun b => if Rlt_dec b 0 then true else false) g then map (fun _ => neg) g else fl_map2 (fl_kl mask) f g.

(** [ratio], [integrand] and the derivative of [TsallisDivergence.evaluate], bfit/measure.py:343-348. *)
Definition fl_ratio0 (mask f g : R) : R := if Rle_dec g mask then 0 else rnd (f / g).
Definition fl_tsallis (alpha mask f g : R) : R :=
  let a := rnd (alpha - 1) in rnd (rnd (f * rnd (fpow (fl_ratio0 mask f g) a - 1)) / a).
Definition fl_tsallis_slope (alpha mask f g : R) : R := - fpow (fl_ratio0 mask f g) alpha.

(** [obj] and one entry of [d_obj] of [ScipyFit.func], bfit/fit.py:720-725; [quadr] is [integrate],
    [k] and [dk] the results of the measure and [b] the column of [dm]. *)
Definition fl_objective (quadr : list R -> R) (om k : list R) : R := quadr (fl_mul rnd om k).
Definition fl_gradient (quadr : list R -> R) (om dk b : list R) : R := quadr (fl_mul rnd (fl_mul rnd om dk) b).

(** [goodness_of_fit] for the values [g] of the model, bfit/fit.py:183-192. *)
Definition fl_diff (f g : list R) : list R := fl_map2 (fun a b => Rabs (rnd (a - b))) f g.
Definition fl_max (l : list R) : R := match l with [] => 0 | a :: l' => fold_left Rmax l' a end.
Definition fl_goodness (quadr : list R -> R) (neg mask : R) (f g : list R) : list R :=
  [quadr g; quadr (fl_diff f g); fl_max (fl_diff f g); quadr (fl_map2 fl_square f g); quadr (fl_kl_values neg mask f g)].
End Rounded.
