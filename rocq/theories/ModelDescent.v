(** Rounded arithmetic: the objective of [ScipyFit] and its gradient for Gaussian models. *)
From Coq Require Import Reals List.
From Verif Require Import SpecRnd SpecDescent ModelRnd ModelRnd2 ModelRnd4 ModelSlope.
Import ListNotations.
Local Open Scope R_scope.

Section Rounded.
(** [fexp] and [fpow] are the exponential and the power of the library, [pi] is [np.pi]; the order of the
    products may depend on the point. *)
Context (rnd fexp : R -> R) (fpow : R -> R -> R) (pi : R) (fu : list (bool * R) -> nat -> bool) (to : list (bool * R) -> order).

(** [m], bfit/fit.py:718, at every point. *)
Definition fl_curve (norm : bool) (pts : list place) (c e : list R) : list R :=
  map (fun x => fl_model rnd fexp fpow pi (fu (lays x)) (to (lays x)) norm (lays x) c e) pts.
(** [dm[:, i]], bfit/fit.py:718,725: first the basis functions, then the derivatives with respect to the
    exponents, bfit/model.py:251-260. *)
Definition fl_column (norm : bool) (pts : list place) (c e : list R) (i : nat) : list R :=
  map (fun x => nth i (fl_basis rnd fexp fpow pi norm (lays x) e ++ fl_slopes rnd fexp fpow pi norm (lays x) c e) 0) pts.
(** [obj] and [d_obj[i]] of [ScipyFit.func], bfit/fit.py:718-726, for the measure with values [m] and
    derivatives [dm]; [quadr] is [integrate]. *)
Definition fl_func (quadr : list R -> R) (m : R -> R -> R) (norm : bool) (pts : list place) (c e : list R) : R :=
  fl_objective rnd quadr (map weight pts) (fl_map2 m (map dens pts) (fl_curve norm pts c e)).
Definition fl_jac (quadr : list R -> R) (dm : R -> R -> R) (norm : bool) (pts : list place) (c e : list R) (i : nat) : R :=
  fl_gradient rnd quadr (map weight pts) (fl_map2 dm (map dens pts) (fl_curve norm pts c e)) (fl_column norm pts c e i).
(** [const_norm], bfit/fit.py:745-748; [N] is [integral_dens], bfit/fit.py:88-91. *)
Definition fl_constraint (quadr : list R -> R) (N : R) (norm : bool) (pts : list place) (c e : list R) : R :=
  rnd (N - quadr (fl_curve norm pts c e)).
Definition fl_integral (quadr : list R -> R) (pts : list place) : R := quadr (map dens pts).
(** [goodness_of_fit] for given parameters, bfit/fit.py:183-192. *)
Definition fl_quality (fsq flog : R -> R) (quadr : list R -> R) (neg mask : R) (norm : bool) (pts : list place) (c e : list R) : list R :=
  fl_goodness rnd fsq flog quadr neg mask (map dens pts) (fl_curve norm pts c e).
End Rounded.
