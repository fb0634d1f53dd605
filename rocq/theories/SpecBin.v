(** Binary floating point formats (Flocq): [prec] bits, least exponent [emin], rounding to the
    nearest number with ties to even; overflow is left out.  [float64] is [prec = 53],
    [emin = -1074]; the extended numbers of x86 ([np.longdouble], the default of the radial grids,
    bfit/grid.py:88,141) have [prec = 64], [emin = -16445]. *)
From Coq Require Import Reals ZArith.
From Flocq Require Import Core.
Local Open Scope R_scope.

Definition bin_fmt (emin prec : Z) : R -> Prop := generic_format radix2 (FLT_exp emin prec).
Definition bin_rnd (emin prec : Z) : R -> R := round radix2 (FLT_exp emin prec) ZnearestE.

(** Without a least exponent: no underflow. *)
Definition free_fmt (prec : Z) : R -> Prop := generic_format radix2 (FLX_exp prec).
Definition free_rnd (prec : Z) : R -> R := round radix2 (FLX_exp prec) ZnearestE.
