(** Number model and NumPy/Python primitives shared by all model files.

    Floating point values are modelled by extended reals with the IEEE-754
    special-value rules and exact real arithmetic on finite values (no rounding,
    overflow, underflow, or signed zero): see DESIGN.md, section 1. *)
From Coq Require Import Reals List ZArith Bool.
Import ListNotations.
Local Open Scope R_scope.

(** ** Python exceptions as values (every [raise] in /repo/bfit; e.g. model.py:68-78). *)
Inductive exn :=
| ValueError | TypeError | IndexError | KeyError | RuntimeError
| NotImplementedError | AttributeError | AssertionError | FileNotFoundError
| ZeroDivisionError.

Inductive res (A : Type) := Ok (a : A) | Raise (e : exn).
Arguments Ok {A} a.
Arguments Raise {A} e.

(** Sequencing of statements: an exception skips the rest (Python semantics). *)
Definition bind {A B} (r : res A) (k : A -> res B) : res B :=
  match r with Ok a => k a | Raise e => Raise e end.
Notation "'do' x <- r ; k" := (bind r (fun x => k))
  (at level 200, x pattern, r at level 100, k at level 200, right associativity).

(** ** Extended reals: values of numpy float scalars (all of /repo/bfit). *)
Inductive xr := Fin (r : R) | PInf | NInf | NaN.

(** Decidable comparisons on [R] as booleans (Python [<], [<=], [==] on floats). *)
Definition rltb (x y : R) : bool := if Rlt_dec x y then true else false.
Definition rleb (x y : R) : bool := if Rle_dec x y then true else false.
Definition reqb (x y : R) : bool := if Req_EM_T x y then true else false.

(** IEEE [+] (numpy [add]). *)
Definition xadd (a b : xr) : xr :=
  match a, b with
  | NaN, _ | _, NaN => NaN
  | Fin x, Fin y => Fin (x + y)
  | PInf, NInf | NInf, PInf => NaN
  | PInf, _ | _, PInf => PInf
  | NInf, _ | _, NInf => NInf
  end.

(** IEEE unary minus (numpy [negative]). *)
Definition xneg (a : xr) : xr :=
  match a with Fin x => Fin (- x) | PInf => NInf | NInf => PInf | NaN => NaN end.

(** IEEE [-] (numpy [subtract]). *)
Definition xsub (a b : xr) : xr := xadd a (xneg b).

(** Sign based product of an infinity with a value: helper of [xmul]. *)
Definition inf_times (pos : bool) (b : xr) : xr :=
  match b with
  | NaN => NaN
  | PInf => if pos then PInf else NInf
  | NInf => if pos then NInf else PInf
  | Fin y => if reqb y 0 then NaN
             else if rltb 0 y then (if pos then PInf else NInf)
             else (if pos then NInf else PInf)
  end.

(** IEEE [*] (numpy [multiply]). *)
Definition xmul (a b : xr) : xr :=
  match a, b with
  | NaN, _ | _, NaN => NaN
  | Fin x, Fin y => Fin (x * y)
  | PInf, _ => inf_times true b
  | NInf, _ => inf_times false b
  | Fin _, PInf => inf_times true a
  | Fin _, NInf => inf_times false a
  end.

(** IEEE [/] (numpy [true_divide]); zero denominators are taken to be [+0]. *)
Definition xdiv (a b : xr) : xr :=
  match a, b with
  | NaN, _ | _, NaN => NaN
  | Fin x, Fin y => if reqb y 0
                    then (if reqb x 0 then NaN else if rltb 0 x then PInf else NInf)
                    else Fin (x / y)
  | Fin _, _ => Fin 0
  | PInf, Fin y => if rltb y 0 then NInf else PInf
  | NInf, Fin y => if rltb y 0 then PInf else NInf
  | _, _ => NaN
  end.

(** numpy [absolute]. *)
Definition xabs (a : xr) : xr :=
  match a with Fin x => Fin (Rabs x) | PInf | NInf => PInf | NaN => NaN end.

(** numpy [exp]. *)
Definition xexp (a : xr) : xr :=
  match a with Fin x => Fin (exp x) | PInf => PInf | NInf => Fin 0 | NaN => NaN end.

(** numpy [log]. *)
Definition xln (a : xr) : xr :=
  match a with
  | Fin x => if rltb 0 x then Fin (ln x) else if reqb x 0 then NInf else NaN
  | PInf => PInf
  | NInf | NaN => NaN
  end.

(** numpy [sqrt]. *)
Definition xsqrt (a : xr) : xr :=
  match a with
  | Fin x => if rltb x 0 then NaN else Fin (sqrt x)
  | PInf => PInf
  | NInf | NaN => NaN
  end.

(** numpy [power] (x, 2). *)
Definition xsq (a : xr) : xr := xmul a a.

(** numpy [power] (x, p) for a finite exponent [p]; C99 [pow] special cases. *)
Definition xpow (a : xr) (p : R) : xr :=
  if reqb p 0 then Fin 1 else
  match a with
  | NaN => NaN
  | Fin x =>
      if rltb 0 x then Fin (Rpower x p)
      else if reqb x 0 then (if rltb 0 p then Fin 0 else PInf)
      else if reqb (IZR (Int_part p)) p then Fin (powerRZ x (Int_part p)) else NaN
  | PInf => if rltb 0 p then PInf else Fin 0
  | NInf => if rltb 0 p
            then (if reqb (IZR (Int_part p)) p && Z.odd (Int_part p) then NInf else PInf)
            else Fin 0
  end.

(** Python/numpy comparisons: false whenever an operand is NaN. *)
Definition xltb (a b : xr) : bool :=
  match a, b with
  | NaN, _ | _, NaN => false
  | Fin x, Fin y => rltb x y
  | NInf, NInf => false
  | NInf, _ => true
  | _, NInf => false
  | PInf, _ => false
  | _, PInf => true
  end.
Definition xleb (a b : xr) : bool :=
  match a, b with
  | NaN, _ | _, NaN => false
  | Fin x, Fin y => rleb x y
  | NInf, _ => true
  | _, NInf => false
  | _, PInf => true
  | PInf, _ => false
  end.
Definition xeqb (a b : xr) : bool :=
  match a, b with
  | Fin x, Fin y => reqb x y
  | PInf, PInf | NInf, NInf => true
  | _, _ => false
  end.

(** numpy [isfinite], [isnan]. *)
Definition xfinite (a : xr) : bool := match a with Fin _ => true | _ => false end.
Definition xisnan (a : xr) : bool := match a with NaN => true | _ => false end.

(** numpy [maximum]: propagates NaN. *)
Definition xmax (a b : xr) : xr :=
  if xisnan a then NaN else if xisnan b then NaN else if xltb a b then b else a.

(** numpy [sum] of a 1-D array (in exact arithmetic the order is irrelevant). *)
Definition xsum (l : list xr) : xr := fold_right xadd (Fin 0) l.

(** Elementwise binary operation on equally long arrays (numpy ufunc). *)
Fixpoint map2 {A B C} (f : A -> B -> C) (l : list A) (m : list B) : list C :=
  match l, m with
  | x :: l', y :: m' => f x y :: map2 f l' m'
  | _, _ => []
  end.

(** numpy [dot] of two vectors. *)
Definition xdot (u v : list xr) : xr := xsum (map2 xmul u v).

(** numpy [max] of an array; [None] is the ValueError on an empty array. *)
Definition xmaxl (l : list xr) : option xr :=
  match l with [] => None | x :: t => Some (fold_left xmax t x) end.

(** ** Python slicing [l[lo:hi]] with step 1 (bounds may be negative or absent). *)
Definition py_bound (n : Z) (i : Z) : Z :=
  (if i <? 0 then Z.max 0 (i + n) else Z.min i n)%Z.
Definition py_slice {A} (lo hi : option Z) (l : list A) : list A :=
  let n := Z.of_nat (length l) in
  let a := match lo with None => 0%Z | Some i => py_bound n i end in
  let b := match hi with None => n | Some i => py_bound n i end in
  firstn (Z.to_nat (b - a)) (skipn (Z.to_nat a) l).

(** Assignment to a column block [row[a:b] = new] of a row, [0 <= a <= b]. *)
Definition set_block {A} (a b : nat) (new row : list A) : list A :=
  firstn a row ++ new ++ skipn b row.

(** ** numpy arrays of dimension one or two; a 2-D array stores its column count. *)
Inductive ndarray :=
| A1 (l : list xr)
| A2 (ncols : nat) (rows : list (list xr)).

(** [ndarray.ndim], [len], [ndarray.size]. *)
Definition ndim (a : ndarray) : nat := match a with A1 _ => 1 | A2 _ _ => 2 end.
Definition nlen (a : ndarray) : nat := match a with A1 l => length l | A2 _ r => length r end.
Definition nsize (a : ndarray) : nat :=
  match a with A1 l => length l | A2 c r => (length r * c)%nat end.

(** Dynamic Python values for argument validation ([isinstance] tests). *)
Inductive pyval :=
| VNone
| VBool (b : bool)
| VInt (z : Z)
| VFloat (x : xr)
| VStr
| VArr (a : ndarray)
| VOther
| VNpInt (z : Z).   (* a NumPy integer: Integral, not int *)

(** [isinstance(x, int)] and the integer value; Python booleans are integers. *)
Definition as_int (v : pyval) : option Z :=
  match v with
  | VInt z => Some z
  | VBool b => Some (if b then 1 else 0)%Z
  | _ => None
  end.
(** [isinstance(x, Integral)] and the integer value. *)
Definition as_integral (v : pyval) : option Z :=
  match v with VNpInt z => Some z | _ => as_int v end.

(** Run a loop body over a list, stopping at the first exception
    (Python [for] statement collecting results). *)
Fixpoint mapM {A B} (f : A -> res B) (l : list A) : res (list B) :=
  match l with
  | [] => Ok []
  | x :: t => do y <- f x; do ys <- mapM f t; Ok (y :: ys)
  end.
