(** Model of /repo/bfit/measure.py. *)
From Coq Require Import Reals List ZArith Bool.
From Verif Require Import XR.
Import ListNotations.
Local Open Scope R_scope.

(** A measure object: SquaredDifference (measure.py:63), KLDivergence with its constructor
    arguments (measure.py:123-140), TsallisDivergence (measure.py:234-262).
    [alpha] is a finite number (for a NaN or infinite alpha see ModelMeas2.v). *)
Inductive measure :=
| MSq
| MKL (mask neg : xr)
| MTs (alpha : R) (mask : xr).

(** TsallisDivergence.__init__: measure.py:234-262. *)
Definition tsallis_init (alpha : R) (mask : xr) : res measure :=
  if rltb alpha 0 then Raise ValueError
  else if rltb (Rabs (alpha - 1)) (1 / 10 ^ 10) then Raise ValueError
  else Ok (MTs alpha mask).

(** [np.finfo(float).tiny], the tolerance of numpy.ma's safe division. *)
Definition tiny : R := / 2 ^ 1022.

(** One entry of [density / np.ma.masked_less_equal(model, mask)] (measure.py:218, 343):
    [None] is a masked entry.  numpy.ma masks where the model is masked, where the quotient
    is not finite and where [|density| * tiny >= |model|]. *)
Definition ma_div (mask d m : xr) : option xr :=
  if xleb m mask || negb (xfinite (xdiv d m)) || xleb (xabs m) (xmul (xabs d) (Fin tiny))
  then None else Some (xdiv d m).

(** [np.ma.filled(ratio, fill_value)]: measure.py:219, 344. *)
Definition filled (fill : xr) (o : option xr) : xr :=
  match o with Some x => x | None => fill end.

(** Result of evaluate: values and, with deriv=True, derivatives. *)
Definition mout := (list xr * option (list xr))%type.

(** SquaredDifference, after validation: measure.py:110-117. *)
Definition sq_values (f g : list xr) (deriv : bool) : mout :=
  let residual := map2 xsub f g in
  (map xsq residual, if deriv then Some (map (xmul (Fin (-2))) residual) else None).

(** KLDivergence, after validation: measure.py:210-228. *)
Definition kl_values (mask neg : xr) (f g : list xr) (deriv : bool) : mout :=
  if existsb (fun x => xltb x (Fin 0)) g
  then (repeat neg (length g), if deriv then Some (repeat neg (length g)) else None)
  else
    let ratio := map2 (fun d m => filled (Fin 1) (ma_div mask d m)) f g in
    (map2 (fun d q => xmul d (xln q)) f ratio,
     if deriv then Some (map xneg ratio) else None).

(** TsallisDivergence, after validation: measure.py:342-349. *)
Definition ts_values (alpha : R) (mask : xr) (f g : list xr) (deriv : bool) : mout :=
  let ratio := map2 (fun d m => filled (Fin 0) (ma_div mask d m)) f g in
  let value := map2 (fun d q => xmul d (xsub (xpow q (alpha - 1)) (Fin 1))) f ratio in
  (map (fun v => xdiv v (Fin (alpha - 1))) value,
   if deriv then Some (map (fun q => xneg (xpow q alpha)) ratio) else None).

(** Values of a measure on 1-D arrays of equal length. *)
Definition measure_values (me : measure) (f g : list xr) (deriv : bool) : mout :=
  match me with
  | MSq => sq_values f g deriv
  | MKL mask neg => kl_values mask neg f g deriv
  | MTs alpha mask => ts_values alpha mask f g deriv
  end.

(** evaluate with its argument checks, the same in the three classes:
    measure.py:99-109, 199-209, 330-340.  Formatting the first error message reads
    [density.shape], an AttributeError when [density] is no array. *)
Definition measure_evaluate (me : measure) (density model deriv : pyval) : res mout :=
  match model with
  | VArr mo =>
      match density with
      | VArr (A1 f) =>
          match mo with
          | A1 g =>
              if negb (Nat.eqb (length g) (length f)) then Raise ValueError else
              match deriv with
              | VBool b => Ok (measure_values me f g b)
              | _ => Raise TypeError
              end
          | A2 _ _ => Raise ValueError
          end
      | _ => Raise ValueError
      end
  | _ => match density with VArr _ => Raise ValueError | _ => Raise AttributeError end
  end.
