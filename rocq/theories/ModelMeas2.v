(** Model of the class TsallisDivergence of /repo/bfit/measure.py for every order, also NaN and infinite ones
    ([ModelMeas.v] has the finite ones). *)
From Coq Require Import Reals List ZArith Bool.
From Verif Require Import XR ModelMeas.
Import ListNotations.
Local Open Scope R_scope.

(** numpy [power] (x, p) with the special cases of C99 [pow] for NaN and infinite exponents (measure.py:345, 348):
    1 to any power is 1, otherwise a NaN exponent gives NaN; an infinite exponent compares |x| with 1. *)
Definition xpowx (a p : xr) : xr :=
  match p with
  | Fin r => xpow a r
  | NaN => match a with Fin x => if reqb x 1 then Fin 1 else NaN | _ => NaN end
  | PInf | NInf =>
      match a with
      | NaN => NaN
      | Fin x => if reqb (Rabs x) 1 then Fin 1
                 else if Bool.eqb (rltb (Rabs x) 1) (xltb p (Fin 0)) then PInf else Fin 0
      | PInf | NInf => if xltb p (Fin 0) then Fin 0 else PInf
      end
  end.

(** TsallisDivergence.__init__: measure.py:234-262.  [alpha] is a number; the object is the pair of its fields. *)
Definition tsallis_new (alpha mask : xr) : res (xr * xr) :=
  if xltb alpha (Fin 0) then Raise ValueError
  else if xltb (xabs (xsub alpha (Fin 1))) (Fin (1 / 10 ^ 10)) then Raise ValueError
  else Ok (alpha, mask).

(** TsallisDivergence.evaluate after validation: measure.py:342-349. *)
Definition tsallis_values (o : xr * xr) (f g : list xr) (deriv : bool) : mout :=
  let (alpha, mask) := o in
  let ratio := map2 (fun d m => filled (Fin 0) (ma_div mask d m)) f g in
  let value := map2 (fun d q => xmul d (xsub (xpowx q (xsub alpha (Fin 1))) (Fin 1))) f ratio in
  (map (fun v => xdiv v (xsub alpha (Fin 1))) value,
   if deriv then Some (map (fun q => xneg (xpowx q alpha)) ratio) else None).

(** TsallisDivergence.evaluate: measure.py:264-349, checks of lines 330-340. *)
Definition tsallis_evaluate (o : xr * xr) (density model deriv : pyval) : res mout :=
  match model with
  | VArr mo =>
      match density with
      | VArr (A1 f) =>
          match mo with
          | A1 g =>
              if negb (Nat.eqb (length g) (length f)) then Raise ValueError else
              match deriv with
              | VBool b => Ok (tsallis_values o f g b)
              | _ => Raise TypeError
              end
          | A2 _ _ => Raise ValueError
          end
      | _ => Raise ValueError
      end
  | _ => match density with VArr _ => Raise ValueError | _ => Raise AttributeError end
  end.
