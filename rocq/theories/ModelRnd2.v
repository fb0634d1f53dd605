(** Rounded arithmetic: models with normalized and with p-type functions, and the fixed point
    updates of coefficients and exponents.  There is no overflow. *)
From Coq Require Import Reals List ZArith Lia.
From Verif Require Import SpecRnd ModelRnd.
Import ListNotations.
Local Open Scope bool_scope.
Local Open Scope R_scope.

Section Rounded.
(** [fexp] and [fpow] are the exponential and the power of the library, [pi] is [np.pi]. *)
Context (rnd fexp : R -> R) (fpow : R -> R -> R) (pi : R).

(** [(expons[None, :] / np.pi) ** 1.5], bfit/model.py:246, and
    [expons[None, :]**2.5 / np.pi**1.5], bfit/model.py:296. *)
Definition fl_norm (p : bool) (a : R) : R :=
  if p then rnd (fpow a (5 / 2) / fpow pi (3 / 2)) else fpow (rnd (a / pi)) (3 / 2).

(** One entry of [matrix]: bfit/model.py:198 and 245-246 for an s-type function, 198, 289 and 296
    for a p-type function, at the distance [r].  [np.power(x, 2)] is the product [x * x]. *)
Definition fl_elem (norm p : bool) (r a : R) : R :=
  let g := fexp (rnd (- a * rnd (r * r))) in
  if p then
    let m := rnd (g * rnd (r * r)) in
    if norm then rnd (rnd (m * fl_norm true a) / (3 / 2)) else m
  else if norm then rnd (g * fl_norm false a) else g.

(** The row of one point: types of the basis functions and distances to their centers,
    bfit/model.py:198-216, and 467-489 for several centers. *)
Fixpoint fl_basis (norm : bool) (lay : list (bool * R)) (e : list R) : list R :=
  match lay, e with
  | (p, r) :: l, a :: e' => fl_elem norm p r a :: fl_basis norm l e'
  | _, _ => []
  end.

(** [evaluate] at one point, bfit/model.py:248,298,216 and 483,488.  The products of s-type and
    p-type functions, and those of different centers, are added up separately; this is one of the
    orders [t]. *)
Definition fl_model (fused : nat -> bool) (t : order) (norm : bool) (lay : list (bool * R)) (c e : list R) : R :=
  fl_dot rnd fused t (fl_basis norm lay e) c.

(** [self.integrate(integrand)] and [self.integrate(integrand * radii**2)], bfit/fit.py:277-295:
    [b] is the column of [dm], [r] the distances of the points to the center of the basis
    function. *)
Definition fl_avrg1 (quadr : list R -> R) (mask : R) (f g b : list R) : R :=
  quadr (fl_integrand rnd mask f g b).
Definition fl_avrg2 (quadr : list R -> R) (mask : R) (f g b r : list R) : R :=
  quadr (fl_mul rnd (fl_integrand rnd mask f g b) (map (fun x => rnd (x * x)) r)).

(** [self.model.prefactor * avrg1 / avrg2], bfit/fit.py:301 and bfit/model.py:135. *)
Definition fl_expon (quadr : list R -> R) (p : bool) (mask : R) (f g b r : list R) : R :=
  rnd (rnd ((if p then 5 / 2 else 3 / 2) * fl_avrg1 quadr mask f g b) / fl_avrg2 quadr mask f g b r).

(** [_update_params], bfit/fit.py:276-302, for model values that are not negative.  [ty] has the
    types of the basis functions and [D] for every grid point the distances to their centers.
    There is no result when an average in a denominator is zero (the program goes on with [nan]
    or [inf]). *)
Definition fl_rows (norm : bool) (ty : list bool) (D : list (list R)) (e : list R) : list (list R) :=
  map (fun ds => fl_basis norm (combine ty ds) e) D.
Definition fl_params (quadr : list R -> R) (fused : nat -> bool) (t : order) (norm : bool) (mask N : R)
    (f : list R) (ty : list bool) (D : list (list R)) (oc oe : bool) (c e : list R) : option (list R * list R) :=
  let M := fl_rows norm ty D e in
  let g := map (fun row => fl_dot rnd fused t row c) M in
  let col k := map (fun row => nth k row 0) M in
  let dist k := map (fun ds => nth k ds 0) D in
  let ks := seq 0 (length c) in
  let lm := rnd (quadr f / N) in
  if oe && existsb (fun k => if Req_EM_T (fl_avrg2 quadr mask f g (col k) (dist k)) 0 then true else false) ks then None
  else Some (if oc then map (fun k => rnd (rnd (nth k c 0 * fl_avrg1 quadr mask f g (col k)) / lm)) ks else c,
             if oe then map (fun k => fl_expon quadr (nth k ty false) mask f g (col k) (dist k)) ks else e).

(** [n] passes of the loop of [run], bfit/fit.py:387-399, without its stopping test. *)
Fixpoint fl_fit (quadr : list R -> R) (fused : nat -> bool) (t : order) (norm : bool) (mask N : R)
    (f : list R) (ty : list bool) (D : list (list R)) (oc oe : bool) (n : nat) (c e : list R) : option (list R * list R) :=
  match n with
  | O => Some (c, e)
  | S n' => match fl_params quadr fused t norm mask N f ty D oc oe c e with
            | Some (c', e') => fl_fit quadr fused t norm mask N f ty D oc oe n' c' e'
            | None => None
            end
  end.

End Rounded.
