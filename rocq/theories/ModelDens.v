(** Model of /repo/bfit/model.py (AtomicGaussianDensity, MolecularGaussianDensity). *)
From Coq Require Import Reals List ZArith Bool.
From Verif Require Import XR.
Import ListNotations.
Local Open Scope R_scope.

(** State of an AtomicGaussianDensity object: model.py:88-100. *)
Record atomic := mkAtomic {
  a_points : ndarray;        (* self._points *)
  a_coord  : list xr;        (* self.coord *)
  a_radii  : list xr;        (* self._radii *)
  a_ns     : Z;              (* self.ns *)
  a_np     : Z;              (* self.np *)
  a_norm   : bool            (* self.normalized *)
}.

(** [np.linalg.norm(points - coord, axis=1)], one row: model.py:92. *)
Definition row_norm (c row : list xr) : xr :=
  xsqrt (xsum (map xsq (map2 xsub row c))).

(** 1-D broadcasting of [points - coord]: equal sizes elementwise, a size-1 operand is
    repeated, anything else raises ValueError: model.py:94. *)
Definition broadcast_sub (p c : list xr) : res (list xr) :=
  if Nat.eqb (length p) (length c) then Ok (map2 xsub p c)
  else match c with
       | [c0] => Ok (map (fun x => xsub x c0) p)
       | _ => match p with
              | [p0] => Ok (map (fun y => xsub p0 y) c)
              | _ => Raise ValueError
              end
       end.

(** Radii of the points: model.py:91-95. *)
Definition radii_of (points : ndarray) (c : list xr) : res (list xr) :=
  match points with
  | A2 _ rows => Ok (map (row_norm c) rows)
  | A1 p => do d <- broadcast_sub p c; Ok (map xabs d)
  end.

(** Choice of the center: model.py:79-87. *)
Definition check_center (points : ndarray) (center : pyval) : res (list xr) :=
  match center with
  | VNone => match points with
             | A2 d _ => Ok (repeat (Fin 0) d)
             | A1 _ => Ok [Fin 0]
             end
  | VArr (A1 c) => match points with
                   | A2 d _ => if Nat.eqb d (length c) then Ok c else Raise ValueError
                   | A1 _ => Ok c
                   end
  | _ => Raise ValueError
  end.

(** AtomicGaussianDensity.__init__: model.py:50-100.  Arrays of dimension 0 or >= 3 and
    non-boolean [normalize] are not modelled. *)
Definition atomic_init (points center num_s num_p : pyval) (normalize : bool) : res atomic :=
  match points with
  | VArr pts =>
      match as_integral num_s with
      | None => Raise TypeError
      | Some ns =>
          if (ns <? 0)%Z then Raise TypeError else
          match as_integral num_p with
          | None => Raise TypeError
          | Some np =>
              if (np <? 0)%Z then Raise TypeError else
              if (ns + np =? 0)%Z then Raise ValueError else
              do c <- check_center pts center;
              do r <- radii_of pts c;
              Ok (mkAtomic pts c r ns np normalize)
          end
      end
  | _ => Raise TypeError
  end.

(** nbasis: model.py:122-125. *)
Definition a_nbasis (m : atomic) : Z := (a_ns m + a_np m)%Z.

(** Python [\[x\] * n]: empty for negative [n]. *)
Definition py_repeat {A} (x : A) (n : Z) : list A := repeat x (Z.to_nat n).

(** prefactor: model.py:132-135. *)
Definition a_prefactor (m : atomic) : list xr :=
  py_repeat (Fin (15/10)) (a_ns m) ++ py_repeat (Fin (25/10)) (a_np m).

(** change_numb_s_and_numb_p: model.py:137-154. *)
Definition change_numb (m : atomic) (new_s new_p : pyval) : res atomic :=
  match as_int new_s with
  | None => Raise TypeError
  | Some s => match as_int new_p with
              | None => Raise TypeError
              | Some p => Ok (mkAtomic (a_points m) (a_coord m) (a_radii m) s p (a_norm m))
              end
  end.

(** Result of evaluate: the density and, with deriv=True, the derivative matrix. *)
Definition evalout := (list xr * option (list (list xr)))%type.

(** Row of [np.exp(-expons[None,:] * np.power(radii,2)[:,None])]: model.py:198, 258, 305. *)
Definition gauss_row (expons : list xr) (r : xr) : list xr :=
  map (fun a => xexp (xmul (xneg a) (xsq r))) expons.

(** [np.pi ** 1.5]: model.py:259, 296, 307. *)
Definition pi15 : xr := xpow (Fin PI) (15/10).

(** One row of [matrix * (expons[None,:] / np.pi) ** 1.5]: model.py:245-246. *)
Definition norm_s_row (expons row : list xr) : list xr :=
  map2 xmul row (map (fun a => xpow (xdiv a (Fin PI)) (15/10)) expons).

(** Exponent derivative row [-matrix * r**2 * coeffs]: model.py:256, 304. *)
Definition dexp_row (coeffs : list xr) (r : xr) (row : list xr) : list xr :=
  map2 xmul (map (fun x => xmul (xneg x) (xsq r)) row) coeffs.

(** _eval_s: model.py:218-261.  [matrix] has one row per radius.  [expons**0.5] is computed by
    NumPy as a square root. *)
Definition eval_s (m : atomic) (matrix : list (list xr)) (coeffs expons : list xr)
           (deriv : bool) : evalout :=
  let matrix := if a_norm m then map (norm_s_row expons) matrix else matrix in
  let g := map (fun row => xdot row coeffs) matrix in
  if deriv then
    let de := map2 (dexp_row coeffs) (a_radii m) matrix in
    let de := if a_norm m then
                map2 (map2 xadd) de
                  (map (fun r =>
                          map2 (fun e ca => xdiv (xmul (xmul (Fin (15/10)) e) ca) pi15)
                               (gauss_row expons r)
                               (map2 xmul coeffs (map xsqrt expons)))
                       (a_radii m))
              else de in
    (g, Some (map2 (@app xr) matrix de))
  else (g, None).

(** One row of [matrix * (expons[None,:]**2.5 / np.pi**1.5) / 1.5]: model.py:296. *)
Definition norm_p_row (expons row : list xr) : list xr :=
  map2 (fun x a => xdiv (xmul x (xdiv (xpow a (25/10)) pi15)) (Fin (15/10))) row expons.

(** Multiply every row by its squared radius: model.py:289, 306. *)
Definition times_r2 (radii : list xr) (matrix : list (list xr)) : list (list xr) :=
  map2 (fun r row => map (fun x => xmul x (xsq r)) row) radii matrix.

(** _eval_p: model.py:263-309. *)
Definition eval_p (m : atomic) (matrix : list (list xr)) (coeffs expons : list xr)
           (deriv : bool) : evalout :=
  let matrix := times_r2 (a_radii m) matrix in
  if negb (a_norm m) then eval_s m matrix coeffs expons deriv
  else
    let matrix := map (norm_p_row expons) matrix in
    let g := map (fun row => xdot row coeffs) matrix in
    if deriv then
      let de := map2 (dexp_row coeffs) (a_radii m) matrix in
      let de := map2 (map2 xadd) de
                  (map (fun r =>
                          map2 (fun e ca => xdiv (xmul (xmul (Fin 5) (xmul e (xsq r))) ca)
                                                 (xmul (Fin 3) pi15))
                               (gauss_row expons r)
                               (map2 xmul coeffs (map (fun a => xpow a (15/10)) expons)))
                       (a_radii m)) in
      (g, Some (map2 (@app xr) matrix de))
    else (g, None).

(** evaluate, both types present: model.py:209-216.  With [deriv] the four blocks are cut
    with Python slices at [ns] and [np]. *)
Definition eval_mixed (m : atomic) (matrix : list (list xr)) (coeffs expons : list xr)
           (deriv : bool) : evalout :=
  let ns := a_ns m in
  let np := a_np m in
  let gs := eval_s m (map (py_slice None (Some ns)) matrix)
                   (py_slice None (Some ns) coeffs) (py_slice None (Some ns) expons) deriv in
  let gp := eval_p m (map (py_slice (Some ns) None) matrix)
                   (py_slice (Some ns) None coeffs) (py_slice (Some ns) None expons) deriv in
  let g := map2 xadd (fst gs) (fst gp) in
  match snd gs, snd gp with
  | Some ds, Some dp =>
      let dc := map2 (@app xr) (map (py_slice None (Some ns)) ds)
                               (map (py_slice None (Some np)) dp) in
      let de := map2 (@app xr) (map (py_slice (Some ns) None) ds)
                               (map (py_slice (Some np) None) dp) in
      (g, Some (map2 (@app xr) dc de))
  | _, _ => (g, None)
  end.

(** evaluate: model.py:156-216. *)
Definition atomic_evaluate (m : atomic) (coeffs expons : ndarray) (deriv : bool) : res evalout :=
  match coeffs, expons with
  | A1 c, A1 e =>
      if negb (Nat.eqb (length c) (length e)) then Raise ValueError
      else if negb (Z.eqb (Z.of_nat (length c)) (a_nbasis m)) then Raise ValueError
      else
        let matrix := map (gauss_row e) (a_radii m) in
        if (a_np m =? 0)%Z then Ok (eval_s m matrix c e deriv)
        else if (a_ns m =? 0)%Z then Ok (eval_p m matrix c e deriv)
        else Ok (eval_mixed m matrix c e deriv)
  | _, _ => Raise ValueError
  end.

(** ** MolecularGaussianDensity *)

(** State: model.py:358-367.  [m_basis] is the integer array of s/p counts. *)
Record molecular := mkMol {
  m_points : ndarray;
  m_basis  : list (Z * Z);
  m_center : list atomic
}.

(** The loop over the rows of [basis] in __init__: model.py:363-366. *)
Fixpoint mol_centers (pts : ndarray) (coords : list (list xr)) (basis : list (pyval * pyval))
         (normalize : bool) : res (list atomic) :=
  match coords, basis with
  | c :: coords', (s, p) :: basis' =>
      do a <- atomic_init (VArr pts) (VArr (A1 c)) s p normalize;
      do r <- mol_centers pts coords' basis' normalize;
      Ok (a :: r)
  | _, _ => Ok []
  end.

(** MolecularGaussianDensity.__init__: model.py:332-367.  [basis] is a 2-D array; its
    column count is explicit, a row of a two-column array is a pair. [points] is an array
    (the code raises AttributeError otherwise). *)
Inductive basis_arg :=
| B1                                      (* 1-D array *)
| B2 (rows : list (pyval * pyval))        (* 2-D array with two columns *)
| BOther.                                 (* 2-D array with another column count *)

Definition mol_init (pts : ndarray) (coords : pyval) (basis : basis_arg) (normalize : bool)
  : res molecular :=
  match coords with
  | VArr (A2 d cs) =>
      match basis with
      | B2 bs =>
          if negb (Nat.eqb (length cs) (length bs)) then Raise ValueError
          else if (match pts with A2 d' _ => negb (Nat.eqb d' d) | A1 _ => false end)
               then Raise ValueError
          else
            do l <- mol_centers pts cs bs normalize;
            Ok (mkMol pts (map (fun a => (a_ns a, a_np a)) l) l)
      | _ => Raise ValueError
      end
  | _ => Raise ValueError
  end.

(** nbasis = np.sum(self._basis): model.py:374-377. *)
Definition zsum (l : list Z) : Z := fold_right Z.add 0%Z l.
Definition m_nbasis (m : molecular) : Z := zsum (map (fun b => (fst b + snd b)%Z) (m_basis m)).

(** prefactor: model.py:389-396.  (Without any center [np.concatenate] raises ValueError; here the
    list is empty.) *)
Definition m_prefactor (m : molecular) : list xr := concat (map a_prefactor (m_center m)).

(** radii: model.py:379-382, one row per center. *)
Definition m_radii (m : molecular) : list (list xr) := map a_radii (m_center m).

(** [np.cumsum]: model.py:417. *)
Fixpoint cumsum_from (acc : Z) (l : list Z) : list Z :=
  match l with [] => [] | x :: t => (acc + x)%Z :: cumsum_from (acc + x) t end.

(** [np.where(l >= v)[0][0]]: first position, IndexError if there is none: model.py:417. *)
Fixpoint first_ge (v : Z) (l : list Z) (i : nat) : res nat :=
  match l with
  | [] => Raise IndexError
  | x :: t => if (v <=? x)%Z then Ok i else first_ge v t (S i)
  end.

(** assign_basis_to_center: model.py:398-418. *)
Definition assign_basis_to_center (m : molecular) (index : Z) : res nat :=
  if (m_nbasis m <=? index)%Z then Raise ValueError
  else first_ge (index + 1)
         (cumsum_from 0 (map (fun b => (fst b + snd b)%Z) (m_basis m))) 0.

(** Body of the loop over centers: model.py:472-489, with loop state count, total_g,
    total_dg.  In-place [+=] of arrays of different length raises ValueError. *)
Definition mol_step (m : molecular) (c e : list xr) (deriv : bool)
           (st : res (Z * list xr * list (list xr))) (ctr : atomic)
  : res (Z * list xr * list (list xr)) :=
  do s <- st;
  let '(count, tg, tdg) := s in
  let nb := a_nbasis ctr in
  let cs := py_slice (Some count) (Some (count + nb)%Z) c in
  let es := py_slice (Some count) (Some (count + nb)%Z) e in
  do out <- atomic_evaluate ctr (A1 cs) (A1 es) deriv;
  if negb (Nat.eqb (length tg) (length (fst out))) then Raise ValueError else
  let tg' := map2 xadd tg (fst out) in
  match snd out with
  | Some dg =>
      let n := m_nbasis m in
      let dgc := map (py_slice None (Some nb)) dg in
      let dge := map (py_slice (Some nb) None) dg in
      let tdg1 := map2 (set_block (Z.to_nat count) (Z.to_nat (count + nb))) dgc tdg in
      let tdg2 := map2 (set_block (Z.to_nat (n + count)) (Z.to_nat (n + count + nb))) dge tdg1 in
      Ok ((count + nb)%Z, tg', tdg2)
  | None => Ok ((count + nb)%Z, tg', tdg)
  end.

(** evaluate: model.py:420-492. *)
Definition mol_evaluate (m : molecular) (coeffs expons : ndarray) (deriv : bool) : res evalout :=
  match coeffs, expons with
  | A1 c, A1 e =>
      let n := m_nbasis m in
      if negb (Z.eqb (Z.of_nat (length c)) n) || negb (Z.eqb (Z.of_nat (length e)) n)
      then Raise ValueError
      else
        let npts := nlen (m_points m) in
        let g0 := repeat (Fin 0) npts in
        let dg0 := if deriv then repeat (repeat (Fin 0) (Z.to_nat (2 * n))) npts else [] in
        do s <- fold_left (mol_step m c e deriv) (m_center m) (Ok (0%Z, g0, dg0));
        let '(_, tg, tdg) := s in
        Ok (tg, if deriv then Some tdg else None)
  | _, _ => Raise ValueError
  end.
