(** Model of /repo/bfit/fit.py. *)
From Coq Require Import String Reals List ZArith Bool.
From Verif Require Import XR PyStr ModelDens ModelMeas ModelGrid.
Import ListNotations.
Local Open Scope R_scope.

(** ** Objects the fits use *)

(** A grid object as far as fit.py uses it: the attribute [points] and the method
    [integrate] on 1-D arrays (fit.py:78, 146-147). *)
Record grid := mkGrid { gr_points : ndarray; gr_integrate : list xr -> res xr }.

(** Radial grids (grid.py:30-77) and cubic grids (grid.py:244-413) as such objects. *)
Definition radial_grid (pts : list xr) : grid :=
  mkGrid (A1 pts) (fun y => radial_integrate pts (A1 y)).
Definition cubic_grid (g : cubic) : grid :=
  mkGrid (A2 3 (map (fun '(x, y, z) => [Fin x; Fin y; Fin z]) (cg_points g)))
         (fun y => cubic_integrate g (A1 y)).

(** The argument [grid]: any object; an attribute is [None] when [hasattr] is false or, for
    [integrate], not callable (fit.py:70-77). *)
Record grid_arg := mkGridArg { ga_points : option ndarray; ga_integrate : option (list xr -> res xr) }.

(** A model object: atomic or molecular (model.py). *)
Inductive gmodel := GAtom (m : atomic) | GMol (m : molecular).

(** points, nbasis, natoms, radii (list of rows), prefactor, evaluate: model.py:103-135,
    156-216, 369-396, 420-492. *)
Definition g_points (m : gmodel) : ndarray :=
  match m with GAtom a => a_points a | GMol m => m_points m end.
Definition g_nbasis (m : gmodel) : Z :=
  match m with GAtom a => a_nbasis a | GMol m => m_nbasis m end.
Definition g_natoms (m : gmodel) : nat :=
  match m with GAtom _ => 1%nat | GMol m => length (m_basis m) end.
Definition g_radii (m : gmodel) : list (list xr) :=
  match m with GAtom a => [a_radii a] | GMol m => m_radii m end.
Definition g_prefactor (m : gmodel) : list xr :=
  match m with GAtom a => a_prefactor a | GMol m => m_prefactor m end.
Definition g_evaluate (m : gmodel) (c e : ndarray) (deriv : bool) : res evalout :=
  match m with GAtom a => atomic_evaluate a c e deriv | GMol m => mol_evaluate m c e deriv end.

(** ** _BaseFit *)

(** State: fit.py:83-95.  [ft_mask] is the mask value of [self.kl_error]. *)
Record fit := mkFit {
  ft_grid : grid;
  ft_density : list xr;
  ft_model : gmodel;
  ft_measure : measure;
  ft_spherical : bool;
  ft_integral : xr;
  ft_mask : xr }.

(** NumPy broadcasting: lists of the same length are combined entry by entry, one of length one is
    repeated, other lengths raise ValueError. *)
Definition fits (m n : nat) : bool := Nat.eqb m n || Nat.eqb m 1 || Nat.eqb n 1.
Definition stretch {A B C} (op : A -> B -> C) (u : list A) (v : list B) : list C :=
  if Nat.eqb (length u) (length v) then map2 op u v
  else match u, v with
       | [x], _ => map (op x) v
       | _, [y] => map (fun x => op x y) u
       | _, _ => []
       end.
Definition bcast {A B C} (op : A -> B -> C) (u : list A) (v : list B) : res (list C) :=
  if fits (length u) (length v) then Ok (stretch op u v) else Raise ValueError.

(** Elementwise product. *)
Definition emul (u v : list xr) : res (list xr) := bcast xmul u v.

(** integrate: fit.py:145-147.  With [spherical] the points are one-dimensional
    (fit.py:78-82). *)
Definition integrate_with (spherical : bool) (g : grid) (y : list xr) : res xr :=
  if spherical then
    match gr_points g with
    | A1 pts =>
        do z <- emul (map (fun v => xmul (xmul v (Fin 4)) (Fin PI)) y)
                     (map (fun r => xpow r 2) pts);
        gr_integrate g z
    | A2 _ _ => Raise ValueError
    end
  else gr_integrate g y.
Definition fit_integrate (ft : fit) (y : list xr) : res xr :=
  integrate_with (ft_spherical ft) (ft_grid ft) y.

(** _BaseFit.__init__: fit.py:67-95. *)
Definition base_init (ga : grid_arg) (density : list xr) (model : gmodel) (me : measure)
           (integral_dens : option xr) (spherical : bool) (mask : xr) : res fit :=
  if existsb (fun x => xltb x (Fin 0)) density then Raise ValueError else
  match ga_points ga with
  | None => Raise AttributeError
  | Some pts =>
  match ga_integrate ga with
  | None => Raise AttributeError
  | Some integ =>
      let g := mkGrid pts integ in
      if negb (Nat.eqb (ndim pts) 1) && spherical then Raise ValueError else
      do n <- match integral_dens with
              | None => integrate_with spherical g density
              | Some x => Ok x
              end;
      Ok (mkFit g density model me spherical n mask)
  end end.

(** [np.max] of an array: ValueError when empty. *)
Definition np_max (l : list xr) : res xr :=
  match xmaxl l with Some x => Ok x | None => Raise ValueError end.

(** Elementwise [np.abs(u - v)]. *)
Definition abs_diff (u v : list xr) : res (list xr) := bcast (fun x y => xabs (xsub x y)) u v.

(** goodness_of_fit: fit.py:184-192. *)
Definition goodness (ft : fit) (c e : list xr) : res (list xr) :=
  do out <- g_evaluate (ft_model ft) (A1 c) (A1 e) false;
  let approx := fst out in
  do diff <- abs_diff (ft_density ft) approx;
  do i0 <- fit_integrate ft approx;
  do i1 <- fit_integrate ft diff;
  do i2 <- np_max diff;
  do ls <- measure_evaluate MSq (VArr (A1 (ft_density ft))) (VArr (A1 approx)) (VBool false);
  do i3 <- fit_integrate ft (fst ls);
  do kl <- measure_evaluate (MKL (ft_mask ft) (Fin 100000))
             (VArr (A1 (ft_density ft))) (VArr (A1 approx)) (VBool false);
  do i4 <- fit_integrate ft (fst kl);
  Ok [i0; i1; i2; i3; i4].

(** ** KLDivergenceFPI *)

(** A fit with its Lagrange multiplier [self._lm]: fit.py:240. *)
Record fpi := mkFpi { fp_fit : fit; fp_lm : xr }.

(** KLDivergenceFPI.__init__: fit.py:236-242. *)
Definition fpi_init (ga : grid_arg) (density : list xr) (model : gmodel) (mask : xr)
           (integral_dens : option xr) (spherical : bool) : res fpi :=
  do ft <- base_init ga density model (MKL mask (Fin 100000)) integral_dens spherical mask;
  do i <- fit_integrate ft density;
  let lm := xdiv i (ft_integral ft) in
  if xeqb lm (Fin 0) || xisnan lm then Raise RuntimeError else Ok (mkFpi ft lm).

(** [dm[:, j]]. *)
Definition column (j : nat) (rows : list (list xr)) : list xr := map (fun r => nth j r NaN) rows.

(** Radii of the center of basis function [index]: fit.py:288-294. *)
Definition index_radii (m : gmodel) (index : nat) : res (list xr) :=
  if Nat.eqb (g_natoms m) 1 then Ok (List.concat (g_radii m))
  else match m with
       | GAtom a => Ok (a_radii a)
       | GMol mm =>
           do k <- assign_basis_to_center mm (Z.of_nat index);
           match nth_error (m_radii mm) k with Some r => Ok r | None => Raise IndexError end
       end.

(** Body of the loop over basis functions: fit.py:285-295. *)
Definition averages (ft : fit) (dk : list xr) (dm : list (list xr)) (ue : bool) (index : nat)
  : res (xr * xr) :=
  do integrand <- emul (map xneg dk) (column index dm);
  do a1 <- fit_integrate ft integrand;
  if ue then
    do r <- index_radii (ft_model ft) index;
    do y <- emul integrand (map xsq r);
    do a2 <- fit_integrate ft y;
    Ok (a1, a2)
  else Ok (a1, Fin 0).

(** Elementwise quotient. *)
Definition ediv (u v : list xr) : res (list xr) := bcast xdiv u v.

(** _update_params: fit.py:276-302. *)
Definition update_params (f : fpi) (c e : list xr) (uc ue : bool) : res (list xr * list xr) :=
  if negb uc && negb ue then Raise ValueError else
  let ft := fp_fit f in
  do out <- g_evaluate (ft_model ft) (A1 c) (A1 e) true;
  match snd out with
  | None => Raise TypeError
  | Some dm =>
      do k <- measure_evaluate (ft_measure ft) (VArr (A1 (ft_density ft))) (VArr (A1 (fst out)))
                (VBool true);
      match snd k with
      | None => Raise TypeError
      | Some dk =>
          do avs <- mapM (averages ft dk dm ue) (seq 0 (Z.to_nat (g_nbasis (ft_model ft))));
          do c' <- (if uc then
                      do p <- emul c (map fst avs);
                      Ok (map (fun x => xdiv x (fp_lm f)) p)
                    else Ok c);
          do e' <- (if ue then
                      do p <- emul (g_prefactor (ft_model ft)) (map fst avs);
                      ediv p (map snd avs)
                    else Ok e);
          Ok (c', e')
      end
  end.

(** Loop state of run: fit.py:360-367.  [st_perf] and [st_fun] in order of iteration. *)
Record fstate := mkState {
  st_cs : list xr;
  st_es : list xr;
  st_dc : xr;   (* max_diff_coeffs *)
  st_de : xr;   (* max_diff_expons *)
  st_dd : xr;   (* diff_divergence *)
  st_fun : list xr;
  st_perf : list (list xr);
  st_niter : Z }.

(** Thresholds: c_threshold, e_threshold, d_threshold. *)
Record thresholds := mkThr { th_c : xr; th_e : xr; th_d : xr }.

(** Loop condition: fit.py:387-388. *)
Definition go_on (th : thresholds) (maxiter : Z) (s : fstate) : bool :=
  (xltb (th_e th) (st_de s) || xltb (th_c th) (st_dc s)) && xltb (th_d th) (st_dd s) &&
  (st_niter s <? maxiter)%Z.

(** Loop body: fit.py:389-410. *)
Definition fpi_step (f : fpi) (oc oe : bool) (s : fstate) : res fstate :=
  do p <- (if oc && oe then update_params f (st_cs s) (st_es s) true true
           else if oc then update_params f (st_cs s) (st_es s) true false
           else if oe then update_params f (st_cs s) (st_es s) false true
           else Raise ValueError);
  let '(cs, es) := p in
  do d1 <- abs_diff cs (st_cs s);
  do dc <- np_max d1;
  do d2 <- abs_diff es (st_es s);
  do de <- np_max d2;
  do g <- goodness (fp_fit f) cs es;
  let v := last g NaN in
  let niter := (st_niter s + 1)%Z in
  let dd := if (niter =? 1)%Z then st_dd s
            else xabs (xsub v (last (st_fun s) NaN)) in
  Ok (mkState cs es dc de dd (st_fun s ++ [v]) (st_perf s ++ [g]) niter).

(** The while loop: fit.py:387-415.  [fuel] bounds the recursion; the condition itself
    contains [maxiter > niter], so [Z.to_nat maxiter] rounds are enough. *)
Fixpoint fpi_loop (f : fpi) (oc oe : bool) (th : thresholds) (maxiter : Z) (fuel : nat)
         (s : fstate) : res fstate :=
  match fuel with
  | O => Ok s
  | S k => if go_on th maxiter s
           then do s' <- fpi_step f oc oe s; fpi_loop f oc oe th maxiter k s'
           else Ok s
  end.

(** The dictionary returned by run (without the time): fit.py:433-438. *)
Record fpi_result := mkFpiRes {
  r_coeffs : list xr;
  r_exps : list xr;
  r_fun : list xr;
  r_success : bool;
  r_perf : list (list xr) }.

(** run: fit.py:353-440 (printing and timing left out). *)
Definition fpi_run (f : fpi) (c0 e0 : pyval) (oc oe : bool) (maxiter : Z) (th : thresholds)
  : res fpi_result :=
  match c0, e0 with
  | VArr c, VArr e =>
      match c with
      | A2 _ _ => Raise ValueError
      | A1 cs =>
          if negb (Z.of_nat (length cs) =? g_nbasis (ft_model (fp_fit f)))%Z then Raise ValueError else
          match e with
          | A2 _ _ => Raise ValueError
          | A1 es =>
              if negb (Z.of_nat (length es) =? g_nbasis (ft_model (fp_fit f)))%Z
              then Raise ValueError else
              do s <- fpi_loop f oc oe th maxiter (Z.to_nat maxiter)
                        (mkState cs es PInf PInf PInf [] [] 0);
              let failed := ((maxiter =? st_niter s)%Z && xltb (th_d th) (st_dd s)) ||
                            xisnan (st_dd s) in
              Ok (mkFpiRes (st_cs s) (st_es s) (st_fun s) (negb failed) (st_perf s))
          end
      end
  | _, _ => Raise TypeError
  end.

(** ** ScipyFit *)

(** The argument [measure]: an instance of a subclass of Measure, or anything else such as the
    class KLDivergence itself, the documented default (fit.py:470, 509). *)
Inductive measure_arg := MInst (m : measure) | MClass | MNot.

(** [np.any(abs(grid.points - model.points) > 1.e-12)]: fit.py:503.  A one-dimensional array is
    combined with a two-dimensional one as a single row. *)
Definition as_rows (p : ndarray) : nat * list (list xr) :=
  match p with A1 u => (length u, [u]) | A2 d rows => (d, rows) end.
Definition far (x y : xr) : bool := xltb (Fin (1 / 10 ^ 12)) (xabs (xsub x y)).
Definition points_differ (p q : ndarray) : res bool :=
  let (d, u) := as_rows p in
  let (d', v) := as_rows q in
  if fits d d' && fits (length u) (length v)
  then Ok (existsb (fun b => b) (stretch (fun r s => existsb (fun b => b) (stretch far r s)) u v))
  else Raise ValueError.

(** A ScipyFit object. *)
Record scipy := mkScipy { sc_fit : fit; sc_slsqp : bool; sc_weights : list xr }.

(** ScipyFit.__init__: fit.py:503-517.  A grid without [points] fails in the first line with
    AttributeError. *)
Definition scipy_init (ga : grid_arg) (density : list xr) (model : gmodel) (me : measure_arg)
           (method : string) (weights : option (list xr)) (integral_dens : option xr)
           (spherical : bool) (mask : xr) : res scipy :=
  match ga_points ga with
  | None => Raise AttributeError
  | Some pts =>
      do far <- points_differ pts (g_points model);
      if far then Raise ValueError else
      if negb (Nat.eqb (nlen pts) (length density)) then Raise ValueError else
      if negb (str_in (lower method) ["slsqp"; "trust-constr"]%string) then Raise ValueError else
      match me with
      | MInst m =>
          let w := match weights with Some w => w | None => repeat (Fin 1) (length density) end in
          do ft <- base_init ga density model m integral_dens spherical mask;
          Ok (mkScipy ft (String.eqb (lower method) "slsqp") w)
      | _ => Raise TypeError
      end
  end.

(** The tuple [args]: empty, or the fixed parameters (fit.py:575-588, 769-782). *)
Inductive sargs := SBoth | SFixCoeffs (c : list xr) | SFixExpons (e : list xr) | SBad.

(** evaluate_model: fit.py:769-785. *)
Definition evaluate_model (s : scipy) (x : list xr) (a : sargs)
  : res (list xr * list (list xr)) :=
  let m := ft_model (sc_fit s) in
  let n := g_nbasis m in
  match a with
  | SBad => Raise ValueError
  | _ =>
      let c := match a with SFixCoeffs c => c | SFixExpons _ => x | _ => py_slice None (Some n) x end in
      let e := match a with SFixCoeffs _ => x | SFixExpons e => e | _ => py_slice (Some n) None x end in
      let start := match a with SFixCoeffs _ => n | _ => 0%Z end in
      let stop := match a with SFixExpons _ => n | _ => (2 * n)%Z end in
      do out <- g_evaluate m (A1 c) (A1 e) true;
      match snd out with
      | None => Raise TypeError
      | Some dm => Ok (fst out, map (py_slice (Some start) (Some stop)) dm)
      end
  end.

(** func: fit.py:718-726.  A column index outside the rows of the derivative raises
    IndexError. *)
Definition scipy_func (s : scipy) (x : list xr) (a : sargs) : res (xr * list xr) :=
  let ft := sc_fit s in
  do md <- evaluate_model s x a;
  let '(m, dm) := md in
  do kd <- measure_evaluate (ft_measure ft) (VArr (A1 (ft_density ft))) (VArr (A1 m)) (VBool true);
  match snd kd with
  | None => Raise TypeError
  | Some dk =>
      do wk <- emul (sc_weights s) (fst kd);
      do obj <- fit_integrate ft wk;
      do wdk <- emul (sc_weights s) dk;
      do d <- mapM (fun j =>
                if forallb (fun r => Nat.ltb j (length r)) dm
                then do y <- emul wdk (column j dm); fit_integrate ft y
                else Raise IndexError) (seq 0 (length x));
      Ok (obj, d)
  end.

(** const_norm: fit.py:746-748. *)
Definition const_norm (s : scipy) (x : list xr) (a : sargs) : res xr :=
  do md <- evaluate_model s x a;
  do i <- fit_integrate (sc_fit s) (fst md);
  Ok (xsub (ft_integral (sc_fit s)) i).

(** What is handed to scipy.optimize.minimize (fit.py:655-664): objective with gradient, start,
    lower bounds (upper bounds are infinite), constraint functions, iteration limit and
    tolerance. *)
Record problem := mkProblem {
  pb_fun : list xr -> res (xr * list xr);
  pb_x0 : list xr;
  pb_lower : list R;
  pb_cons : list (list xr -> res xr);
  pb_maxiter : Z;
  pb_tol : xr }.

(** The result object used in fit.py:669-697 (the message is a string). *)
Record opt_result := mkOpt { o_x : list xr; o_fun : xr; o_success : bool; o_jac : list xr; o_msg : string }.

(** The dictionary returned by run. *)
Record scipy_result := mkScRes {
  q_coeffs : list xr;
  q_exps : list xr;
  q_fun : xr;
  q_success : bool;
  q_msg : string;
  q_jac : list xr;
  q_perf : list xr }.

(** The problem set up by run: fit.py:575-604.  With "trust-constr" the constraint is
    [NonlinearConstraint(self.const_norm, ...)], called without [args]. *)
Definition scipy_problem (s : scipy) (c0 e0 : list xr) (oc oe : bool) (maxiter : Z) (tol : xr)
           (with_constraint : bool) : res problem :=
  let n := Z.to_nat (g_nbasis (ft_model (sc_fit s))) in
  let low k := repeat (1 / 10 ^ 12) k in
  let mk x0 lb a :=
    mkProblem (fun x => scipy_func s x a) x0 lb
      (if with_constraint
       then [fun x => const_norm s x (if sc_slsqp s then a else SBoth)] else [])
      maxiter tol in
  if oc && oe then Ok (mk (c0 ++ e0) (low (2 * n)%nat) SBoth)
  else if oc then Ok (mk c0 (low n) (SFixExpons e0))
  else if oe then Ok (mk e0 (low n) (SFixCoeffs c0))
  else Raise ValueError.

(** run with an arbitrary optimizer: fit.py:574-698 (printing, timing, warnings left out). *)
Definition scipy_run (minimize : problem -> res opt_result) (s : scipy) (c0 e0 : list xr)
           (oc oe : bool) (maxiter : Z) (tol : xr) (with_constraint : bool) : res scipy_result :=
  do pb <- scipy_problem s c0 e0 oc oe maxiter tol with_constraint;
  do r <- minimize pb;
  let n := g_nbasis (ft_model (sc_fit s)) in
  let c := if oc && oe then py_slice None (Some n) (o_x r) else if oc then o_x r else c0 in
  let e := if oc && oe then py_slice (Some n) None (o_x r) else if oc then e0 else o_x r in
  do g <- goodness (sc_fit s) c e;
  Ok (mkScRes c e (o_fun r) (o_success r) (o_msg r) (o_jac r) g).
