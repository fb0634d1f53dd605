(** What the greedy properties say, without reference to the greedy code. *)
From Coq Require Import Reals List ZArith Sorted.
From Verif Require Import XR SpecDens SpecFit ModelDens ModelFit ModelGreedy.
Import ListNotations.
Local Open Scope R_scope.

(** [l'] is [l] with [v] inserted at position [i]; [l] with the entry at position [i] removed. *)
Definition inserted {A} (i : nat) (v : A) (l l' : list A) : Prop :=
  exists l1 l2, l = l1 ++ l2 /\ length l1 = i /\ l' = l1 ++ v :: l2.
Definition removed {A} (i : nat) (l l' : list A) : Prop :=
  exists l1 x l2, l = l1 ++ x :: l2 /\ length l1 = i /\ l' = l1 ++ l2.

(** The exponent documented for position [i] of [n+1] (greedy.py:99-106): first divided by the
    factor, midpoint, last times the factor. *)
Definition new_value (factor : xr) (e : list xr) (i : nat) (x : xr) : Prop :=
  let n := length e in
  (i = 0%nat /\ x = xdiv (nth 0 e NaN) factor) \/
  ((0 < i < n)%nat /\ x = xdiv (xadd (nth (i - 1) e NaN) (nth i e NaN)) (Fin 2)) \/
  ((0 < i)%nat /\ i = n /\ x = xmul (nth (n - 1) e NaN) factor).

(** [q] is [p] (coefficients, exponents) with one function added at position [i]. *)
Definition extends (factor v : xr) (i : nat) (p q : list xr * list xr) : Prop :=
  inserted i v (fst p) (fst q) /\
  exists x, new_value factor (snd p) i x /\ inserted i x (snd p) (snd q).

(** Ascending. *)
Definition rising (l : list R) : Prop :=
  forall i j, (i < j < length l)%nat -> nth i l 0 <= nth j l 0.

(** Index [i] is not close to an earlier one. *)
Definition first_of_kind (eps : R) (e : list R) (i : nat) : Prop :=
  forall j, (j < i)%nat -> eps <= Rabs (nth j e 0 - nth i e 0).
(** No two different entries are close. *)
Definition separated (eps : R) (e : list R) : Prop :=
  forall i j, (i < j < length e)%nat -> eps <= Rabs (nth i e 0 - nth j e 0).
(** Closeness is transitive on the entries. *)
Definition clustered (eps : R) (e : list R) : Prop :=
  forall i j k, (i < length e)%nat -> (j < length e)%nat -> (k < length e)%nat ->
    Rabs (nth i e 0 - nth j e 0) < eps -> Rabs (nth j e 0 - nth k e 0) < eps ->
    Rabs (nth i e 0 - nth k e 0) < eps.
(** Sum of the coefficients of later entries close to entry [i]. *)
Definition later_close (eps : R) (c e : list R) (i : nat) : R :=
  sumn (length e) (fun j =>
    if (Nat.ltb i j) then if Rlt_dec (Rabs (nth i e 0 - nth j e 0)) eps then nth j c 0 else 0 else 0).

(** ** Runs *)

(** Numbers of functions candidate [i] is meant for: the first [nsc] add [inc] s-type functions,
    the others p-type ones. *)
Definition meant_for (k : cfg) (inc nsc i : nat) : cfg :=
  if Nat.ltb i nsc then (fst k + inc, snd k)%nat else (fst k, snd k + inc)%nat.
(** Candidate [i] is optimized to [lp] at cost [v]. *)
Definition evaluated (sy : strategy) (t : nat) (k : cfg) (inc nsc : nat) (cands : list (list xr))
           (i : nat) (lp : list xr) (v : xr) : Prop :=
  (i < length cands)%nat /\
  sy_opt sy (t + i) (meant_for k inc nsc i) (nth i cands []) true = Ok lp /\
  sy_obj sy (meant_for k inc nsc i) lp = Ok v.

(** A fit accepted during a run: numbers of functions, parameters, objective, errors. *)
Record entry := mkEntry { en_cfg : cfg; en_par : list xr; en_val : xr; en_err : list xr }.
Definition entry_ok (sy : strategy) (en : entry) : Prop :=
  sy_obj sy (en_cfg en) (en_par en) = Ok (en_val en) /\
  sy_good sy (en_cfg en) (en_par en) = Ok (en_err en).
(** Each value is at most the one before. *)
Definition non_increasing (h : list entry) : Prop :=
  forall h1 a b h2, h = h1 ++ a :: b :: h2 -> xleb (en_val b) (en_val a) = true.

(** The number of functions. *)
Definition total (k : cfg) : nat := (fst k + snd k)%nat.
(** Parameters for [k]: a coefficient and an exponent per function. *)
Definition fits (k : cfg) (p : list xr) : Prop := length p = (2 * total k)%nat.
(** Finite positive parameters for [k]. *)
Definition fits_pos (k : cfg) (p : list xr) : Prop :=
  exists c e, p = map Fin c ++ map Fin e /\ length c = total k /\ length e = total k /\
    positive c /\ positive e.

(** The random numbers have the requested length; are positive. *)
Definition rand_sized (sy : strategy) : Prop := forall i n, length (sy_rand sy i n) = n.
Definition rand_pos (sy : strategy) : Prop :=
  forall i n, exists l, sy_rand sy i n = map Fin l /\ length l = n /\ positive l.
(** No objective value is NaN. *)
Definition never_nan (sy : strategy) : Prop := forall k p, sy_obj sy k p <> Ok NaN.

(** ** One-function starts *)

(** Weighted squared error of [ln f = A + B r^2]. *)
Definition log_error (w f rs : list R) (A B : R) : R :=
  sumn (length w) (fun i => nth i w 0 * (ln (nth i f 0) - A - B * nth i rs 0 ^ 2) ^ 2).
(** Two points with positive weight at different distances. *)
Definition two_distances (w rs : list R) : Prop :=
  exists i j, (i < length w)%nat /\ (j < length w)%nat /\ 0 < nth i w 0 /\ 0 < nth j w 0 /\
    nth i rs 0 ^ 2 <> nth j rs 0 ^ 2.

(** Weights of the integration of a fit, from those of the grid. *)
Definition fit_weights (sph : bool) (w rs : list R) : list R :=
  if sph then map2 (fun w r => w * (4 * PI * r ^ 2)) w rs else w.

(** [gk] is the GreedyKLFPI object built for density [f] on a grid with points [rs] that
    integrates with weights [w]; the coefficients are to sum to [N]. *)
Record kl_setting (gk : greedy_kl) (sph : bool) (w f rs : list R) (mask N : R) : Prop := {
  ks_init : exists I n0 chs ch g l lm gm,
    (forall y, length y = length w -> I (map Fin y) = Ok (Fin (rdot w y))) /\
    greedy_kl_init (mkGridArg (Some (A1 (map Fin rs))) (Some I)) (map Fin f) chs g l lm gm
      (Fin mask) n0 sph = Ok (gk, ch) /\
    target n0 (fit_weights sph w rs) f N;
  ks_lenw : length w = length f;
  ks_lenr : length rs = length f;
  ks_mask : 0 <= mask;
  ks_N : 0 < N }.
(** Layout of one s-type function; of [k] functions, at all points. *)
Definition one_s (rs : list R) : list (list (bool * R)) := map (lay_atom 1 0) (map Rabs rs).
Definition lays_of (k : cfg) (rs : list R) : list (list (bool * R)) :=
  map (lay_atom (fst k) (snd k)) (map Rabs rs).
(** A point off the origin with positive weight. *)
Definition off_origin (w rs : list R) : Prop :=
  exists i, (i < length w)%nat /\ 0 < nth i w 0 /\ nth i rs 0 <> 0.

(** [gl] is the GreedyLeastSquares object built for density [f] on a grid with points [rs] that
    integrates with weights [w]. *)
Record ls_setting (gl : greedy_ls) (norm sph : bool) (w f rs : list R) : Prop := {
  lt_init : exists I n0 chs ch lt gt method wc lm gm,
    (forall y, length y = length w -> I (map Fin y) = Ok (Fin (rdot w y))) /\
    greedy_ls_init (mkGridArg (Some (A1 (map Fin rs))) (Some I)) (map Fin f) chs lt gt method norm
      n0 wc lm gm sph = Ok (gl, ch);
  lt_lenw : length w = length f;
  lt_lenr : length rs = length f }.
(** Smaller further out. *)
Definition falling (f rs : list R) : Prop :=
  forall i j, (i < length f)%nat -> (j < length f)%nat -> nth i rs 0 ^ 2 < nth j rs 0 ^ 2 -> nth j f 0 < nth i f 0.
(** Two points at different distances. *)
Definition two_radii (rs : list R) : Prop :=
  exists i j, (i < length rs)%nat /\ (j < length rs)%nat /\ nth i rs 0 ^ 2 <> nth j rs 0 ^ 2.
(** A non-negative least squares routine and a minimizer that return: the latter finite values of
    the right number within the bounds. *)
Definition nnls_returns (nnls : nat -> list (list xr) -> list xr -> res (list xr)) : Prop :=
  forall t m d, exists x, nnls t m d = Ok x.
Definition minimize_returns (minimize : nat -> problem -> res opt_result) : Prop :=
  forall t pb, exists r x, minimize t pb = Ok r /\ o_x r = map Fin x /\
    Forall2 (fun b y => b <= y) (pb_lower pb) x.
