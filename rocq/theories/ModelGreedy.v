(** Model of /repo/bfit/greedy.py. *)
From Coq Require Import String Reals List ZArith Bool.
From Verif Require Import XR PyStr ModelDens ModelMeas ModelGrid ModelFit.
Import ListNotations.
Local Open Scope R_scope.

(** ** Generation of guesses *)

(** [np.insert(l, i, v)] and [np.delete(l, i)] for an index inside the array (greedy.py:125-131,
    259-260). *)
Definition insert_at {A} (i : nat) (v : A) (l : list A) : list A := firstn i l ++ v :: skipn i l.
Definition delete_at {A} (i : nat) (l : list A) : list A := firstn i l ++ skipn (S i) l.

(** The exponent inserted before position [i]: greedy.py:125, 128-129. *)
Definition new_exponent (factor : xr) (exps : list xr) (i : nat) : xr :=
  match i with
  | O => xdiv (nth 0 exps NaN) factor
  | S j => xdiv (xadd (nth j exps NaN) (nth i exps NaN)) (Fin 2)
  end.

(** All choices as pairs of coefficients and exponents: greedy.py:120-139, and the inner
    function, greedy.py:176-197.  The loop runs over the exponents; the arrays have equal length
    or the coefficients are longer, so that every index is valid.  For arrays of
    floats, see ModelChoice.v for integers. *)
Definition next_pairs (factor : xr) (coeffs exps : list xr) (coeff_val : xr)
  : list (list xr * list xr) :=
  let size := length exps in
  flat_map (fun i =>
      (insert_at i coeff_val coeffs, insert_at i (new_exponent factor exps i) exps) ::
      (if Nat.eqb i (size - 1)
       then [(coeffs ++ [coeff_val], exps ++ [xmul (nth i exps NaN) factor])] else []))
    (seq 0 size).

(** get_next_choices: greedy.py:91-139. *)
Definition get_next_choices (factor : xr) (coeffs fparams : list xr) (coeff_val : xr)
  : list (list xr) :=
  map (fun p => fst p ++ snd p) (next_pairs factor coeffs fparams coeff_val).

(** [l[-2:]]. *)
Definition last_two {A} (l : list A) : list A := skipn (length l - 2) l.

(** The pairs collected by get_two_next_choices: greedy.py:199-219. *)
Definition two_pairs (factor : xr) (coeffs fparams : list xr) (coeff_val : xr)
  : list (list xr * list xr) :=
  let size := length fparams in
  flat_map (fun i =>
      skipn i (next_pairs factor (insert_at i coeff_val coeffs)
                 (insert_at i (new_exponent factor fparams i) fparams) coeff_val) ++
      (if Nat.eqb i (size - 1)
       then last_two (next_pairs factor (coeffs ++ [coeff_val])
                        (fparams ++ [xmul (nth i fparams NaN) factor]) coeff_val)
       else []))
    (seq 0 size).

(** get_two_next_choices: greedy.py:142-224. *)
Definition get_two_next_choices (factor : xr) (coeffs fparams : list xr) (coeff_val : xr)
  : list (list xr) :=
  map (fun p => fst p ++ snd p) (two_pairs factor coeffs fparams coeff_val).

(** The two halves of a parameter vector: greedy.py:257, 351, 357. *)
Definition half1 {A} (p : list A) : list A := firstn (length p / 2) p.
Definition half2 {A} (p : list A) : list A := skipn (length p / 2) p.

(** pick_two_lose_one: greedy.py:227-262. *)
Definition pick_two_lose_one (factor : xr) (coeffs exps : list xr) (coeff_val : xr)
  : list (list xr) :=
  flat_map (fun p => map (fun j => delete_at j (half1 p) ++ delete_at j (half2 p))
                         (seq 0 (length p / 2)))
    (get_two_next_choices factor coeffs exps coeff_val).

(** ** remove_redundancies *)

(** [np.abs(fparams[i] - fparams[j]) < eps]: greedy.py:70. *)
Definition similar (eps a b : xr) : bool := xltb (xabs (xsub a b)) eps.

(** The list [similar_indexes] of round [i]: [i] and the later indices close to it, or nothing
    (greedy.py:65-75). *)
Definition group_at (eps : xr) (l : list xr) (i : nat) : list nat :=
  let js := filter (fun j => similar eps (nth i l NaN) (nth j l NaN))
                   (seq (S i) (length l - S i)) in
  match js with [] => [] | _ => i :: js end.

(** [indexes_same]: greedy.py:64-75. *)
Definition groups (eps : xr) (l : list xr) : list (list nat) :=
  filter (fun g => negb (Nat.eqb (length g) 0)) (map (group_at eps l) (seq 0 (length l))).

(** [l[i] += v]. *)
Definition add_at (i : nat) (v : xr) (l : list xr) : list xr :=
  match nth_error l i with
  | Some x => firstn i l ++ xadd x v :: skipn (S i) l
  | None => l
  end.

(** The sums: greedy.py:78-80. *)
Definition add_group (coeffs acc : list xr) (g : list nat) : list xr :=
  match g with
  | [] => acc
  | i :: js => fold_left (fun a j => add_at i (nth j coeffs NaN) a) js acc
  end.

(** [np.delete(l, indices)] for a list of indices. *)
Definition delete_all {A} (idx : list nat) (l : list A) : list A :=
  map snd (filter (fun p => negb (existsb (Nat.eqb (fst p)) idx)) (combine (seq 0 (length l)) l)).

(** remove_redundancies: greedy.py:37-88. *)
Definition remove_redundancies (coeffs fparams : list xr) (eps : xr) : list xr * list xr :=
  let gs := groups eps fparams in
  let new := fold_left (add_group coeffs) gs coeffs in
  let idx := flat_map (@tl nat) gs in
  (delete_all idx new, delete_all idx fparams).

(** ** The greedy strategy *)

(** The numbers of s-type and p-type functions of the model. *)
Definition cfg := (nat * nat)%type.

(** What the abstract class leaves open or takes from the fitting object, for a model set to the
    given numbers of functions: the one-function start, the optimization routine (the first
    argument numbers the calls, so that it need not be a function of the parameters), the
    objective eval_obj_function, goodness_of_fit, and [np.random.random] (greedy.py:338-353,
    355-358, 524-526). *)
Record strategy := mkStrategy {
  sy_start : cfg -> res (list xr);
  sy_opt : nat -> cfg -> list xr -> bool -> res (list xr);
  sy_obj : cfg -> list xr -> res xr;
  sy_good : cfg -> list xr -> res (list xr);
  sy_rand : nat -> nat -> list xr }.

(** The argument [choice_function]: greedy.py:290-301. *)
Inductive choice := PickOne | PickTwo | PickTwoLoseOne.
Definition parse_choice (s : string) : res choice :=
  if String.eqb s "pick-one" then Ok PickOne
  else if String.eqb s "pick-two" then Ok PickTwo
  else if String.eqb s "pick-two-lose-one" then Ok PickTwoLoseOne
  else Raise ValueError.
Definition increase (ch : choice) : nat := match ch with PickTwo => 2%nat | _ => 1%nat end.
Definition next_params (ch : choice) (factor : xr) (c e : list xr) : list (list xr) :=
  match ch with
  | PickOne => get_next_choices factor c e (Fin 100)
  | PickTwo => get_two_next_choices factor c e (Fin 100)
  | PickTwoLoseOne => pick_two_lose_one factor c e (Fin 100)
  end.

(** _find_best_lparams: greedy.py:386-413, from candidate number [i] on. *)
Fixpoint find_best (sy : strategy) (t : nat) (k : cfg) (inc nsc i : nat) (cands : list (list xr))
         (best : xr * option (list xr) * bool) : res (xr * option (list xr) * bool) :=
  match cands with
  | [] => Ok best
  | p :: rest =>
      let k' := if Nat.ltb i nsc then (fst k + inc, snd k)%nat else (fst k, snd k + inc)%nat in
      do lp <- sy_opt sy (t + i) k' p true;
      do cost <- sy_obj sy k' lp;
      do best' <- (if xltb cost (fst (fst best))
                   then do v <- sy_obj sy k' lp; Ok (v, Some lp, Nat.ltb i nsc)
                   else Ok best);
      find_best sy t k inc nsc (S i) rest best'
  end.

(** _split_parameters: greedy.py:415-421. *)
Definition split_s (k : cfg) (p : list xr) : list xr * list xr :=
  (firstn (fst k) p, firstn (fst k) (skipn (fst k + snd k) p)).
Definition split_p (k : cfg) (p : list xr) : list xr * list xr :=
  (firstn (snd k) (skipn (fst k) p), skipn (2 * fst k + snd k) p).

(** Attributes of the object that survive a run: num_s, num_p and err_arr; the model has the
    same numbers of functions (greedy.py:302-305, 559). *)
Record object := mkObject { ob_cfg : cfg; ob_err : list (list xr) }.
Definition new_object : object := mkObject (1, 0)%nat [].

(** Loop state of run: greedy.py:505-513; [gs_t] counts the calls made so far. *)
Record gstate := mkG {
  gs_cfg : cfg;
  gs_err : list (list xr);
  gs_t : nat;
  gs_params : list xr;
  gs_n : Z;            (* numb_funcs *)
  gs_prev : xr;
  gs_best : xr;
  gs_iter : list (list xr);
  gs_redum : nat;
  gs_factor : xr }.

(** Loop condition: greedy.py:520-521. *)
Definition greedy_go (d_threshold : xr) (max_funcs : Z) (s : gstate) : bool :=
  (gs_n s <=? max_funcs - 1)%Z && Nat.ltb (gs_redum s) 5 &&
  xleb d_threshold (xabs (xsub (gs_best s) (gs_prev s))).

(** The guesses: greedy.py:522-549. *)
Definition s_choices (sy : strategy) (ch : choice) (s : gstate) : list (list xr) :=
  let k := gs_cfg s in
  let m := (fst k + increase ch)%nat in
  map (fun x => firstn m x ++ fst (split_p k (gs_params s)) ++ skipn m x ++ snd (split_p k (gs_params s)))
      (next_params ch (gs_factor s) (fst (split_s k (gs_params s))) (snd (split_s k (gs_params s)))).
Definition p_choices (sy : strategy) (ch : choice) (s : gstate) : list (list xr) :=
  let k := gs_cfg s in
  let m := (snd k + increase ch)%nat in
  let r i := sy_rand sy (gs_t s + i) (2 * increase ch) in
  let raw := if Nat.eqb (snd k) 0
             then [r 0%nat;
                   map (fun x => xadd (xmul x (Fin 9)) (Fin 1)) (r 1%nat);
                   map (fun x => xadd (xmul x (Fin 90)) (Fin 10)) (r 2%nat)]
             else next_params ch (gs_factor s) (fst (split_p k (gs_params s))) (snd (split_p k (gs_params s))) in
  map (fun x => fst (split_s k (gs_params s)) ++ firstn m x ++ snd (split_s k (gs_params s)) ++ skipn m x) raw.

(** Loop body: greedy.py:522-597 (printing left out).  [extra] is add_extra_choices. *)
Definition greedy_body (sy : strategy) (ch : choice) (extra : option (list xr -> res (list xr)))
           (factor0 : xr) (s : gstate) : res gstate :=
  let k := gs_cfg s in
  let inc := increase ch in
  let cs := s_choices sy ch s in
  let cp := p_choices sy ch s in
  do total <- match extra with
              | None => Ok (cs ++ cp)
              | Some f => do x <- f (gs_params s); Ok (cs ++ cp ++ [x])
              end;
  do b <- find_best sy (gs_t s) k inc (length cs) 0 (firstn (length cs + length cp) total)
            (Fin (10 ^ 10), None, false);
  let '(_, bp, is_s) := b in
  let t := (gs_t s + 3 + (length cs + length cp))%nat in
  let k' := if is_s then (fst k + inc, snd k)%nat else (fst k, snd k + inc)%nat in
  match bp with
  | None => Raise TypeError
  | Some lp =>
      do op <- sy_opt sy t k' lp false;
      do v <- sy_obj sy k' op;
      let s_new := fst (remove_redundancies (fst (split_s k' op)) (snd (split_s k' op)) (Fin (1 / 1000))) in
      let p_new := fst (remove_redundancies (fst (split_p k' op)) (snd (split_p k' op)) (Fin (1 / 1000))) in
      if negb (Nat.eqb (fst k') (length s_new)) || negb (Nat.eqb (snd k') (length p_new)) ||
         xltb (gs_best s) v
      then Ok (mkG k (gs_err s) (S t) (gs_params s) (gs_n s) (gs_prev s) (gs_best s) (gs_iter s)
                 (S (gs_redum s)) (xmul (gs_factor s) (Fin 2)))
      else if xleb v (gs_best s)
      then do g <- sy_good sy k' op;
           Ok (mkG k' (gs_err s ++ [g]) (S t) op (gs_n s + Z.of_nat inc) (gs_best s) v
                 (gs_iter s ++ [op]) 0 factor0)
      else Ok (mkG k' (gs_err s) (S t) (gs_params s) (gs_n s + Z.of_nat inc) (gs_prev s) (gs_best s)
                 (gs_iter s) (gs_redum s) (gs_factor s))
  end.

(** The while loop, greedy.py:520-597; [None] when [fuel] rounds are not enough. *)
Fixpoint greedy_loop (sy : strategy) (ch : choice) (extra : option (list xr -> res (list xr)))
         (factor0 d_threshold : xr) (max_funcs : Z) (fuel : nat) (s : gstate) : option (res gstate) :=
  if greedy_go d_threshold max_funcs s then
    match fuel with
    | O => None
    | S n => match greedy_body sy ch extra factor0 s with
             | Raise e => Some (Raise e)
             | Ok s' => greedy_loop sy ch extra factor0 d_threshold max_funcs n s'
             end
    end
  else Some (Ok s).

(** The exit strings, by kind: greedy.py:604-605, 646-649. *)
Inductive exit_info := ExNoChoice (k : cfg) | ExMax (n : Z) | ExEps (diff d_threshold : xr).

(** _final_exit_info: greedy.py:642-653. *)
Definition final_exit (n max_funcs : Z) (best prev d_threshold : xr) : res exit_info :=
  if negb (n <? max_funcs - 1)%Z then Ok (ExMax n)
  else if xltb (xabs (xsub best prev)) d_threshold then Ok (ExEps (xsub best prev) d_threshold)
  else Raise RuntimeError.

(** The dictionary returned by run. *)
Record greedy_result := mkGRes {
  gr_coeffs : list xr;
  gr_exps : list xr;
  gr_cfg : cfg;
  gr_fun : xr;
  gr_success : bool;
  gr_params : list (list xr);
  gr_perf : list (list xr);
  gr_exit : exit_info }.

(** After the loop: greedy.py:599-639. *)
Definition greedy_end (sy : strategy) (d_threshold : xr) (max_funcs : Z) (s : gstate)
  : res (greedy_result * object) :=
  let stuck := Nat.eqb (gs_redum s) 5 in
  do ex <- (if stuck then Ok (ExNoChoice (gs_cfg s))
            else final_exit (gs_n s) max_funcs (gs_best s) (gs_prev s) d_threshold);
  let lastp := last (gs_iter s) [] in
  do v <- sy_obj sy (gs_cfg s) lastp;
  Ok (mkGRes (fst (split_s (gs_cfg s) lastp) ++ fst (split_p (gs_cfg s) lastp))
             (snd (split_s (gs_cfg s) lastp) ++ snd (split_p (gs_cfg s) lastp))
             (gs_cfg s) v (negb ((gs_n s =? max_funcs - 1)%Z || stuck)) (gs_iter s) (gs_err s) ex,
      mkObject (gs_cfg s) (gs_err s)).

(** Start of run: greedy.py:505-513. *)
Definition greedy_start (sy : strategy) (ob : object) (factor : xr) : res gstate :=
  do p <- sy_start sy (ob_cfg ob);
  do g <- sy_good sy (ob_cfg ob) p;
  do v <- sy_obj sy (ob_cfg ob) p;
  Ok (mkG (ob_cfg ob) (ob_err ob ++ [g]) 0 p 1 PInf v [p] 0 factor).

(** run: greedy.py:499-639. *)
Definition greedy_run (sy : strategy) (ch : choice) (ob : object) (factor : pyval) (d_threshold : xr)
           (max_funcs : Z) (extra : option (list xr -> res (list xr))) (fuel : nat)
  : option (res (greedy_result * object)) :=
  match factor with
  | VFloat f =>
      if xleb f (Fin 0) then Some (Raise ValueError) else
      match greedy_start sy ob f with
      | Raise e => Some (Raise e)
      | Ok s0 =>
          match greedy_loop sy ch extra f d_threshold max_funcs fuel s0 with
          | None => None
          | Some (Raise e) => Some (Raise e)
          | Some (Ok s) => Some (greedy_end sy d_threshold max_funcs s)
          end
      end
  | _ => Some (Raise TypeError)
  end.

(** ** Objective of both subclasses *)

(** The fitting object with its model set to the given numbers of functions
    (change_numb_s_and_numb_p of the atomic model). *)
Definition at_cfg (ft : fit) (k : cfg) : res fit :=
  match ft_model ft with
  | GAtom a =>
      do a' <- change_numb a (VInt (Z.of_nat (fst k))) (VInt (Z.of_nat (snd k)));
      Ok (mkFit (ft_grid ft) (ft_density ft) (GAtom a') (ft_measure ft) (ft_spherical ft)
                (ft_integral ft) (ft_mask ft))
  | GMol _ => Raise AttributeError
  end.

(** eval_obj_function: greedy.py:349-353. *)
Definition eval_obj (ft : fit) (p : list xr) : res xr :=
  do out <- g_evaluate (ft_model ft) (A1 (half1 p)) (A1 (half2 p)) false;
  do m <- measure_evaluate (ft_measure ft) (VArr (A1 (ft_density ft))) (VArr (A1 (fst out))) (VBool false);
  fit_integrate ft (fst m).
Definition obj_at (ft : fit) (k : cfg) (p : list xr) : res xr :=
  do f <- at_cfg ft k; eval_obj f p.
(** goodness_of_fit as called by store_errors: greedy.py:357-358. *)
Definition good_at (ft : fit) (k : cfg) (p : list xr) : res (list xr) :=
  do f <- at_cfg ft k; goodness f (half1 p) (half2 p).

(** ** GreedyLeastSquares *)

(** Attributes: greedy.py:712-721. *)
Record greedy_ls := mkLS {
  ls_scipy : scipy;
  ls_local_tol : xr;
  ls_global_tol : xr;
  ls_lmaxiter : Z;
  ls_gmaxiter : Z;
  ls_constraint : bool }.

(** __init__: greedy.py:712-721 (mask_value of ScipyFit is the default 1e-18, fit.py:471). *)
Definition greedy_ls_init (ga : grid_arg) (density : list xr) (chs : string) (local_tol global_tol : xr)
           (method : string) (normalize : bool) (integral_dens : option xr) (with_constraint : bool)
           (l_maxiter g_maxiter : Z) (spherical : bool) : res (greedy_ls * choice) :=
  match ga_points ga with
  | None => Raise AttributeError
  | Some pts =>
      do a <- atomic_init (VArr pts) VNone (VInt 1) (VInt 0) normalize;
      do s <- scipy_init ga density (GAtom a) (MInst MSq) method None integral_dens spherical
                (Fin (1 / 10 ^ 18));
      do ch <- parse_choice chs;
      Ok (mkLS s local_tol global_tol l_maxiter g_maxiter with_constraint, ch)
  end.

(** _solve_one_function_weight for one-dimensional points: greedy.py:748-763. *)
Definition solve_one (pts density weight : list xr) : list xr :=
  let two := Fin 2 in
  let a := xmul two (xsum weight) in
  let b := xmul two (xsum (map2 xmul weight (map xsq pts))) in
  let c := xmul two (xsum (map2 xmul weight (map xln density))) in
  let d := b in
  let e := xmul two (xsum (map2 xmul weight (map (fun r => xpow r 4) pts))) in
  let f := xmul two (xsum (map2 xmul (map2 xmul weight (map xsq pts)) (map xln density))) in
  let big_a := xdiv (xsub (xmul b f) (xmul c e)) (xsub (xmul b d) (xmul a e)) in
  let big_b := xdiv (xsub (xmul a f) (xmul c d)) (xsub (xmul a e) (xmul b d)) in
  [xexp big_a; xneg big_b].

(** [w * m] for a one-dimensional [w] and a two-dimensional [m] with [d] columns: broadcasting
    along the rows (greedy.py:751-757). *)
Definition bmul (w : list xr) (d : nat) (m : list (list xr)) : res (list (list xr)) :=
  if Nat.eqb (length w) d then Ok (map (map2 xmul w) m)
  else if Nat.eqb (length w) 1 then Ok (map (map (xmul (nth 0 w NaN))) m)
  else if Nat.eqb d 1 then Ok (map (fun r => map (fun x => xmul x (nth 0 r NaN)) w) m)
  else Raise ValueError.

(** _solve_one_function_weight for two-dimensional points: greedy.py:748-763. *)
Definition solve_one_nd (d : nat) (rows : list (list xr)) (density weight : list xr) : res (list xr) :=
  let two := Fin 2 in
  let total m := xsum (concat m) in
  let a := xmul two (xsum weight) in
  do w2 <- bmul weight d (map (map xsq) rows);
  let b := xmul two (total w2) in
  let c := xmul two (xsum (map2 xmul weight (map xln density))) in
  do w4 <- bmul weight d (map (map (fun r => xpow r 4)) rows);
  let e := xmul two (total w4) in
  do wl <- bmul (map xln density) (if Nat.eqb d 1 then length weight else d) w2;
  let f := xmul two (total wl) in
  let big_a := xdiv (xsub (xmul b f) (xmul c e)) (xsub (xmul b b) (xmul a e)) in
  let big_b := xdiv (xsub (xmul a f) (xmul c b)) (xsub (xmul a e) (xmul b b)) in
  Ok [xexp big_a; xneg big_b].

(** Python [min] of a list of pairs by the first component: a later one wins only if strictly
    smaller. *)
Definition min_key {A} (p0 : xr * A) (l : list (xr * A)) : xr * A :=
  fold_left (fun b p => if xltb (fst p) (fst b) then p else b) l p0.

(** get_best_one_function_solution: greedy.py:765-783. *)
Definition ls_start (gl : greedy_ls) (k : cfg) : res (list xr) :=
  let ft := sc_fit (ls_scipy gl) in
  let dens := ft_density ft in
  match gr_points (ft_grid ft) with
  | A2 d rows =>
      do p1 <- solve_one_nd d rows dens (map (fun _ => Fin 1) rows);
      do c1 <- obj_at ft k p1;
      do p2 <- solve_one_nd d rows dens dens;
      do c2 <- obj_at ft k p2;
      do p3 <- solve_one_nd d rows dens (map (fun x => xpow x 2) dens);
      do c3 <- obj_at ft k p3;
      Ok (snd (min_key (c1, p1) [(c2, p2); (c3, p3)]))
  | A1 pts =>
      let p1 := solve_one pts dens (map (fun _ => Fin 1) pts) in
      do c1 <- obj_at ft k p1;
      let p2 := solve_one pts dens dens in
      do c2 <- obj_at ft k p2;
      let p3 := solve_one pts dens (map (fun x => xpow x 2) dens) in
      do c3 <- obj_at ft k p3;
      Ok (snd (min_key (c1, p1) [(c2, p2); (c3, p3)]))
  end.

(** _create_cofactor_matrix: greedy.py:785-797.  Two-dimensional points cannot be reshaped to one
    column (points with one column, which no grid of the library has, are not modelled). *)
Definition cofactor_matrix (points : ndarray) (k : cfg) (exponents : list xr) : res (list (list xr)) :=
  match points with
  | A2 _ _ => Raise ValueError
  | A1 pts =>
      Ok (map (fun r =>
            let r2 := xpow r 2 in
            map (fun a => xexp (xmul (xneg a) r2)) (firstn (fst k) exponents) ++
            (if Nat.eqb (snd k) 0 then []
             else map (fun a => xmul r2 (xexp (xmul (xneg a) r2))) (skipn (fst k) exponents))) pts)
  end.

(** get_optimization_routine: greedy.py:808-823, with arbitrary [nnls] and [minimize]. *)
Definition ls_opt (gl : greedy_ls) (nnls : nat -> list (list xr) -> list xr -> res (list xr))
           (minimize : nat -> problem -> res opt_result) (t : nat) (k : cfg) (params : list xr)
           (local : bool) : res (list xr) :=
  let s := ls_scipy gl in
  let exps := half2 params in
  do m <- cofactor_matrix (gr_points (ft_grid (sc_fit s))) k exps;
  do coeffs <- nnls t m (ft_density (sc_fit s));
  do f <- at_cfg (sc_fit s) k;
  do r <- scipy_run (minimize t) (mkScipy f (sc_slsqp s) (sc_weights s)) coeffs exps true true
            (if local then ls_lmaxiter gl else ls_gmaxiter gl)
            (if local then ls_local_tol gl else ls_global_tol gl) (ls_constraint gl);
  Ok (q_coeffs r ++ q_exps r).

Definition ls_strategy (gl : greedy_ls) nnls minimize rand : strategy :=
  mkStrategy (ls_start gl) (ls_opt gl nnls minimize) (obj_at (sc_fit (ls_scipy gl)))
             (good_at (sc_fit (ls_scipy gl))) rand.

(** ** GreedyKLFPI *)

(** Attributes: greedy.py:888-899. *)
Record greedy_kl := mkKL {
  kl_fpi : fpi;
  kl_local : thresholds;
  kl_global : thresholds;
  kl_lmaxiter : Z;
  kl_gmaxiter : Z }.

(** __init__: greedy.py:888-899. *)
Definition greedy_kl_init (ga : grid_arg) (density : list xr) (chs : string) (global local : thresholds)
           (l_maxiter g_maxiter : Z) (mask : xr) (integral_dens : option xr) (spherical : bool)
  : res (greedy_kl * choice) :=
  match ga_points ga with
  | None => Raise AttributeError
  | Some pts =>
      do a <- atomic_init (VArr pts) VNone (VInt 1) (VInt 0) true;
      do f <- fpi_init ga density (GAtom a) mask integral_dens spherical;
      do ch <- parse_choice chs;
      Ok (mkKL f local global l_maxiter g_maxiter, ch)
  end.

(** get_best_one_function_solution: greedy.py:944-948.  For two-dimensional points the product is
    two-dimensional or fails to broadcast; the grids of the library do not integrate it
    (grid.py:408-411). *)
Definition kl_start (gk : greedy_kl) (k : cfg) : res (list xr) :=
  let ft := fp_fit (kl_fpi gk) in
  match gr_points (ft_grid ft) with
  | A2 _ _ => Raise ValueError
  | A1 pts =>
      do y <- emul (ft_density ft) (map (fun r => xpow (xpow r 2) 2) pts);
      do denom <- gr_integrate (ft_grid ft) y;
      Ok [ft_integral ft;
          xdiv (xmul (Fin 3) (ft_integral ft)) (xmul (xmul (xmul (Fin 2) (Fin 4)) (Fin PI)) denom)]
  end.

(** get_optimization_routine: greedy.py:951-968. *)
Definition kl_opt (gk : greedy_kl) (t : nat) (k : cfg) (params : list xr) (local : bool) : res (list xr) :=
  do f <- at_cfg (fp_fit (kl_fpi gk)) k;
  do r <- fpi_run (mkFpi f (fp_lm (kl_fpi gk))) (VArr (A1 (half1 params))) (VArr (A1 (half2 params)))
            true true (if local then kl_lmaxiter gk else kl_gmaxiter gk)
            (if local then kl_local gk else kl_global gk);
  Ok (r_coeffs r ++ r_exps r).

Definition kl_strategy (gk : greedy_kl) rand : strategy :=
  mkStrategy (kl_start gk) (kl_opt gk) (obj_at (fp_fit (kl_fpi gk))) (good_at (fp_fit (kl_fpi gk))) rand.
