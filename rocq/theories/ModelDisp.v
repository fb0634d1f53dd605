(** What the fits print with [disp=True]: /repo/bfit/fit.py and /repo/bfit/greedy.py.  How a number
    is written is a parameter; the layout of the lines is not.  The output of SciPy itself is left out. *)
From Coq Require Import String Ascii Reals List ZArith Bool.
From Verif Require Import XR PyStr PyText ModelDens ModelMeas ModelGrid ModelFit ModelGreedy.
Import ListNotations.
Local Open Scope list_scope.

(** Arguments of [str.format]: integers and floats. *)
Inductive arg := AInt (z : Z) | ANum (x : xr).
(** Conversions [d], [f] and [e] in the templates, fit.py:384-386,620-623,637-640, greedy.py:438-441. *)
Inductive conv := ConvD | ConvF | ConvE.

Definition space : ascii := " "%char.
Definition bar : ascii := "|"%char.
(** [{:^w}] and [{:w}] of a number that is written as [t]. *)
Definition center (w : nat) (t : text) : text :=
  let k := (w - length t)%nat in repeat space (k / 2) ++ t ++ repeat space (k - k / 2).
Definition rjust (w : nat) (t : text) : text := repeat space (w - length t) ++ t.
(** ["-" * n]. *)
Definition dashes (n : nat) : text := repeat "-"%char n.

Section Display.
(** Decimal digits of an integer, [format(x, "f")], [format(x, "e")], [str] of a float and of an array, and
    the text of [exit_info]. *)
Variable show_int : Z -> text.
Variables show_fix show_exp show_num : xr -> text.
Variable show_arr : list xr -> text.
Variable show_exit : exit_info -> text.

(** One argument converted: ValueError for [d] with a float, and an integer is made a float by [f] and [e]. *)
Definition convert (c : conv) (a : arg) : res text :=
  match c, a with
  | ConvD, AInt z => Ok (show_int z)
  | ConvD, ANum _ => Raise ValueError
  | ConvF, AInt z => Ok (show_fix (Fin (IZR z)))
  | ConvF, ANum x => Ok (show_fix x)
  | ConvE, AInt z => Ok (show_exp (Fin (IZR z)))
  | ConvE, ANum x => Ok (show_exp x)
  end.

(** [template.format( *args)] for a template of fields (index, width, conversion) between bars: IndexError
    when an index has no argument; arguments without a field are ignored. *)
Fixpoint format_fields (fs : list (nat * nat * conv)) (args : list arg) : res text :=
  match fs with
  | [] => Ok []
  | (i, w, c) :: fs' =>
      match nth_error args i with
      | None => Raise IndexError
      | Some a => do t <- convert c a; do r <- format_fields fs' args; Ok (center w t ++ bar :: r)
      end
  end.
Definition format_row (fs : list (nat * nat * conv)) (args : list arg) : res text :=
  do r <- format_fields fs args; Ok (bar :: r).
(** The line of column names. *)
Definition format_header (hs : list (nat * string)) : text :=
  bar :: concat (map (fun h => center (fst h) (txt (snd h)) ++ [bar]) hs).
Definition show_bool (b : bool) : text := txt (if b then "True" else "False").

(** ** KLDivergenceFPI.run, fit.py:370-386,412-415,426-431 *)
Definition fpi_rule : text := dashes (10 + 12 + 15 + 15 + 15 + 15 + 15 + 15 + 15 + 12).
Definition fpi_header : list (nat * string) :=
  [(10, "Iteration"); (12, "Integration"); (15, "L1"); (15, "L Infinity"); (15, "Least-squares");
   (16, "Kullback-Leibler"); (15, "Change Coeffs"); (15, "Change Exps"); (15, "Change Objective")]%nat%string.
Definition fpi_fields : list (nat * nat * conv) :=
  [(0, 10, ConvD); (1, 12, ConvF); (2, 15, ConvE); (3, 15, ConvF); (4, 15, ConvE); (5, 16, ConvE); (6, 15, ConvE);
   (7, 15, ConvE); (8, 15, ConvE)]%nat.
(** The loop with the line printed at the end of its body; the lines and the outcome. *)
Fixpoint fpi_loop_disp (f : fpi) (oc oe : bool) (th : thresholds) (maxiter : Z) (fuel : nat) (s : fstate)
  : list text * res fstate :=
  match fuel with
  | O => ([], Ok s)
  | S k =>
      if go_on th maxiter s then
        match fpi_step f oc oe s with
        | Raise x => ([], Raise x)
        | Ok s' =>
            match format_row fpi_fields
                    (AInt (st_niter s') :: map ANum (last (st_perf s') []) ++ map ANum [st_dc s'; st_de s'; st_dd s']) with
            | Raise x => ([], Raise x)
            | Ok l => let (ls, r) := fpi_loop_disp f oc oe th maxiter k s' in (l :: ls, r)
            end
        end
      else ([], Ok s)
  end.
(** fit.py:344-440; [seconds] is the text of the elapsed time. *)
Definition fpi_run_disp (seconds : text) (f : fpi) (c0 e0 : pyval) (oc oe : bool) (maxiter : Z) (th : thresholds)
  : list text * res fpi_result :=
  match c0, e0 with
  | VArr (A1 cs), VArr (A1 es) =>
      if negb (Z.of_nat (length cs) =? g_nbasis (ft_model (fp_fit f)))%Z then ([], Raise ValueError) else
      if negb (Z.of_nat (length es) =? g_nbasis (ft_model (fp_fit f)))%Z then ([], Raise ValueError) else
      let (rows, r) := fpi_loop_disp f oc oe th maxiter (Z.to_nat maxiter) (mkState cs es PInf PInf PInf [] [] 0) in
      let top := [fpi_rule; format_header fpi_header; fpi_rule] in
      match r with
      | Raise x => (top ++ rows, Raise x)
      | Ok s =>
          let failed := ((maxiter =? st_niter s)%Z && xltb (th_d th) (st_dd s)) || xisnan (st_dd s) in
          (top ++ rows ++ [fpi_rule; txt "Successful?: " ++ show_bool (negb failed);
                           txt "Time: " ++ seconds ++ txt " seconds"; txt "Coefficients " ++ show_arr (st_cs s);
                           txt "Exponents " ++ show_arr (st_es s)],
           Ok (mkFpiRes (st_cs s) (st_es s) (st_fun s) (negb failed) (st_perf s)))
      end
  | VArr _, VArr _ => ([], Raise ValueError)
  | _, _ => ([], Raise TypeError)
  end.

(** ** ScipyFit.run, fit.py:606-650,680-688 *)
Definition scipy_rule : text := dashes (10 + 12 + 15 + 15 + 15 + 12).
Definition scipy_header : list (nat * string) :=
  [(12, "Integration"); (15, "L1"); (15, "L Infinity"); (15, "Least-squares"); (16, "Kullback-Leibler")]%nat%string.
Definition scipy_fields : list (nat * nat * conv) :=
  [(0, 12, ConvF); (1, 15, ConvE); (2, 15, ConvF); (3, 15, ConvE); (4, 16, ConvE)]%nat.
(** The line of "trust-constr", fit.py:637-640. *)
Definition trust_line (g : list xr) : res text :=
  match g with
  | i0 :: i1 :: i2 :: i3 :: i4 :: _ =>
      Ok (txt "Integration: " ++ rjust 10 (show_fix i0) ++ txt ",  L1: " ++ rjust 10 (show_exp i1) ++
          txt ",  L Infinity: " ++ rjust 10 (show_fix i2) ++ txt ", Least Squares: " ++ rjust 10 (show_exp i3) ++
          txt ",  Kullback-Liebler: " ++ rjust 10 (show_exp i4))
  | _ => Raise IndexError
  end.
(** [print_results], fit.py:625-632,642-649. *)
Definition scipy_callback (s : scipy) (c0 e0 : list xr) (oc oe : bool) (x : list xr) : res text :=
  do g <- (if oc && oe then goodness (sc_fit s) (firstn (length c0) x) (skipn (length c0) x)
           else if oc then goodness (sc_fit s) x e0 else goodness (sc_fit s) c0 x);
  if sc_slsqp s then format_row scipy_fields (map ANum g) else trust_line g.
(** The callback on the iterates, until it raises. *)
Fixpoint callbacks (call : list xr -> res text) (xs : list (list xr)) : list text * option exn :=
  match xs with
  | [] => ([], None)
  | x :: xs' => match call x with
                | Raise e => ([], Some e)
                | Ok l => let (ls, r) := callbacks call xs' in (l :: ls, r)
                end
  end.
(** fit.py:574-698 with an arbitrary optimizer that passes iterates to the callback. *)
Definition scipy_run_disp (seconds : text) (minimize : problem -> list (list xr) * res opt_result) (s : scipy)
           (c0 e0 : list xr) (oc oe : bool) (maxiter : Z) (tol : xr) (with_constraint : bool)
  : list text * res scipy_result :=
  match scipy_problem s c0 e0 oc oe maxiter tol with_constraint with
  | Raise x => ([], Raise x)
  | Ok pb =>
      let (xs, out) := minimize pb in
      let top := if sc_slsqp s then [scipy_rule; format_header scipy_header; scipy_rule] else [] in
      let (rows, broken) := callbacks (scipy_callback s c0 e0 oc oe) xs in
      match broken, out with
      | Some x, _ => (top ++ rows, Raise x)
      | None, Raise x => (top ++ rows, Raise x)
      | None, Ok r =>
          let n := g_nbasis (ft_model (sc_fit s)) in
          let c := if oc && oe then py_slice None (Some n) (o_x r) else if oc then o_x r else c0 in
          let e := if oc && oe then py_slice (Some n) None (o_x r) else if oc then e0 else o_x r in
          (top ++ rows ++ (if sc_slsqp s then [scipy_rule] else []) ++
             [txt "Successful?: " ++ show_bool (o_success r); txt "Time: " ++ seconds ++ txt " seconds";
              txt "Scipy Message: " ++ txt (o_msg r); txt "Coefficients " ++ show_arr c; txt "Exponents " ++ show_arr e],
           do g <- goodness (sc_fit s) c e; Ok (mkScRes c e (o_fun r) (o_success r) (o_msg r) (o_jac r) g))
      end
  end.

(** ** GreedyStrategy.run, greedy.py:423-445,516-517,598-602,620-628 *)
Definition greedy_rule : text := dashes (10 + 12 + 15 + 15 + 15 + 15 + 15 + 15 + 15 + 17).
Definition greedy_header : list (nat * string) :=
  [(15, "# of Functions"); (13, "# of S-type"); (13, "# of P-type"); (15, "Integration"); (15, "L1"); (16, "L Infinity");
   (15, "Least-squares"); (16, "Kullback-Leibler"); (16, "Change Objective")]%nat%string.
Definition greedy_fields : list (nat * nat * conv) :=
  [(0, 15, ConvD); (1, 13, ConvD); (2, 13, ConvD); (3, 15, ConvF); (4, 15, ConvE); (5, 16, ConvE); (6, 15, ConvE); (7, 16, ConvE);
   (8, 16, ConvE)]%nat.
Definition greedy_args (n : Z) (k : cfg) (err : list xr) (change : xr) : list arg :=
  [AInt n; AInt (Z.of_nat (fst k)); AInt (Z.of_nat (snd k))] ++ map ANum err ++ [ANum change].
(** The loop with the line printed at the end of its body, greedy.py:520-602. *)
Fixpoint greedy_loop_disp (sy : strategy) (ch : choice) (extra : option (list xr -> res (list xr)))
         (factor0 d_threshold : xr) (max_funcs : Z) (fuel : nat) (s : gstate) : list text * option (res gstate) :=
  if greedy_go d_threshold max_funcs s then
    match fuel with
    | O => ([], None)
    | S n =>
        match greedy_body sy ch extra factor0 s with
        | Raise e => ([], Some (Raise e))
        | Ok s' =>
            match format_row greedy_fields (greedy_args (gs_n s') (gs_cfg s') (last (gs_err s') []) (xabs (xsub (gs_best s') (gs_prev s')))) with
            | Raise e => ([], Some (Raise e))
            | Ok l => let (ls, r) := greedy_loop_disp sy ch extra factor0 d_threshold max_funcs n s' in (l :: ls, r)
            end
        end
    end
  else ([], Some (Ok s)).
(** The lines after the loop, greedy.py:620-628. *)
Definition greedy_bottom (r : greedy_result) : list text :=
  [greedy_rule; txt "Successful?: " ++ show_bool (gr_success r); txt "Number of s-type: " ++ show_int (Z.of_nat (fst (gr_cfg r)));
   txt "Number of p-type: " ++ show_int (Z.of_nat (snd (gr_cfg r))); txt "Termination Information: " ++ show_exit (gr_exit r);
   txt "Objective Function: " ++ show_num (gr_fun r); txt "Coefficients " ++ show_arr (gr_coeffs r);
   txt "Exponents " ++ show_arr (gr_exps r)].
(** greedy.py:499-639. *)
Definition greedy_run_disp (sy : strategy) (ch : choice) (ob : object) (factor : pyval) (d_threshold : xr)
           (max_funcs : Z) (extra : option (list xr -> res (list xr))) (fuel : nat)
  : list text * option (res (greedy_result * object)) :=
  match factor with
  | VFloat f =>
      if xleb f (Fin 0) then ([], Some (Raise ValueError)) else
      match greedy_start sy ob f with
      | Raise e => ([], Some (Raise e))
      | Ok s0 =>
          let top := [greedy_rule; format_header greedy_header; greedy_rule] in
          match format_row greedy_fields (greedy_args 1 (gs_cfg s0) (last (gs_err s0) []) NaN) with
          | Raise e => (top, Some (Raise e))
          | Ok l0 =>
              let (rows, r) := greedy_loop_disp sy ch extra f d_threshold max_funcs fuel s0 in
              match r with
              | None => (top ++ l0 :: rows, None)
              | Some (Raise e) => (top ++ l0 :: rows, Some (Raise e))
              | Some (Ok s) =>
                  match greedy_end sy d_threshold max_funcs s with
                  | Raise e => (top ++ l0 :: rows, Some (Raise e))
                  | Ok (g, ob') => (top ++ l0 :: rows ++ greedy_bottom g, Some (Ok (g, ob')))
                  end
              end
          end
      end
  | _ => ([], Some (Raise TypeError))
  end.
End Display.
