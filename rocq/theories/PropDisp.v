(** Property C117: what the fits print with [disp=True] (/repo/bfit/fit.py, /repo/bfit/greedy.py). *)
From Coquelicot Require Import Coquelicot.
From Coq Require Import String Ascii.
From Coq Require Import Reals ZArith Lia Lra Bool List.
From Verif Require Import XR PyStr PyText SpecDens SpecMeas SpecGrid ModelDens ModelMeas ModelGrid ModelFit ModelGreedy Lists SpecFit SpecStop SpecGreedy
  ModelDisp SpecDisp ProofFPI4 ProofScipy ProofFitEx ProofGreedy6 ProofGreedyEx ProofGreedyEx2 ProofDisp ProofDisp2 ProofDisp3 ProofDisp4.
Import ListNotations.
Local Open Scope list_scope.

(** Texts of numbers for the examples; every finite number has the same. *)
Definition ex_int (z : Z) : text := txt (if (z =? 1)%Z then "1" else if (z =? 2)%Z then "2" else "0").
Definition ex_num (x : xr) : text := txt match x with Fin _ => "5.000000e-01" | PInf => "inf" | NInf => "-inf" | NaN => "nan" end.
Definition ex_arr (l : list xr) : text := txt "[" ++ concat (map ex_num l) ++ txt "]".
Definition ex_exit (e : exit_info) : text := txt "stopped".

(** ** C117 *)
(** Printing does not change the result of the self-consistent method, nor which error it raises. *)
Theorem C117_fpi_same : forall show_int show_fix show_exp show_arr sec f c0 e0 oc oe maxiter th,
  snd (fpi_run_disp show_int show_fix show_exp show_arr sec f c0 e0 oc oe maxiter th) = fpi_run f c0 e0 oc oe maxiter th.
Proof. exact fpi_same. Qed.
Print Assumptions C117_fpi_same.

(** Its table: one row for each iteration with its number, its errors as they are returned, and the changes. *)
Theorem C117_fpi_lines : forall show_int show_fix show_exp show_arr sec f c e oc oe maxiter th r,
  fpi_run f (VArr (A1 c)) (VArr (A1 e)) oc oe maxiter th = Ok r ->
  exists line head rows,
    fst (fpi_run_disp show_int show_fix show_exp show_arr sec f (VArr (A1 c)) (VArr (A1 e)) oc oe maxiter th) =
      line :: head :: line :: rows ++ [line; txt "Successful?: " ++ txt (if r_success r then "True" else "False");
        txt "Time: " ++ sec ++ txt " seconds"; txt "Coefficients " ++ show_arr (r_coeffs r); txt "Exponents " ++ show_arr (r_exps r)] /\
    rule_of 139 line /\ table_row [10; 12; 15; 15; 15; 16; 15; 15; 15]%nat fpi_names head /\
    length rows = length (r_fun r) /\
    forall j, (j < length rows)%nat -> exists dc de dd, moved f oc oe c e (S j) dc de dd /\
      fpi_row show_int show_fix show_exp (Z.of_nat (S j)) (nth j (r_perf r) []) dc de dd (nth j rows []).
Proof. exact fpi_lines. Qed.
Print Assumptions C117_fpi_lines.

(** The lines of a run that ends after two iterations. *)
Example C117_fpi_example :
  fst (fpi_run_disp ex_int ex_num ex_num ex_arr (txt "0.25") nan_fpi (VArr (A1 (map Fin [1%R]))) (VArr (A1 (map Fin [PI]))) true true 500 default_thr) =
  [repeat "-"%char 139;
   txt "|Iteration |Integration |      L1       |  L Infinity   | Least-squares |Kullback-Leibler| Change Coeffs |  Change Exps  |Change Objective|";
   repeat "-"%char 139;
   txt "|    1     |    nan     |      nan      |      nan      |      nan      |  5.000000e-01  | 5.000000e-01  |      inf      |      inf      |";
   txt "|    2     |    nan     |      nan      |      nan      |      nan      |  5.000000e-01  |      nan      |      nan      | 5.000000e-01  |";
   repeat "-"%char 139;
   txt "Successful?: True"; txt "Time: 0.25 seconds"; txt "Coefficients [nan]"; txt "Exponents [nan]"].
Proof.
  unfold fpi_run_disp. cbn [map]. assert (En : exists n, Z.to_nat 500 = S (S (S n))) by (exists (Z.to_nat 497); lia). destruct En as [n ->].
  cbn [fpi_loop_disp]. change (go_on default_thr 500 (mkState [Fin 1] [Fin PI] PInf PInf PInf [] [] 0)) with true. cbv iota. rewrite nan_step1.
  match goal with |- context [go_on default_thr 500 ?s] => assert (G : go_on default_thr 500 s = true) by reflexivity; rewrite G end.
  rewrite nan_step2.
  match goal with |- context [go_on default_thr 500 ?s] => assert (G' : go_on default_thr 500 s = false) by reflexivity; rewrite G' end.
  cbn. reflexivity.
Qed.

(** When it raises an error after the table has begun, the rows are those of the completed iterations. *)
Theorem C117_fpi_raise : forall show_int show_fix show_exp show_arr sec f c0 e0 oc oe maxiter th x,
  fpi_run f c0 e0 oc oe maxiter th = Raise x ->
  let lines := fst (fpi_run_disp show_int show_fix show_exp show_arr sec f c0 e0 oc oe maxiter th) in
  lines = [] \/
  exists c e line head rows, c0 = VArr (A1 c) /\ e0 = VArr (A1 e) /\ lines = line :: head :: line :: rows /\
    rule_of 139 line /\ table_row [10; 12; 15; 15; 15; 16; 15; 15; 15]%nat fpi_names head /\
    forall j, (j < length rows)%nat -> exists cj ej g dc de dd, iterate f oc oe (S j) c e = Ok (cj, ej) /\ goodness (fp_fit f) cj ej = Ok g /\
      moved f oc oe c e (S j) dc de dd /\ fpi_row show_int show_fix show_exp (Z.of_nat (S j)) g dc de dd (nth j rows []).
Proof. exact fpi_lines_raise. Qed.
Print Assumptions C117_fpi_raise.

(** With nothing to optimize the error comes after the header. *)
Example C117_raise_example :
  fpi_run nan_fpi (VArr (A1 (map Fin [1%R]))) (VArr (A1 (map Fin [PI]))) false false 500 default_thr = Raise ValueError /\
  length (fst (fpi_run_disp ex_int ex_num ex_num ex_arr [] nan_fpi (VArr (A1 (map Fin [1%R]))) (VArr (A1 (map Fin [PI]))) false false 500 default_thr)) = 3%nat /\
  fst (fpi_run_disp ex_int ex_num ex_num ex_arr [] nan_fpi (VArr (A1 [])) (VArr (A1 (map Fin [PI]))) true true 500 default_thr) = [].
Proof.
  assert (En : exists n, Z.to_nat 500 = S n) by (exists (Z.to_nat 499); lia). destruct En as [n En].
  split; [|split; [|reflexivity]]; [unfold fpi_run|unfold fpi_run_disp]; cbn [map]; rewrite En; reflexivity.
Qed.

(** Printing does not change the result of ScipyFit when the errors exist for every vector given to the callback. *)
Theorem C117_scipy_same : forall show_int show_fix show_exp show_arr sec minimize s c0 e0 oc oe maxiter tol wc,
  (forall pb x c e, scipy_problem s c0 e0 oc oe maxiter tol wc = Ok pb -> In x (fst (minimize pb)) -> stands c0 e0 oc oe x c e ->
     exists g, goodness (sc_fit s) c e = Ok g) ->
  snd (scipy_run_disp show_int show_fix show_exp show_arr sec minimize s c0 e0 oc oe maxiter tol wc) =
  scipy_run (fun pb => snd (minimize pb)) s c0 e0 oc oe maxiter tol wc.
Proof. exact scipy_same. Qed.
Print Assumptions C117_scipy_same.

(** Its table: one line for each of these vectors, with the errors of the parameters that the vector stands for. *)
Theorem C117_scipy_lines : forall show_int show_fix show_exp show_arr sec minimize s c0 e0 oc oe maxiter tol wc r pb,
  scipy_problem s c0 e0 oc oe maxiter tol wc = Ok pb ->
  (forall x c e, In x (fst (minimize pb)) -> stands c0 e0 oc oe x c e -> exists g, goodness (sc_fit s) c e = Ok g) ->
  scipy_run (fun pb => snd (minimize pb)) s c0 e0 oc oe maxiter tol wc = Ok r ->
  exists top rows bottom, fst (scipy_run_disp show_int show_fix show_exp show_arr sec minimize s c0 e0 oc oe maxiter tol wc) =
      top ++ rows ++ bottom ++ [txt "Successful?: " ++ txt (if q_success r then "True" else "False"); txt "Time: " ++ sec ++ txt " seconds";
        txt "Scipy Message: " ++ txt (q_msg r); txt "Coefficients " ++ show_arr (q_coeffs r); txt "Exponents " ++ show_arr (q_exps r)] /\
    (if sc_slsqp s then exists line head, top = [line; head; line] /\ bottom = [line] /\ rule_of 79 line /\ table_row [12; 15; 15; 15; 16]%nat scipy_names head
     else top = [] /\ bottom = []) /\
    Forall2 (fun x u => exists c e g, stands c0 e0 oc oe x c e /\ goodness (sc_fit s) c e = Ok g /\
       (if sc_slsqp s then slsqp_row show_fix show_exp g u else trust_row show_fix show_exp g u)) (fst (minimize pb)) rows.
Proof. exact scipy_table. Qed.
Print Assumptions C117_scipy_lines.

(** When the last vector is the one that the optimizer returns, the last row shows the errors of the result. *)
Theorem C117_scipy_final : forall minimize s c0 e0 oc oe maxiter tol wc r pb o c e g,
  Z.of_nat (length c0) = g_nbasis (ft_model (sc_fit s)) -> (length c0 <= length (o_x o))%nat ->
  scipy_problem s c0 e0 oc oe maxiter tol wc = Ok pb -> minimize pb = Ok o ->
  scipy_run minimize s c0 e0 oc oe maxiter tol wc = Ok r -> stands c0 e0 oc oe (o_x o) c e -> goodness (sc_fit s) c e = Ok g ->
  q_perf r = g.
Proof. exact scipy_final. Qed.
Print Assumptions C117_scipy_final.

(** When the errors of an iterate cannot be computed, the run with printing raises that exception after the rows
    of the iterates before it; without printing the optimizer goes on. *)
Theorem C117_scipy_raise : forall show_int show_fix show_exp show_arr sec minimize s c0 e0 oc oe maxiter tol wc pb xs x xs' c e y,
  scipy_problem s c0 e0 oc oe maxiter tol wc = Ok pb -> fst (minimize pb) = xs ++ x :: xs' ->
  (forall x c e, In x xs -> stands c0 e0 oc oe x c e -> exists g, goodness (sc_fit s) c e = Ok g) ->
  stands c0 e0 oc oe x c e -> goodness (sc_fit s) c e = Raise y ->
  let run := scipy_run_disp show_int show_fix show_exp show_arr sec minimize s c0 e0 oc oe maxiter tol wc in
  snd run = Raise y /\ length (fst run) = ((if sc_slsqp s then 3 else 0) + length xs)%nat.
Proof. intros. eapply scipy_raise; eassumption. Qed.
Print Assumptions C117_scipy_raise.

(** An optimizer that reports its starting point and returns it; the lines of both methods. *)
Definition ex_minimize (pb : problem) : list (list xr) * res opt_result :=
  ([pb_x0 pb], Ok (mkOpt (pb_x0 pb) (Fin 7) true [Fin 0] "done"%string)).
Example C117_scipy_example (b : bool) :
  let run := scipy_run_disp ex_int ex_num ex_num ex_arr (txt "0.25") ex_minimize (two_scipy b)
    (map Fin [1/3; 2/3]%R) (map Fin [PI; PI]) true true 100 (Fin 0) true in
  fst run = (if b then
  [repeat "-"%char 79; txt "|Integration |      L1       |  L Infinity   | Least-squares |Kullback-Leibler|"; repeat "-"%char 79;
   txt "|5.000000e-01| 5.000000e-01  | 5.000000e-01  | 5.000000e-01  |  5.000000e-01  |"; repeat "-"%char 79] else
  [txt "Integration: 5.000000e-01,  L1: 5.000000e-01,  L Infinity: 5.000000e-01, Least Squares: 5.000000e-01,  Kullback-Liebler: 5.000000e-01"]) ++
  [txt "Successful?: True"; txt "Time: 0.25 seconds"; txt "Scipy Message: done"; txt "Coefficients [5.000000e-015.000000e-01]";
   txt "Exponents [5.000000e-015.000000e-01]"] /\
  exists r, snd run = Ok r /\ q_fun r = Fin 7 /\ goodness two_fit (map Fin [1/3; 2/3]%R) (map Fin [PI; PI]) = Ok (q_perf r).
Proof.
  destruct (goodness_meaning two_fit two_W [1; 1]%R true two_lays nan_mask 1 [1/3; 2/3]%R [PI; PI]) as (mx & v & _ & G & _);
    [apply two_fit_setting|apply two_sized|intros _; apply two_pos_e, PI_RGT_0|apply two_positive|apply two_val_nonneg; auto|].
  cbv zeta. unfold scipy_run_disp. cbn [scipy_problem andb orb bind ex_minimize pb_x0].
  cbn [callbacks]. unfold scipy_callback. cbn [andb]. 
  change (firstn (length (map Fin [1/3; 2/3]%R)) (map Fin [1/3; 2/3]%R ++ map Fin [PI; PI])) with (map Fin [1/3; 2/3]%R).
  change (skipn (length (map Fin [1/3; 2/3]%R)) (map Fin [1/3; 2/3]%R ++ map Fin [PI; PI])) with (map Fin [PI; PI]).
  cbn [two_scipy sc_fit o_x]. rewrite G. cbn [bind sc_slsqp].
  change (py_slice None (Some (g_nbasis (ft_model two_fit))) (map Fin [1/3; 2/3]%R ++ map Fin [PI; PI])) with (map Fin [1/3; 2/3]%R).
  change (py_slice (Some (g_nbasis (ft_model two_fit))) None (map Fin [1/3; 2/3]%R ++ map Fin [PI; PI])) with (map Fin [PI; PI]).
  rewrite G. destruct b; (split; [reflexivity|]); eexists; repeat split.
Qed.
(** An optimizer that reports its starting point and then an empty vector. *)
Definition bad_minimize (pb : problem) : list (list xr) * res opt_result :=
  ([pb_x0 pb; []], Ok (mkOpt (pb_x0 pb) (Fin 7) true [Fin 0] "done"%string)).
Example C117_scipy_raise_example (b : bool) :
  let run := scipy_run_disp ex_int ex_num ex_num ex_arr (txt "0.25") bad_minimize (two_scipy b)
    (map Fin [1/3; 2/3]%R) (map Fin [PI; PI]) true true 100 (Fin 0) true in
  snd run = Raise ValueError /\ length (fst run) = (if b then 4 else 1)%nat.
Proof.
  destruct (goodness_meaning two_fit two_W [1; 1]%R true two_lays nan_mask 1 [1/3; 2/3]%R [PI; PI]) as (mx & v & _ & G & _);
    [apply two_fit_setting|apply two_sized|intros _; apply two_pos_e, PI_RGT_0|apply two_positive|apply two_val_nonneg; auto|].
  cbv zeta. assert (X := C117_scipy_raise ex_int ex_num ex_num ex_arr (txt "0.25") bad_minimize (two_scipy b) (map Fin [1/3; 2/3]%R) (map Fin [PI; PI]) true true 100 (Fin 0) true).
  cbv zeta in X. edestruct (X _ [map Fin [1/3; 2/3]%R ++ map Fin [PI; PI]] [] [] [] [] ValueError eq_refl) as [A B].
  - reflexivity.
  - intros x c e [<-|[]] [Ex L]. assert (P : c = map Fin [1/3; 2/3]%R /\ e = map Fin [PI; PI]).
    { destruct c as [|a [|a' [|a'' c]]]; try discriminate L. cbn in Ex. injection Ex as <- <- <-. split; reflexivity. }
    destruct P as [-> ->]. eexists. exact G.
  - split; reflexivity.
  - reflexivity.
  - split; [exact A|]. rewrite B. destruct b; reflexivity.
Qed.

(** Printing does not change the result of the greedy method. *)
Theorem C117_greedy_same : forall show_int show_fix show_exp show_num show_arr show_exit sy ch ob factor d mx extra fuel, fives sy ->
  snd (greedy_run_disp show_int show_fix show_exp show_num show_arr show_exit sy ch ob factor d mx extra fuel) =
  greedy_run sy ch ob factor d mx extra fuel.
Proof. exact greedy_same. Qed.
Print Assumptions C117_greedy_same.

(** Its table: the first fit, then a row for each round, with the errors of the last accepted fit, the numbers of
    functions, and the last change of the objective. *)
Theorem C117_greedy_lines : forall show_int show_fix show_exp show_num show_arr show_exit sy ch ob factor d mx extra fuel r ob',
  fives sy -> greedy_run sy ch ob factor d mx extra fuel = Some (Ok (r, ob')) ->
  exists line head u0 rows v l,
    fst (greedy_run_disp show_int show_fix show_exp show_num show_arr show_exit sy ch ob factor d mx extra fuel) =
      line :: head :: line :: u0 :: rows ++
        [line; txt "Successful?: " ++ txt (if gr_success r then "True" else "False"); txt "Number of s-type: " ++ show_int (Z.of_nat (fst (gr_cfg r)));
         txt "Number of p-type: " ++ show_int (Z.of_nat (snd (gr_cfg r))); txt "Termination Information: " ++ show_exit (gr_exit r);
         txt "Objective Function: " ++ show_num (gr_fun r); txt "Coefficients " ++ show_arr (gr_coeffs r); txt "Exponents " ++ show_arr (gr_exps r)] /\
    rule_of 144 line /\ table_row [15; 13; 13; 15; 15; 16; 15; 16; 16]%nat greedy_names head /\
    let i := length (ob_err ob) in
    greedy_row show_int show_fix show_exp 1 (ob_cfg ob) (nth i (gr_perf r) []) NaN u0 /\
    sy_obj sy (ob_cfg ob) (nth 0 (gr_params r) []) = Ok v /\
    rounds (next_round sy (increase ch) (gr_params r) i) (mkRound i v 1 (ob_cfg ob) (xabs (xsub v PInf))) l /\
    Forall2 (fun b u => greedy_row show_int show_fix show_exp (rd_n b) (rd_cfg b) (nth (rd_place b) (gr_perf r) []) (rd_change b) u) l rows /\
    let b := last l (mkRound i v 1 (ob_cfg ob) (xabs (xsub v PInf))) in
    rd_cfg b = gr_cfg r /\ S (rd_place b) = length (gr_perf r).
Proof. exact greedy_lines. Qed.
Print Assumptions C117_greedy_lines.

(** Both strategies of the library have five errors. *)
Theorem C117_strategies : forall gk gl nnls minimize rand, fives (kl_strategy gk rand) /\ fives (ls_strategy gl nnls minimize rand).
Proof. intros. split; [apply kl_fives|apply ls_fives]. Qed.
Print Assumptions C117_strategies.

(** A run of GreedyKLFPI to two functions prints at least one row below that of the first fit. *)
Example C117_greedy_example d : d <> NaN ->
  fives (kl_strategy kl_one_pt ones_rand) /\
  exists r ob, greedy_run (kl_strategy kl_one_pt ones_rand) PickOne new_object (VFloat (Fin 2)) d 2 None 1 = Some (Ok (r, ob)) /\
    total (gr_cfg r) = 2%nat /\
    exists line head u0 u rows,
    fst (greedy_run_disp ex_int ex_num ex_num ex_num ex_arr ex_exit (kl_strategy kl_one_pt ones_rand) PickOne new_object (VFloat (Fin 2)) d 2 None 1) =
      line :: head :: line :: u0 :: u :: rows /\
    greedy_row ex_int ex_num ex_num 1 (1, 0)%nat (nth 0 (gr_perf r) []) NaN u0.
Proof.
  intros H. split; [apply kl_fives|]. destruct (one_run d 0 H) as (r & ob & E & T).
  exists r, ob. split; [exact E|]. split; [exact T|].
  destruct (C117_greedy_lines ex_int ex_num ex_num ex_num ex_arr ex_exit _ _ _ _ _ _ _ _ _ _ (kl_fives _ _) E) as (line & head & u0 & rows & v & l & L & _ & _ & U & _ & _ & F & C & _).
  destruct F as [|b u l rows _ _].
  - cbn [last rd_cfg] in C. rewrite <- C in T. discriminate.
  - exists line, head, u0, u. eexists. split; [exact L|exact U].
Qed.

(** The rows are as wide as the rules when the numbers fit in their columns, except in the table of the
    self-consistent method: its last column is one character narrower than its name. *)
Theorem C117_widths :
  (forall head, table_row [10; 12; 15; 15; 15; 16; 15; 15; 15]%nat fpi_names head -> length head = 139%nat) /\
  (forall ts u, table_row [10; 12; 15; 15; 15; 16; 15; 15; 15]%nat ts u -> fit_columns [10; 12; 15; 15; 15; 16; 15; 15; 15]%nat ts -> length u = 138%nat) /\
  (forall head, table_row [12; 15; 15; 15; 16]%nat scipy_names head -> length head = 79%nat) /\
  (forall ts u, table_row [12; 15; 15; 15; 16]%nat ts u -> fit_columns [12; 15; 15; 15; 16]%nat ts -> length u = 79%nat) /\
  (forall head, table_row [15; 13; 13; 15; 15; 16; 15; 16; 16]%nat greedy_names head -> length head = 144%nat) /\
  (forall ts u, table_row [15; 13; 13; 15; 15; 16; 15; 16; 16]%nat ts u -> fit_columns [15; 13; 13; 15; 15; 16; 15; 16; 16]%nat ts -> length u = 144%nat).
Proof. exact widths. Qed.
Print Assumptions C117_widths.

Example C117_widths_example :
  let ts := map txt ["1"; "0.999998"; "1.234567e-05"; "0.000012"; "1.000000e-10"; "2.500000e-06"; "1.000000e-03"; "inf"; "inf"]%string in
  fit_columns [10; 12; 15; 15; 15; 16; 15; 15; 15]%nat ts /\
  table_row [10; 12; 15; 15; 15; 16; 15; 15; 15]%nat ts
    (txt "|    1     |  0.999998  | 1.234567e-05  |   0.000012    | 1.000000e-10  |  2.500000e-06  | 1.000000e-03  |      inf      |      inf      |").
Proof.
  split.
  - cbn [map]. repeat apply Forall2_cons; try apply Forall2_nil; cbn; lia.
  - match goal with |- table_row ?w ?t _ => exact (header_row (combine w ["1"; "0.999998"; "1.234567e-05"; "0.000012"; "1.000000e-10"; "2.500000e-06"; "1.000000e-03"; "inf"; "inf"]%string)) end.
Qed.
