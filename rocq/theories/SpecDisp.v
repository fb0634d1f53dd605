(** What the properties about printed tables say, without reference to the model of printing. *)
From Coq Require Import String Ascii Reals List ZArith Bool.
From Verif Require Import XR PyText ModelDens ModelMeas ModelFit ModelGreedy.
Import ListNotations.
Local Open Scope list_scope.

(** [u] is [t] in the middle of [w] characters, the larger part of the blanks to the right, or [t]
    itself when it is longer. *)
Definition centred (w : nat) (t u : text) : Prop :=
  exists a b, u = repeat " "%char a ++ t ++ repeat " "%char b /\ (b = a \/ b = S a) /\ length u = Nat.max w (length t).
(** A line of cells between bars. *)
Inductive table_row : list nat -> list text -> text -> Prop :=
| row_end : table_row [] [] ["|"%char]
| row_cell w t u ws ts r : centred w t u -> table_row ws ts r -> table_row (w :: ws) (t :: ts) ("|"%char :: u ++ r).
(** Every text fits in its column. *)
Definition fit_columns (ws : list nat) (ts : list text) : Prop := Forall2 (fun w t => length t <= w)%nat ws ts.
(** [n] dashes. *)
Definition rule_of (n : nat) (t : text) : Prop := length t = n /\ forall c, In c t -> c = "-"%char.

Section Shown.
Variable show_int : Z -> text.
Variables show_fix show_exp : xr -> text.
(** The five errors of [goodness_of_fit] as they are written: [third] writes the largest difference, which
    the tables write in different ways. *)
Definition errors_shown (third : xr -> text) (g : list xr) (ts : list text) : Prop :=
  exists i l1 linf ls kl, g = [i; l1; linf; ls; kl] /\ ts = [show_fix i; show_exp l1; third linf; show_exp ls; show_exp kl].

(** A row of the self-consistent method, fit.py:384-386. *)
Definition fpi_row (n : Z) (g : list xr) (dc de dd : xr) (u : text) : Prop :=
  exists ts, errors_shown show_fix g ts /\
    table_row [10; 12; 15; 15; 15; 16; 15; 15; 15]%nat (show_int n :: ts ++ [show_exp dc; show_exp de; show_exp dd]) u.
(** A row of ScipyFit with "slsqp", fit.py:620-623. *)
Definition slsqp_row (g : list xr) (u : text) : Prop :=
  exists ts, errors_shown show_fix g ts /\ table_row [12; 15; 15; 15; 16]%nat ts u.
(** [u] is [t] at the right end of [w] characters. *)
Definition at_right (w : nat) (t u : text) : Prop := exists a, u = repeat " "%char a ++ t /\ length u = Nat.max w (length t).
(** A line of ScipyFit with "trust-constr", fit.py:637-640. *)
Definition trust_row (g : list xr) (u : text) : Prop :=
  exists t1 t2 t3 t4 t5 u1 u2 u3 u4 u5, errors_shown show_fix g [t1; t2; t3; t4; t5] /\
    Forall2 (at_right 10) [t1; t2; t3; t4; t5] [u1; u2; u3; u4; u5] /\
    u = txt "Integration: " ++ u1 ++ txt ",  L1: " ++ u2 ++ txt ",  L Infinity: " ++ u3 ++ txt ", Least Squares: " ++ u4 ++
        txt ",  Kullback-Liebler: " ++ u5.
(** A row of the greedy method, greedy.py:438-441. *)
Definition greedy_row (n : Z) (k : cfg) (g : list xr) (change : xr) (u : text) : Prop :=
  exists ts, errors_shown show_exp g ts /\
    table_row [15; 13; 13; 15; 15; 16; 15; 16; 16]%nat
      ([show_int n; show_int (Z.of_nat (fst k)); show_int (Z.of_nat (snd k))] ++ ts ++ [show_exp change]) u.
End Shown.

(** What a round of the greedy method leaves: the accepted fit by its place in the list of errors and its objective,
    numbers of functions and the last change of the objective. *)
Record round := mkRound { rd_place : nat; rd_val : xr; rd_n : Z; rd_cfg : cfg; rd_change : xr }.
Definition wider (inc : nat) (k k' : cfg) : Prop := k' = (fst k + inc, snd k)%nat \/ k' = (fst k, snd k + inc)%nat.
(** A round finds nothing better; accepts a fit; or meets an objective that is not a number. *)
Definition next_round (sy : strategy) (inc : nat) (pars : list (list xr)) (first : nat) (a b : round) : Prop :=
  b = a \/
  (rd_place b = S (rd_place a) /\ rd_n b = (rd_n a + Z.of_nat inc)%Z /\ wider inc (rd_cfg a) (rd_cfg b) /\
   sy_obj sy (rd_cfg b) (nth (rd_place b - first) pars []) = Ok (rd_val b) /\ xleb (rd_val b) (rd_val a) = true /\
   rd_change b = xabs (xsub (rd_val b) (rd_val a))) \/
  (rd_place b = rd_place a /\ rd_n b = (rd_n a + Z.of_nat inc)%Z /\ wider inc (rd_cfg a) (rd_cfg b) /\ rd_val b = rd_val a /\
   rd_change b = rd_change a /\ exists p v, sy_obj sy (rd_cfg b) p = Ok v /\ xltb (rd_val a) v = false /\ xleb v (rd_val a) = false).
(** The rounds one after the other. *)
Fixpoint rounds (step : round -> round -> Prop) (a : round) (l : list round) : Prop :=
  match l with [] => True | b :: l' => step a b /\ rounds step b l' end.

(** The coefficients and exponents that a vector of ScipyFit stands for. *)
Definition stands (c0 e0 : list xr) (oc oe : bool) (x c e : list xr) : Prop :=
  match oc, oe with
  | true, true => x = c ++ e /\ length c = Nat.min (length c0) (length x)
  | true, false => c = x /\ e = e0
  | false, _ => c = c0 /\ e = x
  end.

(** Errors come in fives, as those of [goodness_of_fit]. *)
Definition five (g : list xr) : Prop := exists i l1 linf ls kl, g = [i; l1; linf; ls; kl].
Definition fives (sy : strategy) : Prop := forall k p g, sy_good sy k p = Ok g -> five g.

(** Column names, fit.py:374-382,613-618 and greedy.py:428-436. *)
Definition fpi_names : list text := map txt ["Iteration"; "Integration"; "L1"; "L Infinity"; "Least-squares"; "Kullback-Leibler"; "Change Coeffs"; "Change Exps"; "Change Objective"]%string.
Definition scipy_names : list text := map txt ["Integration"; "L1"; "L Infinity"; "Least-squares"; "Kullback-Leibler"]%string.
Definition greedy_names : list text := map txt ["# of Functions"; "# of S-type"; "# of P-type"; "Integration"; "L1"; "L Infinity"; "Least-squares"; "Kullback-Leibler"; "Change Objective"]%string.
