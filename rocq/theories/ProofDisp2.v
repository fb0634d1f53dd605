(** Proofs about the printed tables: whole runs. *)
From Coq Require Import String Ascii Reals List ZArith Bool Lia.
From Verif Require Import XR PyStr PyText ModelDens ModelMeas ModelGrid ModelFit ModelGreedy ModelDisp SpecDisp SpecFit SpecStop Lists ProofFPI2 ProofFPI5 ProofDisp.
Import ListNotations.
Local Open Scope list_scope.

Section Shown.
Variable show_int : Z -> text.
Variables show_fix show_exp show_num : xr -> text.
Variable show_arr : list xr -> text.
Variable show_exit : exit_info -> text.
Notation fpid := (fpi_run_disp show_int show_fix show_exp show_arr).
Notation loopd := (fpi_loop_disp show_int show_fix show_exp).

Lemma fpi_same sec f c0 e0 oc oe maxiter th : snd (fpid sec f c0 e0 oc oe maxiter th) = fpi_run f c0 e0 oc oe maxiter th.
Proof.
  unfold fpi_run_disp, fpi_run. destruct c0 as [| | | | |[c|]| |]; try reflexivity; destruct e0 as [| | | | |[e|]| |]; try reflexivity.
  all: try (destruct (negb (Z.of_nat (length c) =? g_nbasis (ft_model (fp_fit f)))%Z); reflexivity).
  destruct (negb (Z.of_nat (length c) =? g_nbasis (ft_model (fp_fit f)))%Z); [reflexivity|].
  destruct (negb (Z.of_nat (length e) =? g_nbasis (ft_model (fp_fit f)))%Z); [reflexivity|].
  rewrite <- (loop_same show_int show_fix show_exp). destruct (loopd _ _ _ _ _ _ _) as [rows [s|x]]; reflexivity.
Qed.

Lemma fpi_lines sec f c e oc oe maxiter th r : fpi_run f (VArr (A1 c)) (VArr (A1 e)) oc oe maxiter th = Ok r ->
  exists line head rows,
    fst (fpid sec f (VArr (A1 c)) (VArr (A1 e)) oc oe maxiter th) =
      line :: head :: line :: rows ++ [line; txt "Successful?: " ++ txt (if r_success r then "True" else "False");
        txt "Time: " ++ sec ++ txt " seconds"; txt "Coefficients " ++ show_arr (r_coeffs r); txt "Exponents " ++ show_arr (r_exps r)] /\
    rule_of 139 line /\ table_row [10; 12; 15; 15; 15; 16; 15; 15; 15]%nat fpi_names head /\
    length rows = length (r_fun r) /\
    forall j, (j < length rows)%nat -> exists dc de dd, moved f oc oe c e (S j) dc de dd /\
      fpi_row show_int show_fix show_exp (Z.of_nat (S j)) (nth j (r_perf r) []) dc de dd (nth j rows []).
Proof.
  unfold fpi_run, fpi_run_disp. intros H.
  destruct (negb (Z.of_nat (length c) =? g_nbasis (ft_model (fp_fit f)))%Z); [discriminate|].
  destruct (negb (Z.of_nat (length e) =? g_nbasis (ft_model (fp_fit f)))%Z); [discriminate|].
  destruct (fpi_loop _ _ _ _ _ _ _) as [s|] eqn:E; [|discriminate]. cbn [bind] in H. injection H as <-.
  destruct (loop_rows show_int show_fix show_exp f oc oe th maxiter c e (Z.to_nat maxiter) _ 0%nat (init_trace f oc oe c e)) as [A B].
  assert (S1 := loop_same show_int show_fix show_exp f oc oe th maxiter (Z.to_nat maxiter) (mkState c e PInf PInf PInf [] [] 0)).
  destruct (loopd _ _ _ _ _ _ _) as [rows r0]. cbn [fst snd] in *. rewrite E in S1. subst r0. destruct (B s E) as (L & sf & T & <-). cbn [Nat.add] in *.
  exists fpi_rule, (format_header fpi_header), rows. cbn [fst app r_success r_coeffs r_exps r_fun r_perf]. split; [reflexivity|].
  split; [apply dashes_rule|]. split; [apply (header_row fpi_header)|]. split; [symmetry; exact L|].
  intros j Hj. destruct (A j Hj) as (cj & ej & g & dc & de & dd & I & G & M & Row). exists dc, de, dd. split; [exact M|].
  destruct (to_rows _ _ _ _ _ _ _ T j Hj) as (cj' & ej' & I' & G' & _). rewrite I in I'. injection I' as <- <-. rewrite G in G'. injection G' as <-. exact Row.
Qed.

(** A run that raises has printed nothing, or the head and the rows of the iterations before. *)
Lemma fpi_lines_raise sec f c0 e0 oc oe maxiter th x : fpi_run f c0 e0 oc oe maxiter th = Raise x ->
  fst (fpid sec f c0 e0 oc oe maxiter th) = [] \/
  exists c e line head rows, c0 = VArr (A1 c) /\ e0 = VArr (A1 e) /\
    fst (fpid sec f c0 e0 oc oe maxiter th) = line :: head :: line :: rows /\
    rule_of 139 line /\ table_row [10; 12; 15; 15; 15; 16; 15; 15; 15]%nat fpi_names head /\
    forall j, (j < length rows)%nat -> exists cj ej g dc de dd, iterate f oc oe (S j) c e = Ok (cj, ej) /\ goodness (fp_fit f) cj ej = Ok g /\
      moved f oc oe c e (S j) dc de dd /\ fpi_row show_int show_fix show_exp (Z.of_nat (S j)) g dc de dd (nth j rows []).
Proof.
  unfold fpi_run, fpi_run_disp. intros H.
  destruct c0 as [| | | | |[c|]| |]; try (left; reflexivity); destruct e0 as [| | | | |[e|]| |]; try (left; reflexivity).
  destruct (negb (Z.of_nat (length c) =? g_nbasis (ft_model (fp_fit f)))%Z); [left; reflexivity|].
  destruct (negb (Z.of_nat (length e) =? g_nbasis (ft_model (fp_fit f)))%Z); [left; reflexivity|].
  right. exists c, e. destruct (fpi_loop _ _ _ _ _ _ _) as [s|y] eqn:E; [discriminate|].
  destruct (loop_rows show_int show_fix show_exp f oc oe th maxiter c e (Z.to_nat maxiter) _ 0%nat (init_trace f oc oe c e)) as [A _].
  assert (S1 := loop_same show_int show_fix show_exp f oc oe th maxiter (Z.to_nat maxiter) (mkState c e PInf PInf PInf [] [] 0)).
  destruct (loopd _ _ _ _ _ _ _) as [rows r0]. cbn [fst snd] in *. rewrite E in S1. subst r0.
  exists fpi_rule, (format_header fpi_header), rows. split; [reflexivity|]. split; [reflexivity|]. split; [reflexivity|].
  split; [apply dashes_rule|]. split; [apply (header_row fpi_header)|]. exact A.
Qed.

(** *** ScipyFit *)
Notation scid := (scipy_run_disp show_int show_fix show_exp show_arr).
Notation call := (scipy_callback show_int show_fix show_exp).

Lemma stands_goodness s c0 e0 oc oe x : (oc || oe = true) -> exists c e, stands c0 e0 oc oe x c e /\
  forall b, call s c0 e0 oc oe x = b -> b = do g <- goodness (sc_fit s) c e; if sc_slsqp s then format_row show_int show_fix show_exp scipy_fields (map ANum g) else trust_line show_fix show_exp g.
Proof.
  intros O. unfold scipy_callback. destruct oc, oe; try discriminate; cbn [andb stands].
  - exists (firstn (length c0) x), (skipn (length c0) x). split; [split; [symmetry; apply firstn_skipn | apply firstn_length]|]. intros b <-. reflexivity.
  - exists x, e0. split; [auto|]. intros b <-. reflexivity.
  - exists c0, x. split; [auto|]. intros b <-. reflexivity.
Qed.

(** Iterates that can be evaluated. *)
Lemma callbacks_ok s c0 e0 oc oe xs : oc || oe = true ->
  (forall x c e, In x xs -> stands c0 e0 oc oe x c e -> exists g, goodness (sc_fit s) c e = Ok g) ->
  exists rows, callbacks (call s c0 e0 oc oe) xs = (rows, None) /\
    Forall2 (fun x u => exists c e g, stands c0 e0 oc oe x c e /\ goodness (sc_fit s) c e = Ok g /\
       (sc_slsqp s = true -> slsqp_row show_fix show_exp g u) /\ (sc_slsqp s = false -> trust_line show_fix show_exp g = Ok u)) xs rows.
Proof.
  intros O. induction xs as [|x xs IH]; intros H; cbn [callbacks].
  - exists []. split; [reflexivity | constructor].
  - destruct (stands_goodness s c0 e0 oc oe x O) as (c & e & St & Eq). rewrite (Eq _ eq_refl).
    destruct (H x c e (or_introl eq_refl) St) as (g & G). rewrite G. cbn [bind].
    destruct (IH (fun x c e I => H x c e (or_intror I))) as (rows & Eb & F). rewrite Eb.
    assert (Five := goodness_five _ _ _ _ G). destruct (sc_slsqp s) eqn:Es.
    + destruct (slsqp_format show_int show_fix show_exp g Five) as (u & Eu & Row). rewrite Eu.
      exists (u :: rows). split; [reflexivity|]. constructor; [|exact F]. exists c, e, g. repeat split; auto. discriminate.
    + destruct Five as (i & l1 & linf & ls & kl & ->).
      exists ((txt "Integration: " ++ rjust 10 (show_fix i) ++ txt ",  L1: " ++ rjust 10 (show_exp l1) ++
          txt ",  L Infinity: " ++ rjust 10 (show_fix linf) ++ txt ", Least Squares: " ++ rjust 10 (show_exp ls) ++
          txt ",  Kullback-Liebler: " ++ rjust 10 (show_exp kl)) :: rows). split; [reflexivity|].
      constructor; [|exact F]. exists c, e, [i; l1; linf; ls; kl]. repeat split; auto. discriminate.
Qed.

Lemma scipy_same sec minimize s c0 e0 oc oe maxiter tol wc :
  (forall pb x c e, scipy_problem s c0 e0 oc oe maxiter tol wc = Ok pb -> In x (fst (minimize pb)) -> stands c0 e0 oc oe x c e ->
     exists g, goodness (sc_fit s) c e = Ok g) ->
  snd (scid sec minimize s c0 e0 oc oe maxiter tol wc) = scipy_run (fun pb => snd (minimize pb)) s c0 e0 oc oe maxiter tol wc.
Proof.
  intros H. unfold scipy_run_disp, scipy_run. destruct (scipy_problem s c0 e0 oc oe maxiter tol wc) as [pb|x] eqn:E; [|reflexivity]. cbn [bind].
  assert (O : oc || oe = true) by (destruct oc, oe; try reflexivity; discriminate E).
  specialize (fun x c e => H pb x c e eq_refl). destruct (minimize pb) as [xs out]. cbn [fst snd] in *.
  destruct (callbacks_ok s c0 e0 oc oe xs O H) as (rows & Eb & _). rewrite Eb. destruct out as [r|x]; reflexivity.
Qed.

Lemma callbacks_stop (h : list xr -> res text) xs rows x y xs' : callbacks h xs = (rows, None) -> h x = Raise y -> callbacks h (xs ++ x :: xs') = (rows, Some y).
Proof.
  revert rows. induction xs as [|a xs IH]; intros rows E X; cbn [app callbacks] in *.
  - injection E as <-. rewrite X. reflexivity.
  - destruct (h a) as [l|]; [|discriminate E]. destruct (callbacks h xs) as [ls [z|]]; [discriminate E|]. injection E as <-. rewrite (IH ls eq_refl X). reflexivity.
Qed.
Lemma scipy_raise sec minimize s c0 e0 oc oe maxiter tol wc pb xs x xs' c e y :
  scipy_problem s c0 e0 oc oe maxiter tol wc = Ok pb -> fst (minimize pb) = xs ++ x :: xs' ->
  (forall x c e, In x xs -> stands c0 e0 oc oe x c e -> exists g, goodness (sc_fit s) c e = Ok g) ->
  stands c0 e0 oc oe x c e -> goodness (sc_fit s) c e = Raise y ->
  snd (scid sec minimize s c0 e0 oc oe maxiter tol wc) = Raise y /\
  length (fst (scid sec minimize s c0 e0 oc oe maxiter tol wc)) = ((if sc_slsqp s then 3 else 0) + length xs)%nat.
Proof.
  intros E M H St G. unfold scipy_run_disp. rewrite E. assert (O : oc || oe = true) by (destruct oc, oe; try reflexivity; discriminate E).
  destruct (minimize pb) as [l out]. cbn [fst] in M. subst l. destruct (callbacks_ok s c0 e0 oc oe xs O H) as (rows & Eb & F).
  assert (X : call s c0 e0 oc oe x = Raise y).
  { unfold scipy_callback. destruct oc, oe; try discriminate O; cbn [andb stands] in *.
    - destruct St as [-> L]. assert (P : firstn (length c0) (c ++ e) = c /\ skipn (length c0) (c ++ e) = e).
      { rewrite app_length in L. destruct (Nat.le_gt_cases (length c0) (length c + length e)) as [K|K].
        - rewrite Nat.min_l in L by exact K. rewrite <- L. split; [rewrite firstn_app, firstn_all, Nat.sub_diag; cbn; apply app_nil_r | rewrite skipn_app, skipn_all, Nat.sub_diag; reflexivity].
        - rewrite Nat.min_r in L by lia. destruct e as [|z e]; [|cbn in L; lia]. rewrite app_nil_r. cbn in K. rewrite Nat.add_0_r in K.
          split; [apply firstn_all2; lia | apply skipn_all2; lia]. }
      destruct P as [-> ->]. rewrite G. reflexivity.
    - destruct St as [-> ->]. rewrite G. reflexivity.
    - destruct St as [-> ->]. rewrite G. reflexivity. }
  rewrite (callbacks_stop _ _ _ _ _ xs' Eb X). split; [reflexivity|]. cbn [fst]. rewrite app_length. assert (L : length xs = length rows) by (clear - F; induction F as [|? ? ? ? _ _ IH]; cbn; congruence).
  rewrite L. destruct (sc_slsqp s); reflexivity.
Qed.

Lemma scipy_lines sec minimize s c0 e0 oc oe maxiter tol wc r pb :
  scipy_problem s c0 e0 oc oe maxiter tol wc = Ok pb ->
  (forall x c e, In x (fst (minimize pb)) -> stands c0 e0 oc oe x c e -> exists g, goodness (sc_fit s) c e = Ok g) ->
  scipy_run (fun pb => snd (minimize pb)) s c0 e0 oc oe maxiter tol wc = Ok r ->
  exists top rows bottom, fst (scid sec minimize s c0 e0 oc oe maxiter tol wc) =
      top ++ rows ++ bottom ++ [txt "Successful?: " ++ txt (if q_success r then "True" else "False"); txt "Time: " ++ sec ++ txt " seconds";
        txt "Scipy Message: " ++ txt (q_msg r); txt "Coefficients " ++ show_arr (q_coeffs r); txt "Exponents " ++ show_arr (q_exps r)] /\
    (if sc_slsqp s then exists line head, top = [line; head; line] /\ bottom = [line] /\ rule_of 79 line /\ table_row [12; 15; 15; 15; 16]%nat scipy_names head
     else top = [] /\ bottom = []) /\
    Forall2 (fun x u => exists c e g, stands c0 e0 oc oe x c e /\ goodness (sc_fit s) c e = Ok g /\
       (sc_slsqp s = true -> slsqp_row show_fix show_exp g u) /\ (sc_slsqp s = false -> trust_line show_fix show_exp g = Ok u)) (fst (minimize pb)) rows.
Proof.
  intros E H R. unfold scipy_run in R. rewrite E in R. cbn [bind] in R. unfold scipy_run_disp. rewrite E.
  assert (O : oc || oe = true) by (destruct oc, oe; try reflexivity; discriminate E).
  destruct (minimize pb) as [xs [o|x]]; cbn [fst snd] in *; [|discriminate R]. cbn [bind] in R.
  destruct (callbacks_ok s c0 e0 oc oe xs O H) as (rows & Eb & F). rewrite Eb.
  destruct (goodness _ _ _) as [g|] eqn:G in R; [|discriminate R]. cbn [bind] in R. injection R as <-. cbn [q_success q_msg q_coeffs q_exps].
  exists (if sc_slsqp s then [scipy_rule; format_header scipy_header; scipy_rule] else []), rows, (if sc_slsqp s then [scipy_rule] else []).
  split; [reflexivity|]. split; [|exact F]. destruct (sc_slsqp s); [|auto].
  exists scipy_rule, (format_header scipy_header). split; [reflexivity|]. split; [reflexivity|]. split; [apply dashes_rule | apply (header_row scipy_header)].
Qed.

(** The row of the returned vector shows the returned performance. *)
Lemma scipy_final minimize s c0 e0 oc oe maxiter tol wc r pb o c e g :
  Z.of_nat (length c0) = g_nbasis (ft_model (sc_fit s)) -> (length c0 <= length (o_x o))%nat ->
  scipy_problem s c0 e0 oc oe maxiter tol wc = Ok pb -> minimize pb = Ok o ->
  scipy_run minimize s c0 e0 oc oe maxiter tol wc = Ok r -> stands c0 e0 oc oe (o_x o) c e -> goodness (sc_fit s) c e = Ok g ->
  q_perf r = g.
Proof.
  intros N L E M R St G. unfold scipy_run in R. rewrite E in R. cbn [bind] in R. rewrite M in R. cbn [bind] in R.
  destruct oc, oe; cbn [andb stands] in *; try discriminate E.
  - destruct St as [X Y].
    assert (C : py_slice None (Some (g_nbasis (ft_model (sc_fit s)))) (o_x o) = c /\ py_slice (Some (g_nbasis (ft_model (sc_fit s)))) None (o_x o) = e).
    { rewrite <- N. unfold py_slice, py_bound. cbv zeta. assert (L1 : length (o_x o) = (length c + length e)%nat) by (rewrite X; apply app_length).
      assert (Lc : length c = length c0) by lia. destruct (Z.ltb_spec (Z.of_nat (length c0)) 0); [lia|].
      rewrite !Z.min_l by lia. rewrite L1. replace (Z.to_nat (Z.of_nat (length c0) - 0)) with (length c) by lia.
      replace (Z.to_nat (Z.of_nat (length c + length e) - Z.of_nat (length c0))) with (length e) by lia. replace (Z.to_nat (Z.of_nat (length c0))) with (length c) by lia.
      cbn [Z.to_nat skipn]. rewrite X. split.
      - rewrite firstn_app, Nat.sub_diag, firstn_all, firstn_O. apply app_nil_r.
      - rewrite skipn_app, Nat.sub_diag, skipn_all, skipn_O. cbn [app]. apply firstn_all. }
    destruct C as [C1 C2]. rewrite C1, C2, G in R. cbn [bind] in R. injection R as <-. reflexivity.
  - destruct St as [-> ->]. rewrite G in R. injection R as <-. reflexivity.
  - destruct St as [-> ->]. rewrite G in R. injection R as <-. reflexivity.
Qed.
Lemma trust_shown g u : trust_line show_fix show_exp g = Ok u -> five g -> trust_row show_fix show_exp g u.
Proof.
  intros H (i & l1 & linf & ls & kl & ->). cbn [trust_line] in H. injection H as <-.
  do 10 eexists. split; [exists i, l1, linf, ls, kl; split; reflexivity|]. split; [|reflexivity].
  assert (A : forall t, at_right 10 t (rjust 10 t)).
  { intros t. exists (10 - length t)%nat. split; [reflexivity|]. unfold rjust. rewrite app_length, repeat_length. lia. }
  repeat apply Forall2_cons; try apply A. constructor.
Qed.
End Shown.
