(** Proofs about the printed tables: the greedy method. *)
From Coq Require Import String Ascii Reals List ZArith Bool Lia.
From Verif Require Import XR PyStr PyText ModelDens ModelMeas ModelGrid ModelFit ModelGreedy ModelDisp SpecDisp Lists ProofFPI2 ProofDisp.
Import ListNotations.
Local Open Scope list_scope.

Section Shown.
Variable show_int : Z -> text.
Variables show_fix show_exp show_num : xr -> text.
Variable show_arr : list xr -> text.
Variable show_exit : exit_info -> text.
Notation loopd := (greedy_loop_disp show_int show_fix show_exp).
Notation rund := (greedy_run_disp show_int show_fix show_exp show_num show_arr show_exit).

(** The state as a round. *)
Definition now (s : gstate) : round :=
  mkRound (length (gs_err s) - 1) (gs_best s) (gs_n s) (gs_cfg s) (xabs (xsub (gs_best s) (gs_prev s))).

Lemma body_round sy ch extra f0 s s' : fives sy -> greedy_body sy ch extra f0 s = Ok s' -> gs_err s <> [] ->
  (now s' = now s /\ gs_err s' = gs_err s /\ gs_iter s' = gs_iter s) \/
  (exists g p v, gs_err s' = gs_err s ++ [g] /\ five g /\ gs_iter s' = gs_iter s ++ [p] /\ gs_n s' = (gs_n s + Z.of_nat (increase ch))%Z /\
     wider (increase ch) (gs_cfg s) (gs_cfg s') /\ sy_obj sy (gs_cfg s') p = Ok v /\ xleb v (gs_best s) = true /\ gs_best s' = v /\ gs_prev s' = gs_best s) \/
  (gs_err s' = gs_err s /\ gs_iter s' = gs_iter s /\ gs_n s' = (gs_n s + Z.of_nat (increase ch))%Z /\
     wider (increase ch) (gs_cfg s) (gs_cfg s') /\ gs_best s' = gs_best s /\ gs_prev s' = gs_prev s /\
     exists p v, sy_obj sy (gs_cfg s') p = Ok v /\ xltb (gs_best s) v = false /\ xleb v (gs_best s) = false).
Proof.
  intros F H NE. unfold greedy_body in H. cbv zeta in H.
  destruct (match extra with None => _ | Some _ => _ end) as [total|] eqn:Et in H; [|discriminate]. cbn [bind] in H.
  destruct (find_best _ _ _ _ _ _ _ _) as [[[bv bp] is_s]|] eqn:Eb in H; [|discriminate]. cbn [bind] in H.
  destruct bp as [lp|]; [|discriminate].
  set (k' := if is_s then (fst (gs_cfg s) + increase ch, snd (gs_cfg s))%nat else (fst (gs_cfg s), snd (gs_cfg s) + increase ch)%nat) in *.
  assert (W : wider (increase ch) (gs_cfg s) k') by (unfold wider, k'; destruct is_s; auto).
  destruct (sy_opt sy _ k' lp false) as [op|] eqn:Eo in H; [|discriminate]. cbn [bind] in H.
  destruct (sy_obj sy k' op) as [v|] eqn:Ev; [|discriminate]. cbn [bind] in H.
  destruct (negb _ || negb _ || xltb (gs_best s) v) eqn:C in H.
  - injection H as <-. left. unfold now. cbn. auto.
  - apply orb_false_iff in C. destruct C as [_ C]. destruct (xleb v (gs_best s)) eqn:L.
    + destruct (sy_good sy k' op) as [g|] eqn:Eg; [|discriminate]. cbn [bind] in H. injection H as <-. right; left.
      exists g, op, v. cbn. repeat split; auto. apply (F _ _ _ Eg).
    + injection H as <-. right; right. cbn. repeat split; auto. exists op, v. auto.
Qed.

Definition inv (first : nat) (s : gstate) : Prop :=
  gs_err s <> [] /\ five (last (gs_err s) []) /\ length (gs_err s) = (first + length (gs_iter s))%nat /\ gs_iter s <> [].

Lemma body_inv sy ch extra f0 s s' first : fives sy -> inv first s -> greedy_body sy ch extra f0 s = Ok s' -> inv first s'.
Proof.
  intros F (A & B & C & D) H. unfold inv. destruct (body_round _ _ _ _ _ _ F H A) as [(_ & -> & ->)|[(g & p & v & -> & Fi & -> & _)|(-> & -> & _)]]; auto.
  rewrite last_last, !app_length. repeat split; auto; try (intros E; apply app_eq_nil in E; destruct E; discriminate). cbn. lia.
Qed.

Lemma loop_same sy ch extra f0 d mx first : fives sy -> forall fuel s, inv first s ->
  snd (loopd sy ch extra f0 d mx fuel s) = greedy_loop sy ch extra f0 d mx fuel s.
Proof.
  intros F. induction fuel as [|n IH]; intros s I; cbn [greedy_loop_disp greedy_loop]; destruct (greedy_go d mx s); try reflexivity.
  destruct (greedy_body sy ch extra f0 s) as [s'|x] eqn:E; [|reflexivity]. assert (I' := body_inv _ _ _ _ _ _ _ F I E).
  destruct (greedy_format show_int show_fix show_exp (gs_n s') (gs_cfg s') (last (gs_err s') []) (xabs (xsub (gs_best s') (gs_prev s'))) (proj1 (proj2 I'))) as (u & Eu & _).
  rewrite Eu. rewrite <- (IH s' I'). destruct (loopd _ _ _ _ _ _ _ _) as [ls r]. reflexivity.
Qed.

(** Rows and rounds; [errs] and [pars] are those at the end. *)
Definition row_of (errs : list (list xr)) (b : round) (u : text) : Prop :=
  greedy_row show_int show_fix show_exp (rd_n b) (rd_cfg b) (nth (rd_place b) errs []) (rd_change b) u.

Lemma now_last s first : inv first s -> nth (rd_place (now s)) (gs_err s) [] = last (gs_err s) [].
Proof. intros _. cbn. symmetry. apply last_nth. Qed.

Lemma grows sy ch extra f0 d mx first : fives sy -> forall fuel s s', inv first s -> greedy_loop sy ch extra f0 d mx fuel s = Some (Ok s') ->
  exists e p, gs_err s' = gs_err s ++ e /\ gs_iter s' = gs_iter s ++ p /\ inv first s'.
Proof.
  intros F. induction fuel as [|n IH]; intros s s' I H; cbn [greedy_loop] in H; destruct (greedy_go d mx s).
  - discriminate.
  - injection H as <-. exists [], []. rewrite !app_nil_r. auto.
  - destruct (greedy_body sy ch extra f0 s) as [s1|] eqn:E; [|discriminate]. assert (I1 := body_inv _ _ _ _ _ _ _ F I E).
    destruct (IH s1 s' I1 H) as (e & p & A & B & C). destruct (body_round _ _ _ _ _ _ F E (proj1 I)) as [(_ & X & Y)|[(g & q & v & X & _ & Y & _)|(X & Y & _)]].
    + exists e, p. rewrite A, B, X, Y. auto.
    + exists ([g] ++ e), ([q] ++ p). rewrite A, B, X, Y, <- !app_assoc. auto.
    + exists e, p. rewrite A, B, X, Y. auto.
  - injection H as <-. exists [], []. rewrite !app_nil_r. auto.
Qed.

Lemma loop_rounds sy ch extra f0 d mx first : fives sy -> forall fuel s s', inv first s -> greedy_loop sy ch extra f0 d mx fuel s = Some (Ok s') ->
  exists l, Forall2 (row_of (gs_err s')) l (fst (loopd sy ch extra f0 d mx fuel s)) /\
    rounds (next_round sy (increase ch) (gs_iter s') first) (now s) l /\ last l (now s) = now s'.
Proof.
  intros F. induction fuel as [|n IH]; intros s s' I H; cbn [greedy_loop_disp greedy_loop] in *; destruct (greedy_go d mx s).
  - discriminate.
  - injection H as <-. exists []. repeat split. constructor.
  - destruct (greedy_body sy ch extra f0 s) as [s1|] eqn:E; [|discriminate]. assert (I1 := body_inv _ _ _ _ _ _ _ F I E).
    destruct (grows _ _ _ _ _ _ _ F _ _ _ I1 H) as (e & p & Ae & Ap & _).
    destruct (greedy_format show_int show_fix show_exp (gs_n s1) (gs_cfg s1) (last (gs_err s1) []) (xabs (xsub (gs_best s1) (gs_prev s1))) (proj1 (proj2 I1))) as (u & Eu & Ru).
    rewrite Eu. destruct (IH s1 s' I1 H) as (l & A & B & C). destruct (loopd _ _ _ _ _ _ _ s1) as [ls r]. cbn [fst] in *.
    exists (now s1 :: l). split; [|split].
    + constructor; [|exact A]. unfold row_of. replace (nth (rd_place (now s1)) (gs_err s') []) with (last (gs_err s1) []); [exact Ru|].
      rewrite Ae, app_nth1, (now_last s1 first I1); [reflexivity|]. cbn. destruct I1 as (N & _). destruct (gs_err s1); [congruence|cbn; lia].
    + cbn [rounds]. split; [|exact B]. unfold next_round.
      destruct (body_round _ _ _ _ _ _ F E (proj1 I)) as [(X & _)|[(g & q & v & X & _ & Y & Z & W & V & L & U & P)|(X & Y & Z & W & U & P & Q)]].
      * left. exact X.
      * right; left. destruct I as (N & _ & K & M). unfold now. cbn [rd_place rd_n rd_cfg rd_val rd_change]. rewrite X, app_length. cbn [length].
        assert (LE : (length (gs_err s) <> 0)%nat) by (destruct (gs_err s); [congruence|discriminate]).
        split; [lia|]. split; [exact Z|]. split; [exact W|]. split; [|split; [rewrite U; exact L | rewrite U, P; reflexivity]].
        rewrite Ap, Y, U, <- app_assoc. replace (length (gs_err s) + 1 - 1 - first)%nat with (length (gs_iter s)) by lia.
        rewrite app_nth2, Nat.sub_diag by lia. exact V.
      * right; right. unfold now. cbn [rd_place rd_n rd_cfg rd_val rd_change]. rewrite X, U, P. repeat split; auto.
    + destruct l as [|b l]; [exact C|]. change (last (b :: l) (now s) = now s'). rewrite <- C. clear. revert b. induction l as [|b' l IH]; intros b; [reflexivity|]. apply IH.
  - injection H as <-. exists []. repeat split. constructor.
Qed.

Lemma start_inv sy ob f s : fives sy -> greedy_start sy ob f = Ok s -> inv (length (ob_err ob)) s /\
  exists p g v, sy_start sy (ob_cfg ob) = Ok p /\ sy_good sy (ob_cfg ob) p = Ok g /\ sy_obj sy (ob_cfg ob) p = Ok v /\
    s = mkG (ob_cfg ob) (ob_err ob ++ [g]) 0 p 1 PInf v [p] 0 f.
Proof.
  intros F H. unfold greedy_start in H. destruct (sy_start sy (ob_cfg ob)) as [p|] eqn:E1; [|discriminate]. cbn [bind] in H.
  destruct (sy_good sy (ob_cfg ob) p) as [g|] eqn:E2; [|discriminate]. cbn [bind] in H. destruct (sy_obj sy (ob_cfg ob) p) as [v|] eqn:E3; [|discriminate].
  cbn [bind] in H. injection H as <-. split.
  - unfold inv. cbn. rewrite last_last, app_length. repeat split; try discriminate; [|apply (F _ _ _ E2)]. destruct (ob_err ob); discriminate.
  - exists p, g, v. auto.
Qed.

Lemma greedy_same sy ch ob factor d mx extra fuel : fives sy ->
  snd (rund sy ch ob factor d mx extra fuel) = greedy_run sy ch ob factor d mx extra fuel.
Proof.
  intros F. unfold greedy_run_disp, greedy_run. destruct factor; try reflexivity. destruct (xleb x (Fin 0)); [reflexivity|].
  destruct (greedy_start sy ob x) as [s|] eqn:E; [|reflexivity]. destruct (start_inv _ _ _ _ F E) as [I _].
  destruct (greedy_format show_int show_fix show_exp 1 (gs_cfg s) (last (gs_err s) []) NaN (proj1 (proj2 I))) as (u & Eu & _). rewrite Eu.
  rewrite <- (loop_same _ _ _ _ _ _ _ F fuel s I). destruct (loopd _ _ _ _ _ _ _ s) as [ls [[s'|y]|]]; cbn [snd]; try reflexivity.
  destruct (greedy_end sy d mx s') as [[g ob']|]; reflexivity.
Qed.

Lemma greedy_lines sy ch ob factor d mx extra fuel r ob' : fives sy -> greedy_run sy ch ob factor d mx extra fuel = Some (Ok (r, ob')) ->
  exists line head u0 rows v l,
    fst (rund sy ch ob factor d mx extra fuel) =
      line :: head :: line :: u0 :: rows ++
        [line; txt "Successful?: " ++ txt (if gr_success r then "True" else "False"); txt "Number of s-type: " ++ show_int (Z.of_nat (fst (gr_cfg r)));
         txt "Number of p-type: " ++ show_int (Z.of_nat (snd (gr_cfg r))); txt "Termination Information: " ++ show_exit (gr_exit r);
         txt "Objective Function: " ++ show_num (gr_fun r); txt "Coefficients " ++ show_arr (gr_coeffs r); txt "Exponents " ++ show_arr (gr_exps r)] /\
    rule_of 144 line /\ table_row [15; 13; 13; 15; 15; 16; 15; 16; 16]%nat greedy_names head /\
    let i := length (ob_err ob) in
    greedy_row show_int show_fix show_exp 1 (ob_cfg ob) (nth i (gr_perf r) []) NaN u0 /\
    sy_obj sy (ob_cfg ob) (nth 0 (gr_params r) []) = Ok v /\
    rounds (next_round sy (increase ch) (gr_params r) i) (mkRound i v 1 (ob_cfg ob) (xabs (xsub v PInf))) l /\
    Forall2 (fun b u => greedy_row show_int show_fix show_exp (rd_n b) (rd_cfg b) (nth (rd_place b) (gr_perf r) []) (rd_change b) u) l rows /\
    let b := last l (mkRound i v 1 (ob_cfg ob) (xabs (xsub v PInf))) in
    rd_cfg b = gr_cfg r /\ S (rd_place b) = length (gr_perf r).
Proof.
  intros F H. unfold greedy_run_disp, greedy_run in *. destruct factor; try discriminate. destruct (xleb x (Fin 0)); [discriminate|].
  destruct (greedy_start sy ob x) as [s|] eqn:E; [|discriminate]. destruct (start_inv _ _ _ _ F E) as [I (p & g & v & E1 & E2 & E3 & Es)].
  destruct (greedy_format show_int show_fix show_exp 1 (gs_cfg s) (last (gs_err s) []) NaN (proj1 (proj2 I))) as (u & Eu & Ru). rewrite Eu.
  assert (S1 := loop_same _ ch extra x d mx _ F fuel s I).
  destruct (greedy_loop sy ch extra x d mx fuel s) as [[s'|]|] eqn:L; try discriminate.
  destruct (loop_rounds _ _ _ _ _ _ _ F _ _ _ I L) as (l & A & B & C). destruct (grows _ _ _ _ _ _ _ F _ _ _ I L) as (e & q & Ae & Ap & I').
  destruct (loopd _ _ _ _ _ _ _ s) as [ls r0]. cbn [fst snd] in *. subst r0. injection H as H. rewrite H.
  assert (En : gr_cfg r = gs_cfg s' /\ gr_perf r = gs_err s' /\ gr_params r = gs_iter s').
  { unfold greedy_end in H. destruct (if Nat.eqb (gs_redum s') 5 then _ else _) in H; [|discriminate]. cbn [bind] in H.
    destruct (sy_obj sy (gs_cfg s') (last (gs_iter s') [])) in H; [|discriminate]. cbn [bind] in H. injection H as <- _. auto. }
  destruct En as (G1 & G2 & G3). exists greedy_rule, (format_header greedy_header), u, ls, v, l.
  assert (Nw : now s = mkRound (length (ob_err ob)) v 1 (ob_cfg ob) (xabs (xsub v PInf))).
  { unfold now. rewrite Es. cbn [gs_err gs_best gs_n gs_cfg gs_prev]. rewrite app_length. cbn [length]. f_equal. lia. }
  split; [reflexivity|]. split; [apply dashes_rule|]. split; [apply (header_row greedy_header)|]. cbv zeta. rewrite G1, G2, G3, <- Nw.
  assert (K : gs_cfg s = ob_cfg ob /\ last (gs_err s) [] = nth (length (ob_err ob)) (gs_err s') []).
  { rewrite Ae, Es. cbn. rewrite last_last, <- app_assoc, app_nth2, Nat.sub_diag by lia. auto. }
  destruct K as [K1 K2]. split; [rewrite <- K1, <- K2; exact Ru|]. split; [rewrite Ap, Es; exact E3|]. split; [exact B|]. split; [exact A|]. rewrite C.
  split; [reflexivity|]. cbn. destruct I' as (N & _). destruct (gs_err s'); [congruence|cbn; lia].
Qed.

(** Strategies of the library. *)
End Shown.
