(** Proofs about the printed tables: the strategies of the library, widths. *)
From Coq Require Import String Ascii Reals List ZArith Bool Lia.
From Verif Require Import XR PyStr PyText ModelDens ModelMeas ModelGrid ModelFit ModelGreedy ModelDisp SpecDisp SpecFit SpecStop Lists ProofDisp ProofDisp2 ProofDisp3.
Import ListNotations.
Local Open Scope list_scope.

Lemma good_fives ft k p g : good_at ft k p = Ok g -> five g.
Proof.
  unfold good_at. destruct (at_cfg ft k) as [f|]; [|discriminate]. cbn [bind]. intros H. exact (goodness_five _ _ _ _ H).
Qed.
Lemma kl_fives gk rand : fives (kl_strategy gk rand).
Proof. intros k p g. apply good_fives. Qed.
Lemma ls_fives gl nnls minimize rand : fives (ls_strategy gl nnls minimize rand).
Proof. intros k p g. apply good_fives. Qed.

Section Shown.
Variable show_int : Z -> text.
Variables show_fix show_exp : xr -> text.
Variable show_arr : list xr -> text.

Lemma scipy_table sec minimize s c0 e0 oc oe maxiter tol wc r pb :
  scipy_problem s c0 e0 oc oe maxiter tol wc = Ok pb ->
  (forall x c e, In x (fst (minimize pb)) -> stands c0 e0 oc oe x c e -> exists g, goodness (sc_fit s) c e = Ok g) ->
  scipy_run (fun pb => snd (minimize pb)) s c0 e0 oc oe maxiter tol wc = Ok r ->
  exists top rows bottom, fst (scipy_run_disp show_int show_fix show_exp show_arr sec minimize s c0 e0 oc oe maxiter tol wc) =
      top ++ rows ++ bottom ++ [txt "Successful?: " ++ txt (if q_success r then "True" else "False"); txt "Time: " ++ sec ++ txt " seconds";
        txt "Scipy Message: " ++ txt (q_msg r); txt "Coefficients " ++ show_arr (q_coeffs r); txt "Exponents " ++ show_arr (q_exps r)] /\
    (if sc_slsqp s then exists line head, top = [line; head; line] /\ bottom = [line] /\ rule_of 79 line /\ table_row [12; 15; 15; 15; 16]%nat scipy_names head
     else top = [] /\ bottom = []) /\
    Forall2 (fun x u => exists c e g, stands c0 e0 oc oe x c e /\ goodness (sc_fit s) c e = Ok g /\
       (if sc_slsqp s then slsqp_row show_fix show_exp g u else trust_row show_fix show_exp g u)) (fst (minimize pb)) rows.
Proof.
  intros P G R. destruct (scipy_lines show_int show_fix show_exp show_arr sec minimize s c0 e0 oc oe maxiter tol wc r pb P G R) as (top & rows & bottom & A & B & C).
  exists top, rows, bottom. split; [exact A|]. split; [exact B|]. clear - C. induction C as [|x u xs us H _ IH]; constructor; [|exact IH].
  destruct H as (c & e & g & S & E & H1 & H2). exists c, e, g. split; [exact S|]. split; [exact E|].
  destruct (sc_slsqp s); [exact (H1 eq_refl)|]. apply (trust_shown show_fix show_exp); [exact (H2 eq_refl)|]. exact (goodness_five _ _ _ _ E).
Qed.

(** Rows of numbers that fit in their columns. *)
Lemma widths : 
  (forall head, table_row [10; 12; 15; 15; 15; 16; 15; 15; 15]%nat fpi_names head -> length head = 139%nat) /\
  (forall ts u, table_row [10; 12; 15; 15; 15; 16; 15; 15; 15]%nat ts u -> fit_columns [10; 12; 15; 15; 15; 16; 15; 15; 15]%nat ts -> length u = 138%nat) /\
  (forall head, table_row [12; 15; 15; 15; 16]%nat scipy_names head -> length head = 79%nat) /\
  (forall ts u, table_row [12; 15; 15; 15; 16]%nat ts u -> fit_columns [12; 15; 15; 15; 16]%nat ts -> length u = 79%nat) /\
  (forall head, table_row [15; 13; 13; 15; 15; 16; 15; 16; 16]%nat greedy_names head -> length head = 144%nat) /\
  (forall ts u, table_row [15; 13; 13; 15; 15; 16; 15; 16; 16]%nat ts u -> fit_columns [15; 13; 13; 15; 15; 16; 15; 16; 16]%nat ts -> length u = 144%nat).
Proof.
  repeat split.
  - intros head H. unfold fpi_names in H. cbn [map] in H.
    repeat match goal with H : table_row _ _ _ |- _ => inversion H; clear H; subst end.
    repeat match goal with H : centred _ _ _ |- _ => destruct H as (? & ? & _ & _ & H) end.
    cbn [length]. repeat (rewrite app_length; cbn [length]). repeat match goal with H : length _ = _ |- _ => rewrite H; clear H end. reflexivity.
  - intros ts u H F. rewrite (row_width _ _ _ H F). reflexivity.
  - intros head H. rewrite (row_width _ _ _ H); [reflexivity|]. unfold scipy_names. cbn [map]. repeat apply Forall2_cons; try apply Forall2_nil; cbn; lia.
  - intros ts u H F. rewrite (row_width _ _ _ H F). reflexivity.
  - intros head H. rewrite (row_width _ _ _ H); [reflexivity|]. unfold greedy_names. cbn [map]. repeat apply Forall2_cons; try apply Forall2_nil; cbn; lia.
  - intros ts u H F. rewrite (row_width _ _ _ H F). reflexivity.
Qed.
End Shown.
