(** Rounded arithmetic: the exact update with masked values. *)
From Coq Require Import Reals List ZArith Lia Lra.
From Verif Require Import XR SpecDens SpecGrid SpecRnd ModelRnd ProofRnd ProofRnd2 ProofRnd3 ProofRnd4 ProofRnd7.
Import ListNotations.
Local Open Scope R_scope.

(** Exact update with masked values. *)
Lemma dot_exact fused t row c : orders (length c) t -> length row = length c -> fl_dot (fun x => x) fused t row c = wsum row c.
Proof.
  intros O Lr. unfold fl_dot. rewrite fl_sum_exact, tsum_all by (rewrite fl_prods_length; auto). clear -Lr.
  generalize 0%nat. revert c Lr. induction row as [|b row IH]; intros [|a c] L k; try discriminate; [reflexivity|].
  cbn [fl_prods wsum]. unfold rsum in *. cbn [fold_right]. rewrite IH by (simpl in L; lia). destruct (fused k); reflexivity.
Qed.
Lemma update_exact_masked quadr fused t mask N f M c : orders (length c) t -> length f = length M ->
  Forall (fun row => length row = length c) M ->
  fl_update (fun x => x) quadr fused t mask N f M c =
  map (fun k => nth k c 0 * quadr (map2 (fun a row => (if Rlt_dec mask (wsum row c) then a / wsum row c else 1) * nth k row 0) f M) / (quadr f / N)) (seq 0 (length c)).
Proof.
  intros O L PM. unfold fl_update. apply map_ext. intro k. do 3 f_equal.
  unfold fl_integrand. revert f L. induction PM as [|row M Lr PM IH]; intros [|a f] L; try discriminate; [reflexivity|].
  cbn [map combine fl_mul map2 fst snd]. rewrite (dot_exact fused t row c O Lr). unfold fl_ratio at 1.
  destruct (Rle_dec (wsum row c) mask) as [X|X], (Rlt_dec mask (wsum row c)) as [Y|Y]; try lra; f_equal; apply IH; simpl in L; lia.
Qed.
