(** Exact arithmetic: the program computes the objective and its gradient. *)
From Coq Require Import Reals List ZArith Lia Lra Arith.
From Verif Require Import SpecDens SpecRnd SpecRnd2 SpecRnd3 SpecRnd4 SpecSlope SpecDescent ModelRnd ModelRnd2 ModelRnd4 ModelSlope ModelDescent
  ProofRnd ProofRnd2 ProofRnd3 ProofRnd8 ProofSlope ProofSlope2 ProofDescent2 PropRnd2 PropSlope.
Import ListNotations.
Local Open Scope R_scope.

Lemma map2_maps : forall (X : Type) (m : R -> R -> R) (f g : X -> R) l, fl_map2 m (map f l) (map g l) = map (fun x => m (f x) (g x)) l.
Proof. intros X m f g l. unfold fl_map2. induction l as [|x l IH]; [reflexivity|]. cbn. f_equal. exact IH. Qed.
Lemma mul_maps : forall (X : Type) (f g : X -> R) l, fl_mul (fun x => x) (map f l) (map g l) = map (fun x => f x * g x) l.
Proof. intros X f g l. induction l as [|x l IH]; [reflexivity|]. cbn. f_equal. exact IH. Qed.

Lemma elem_ideal : forall norm p r a, (norm = true -> 0 < a) -> fl_elem (fun x => x) exp Rpower PI norm p r a = basis_fn norm p a r.
Proof.
  intros norm p r a N.
  assert (E := C100_exact (fun _ => false) (At 0) norm [(p, r)] [1] [a] eq_refl eq_refl).
  assert (O : orders 1 (At 0)) by (apply Permutation.Permutation_refl). specialize (E O (fun T => Forall_cons _ (N T) (Forall_nil _))).
  cbn in E. lra.
Qed.
Lemma func_exact : forall fu to Q m norm pts c e, length e = length c -> (norm = true -> Forall (Rlt 0) e) ->
  Forall (fun x => length (lays x) = length c /\ orders (length c) (to (lays x))) pts ->
  fl_func (fun x => x) exp Rpower PI fu to Q m norm pts c e = objective Q m norm pts c e.
Proof.
  intros fu to Q m norm pts c e L P F. unfold fl_func, objective, fl_objective, fl_curve. rewrite map2_maps, mul_maps. f_equal.
  apply map_ext_in. intros x I. rewrite Forall_forall in F. destruct (F x I) as [L1 O]. rewrite C100_exact by assumption. reflexivity.
Qed.
Lemma jac_exact : forall fu to Q m norm pts c e i, length e = length c -> (norm = true -> Forall (Rlt 0) e) -> (i < 2 * length c)%nat ->
  Forall (fun x => length (lays x) = length c /\ orders (length c) (to (lays x))) pts ->
  fl_jac (fun x => x) exp Rpower PI fu to Q m norm pts c e i = descent Q m norm pts c e i.
Proof.
  intros fu to Q m norm pts c e i L P I F. unfold fl_jac, descent, fl_gradient, fl_curve, fl_column. rewrite map2_maps, !mul_maps. f_equal.
  apply map_ext_in. intros x Ix. rewrite Forall_forall in F. destruct (F x Ix) as [L1 O]. rewrite C100_exact by assumption. f_equal.
  assert (N : forall j, (j < length c)%nat -> norm = true -> 0 < nth j e 0) by (intros j J T; specialize (P T); rewrite Forall_forall in P; apply P, nth_In; lia).
  unfold model_slope. destruct (i <? length c)%nat eqn:T.
  - apply Nat.ltb_lt in T. destruct (basis_each (fun x => x) Rpower PI exp norm (lays x) e i ltac:(congruence) ltac:(lia)) as [LB EB]. rewrite app_nth1, EB by lia.
    apply elem_ideal, N, T.
  - apply Nat.ltb_ge in T. destruct (basis_each (fun x => x) Rpower PI exp norm (lays x) e 0 ltac:(congruence) ltac:(lia)) as [LB _].
    destruct (slopes_each (fun x => x) exp Rpower PI norm (lays x) c e L1 L) as [_ EB]. rewrite app_nth2, LB, L1 by lia. cbv zeta.
    rewrite EB by lia. apply C119_exact, N. lia.
Qed.
