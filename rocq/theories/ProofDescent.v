(** The exact objective of [ScipyFit] for Gaussian models: [descent] is its gradient. *)
From Coquelicot Require Import Coquelicot.
From Coq Require Import Reals List ZArith Lia Lra Arith.
From Verif Require Import SpecDens SpecRnd SpecRnd2 SpecRnd3 SpecRnd4 SpecSlope SpecDescent ProofSlope.
From Coq Require Import List.
Import ListNotations.
Local Open Scope R_scope.

Lemma put_head : forall t x l, put 0 t (x :: l) = t :: l.
Proof. reflexivity. Qed.
Lemma put_tail : forall i t x l, put (S i) t (x :: l) = x :: put i t l.
Proof. reflexivity. Qed.

Lemma gsum_coef : forall norm lay c e i t, length lay = length c -> length e = length c -> (i < length c)%nat ->
  gsum norm lay (put i t c) e = gsum norm lay c e + (t - nth i c 0) * basis_fn norm (fst (nth i lay (false, 0))) (nth i e 0) (snd (nth i lay (false, 0))).
Proof.
  induction lay as [|[p r] lay IH]; intros [|b c] [|a e] i t L1 L2 I; try discriminate; [inversion I|].
  injection L1 as L1. injection L2 as L2. destruct i as [|i].
  - rewrite put_head. cbn [gsum nth fst snd]. ring.
  - rewrite put_tail. cbn [gsum nth fst snd]. rewrite (IH c e i t L1 L2) by (cbn in I; lia). ring.
Qed.
Lemma gsum_expo : forall norm lay c e i t, length lay = length c -> length e = length c -> (i < length c)%nat ->
  gsum norm lay c (put i t e) = gsum norm lay c e
    + nth i c 0 * (basis_fn norm (fst (nth i lay (false, 0))) t (snd (nth i lay (false, 0)))
                   - basis_fn norm (fst (nth i lay (false, 0))) (nth i e 0) (snd (nth i lay (false, 0)))).
Proof.
  induction lay as [|[p r] lay IH]; intros [|b c] [|a e] i t L1 L2 I; try discriminate; [inversion I|].
  injection L1 as L1. injection L2 as L2. destruct i as [|i].
  - rewrite put_head. cbn [gsum nth fst snd]. ring.
  - rewrite put_tail. cbn [gsum nth fst snd]. rewrite (IH c e i t L1 L2) by (cbn in I; lia). ring.
Qed.

Lemma split_coef : forall c e i t, (i < length c)%nat ->
  firstn (length c) (put i t (c ++ e)) = put i t c /\ skipn (length c) (put i t (c ++ e)) = e.
Proof.
  induction c as [|x c IH]; intros e i t I; [inversion I|]. destruct i as [|i].
  - cbn [app length]. rewrite !put_head. cbn [firstn skipn]. split; [f_equal|];
      [rewrite firstn_app, firstn_all, Nat.sub_diag; cbn [firstn]; apply app_nil_r | rewrite skipn_app, skipn_all, Nat.sub_diag; reflexivity].
  - cbn [app length]. rewrite !put_tail. cbn [firstn skipn]. destruct (IH e i t) as [A B]; [cbn in I; lia|]. rewrite A, B. split; reflexivity.
Qed.
Lemma split_expo : forall c e i t, (length c <= i)%nat ->
  firstn (length c) (put i t (c ++ e)) = c /\ skipn (length c) (put i t (c ++ e)) = put (i - length c) t e.
Proof.
  induction c as [|x c IH]; intros e i t I; [cbn [length firstn skipn app]; rewrite Nat.sub_0_r; split; reflexivity|].
  destruct i as [|i]; [cbn in I; lia|]. cbn [app length]. rewrite put_tail. cbn [firstn skipn]. destruct (IH e i t) as [A B]; [cbn in I; lia|]. rewrite A, B. split; reflexivity.
Qed.

(** The derivative of the model at a point. *)
Lemma model_derive : forall norm lay c e i, length lay = length c -> length e = length c -> (i < 2 * length c)%nat -> Forall (Rlt 0) e ->
  is_derive (fun t : R => gsum norm lay (firstn (length c) (put i t (c ++ e))) (skipn (length c) (put i t (c ++ e))))
    (nth i (c ++ e) 0) (model_slope norm lay c e i).
Proof.
  intros norm lay c e i L1 L2 I P. unfold model_slope. destruct (i <? length c)%nat eqn:E.
  - apply Nat.ltb_lt in E. rewrite app_nth1 by exact E.
    apply (is_derive_ext (fun t => gsum norm lay c e + (t - nth i c 0) * basis_fn norm (fst (nth i lay (false, 0))) (nth i e 0) (snd (nth i lay (false, 0))))).
    + intro t. destruct (split_coef c e i t E) as [-> ->]. symmetry. apply gsum_coef; assumption.
    + auto_derive; [exact Logic.I | ring].
  - apply Nat.ltb_ge in E. rewrite app_nth2 by exact E. cbv zeta. set (j := (i - length c)%nat). assert (J : (j < length c)%nat) by (unfold j; lia).
    apply (is_derive_ext (fun t => gsum norm lay c e
      + nth j c 0 * (basis_fn norm (fst (nth j lay (false, 0))) t (snd (nth j lay (false, 0)))
                     - basis_fn norm (fst (nth j lay (false, 0))) (nth j e 0) (snd (nth j lay (false, 0)))))).
    + intro t. destruct (split_expo c e i t E) as [-> ->]. symmetry. apply gsum_expo; assumption.
    + assert (D := slope_true norm (fst (nth j lay (false, 0))) (nth j e 0) (snd (nth j lay (false, 0)))).
      assert (N : 0 < nth j e 0) by (rewrite Forall_forall in P; apply P, nth_In; lia). specialize (D N).
      set (F := fun t : R => basis_fn norm (fst (nth j lay (false, 0))) t (snd (nth j lay (false, 0)))) in *.
      change (is_derive (fun t : R => gsum norm lay c e + nth j c 0 * (F t - F (nth j e 0))) (nth j e 0) (nth j c 0 * basis_slope norm (fst (nth j lay (false, 0))) (nth j e 0) (snd (nth j lay (false, 0))))).
      clearbody F.
      set (K := gsum norm lay c e). set (B := basis_slope norm _ _ _) in *. clearbody K B.
      apply (is_derive_ext (fun t : R => scal (nth j c 0) (F t) + (K - nth j c 0 * F (nth j e 0)))); [intro t; unfold scal; simpl; unfold mult; simpl; ring|].
      evar_last. { apply (is_derive_plus (V := R_NormedModule) (fun t => scal (nth j c 0) (F t)) (fun _ => K - nth j c 0 * F (nth j e 0))); [apply (is_derive_scal F), D | apply (is_derive_const (V := R_NormedModule))]. }
      unfold plus, zero; simpl. ring.
Qed.

Lemma wsum_derive : forall (X : Type) W (F : X -> R -> R) (D : X -> R) t l, (forall x, In x l -> is_derive (F x) t (D x)) ->
  is_derive (fun s : R => wsum W (map (fun x => F x s) l)) t (wsum W (map D l)).
Proof.
  intros X W F D t l. revert W. induction l as [|x l IH]; intros [|w W] E; cbn [map wsum]; try apply (is_derive_const (V := R_NormedModule)).
  apply (is_derive_plus (V := R_NormedModule) (fun s => w * F x s) (fun s => wsum W (map (fun y => F y s) l))).
  - apply (is_derive_scal (F x)), E. left; reflexivity.
  - apply IH. intros y Y. apply E. right; exact Y.
Qed.

(** The gradient of the exact objective. *)
Lemma descent_true : forall W norm (m dm : R -> R -> R) pts c e i, length e = length c -> (i < 2 * length c)%nat -> Forall (Rlt 0) e ->
  Forall (fun x => length (lays x) = length c /\ is_derive (m (dens x)) (gsum norm (lays x) c e) (dm (dens x) (gsum norm (lays x) c e))) pts ->
  is_derive (fun t : R => objective (wsum W) m norm pts (firstn (length c) (put i t (c ++ e))) (skipn (length c) (put i t (c ++ e))))
    (nth i (c ++ e) 0) (descent (wsum W) dm norm pts c e i).
Proof.
  intros W norm m dm pts c e i L I P F. unfold objective, descent.
  apply (wsum_derive _ W (fun x t => weight x * m (dens x) (gsum norm (lays x) (firstn (length c) (put i t (c ++ e))) (skipn (length c) (put i t (c ++ e)))))
    (fun x => weight x * dm (dens x) (gsum norm (lays x) c e) * model_slope norm (lays x) c e i)).
  intros x X. rewrite Forall_forall in F. destruct (F x X) as [LL D].
  assert (G := model_derive norm (lays x) c e i LL L I P).
  assert (V : gsum norm (lays x) (firstn (length c) (put i (nth i (c ++ e) 0) (c ++ e))) (skipn (length c) (put i (nth i (c ++ e) 0) (c ++ e))) = gsum norm (lays x) c e).
  { destruct (Nat.lt_ge_cases i (length c)) as [E|E].
    - destruct (split_coef c e i (nth i (c ++ e) 0) E) as [-> ->]. rewrite app_nth1 by exact E. rewrite gsum_coef by assumption. ring.
    - destruct (split_expo c e i (nth i (c ++ e) 0) E) as [-> ->]. rewrite app_nth2 by exact E. rewrite gsum_expo by (try assumption; lia). ring. }
  rewrite Rmult_assoc. apply (is_derive_scal (fun t => m (dens x) (gsum norm (lays x) (firstn (length c) (put i t (c ++ e))) (skipn (length c) (put i t (c ++ e)))))).
  evar_last. { apply (is_derive_comp (V := R_NormedModule) (m (dens x))); [|exact G]. cbv beta. rewrite V. exact D. }
  unfold scal; simpl; unfold mult; simpl. ring.
Qed.

Lemma square_derive : forall f g, is_derive (square_loss f) g (square_change f g).
Proof. intros f g. unfold square_loss, square_change. auto_derive; [exact I | simpl; ring]. Qed.
Lemma kl_derive : forall f g, 0 <= f -> 0 < g -> is_derive (kl_loss f) g (kl_change f g).
Proof.
  intros f g F G. unfold kl_loss, kl_change. destruct F as [F|<-].
  - auto_derive; [split; [lra|]; split; [|exact I]; apply Rmult_lt_0_compat; [exact F | apply Rinv_0_lt_compat, G]|]. field. lra.
  - apply (is_derive_ext (fun _ : R => 0)); [intro t; symmetry; apply Rmult_0_l|]. replace (- (0 / g)) with 0 by (field; lra). apply (is_derive_const (V := R_NormedModule)).
Qed.
