(** Rounded arithmetic: the updated coefficients add up to the integral that is asked for. *)
From Coq Require Import Reals List ZArith Lia Lra Permutation Sorted.
From Verif Require Import XR SpecDens SpecGrid SpecRnd ModelRnd ProofRnd ProofRnd2 ProofRnd3 ProofRnd4.
Import ListNotations.
Local Open Scope R_scope.

Section Update.
Context (u : R) (fmt : R -> Prop) (rnd : R -> R) (H : rounding u 0 fmt rnd).

Notation within := (within u).

(** The exact integrand of the k-th average. *)
Fixpoint exact_int (k : nat) (c f : list R) (M : list (list R)) : list R :=
  match f, M with
  | a :: f', row :: M' => a / wsum row c * nth k row 0 :: exact_int k c f' M'
  | _, _ => []
  end.

Lemma integrand_within : forall fused t mask c k f M, 0 <= mask -> length f = length M ->
  Forall (Rle 0) f -> Forall (Rle 0) c -> orders (length c) t ->
  Forall (fun row => length row = length c /\ Forall (Rle 0) row /\ mask < fl_dot rnd fused t row c) M ->
  Forall2 (within (height t + 3)) (fl_integrand rnd mask f (map (fun row => fl_dot rnd fused t row c) M) (map (fun row => nth k row 0) M))
    (exact_int k c f M).
Proof.
  intros fused t mask c k f M Hm L Pf Pc O PM. revert f L Pf.
  induction PM as [|row M (Lr & Pr & Gr) PM IH]; intros [|a f] L Pf; try discriminate; [constructor|].
  inversion Pf; subst. unfold fl_integrand in *. cbn [map combine fl_mul exact_int fst snd].
  constructor; [|apply IH; [simpl in L; lia | assumption]].
  destruct (dot_within u fmt rnd H fused t row c Lr O Pr Pc) as [D1 D2].
  assert (Gp : 0 < fl_dot rnd fused t row c) by lra.
  assert (Wp : 0 < wsum row c) by (eapply (within_pos' u fmt rnd H); [exact Gp | exact D2]).
  unfold fl_ratio. destruct (Rle_dec _ mask) as [X|_]; [lra|].
  assert (Q : 0 <= a / fl_dot rnd fused t row c) by (apply Rmult_le_pos; [assumption | left; apply Rinv_0_lt_compat, Gp]).
  assert (Q' : 0 <= a / wsum row c) by (apply Rmult_le_pos; [assumption | left; apply Rinv_0_lt_compat, Wp]).
  assert (Kp : 0 <= nth k row 0) by (apply nth_pos, Pr).
  replace (height t + 3)%nat with (S (S (0 + (height t + 1)) + 0)) by lia.
  apply (within_rnd u fmt rnd H); [apply Rmult_le_pos; [apply (rnd_pos u 0 fmt rnd H), Q | exact Kp]|].
  apply (within_mult u fmt rnd H); auto; [apply (rnd_pos u 0 fmt rnd H), Q | | apply within_refl].
  apply (within_rnd u fmt rnd H); [exact Q|].
  apply (within_div u fmt rnd H); auto. apply within_refl.
Qed.

Lemma integrand_length : forall mask f g b, length f = length g -> length f = length b ->
  length (fl_integrand rnd mask f g b) = length f.
Proof.
  intros mask f g b L L'. unfold fl_integrand. rewrite fl_mul_length, mul_terms_length; rewrite map_length, combine_length; lia.
Qed.

Lemma integrand_fmt : forall mask f g b, Forall fmt (fl_integrand rnd mask f g b).
Proof. intros. unfold fl_integrand. apply (fl_mul_fmt u 0 fmt rnd H). Qed.

(** Sums over the basis functions. *)
Lemma rsum_seq_plus : forall (F G : nat -> R) l, rsum (map (fun k => F k + G k) l) = rsum (map F l) + rsum (map G l).
Proof. intros F G. induction l as [|k l IH]; unfold rsum in *; simpl; [ring | rewrite IH; ring]. Qed.
Lemma rsum_seq_scale : forall a (F : nat -> R) l, rsum (map (fun k => a * F k) l) = a * rsum (map F l).
Proof. intros a F. induction l as [|k l IH]; unfold rsum in *; simpl; [ring | rewrite IH; ring]. Qed.

Lemma wsum_seq : forall row c, length row = length c ->
  rsum (map (fun k => nth k c 0 * nth k row 0) (seq 0 (length c))) = wsum row c.
Proof.
  induction row as [|b row IH]; intros [|a c] L; try discriminate; [reflexivity|].
  cbn [length seq map nth]. rewrite <- seq_shift, map_map. cbn [nth wsum]. rewrite <- IH by (simpl in L; lia).
  unfold rsum at 1. cbn [fold_right]. fold (rsum (map (fun x => nth x c 0 * nth x row 0) (seq 0 (length c)))). ring.
Qed.

Lemma averages_sum : forall c W f M, length f = length M -> length W = length f ->
  Forall (fun row => length row = length c /\ wsum row c <> 0) M ->
  rsum (map (fun k => nth k c 0 * wsum W (exact_int k c f M)) (seq 0 (length c))) = wsum W f.
Proof.
  intros c W f M L L' P. revert W f L L'. induction P as [|row M [Lr Nz] P IH]; intros [|w W] [|a f] L L'; try discriminate.
  - cbn [exact_int wsum].
    generalize (seq 0 (length c)). induction l as [|k l IHl]; unfold rsum in *; simpl; [reflexivity | rewrite IHl; ring].
  - cbn [exact_int wsum]. rewrite <- (IH W f) by (simpl in *; lia).
    rewrite <- (Rmult_1_r (w * a)), <- (Rinv_r (wsum row c) Nz). rewrite <- (wsum_seq row c Lr) at 2.
    rewrite (map_ext _ (fun k => (w * a * / wsum row c) * (nth k c 0 * nth k row 0) + nth k c 0 * wsum W (exact_int k c f M))).
    + rewrite rsum_seq_plus, rsum_seq_scale. rewrite (wsum_seq row c Lr). field. exact Nz.
    + intro k. unfold Rdiv. ring.
Qed.

Lemma rsum_within : forall k (F G : nat -> R) l, (forall i, In i l -> within k (F i) (G i)) -> within k (rsum (map F l)) (rsum (map G l)).
Proof.
  intros k F G. induction l as [|i l IH]; intro C.
  - unfold rsum; simpl. split; lra.
  - unfold rsum in *. cbn [map fold_right]. apply within_plus; [apply C; left; reflexivity | apply IH; intros j J; apply C; right; exact J].
Qed.

Lemma update_sum : forall kI W quadr fused t mask N f M c,
  accurate u fmt kI W quadr -> Forall (Rle 0) W -> 0 < N -> 0 <= mask ->
  length f = length W -> length M = length f -> Forall fmt f -> Forall (Rle 0) f -> 0 < wsum W f ->
  Forall (Rle 0) c -> orders (length c) t ->
  Forall (fun row => length row = length c /\ Forall (Rle 0) row /\ mask < fl_dot rnd fused t row c) M ->
  within (height t + 2 * kI + 6) (rsum (fl_update rnd quadr fused t mask N f M c)) N.
Proof.
  intros kI W quadr fused t mask N f M c A PW HN Hm Lf LM Ff Pf If Pc O PM.
  set (I := wsum W f) in *.
  destruct (A f Lf Ff Pf) as [Q1 Q2]. fold I in Q2.
  assert (Qp : 0 < quadr f) by (eapply (within_pos u fmt rnd H); [exact If | exact Q2]).
  assert (Lw : within (S (kI + 0)) (rnd (quadr f / N)) (I / N)).
  { apply (within_rnd u fmt rnd H); [apply Rmult_le_pos; [lra | left; apply Rinv_0_lt_compat, HN]|].
    apply (within_div u fmt rnd H); auto; [lra | apply within_refl]. }
  assert (IN : 0 < I / N) by (apply Rdiv_lt_0_compat; assumption).
  assert (Lp : 0 < rnd (quadr f / N)) by (eapply (within_pos u fmt rnd H); [exact IN | exact Lw]).
  assert (PM' : Forall (fun row => length row = length c /\ wsum row c <> 0) M).
  { eapply Forall_impl; [|exact PM]. intros row (Lr & Pr & Gr). split; [exact Lr|].
    destruct (dot_within u fmt rnd H fused t row c Lr O Pr Pc) as [D1 D2].
    assert (0 < wsum row c); [|lra]. eapply (within_pos' u fmt rnd H); [|exact D2]. lra. }
  assert (EN : rsum (map (fun k => nth k c 0 * wsum W (exact_int k c f M) / (I / N)) (seq 0 (length c))) = N).
  { rewrite (map_ext _ (fun k => / (I / N) * (nth k c 0 * wsum W (exact_int k c f M)))) by (intro k; unfold Rdiv; ring).
    rewrite rsum_seq_scale, averages_sum by (auto; lia). fold I. field. lra. }
  rewrite <- EN at 2. unfold fl_update. apply rsum_within. intros k _.
  set (ints := fl_integrand rnd mask f (map (fun row => fl_dot rnd fused t row c) M) (map (fun row => nth k row 0) M)).
  assert (Li : length ints = length W).
  { unfold ints. rewrite integrand_length; rewrite ?map_length; auto. }
  assert (Pi : Forall (Rle 0) ints).
  { apply (integrand_pos u 0 fmt rnd H); auto. apply Forall_map. eapply Forall_impl; [|exact PM]. intros row (_ & Pr & _). apply nth_pos, Pr. }
  destruct (A ints Li (integrand_fmt _ _ _ _) Pi) as [S1 S2].
  assert (S3 : within (height t + 3) (wsum W ints) (wsum W (exact_int k c f M))).
  { apply wsum_within; [exact PW|]. apply integrand_within; auto. }
  assert (S4 := within_trans u fmt rnd H _ _ _ _ _ S2 S3).
  assert (Wi : 0 <= wsum W ints) by (apply wsum_pos; assumption).
  assert (We : 0 <= wsum W (exact_int k c f M)).
  { destruct S3 as [_ S3]. assert (Q := q_pow u fmt rnd H (height t + 3)).
    assert (0 <= (1 - u) ^ (height t + 3) * wsum W ints) by (apply Rmult_le_pos; lra). lra. }
  assert (Ck : 0 <= nth k c 0) by (apply nth_pos, Pc).
  replace (height t + 2 * kI + 6)%nat with (S (S (0 + (kI + (height t + 3))) + S (kI + 0))) by lia.
  assert (P1 : 0 <= rnd (nth k c 0 * quadr ints)) by (apply (rnd_pos u 0 fmt rnd H), Rmult_le_pos; assumption).
  apply (within_rnd u fmt rnd H).
  - apply Rmult_le_pos; [exact P1 | left; apply Rinv_0_lt_compat, Lp].
  - apply (within_div u fmt rnd H); auto; [apply Rmult_le_pos; assumption|].
    apply (within_rnd u fmt rnd H); [apply Rmult_le_pos; assumption|].
    apply (within_mult u fmt rnd H); auto. apply within_refl.
Qed.

Lemma trap_sphere_wsum : forall p x y, length x = length y ->
  wsum (sweights p x (tweights x 0)) y = trap x (sphere p x y).
Proof. intros p x y L. rewrite sweights_sum, trap_wsum; [reflexivity | rewrite sphere_length; auto]. Qed.

Lemma sphere_scale : forall p x y, length x = length y ->
  trap x (sphere p x y) = 4 * p * trap x (map2 (fun r b => r * r * b) x y).
Proof.
  intros p x y L. enough (E : sphere p x y = map (Rmult (4 * p)) (map2 (fun r b => r * r * b) x y)).
  { rewrite E. clear E. assert (L' : length (map2 (fun r b : R => r * r * b) x y) = length x).
    { clear -L. revert y L. induction x as [|a x IH]; intros [|b y] L; try reflexivity; try discriminate. simpl. rewrite IH; [reflexivity | simpl in L; lia]. }
    set (z := map2 _ x y) in *. clearbody z. clear L y. revert z L'.
    induction x as [|x0 x IH]; intros z L'; [simpl; ring|]. destruct x as [|x1 x]; [destruct z as [|? [|? ?]]; simpl; ring|].
    destruct z as [|z0 z]; [discriminate|]. destruct z as [|z1 z]; [discriminate|].
    specialize (IH (z1 :: z)). cbn [trap map] in *. rewrite IH by (simpl in *; lia). field. }
  revert y L. induction x as [|r x IH]; intros [|b y] L; try reflexivity; try discriminate.
  cbn [sphere map2 map]. f_equal; [ring | apply IH; simpl in L; lia].
Qed.

End Update.
