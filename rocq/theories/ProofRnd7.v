(** Rounded arithmetic: many updates, and examples. *)
From Coq Require Import Reals List ZArith Lia Lra Permutation Sorted.
From Verif Require Import XR SpecDens SpecGrid SpecRnd SpecBin ModelRnd ProofRnd ProofRnd2 ProofRnd3 ProofRnd4 ProofRnd5 ProofRnd6.
Import ListNotations.
Local Open Scope R_scope.

Lemma updates_length : forall rnd quadr fused t mask N f M n c,
  length (fl_updates rnd quadr fused t mask N f M n c) = length c.
Proof.
  intros rnd quadr fused t mask N f M. induction n as [|n IH]; intro c; [reflexivity|].
  cbn [fl_updates]. unfold fl_update. rewrite map_length, seq_length. apply IH.
Qed.

Lemma updates_pos : forall u eta fmt rnd, rounding u eta fmt rnd ->
  forall quadr fused t mask N f M n c, 0 <= mask -> 0 <= N ->
  (forall y, Forall (Rle 0) y -> 0 <= quadr y) ->
  Forall (Rle 0) f -> Forall (Forall (Rle 0)) M -> Forall (Rle 0) c -> 0 < rnd (quadr f / N) ->
  Forall (Rle 0) (fl_updates rnd quadr fused t mask N f M n c).
Proof.
  intros u eta fmt rnd H quadr fused t mask N f M n c Hm HN Q Hf HM Hc Hl. induction n as [|n IH]; [exact Hc|].
  cbn [fl_updates]. apply (update_pos u eta fmt rnd H); auto.
Qed.

Section Many.
Context (u : R) (fmt : R -> Prop) (rnd : R -> R) (H : rounding u 0 fmt rnd).

(** The three kinds of grids: number of roundings, weights, rule. *)
Lemma lm_pos : forall kI W quadr N f, accurate u fmt kI W quadr -> 0 < N ->
  length f = length W -> Forall fmt f -> Forall (Rle 0) f -> 0 < wsum W f -> 0 < rnd (quadr f / N).
Proof.
  intros kI W quadr N f A HN Lf Ff Pf If. destruct (A f Lf Ff Pf) as [Q1 Q2].
  assert (Qp : 0 < quadr f) by (eapply (within_pos u fmt rnd H); [exact If | exact Q2]).
  assert (P : 0 < quadr f / N) by (apply Rdiv_lt_0_compat; assumption).
  eapply (within_pos u fmt rnd H) with (k := 1%nat); [exact P|].
  apply (within_rnd u fmt rnd H); [lra | apply within_refl].
Qed.

Lemma updates_sum : forall kI W quadr fused t mask N f M n c,
  accurate u fmt kI W quadr -> (forall y, Forall (Rle 0) y -> 0 <= quadr y) -> Forall (Rle 0) W -> 0 < N -> 0 <= mask ->
  length f = length W -> length M = length f -> Forall fmt f -> Forall (Rle 0) f -> 0 < wsum W f ->
  Forall (Rle 0) c -> orders (length c) t ->
  Forall (fun row => length row = length c /\ Forall (Rle 0) row) M ->
  Forall (fun row => mask < fl_dot rnd fused t row (fl_updates rnd quadr fused t mask N f M n c)) M ->
  within u (height t + 2 * kI + 6) (rsum (fl_updates rnd quadr fused t mask N f M (S n) c)) N.
Proof.
  intros kI W quadr fused t mask N f M n c A Q PW HN Hm Lf LM Ff Pf If Pc O PM GM.
  assert (PM' : Forall (Forall (Rle 0)) M) by (eapply Forall_impl; [|exact PM]; intros row [_ P]; exact P).
  assert (Pn : Forall (Rle 0) (fl_updates rnd quadr fused t mask N f M n c)).
  { apply (updates_pos u 0 fmt rnd H); auto; [lra|]. eapply lm_pos; eauto. }
  cbn [fl_updates]. apply (update_sum u fmt rnd H) with (W := W); auto.
  - rewrite updates_length. exact O.
  - rewrite Forall_forall in *. intros row I. rewrite updates_length. destruct (PM row I) as [P1 P2]. auto.
Qed.

Lemma updates_cubic : forall tg w fused t mask N f M n c,
  orders (length w) tg -> Forall (Rle 0) w -> 0 < N -> 0 <= mask ->
  length f = length w -> length M = length f -> Forall fmt f -> Forall (Rle 0) f -> 0 < wsum w f ->
  Forall (Rle 0) c -> orders (length c) t ->
  Forall (fun row => length row = length c /\ Forall (Rle 0) row) M ->
  Forall (fun row => mask < fl_dot rnd fused t row (fl_updates rnd (fl_cubic rnd tg w) fused t mask N f M n c)) M ->
  within u (height t + 2 * height tg + 8) (rsum (fl_updates rnd (fl_cubic rnd tg w) fused t mask N f M (S n) c)) N.
Proof.
  intros tg w fused t mask N f M n c Og Pw HN Hm Lf LM Ff Pf If Pc O PM GM.
  replace (height t + 2 * height tg + 8)%nat with (height t + 2 * (height tg + 1) + 6)%nat by lia.
  apply updates_sum with (W := w); auto; [apply (cubic_accurate u fmt rnd H); assumption|].
  intros y P. apply (cubic_pos u 0 fmt rnd H); assumption.
Qed.

Lemma updates_radial : forall tg x fused t mask N f M n c,
  orders (pred (length x)) tg -> ascending x -> 0 < N -> 0 <= mask ->
  length f = length x -> length M = length f -> Forall fmt f -> Forall (Rle 0) f -> 0 < trap x f ->
  Forall (Rle 0) c -> orders (length c) t ->
  Forall (fun row => length row = length c /\ Forall (Rle 0) row) M ->
  Forall (fun row => mask < fl_dot rnd fused t row (fl_updates rnd (fl_trapz rnd tg x) fused t mask N f M n c)) M ->
  within u (height t + 2 * height tg + 14) (rsum (fl_updates rnd (fl_trapz rnd tg x) fused t mask N f M (S n) c)) N.
Proof.
  intros tg x fused t mask N f M n c Og Ax HN Hm Lf LM Ff Pf If Pc O PM GM.
  replace (height t + 2 * height tg + 14)%nat with (height t + 2 * (height tg + 4) + 6)%nat by lia.
  apply updates_sum with (W := tweights x 0); auto.
  - apply (trapz_accurate u fmt rnd H); assumption.
  - intros y P. apply (trapz_pos u 0 fmt rnd H); assumption.
  - apply tweights_pos; [exact Ax | lra].
  - rewrite tweights_length. exact Lf.
  - rewrite trap_wsum; auto.
Qed.

Lemma updates_spherical : forall p tg x fused t mask N f M n c,
  orders (pred (length x)) tg -> ascending x -> 0 < p -> 0 < N -> 0 <= mask ->
  length f = length x -> length M = length f -> Forall fmt f -> Forall (Rle 0) f ->
  0 < trap x (map2 (fun r b => r * r * b) x f) ->
  Forall (Rle 0) c -> orders (length c) t ->
  Forall (fun row => length row = length c /\ Forall (Rle 0) row) M ->
  Forall (fun row => mask < fl_dot rnd fused t row (fl_updates rnd (fl_spherical rnd p tg x) fused t mask N f M n c)) M ->
  within u (height t + 2 * height tg + 22) (rsum (fl_updates rnd (fl_spherical rnd p tg x) fused t mask N f M (S n) c)) N.
Proof.
  intros p tg x fused t mask N f M n c Og Ax Hp HN Hm Lf LM Ff Pf If Pc O PM GM.
  replace (height t + 2 * height tg + 22)%nat with (height t + 2 * (height tg + 8) + 6)%nat by lia.
  apply updates_sum with (W := sweights p x (tweights x 0)); auto.
  - apply (spherical_accurate u fmt rnd H); auto; lra.
  - intros y P. apply (spherical_pos u 0 fmt rnd H); auto; lra.
  - apply sweights_pos; [lra|]. apply tweights_pos; [exact Ax | lra].
  - rewrite sweights_length; [exact Lf | rewrite tweights_length; reflexivity].
  - rewrite trap_sphere_wsum, sphere_scale by auto. apply Rmult_lt_0_compat; [lra | exact If].
Qed.

End Many.

(** Exact arithmetic: the update is the formula of the fixed point method. *)
Lemma update_exact : forall quadr fused t mask N f M c, orders (length c) t -> length f = length M ->
  Forall (fun row => length row = length c /\ mask < wsum row c) M ->
  fl_update (fun x => x) quadr fused t mask N f M c =
  map (fun k => nth k c 0 * quadr (map2 (fun a row => a / wsum row c * nth k row 0) f M) / (quadr f / N)) (seq 0 (length c)).
Proof.
  intros quadr fused t mask N f M c O L PM. unfold fl_update. apply map_ext. intro k. do 3 f_equal.
  unfold fl_integrand. revert f L. induction PM as [|row M [Lr G] PM IH]; intros [|a f] L; try discriminate; [reflexivity|].
  cbn [map combine fl_mul map2 fst snd].
  assert (D : fl_dot (fun x => x) fused t row c = wsum row c).
  { unfold fl_dot. rewrite fl_sum_exact, tsum_all by (rewrite fl_prods_length; auto). clear -Lr.
    generalize 0%nat. revert c Lr. induction row as [|b row IH]; intros [|a c] L k; try discriminate; [reflexivity|].
    cbn [fl_prods wsum]. unfold rsum in *. cbn [fold_right]. rewrite IH by (simpl in L; lia). destruct (fused k); reflexivity. }
  rewrite D. unfold fl_ratio at 1. destruct (Rle_dec (wsum row c) mask) as [X|X]; [lra|].
  f_equal. apply IH. simpl in L. lia.
Qed.

(** The spherical integral. *)
Lemma spherical_within : forall u fmt rnd, rounding u 0 fmt rnd ->
  forall p t x y, Rabs (p - PI) <= u * PI -> length x = length y -> ascending x -> Forall fmt y -> Forall (Rle 0) y ->
  orders (pred (length x)) t ->
  within u (height t + 9) (fl_spherical rnd p t x y) (4 * PI * trap x (map2 (fun r b => r * r * b) x y)).
Proof.
  intros u fmt rnd H p t x y Hp L A F P O. assert (Hpi := PI_RGT_0). assert (Hu := rd_u _ _ _ _ H).
  assert (P1 : (1 - u) * PI <= p) by (generalize (Rle_abs (- (p - PI))); rewrite Rabs_Ropp; lra).
  assert (P2 : p <= (1 + u) * PI) by (generalize (Rle_abs (p - PI)); lra).
  assert (P0 : 0 <= p). { assert (0 <= (1 - u) * PI) by (apply Rmult_le_pos; lra). lra. }
  destruct (spherical_accurate u fmt rnd H p t x P0 A O y) as [C D]; auto.
  { rewrite sweights_length; rewrite ?tweights_length; auto. }
  rewrite trap_sphere_wsum, sphere_scale in D by auto.
  set (T := trap x (map2 (fun r b => r * r * b) x y)) in *.
  assert (HT : 0 <= T).
  { unfold T. rewrite <- trap_wsum.
    - apply wsum_pos; [apply tweights_pos; [exact A | lra]|]. clear -P. revert x. induction P as [|b y Hb P IH]; intros [|r x]; constructor.
      + apply Rmult_le_pos; [apply Rle_0_sqr | exact Hb].
      + apply IH.
    - clear -L. revert y L. induction x as [|a x IH]; intros [|b y] L; try reflexivity; try discriminate. simpl. rewrite <- IH; [reflexivity | simpl in L; lia]. }
  replace (height t + 9)%nat with ((height t + 8) + 1)%nat by lia.
  eapply (within_trans u fmt rnd H); [exact D|]. unfold within. rewrite pow_1. split.
  - replace ((1 - u) * (4 * PI * T)) with (4 * ((1 - u) * PI) * T) by ring. apply Rmult_le_compat_r; lra.
  - replace ((1 - u) * (4 * p * T)) with (4 * ((1 - u) * p) * T) by ring. apply Rmult_le_compat_r; [exact HT|].
    assert ((1 - u) * p <= (1 - u) * ((1 + u) * PI)) by (apply Rmult_le_compat_l; lra).
    assert (0 <= u * u * PI) by (apply Rmult_le_pos; [apply Rle_0_sqr | lra]). lra.
Qed.
