(** Rounded arithmetic: the fixed point updates of coefficients and exponents. *)
From Coq Require Import Reals List ZArith Lia Lra Permutation Sorted.
From Verif Require Import XR SpecDens SpecGrid SpecRnd SpecRnd2 ModelRnd ModelRnd2 ProofRnd ProofRnd2 ProofRnd3 ProofRnd4 ProofRnd5 ProofRnd7 ProofRnd8.
Import ListNotations.
Local Open Scope R_scope.

Lemma Forall2_length {A B} (P : A -> B -> Prop) l m : Forall2 P l m -> length l = length m.
Proof. induction 1 as [|? ? ? ? ? ? IH]; [reflexivity | simpl; rewrite IH; reflexivity]. Qed.

Section Loop.
Context (rnd fexp : R -> R) (fpow : R -> R -> R) (pi : R).
Notation rows := (fl_rows rnd fexp fpow pi).
Notation params := (fl_params rnd fexp fpow pi).
Notation fit := (fl_fit rnd fexp fpow pi).

Lemma params_length : forall quadr fused t norm mask N f ty D oc oe c e c' e', length e = length c ->
  params quadr fused t norm mask N f ty D oc oe c e = Some (c', e') -> length c' = length c /\ length e' = length c.
Proof.
  intros quadr fused t norm mask N f ty D oc oe c e c' e' L E. unfold fl_params in E.
  destruct (oe && _)%bool; [discriminate|]. injection E as <- <-.
  split; [destruct oc | destruct oe]; rewrite ?map_length, ?seq_length; auto.
Qed.

Lemma fit_last : forall quadr fused t norm mask N f ty D oc oe n c e,
  fit quadr fused t norm mask N f ty D oc oe (S n) c e =
  match fit quadr fused t norm mask N f ty D oc oe n c e with
  | Some (c', e') => params quadr fused t norm mask N f ty D oc oe c' e'
  | None => None
  end.
Proof.
  intros quadr fused t norm mask N f ty D oc oe. induction n as [|n IH]; intros c e.
  - cbn [fl_fit]. destruct (fl_params _ _ _ _ _ _ _ _ _ _ _ _ _ _ _ c e) as [[c' e']|]; reflexivity.
  - cbn [fl_fit] in *. destruct (fl_params _ _ _ _ _ _ _ _ _ _ _ _ _ _ _ c e) as [[c' e']|]; [apply IH | reflexivity].
Qed.

Lemma fit_length : forall quadr fused t norm mask N f ty D oc oe n c e c' e', length e = length c ->
  fit quadr fused t norm mask N f ty D oc oe n c e = Some (c', e') -> length c' = length c /\ length e' = length c.
Proof.
  intros quadr fused t norm mask N f ty D oc oe. induction n as [|n IH]; intros c e c' e' L E.
  - cbn [fl_fit] in E. injection E as <- <-. auto.
  - cbn [fl_fit] in E. destruct (fl_params _ _ _ _ _ _ _ _ _ _ _ _ _ _ _ c e) as [[c1 e1]|] eqn:E1; [|discriminate].
    apply params_length in E1; [|exact L]. destruct E1 as [L1 L2]. apply IH in E; [|lia]. lia.
Qed.

(** With the coefficients optimised, the new ones are those of the coefficient update. *)
Lemma params_update : forall quadr fused t norm mask N f ty D oe c e c' e',
  params quadr fused t norm mask N f ty D true oe c e = Some (c', e') ->
  c' = fl_update rnd quadr fused t mask N f (rows norm ty D e) c.
Proof.
  intros quadr fused t norm mask N f ty D oe c e c' e' E. unfold fl_params in E.
  destruct (oe && _)%bool; [discriminate|]. injection E as <- <-. reflexivity.
Qed.
Lemma params_keep_c : forall quadr fused t norm mask N f ty D oe c e c' e',
  params quadr fused t norm mask N f ty D false oe c e = Some (c', e') -> c' = c.
Proof.
  intros quadr fused t norm mask N f ty D oe c e c' e' E. unfold fl_params in E.
  destruct (oe && _)%bool; [discriminate|]. injection E as <- <-. reflexivity.
Qed.
Lemma params_keep_e : forall quadr fused t norm mask N f ty D oc c e,
  exists c', params quadr fused t norm mask N f ty D oc false c e = Some (c', e).
Proof. intros. unfold fl_params. cbn [andb]. eexists. reflexivity. Qed.

(** The new exponents. *)
Lemma params_expon : forall quadr fused t norm mask N f ty D oc c e c' e' k,
  params quadr fused t norm mask N f ty D oc true c e = Some (c', e') -> (k < length c)%nat ->
  let M := rows norm ty D e in
  let g := map (fun row => fl_dot rnd fused t row c) M in
  let b := map (fun row => nth k row 0) M in
  let r := map (fun ds => nth k ds 0) D in
  fl_avrg2 rnd quadr mask f g b r <> 0 /\ nth k e' 0 = fl_expon rnd quadr (nth k ty false) mask f g b r.
Proof.
  intros quadr fused t norm mask N f ty D oc c e c' e' k E K M g b r. unfold fl_params in E. cbn [andb] in E.
  destruct (existsb _ _) eqn:X; [discriminate|]. injection E as _ <-. split.
  - intro Z. apply Bool.not_true_iff_false in X. apply X. apply existsb_exists. exists k. split; [apply in_seq; lia|].
    fold M. fold g. fold b. fold r. destruct (Req_EM_T _ 0) as [_|n]; [reflexivity | contradiction].
  - rewrite (nth_indep _ 0 ((fun k => fl_expon rnd quadr (nth k ty false) mask f
      (map (fun row => fl_dot rnd fused t row c) (rows norm ty D e)) (map (fun row => nth k row 0) (rows norm ty D e)) (map (fun ds => nth k ds 0) D)) 0%nat))
      by (rewrite map_length, seq_length; exact K).
    rewrite (map_nth (fun k => fl_expon rnd quadr (nth k ty false) mask f
      (map (fun row => fl_dot rnd fused t row c) (rows norm ty D e)) (map (fun row => nth k row 0) (rows norm ty D e)) (map (fun ds => nth k ds 0) D))).
    rewrite seq_nth by exact K. reflexivity.
Qed.

(** *** Signs *)
Section Signs.
Context (u eta : R) (fmt : R -> Prop) (H : rounding u eta fmt rnd) (Hu8 : u <= 1 / 8).
Context (lo : R) (kp : nat) (Pw : pow_error u lo kp fpow) (Hpi : Rabs (pi - PI) <= u * PI).
Context (v z : R) (X : exp_error v z fexp).

Lemma rows_pos : forall norm ty D e, Forall (Rle 0) e -> Forall (Forall (Rle 0)) (rows norm ty D e).
Proof.
  intros norm ty D e P. unfold fl_rows. apply Forall_map, Forall_forall. intros ds _.
  apply (basis_pos u eta fmt rnd H Hu8 lo kp fpow pi Pw Hpi v z fexp X), P.
Qed.

Lemma col_pos : forall M k, Forall (Forall (Rle 0)) M -> Forall (Rle 0) (map (fun row => nth k row 0) M).
Proof. intros M k P. apply Forall_map. eapply Forall_impl; [|exact P]. intros row Q. apply nth_pos, Q. Qed.

Lemma squares_pos : forall r, Forall (Rle 0) (map (fun x => rnd (x * x)) r).
Proof. intro r. apply Forall_map, Forall_forall. intros x _. apply (rnd_pos u eta fmt rnd H), Rle_0_sqr. Qed.

Lemma expon_pos : forall quadr p mask f g b r, 0 <= mask -> (forall y, Forall (Rle 0) y -> 0 <= quadr y) ->
  Forall (Rle 0) f -> Forall (Rle 0) b -> fl_avrg2 rnd quadr mask f g b r <> 0 ->
  0 <= fl_avrg1 rnd quadr mask f g b /\ 0 < fl_avrg2 rnd quadr mask f g b r /\ 0 <= fl_expon rnd quadr p mask f g b r.
Proof.
  intros quadr p mask f g b r Hm Q Pf Pb Nz.
  assert (Pi := integrand_pos u eta fmt rnd H mask f g b Hm Pf Pb).
  assert (P1 : 0 <= fl_avrg1 rnd quadr mask f g b) by (apply Q, Pi).
  assert (P2 : 0 <= fl_avrg2 rnd quadr mask f g b r).
  { apply Q. apply (fl_mul_Forall_pos u eta fmt rnd H); [exact Pi | apply squares_pos]. }
  split; [exact P1|]. split; [lra|]. unfold fl_expon. apply (rnd_pos u eta fmt rnd H).
  apply Rmult_le_pos; [|left; apply Rinv_0_lt_compat; lra]. apply (rnd_pos u eta fmt rnd H).
  apply Rmult_le_pos; [destruct p; lra | exact P1].
Qed.

Lemma params_pos : forall quadr fused t norm mask N f ty D oc oe c e c' e', 0 <= mask -> 0 <= N ->
  (forall y, Forall (Rle 0) y -> 0 <= quadr y) -> Forall (Rle 0) f -> 0 < rnd (quadr f / N) -> length e = length c ->
  Forall (Rle 0) c -> Forall (Rle 0) e ->
  params quadr fused t norm mask N f ty D oc oe c e = Some (c', e') -> Forall (Rle 0) c' /\ Forall (Rle 0) e'.
Proof.
  intros quadr fused t norm mask N f ty D oc oe c e c' e' Hm HN Q Pf Pl L Pc Pe E.
  assert (PM := rows_pos norm ty D e Pe). destruct (params_length _ _ _ _ _ _ _ _ _ _ _ _ _ _ _ L E) as [L1 L2]. split.
  - destruct oc.
    + apply params_update in E. subst c'. apply (update_pos u eta fmt rnd H); assumption.
    + apply params_keep_c in E. subst c'. exact Pc.
  - destruct oe.
    + apply Forall_forall. intros x I. apply (In_nth _ _ 0) in I. destruct I as (k & K & <-).
      destruct (params_expon _ _ _ _ _ _ _ _ _ _ _ _ _ _ k E ltac:(lia)) as [Nz ->].
      apply (expon_pos quadr _ mask f); auto. apply col_pos, PM.
    + destruct (params_keep_e quadr fused t norm mask N f ty D oc c e) as [c1 E1]. rewrite E1 in E. injection E as _ <-. exact Pe.
Qed.

Lemma fit_pos : forall quadr fused t norm mask N f ty D oc oe n c e c' e', 0 <= mask -> 0 <= N ->
  (forall y, Forall (Rle 0) y -> 0 <= quadr y) -> Forall (Rle 0) f -> 0 < rnd (quadr f / N) -> length e = length c ->
  Forall (Rle 0) c -> Forall (Rle 0) e ->
  fit quadr fused t norm mask N f ty D oc oe n c e = Some (c', e') -> Forall (Rle 0) c' /\ Forall (Rle 0) e'.
Proof.
  intros quadr fused t norm mask N f ty D oc oe n c e c' e' Hm HN Q Pf Pl. revert c e c' e'.
  induction n as [|n IH]; intros c e c' e' L Pc Pe E.
  - cbn [fl_fit] in E. injection E as <- <-. auto.
  - cbn [fl_fit] in E. destruct (fl_params _ _ _ _ _ _ _ _ _ _ _ _ _ _ _ c e) as [[c1 e1]|] eqn:E1; [|discriminate].
    assert (L1 := params_length _ _ _ _ _ _ _ _ _ _ _ _ _ _ _ L E1).
    destruct (params_pos _ _ _ _ _ _ _ _ _ _ _ _ _ _ _ Hm HN Q Pf Pl L Pc Pe E1) as [P1 P2].
    apply (IH c1 e1); auto. lia.
Qed.
End Signs.

(** *** Without underflow *)
Section Relative.
Context (u : R) (fmt : R -> Prop) (H : rounding u 0 fmt rnd) (Hu8 : u <= 1 / 8).
Context (lo : R) (kp : nat) (Pw : pow_error u lo kp fpow) (Hpi : Rabs (pi - PI) <= u * PI).
Context (v z : R) (X : exp_error v z fexp).

Lemma rule_accurate : forall kI W quadr, rule u fmt kI W quadr -> accurate u fmt kI W quadr.
Proof. intros kI W quadr (P & Q & A) y L F Py. split; [apply Q, Py | apply A; assumption]. Qed.

Lemma rows_shape : forall norm ty D e, length ty = length e -> Forall (fun ds => length ds = length e) D ->
  Forall (fun row => length row = length e) (rows norm ty D e).
Proof.
  intros norm ty D e L LD. unfold fl_rows. apply Forall_map. eapply Forall_impl; [|exact LD]. intros ds Ld. cbn beta in Ld.
  rewrite basis_length; [reflexivity|]. rewrite combine_length. lia.
Qed.

Lemma fit_sum : forall kI W quadr fused t norm mask N f ty D oe n c0 e0 c e c' e',
  rule u fmt kI W quadr -> 0 < N -> 0 <= mask ->
  length f = length W -> length D = length f -> Forall fmt f -> Forall (Rle 0) f -> 0 < wsum W f ->
  length e0 = length c0 -> length ty = length c0 -> Forall (fun ds => length ds = length c0) D ->
  Forall (Rle 0) c0 -> Forall (Rle 0) e0 -> orders (length c0) t ->
  fit quadr fused t norm mask N f ty D true oe n c0 e0 = Some (c, e) ->
  fit quadr fused t norm mask N f ty D true oe (S n) c0 e0 = Some (c', e') ->
  Forall (fun ds => mask < fl_model rnd fexp fpow pi fused t norm (combine ty ds) c e) D ->
  within u (height t + 2 * kI + 6) (rsum c') N.
Proof.
  intros kI W quadr fused t norm mask N f ty D oe n c0 e0 c e c' e' Ru HN Hm Lf LD Ff Pf If Le Lt Ld Pc Pe O E E' G.
  assert (A := rule_accurate _ _ _ Ru). destruct Ru as (PW & Q & _).
  assert (Pl : 0 < rnd (quadr f / N)) by (eapply (lm_pos u fmt rnd H); eauto).
  rewrite fit_last, E in E'.
  destruct (fit_length _ _ _ _ _ _ _ _ _ _ _ _ _ _ _ _ Le E) as [L1 L2].
  destruct (fit_pos u 0 fmt H Hu8 lo kp Pw Hpi v z X _ _ _ _ _ _ _ _ _ _ _ _ _ _ _ _ Hm (Rlt_le _ _ HN) Q Pf Pl Le Pc Pe E) as [P1 P2].
  apply params_update in E'. subst c'.
  apply (update_sum u fmt rnd H) with (W := W); auto.
  - unfold fl_rows. rewrite map_length. exact LD.
  - rewrite L1. exact O.
  - assert (Sh : Forall (fun row => length row = length e) (rows norm ty D e)).
    { apply rows_shape; [congruence|]. eapply Forall_impl; [|exact Ld]. intros ds L. cbn beta in L. congruence. }
    assert (Ps := rows_pos u 0 fmt H Hu8 lo kp Pw Hpi v z X norm ty D e P2).
    assert (Gs : Forall (fun row => mask < fl_dot rnd fused t row c) (rows norm ty D e)).
    { unfold fl_rows. apply Forall_map. exact G. }
    rewrite Forall_forall in *. intros row I. split; [rewrite (Sh row I); congruence|]. split; [apply (Ps row I) | apply (Gs row I)].
Qed.

(** Bounds of a weighted average of squares. *)
Lemma wsum_squares : forall W y s a b, Forall (Rle 0) W -> Forall (Rle 0) y -> length s = length y ->
  Forall (fun x => a <= x <= b) s -> a * wsum W y <= wsum W (map2 Rmult y s) <= b * wsum W y.
Proof.
  intros W y s a b PW Py. revert W s PW. induction Py as [|y0 y P0 Py IH]; intros W s PW L S.
  - destruct W; simpl; lra.
  - destruct s as [|s0 s]; [discriminate|]. inversion S as [|? ? S0 S']; subst.
    destruct PW as [|w W Pw' PW]; [simpl; lra|]. cbn [map2 wsum].
    specialize (IH W s PW ltac:(simpl in L; lia) S').
    assert (0 <= w * y0) by (apply Rmult_le_pos; assumption).
    assert (w * y0 * a <= w * y0 * s0) by (apply Rmult_le_compat_l; lra).
    assert (w * y0 * s0 <= w * y0 * b) by (apply Rmult_le_compat_l; lra). lra.
Qed.

Lemma mul_squares_within : forall y r, Forall (Rle 0) y -> length r = length y ->
  Forall2 (within u 2) (fl_mul rnd y (map (fun x => rnd (x * x)) r)) (map2 Rmult y (map (fun x => x ^ 2) r)).
Proof.
  intros y r Py. revert r. induction Py as [|y0 y P0 Py IH]; intros [|x r] L; try discriminate; [constructor|].
  cbn [map fl_mul map2]. constructor; [|apply IH; simpl in L; lia].
  assert (S : 0 <= x * x) by apply Rle_0_sqr. replace (x ^ 2) with (x * x) by (simpl; ring).
  assert (S' : 0 <= rnd (x * x)) by (apply (rnd_pos u 0 fmt rnd H), S).
  apply (within_rnd u fmt rnd H); [apply Rmult_le_pos; assumption|].
  apply (within_mult u fmt rnd H 0 1); auto; [apply within_refl|].
  apply (within_rnd u fmt rnd H); [exact S | apply within_refl].
Qed.

Lemma map2_length : forall (F : R -> R -> R) a b, length a = length b -> length (map2 F a b) = length a.
Proof. intro F. induction a as [|x a IH]; intros [|y b] L; try discriminate; [reflexivity|]. simpl. rewrite IH; [reflexivity | simpl in L; lia]. Qed.

Lemma map2_pos : forall y s, Forall (Rle 0) y -> Forall (Rle 0) s -> Forall (Rle 0) (map2 Rmult y s).
Proof.
  intros y s Py. revert s. induction Py as [|y0 y P0 Py IH]; intros s Ps; [constructor|].
  destruct Ps as [|s0 s Q0 Ps]; constructor; [apply Rmult_le_pos; assumption | apply IH, Ps].
Qed.

(** The exponent is that of the computed integrand up to roundings. *)
Lemma expon_within : forall kI W quadr p mask f g b r,
  rule u fmt kI W quadr -> 0 <= mask -> length f = length W -> length g = length f -> length b = length f -> length r = length f ->
  Forall (Rle 0) f -> Forall (Rle 0) b -> fl_avrg2 rnd quadr mask f g b r <> 0 ->
  let y := fl_integrand rnd mask f g b in
  0 < wsum W (map2 Rmult y (map (fun x => x ^ 2) r)) /\
  within u (2 * kI + 4) (fl_expon rnd quadr p mask f g b r) (pref p * wsum W y / wsum W (map2 Rmult y (map (fun x => x ^ 2) r))).
Proof.
  intros kI W quadr p mask f g b r Ru Hm Lf Lg Lb Lr Pf Pb Nz y.
  destruct (expon_pos u 0 fmt H quadr p mask f g b r Hm (proj1 (proj2 Ru)) Pf Pb Nz) as (P1 & P2 & P3).
  assert (Py : Forall (Rle 0) y) by (apply (integrand_pos u 0 fmt rnd H); assumption).
  assert (Ly : length y = length f) by (unfold y; rewrite integrand_length; auto).
  assert (Fy : Forall fmt y) by (apply (integrand_fmt u fmt rnd H)).
  destruct Ru as (PW & Q & A).
  assert (W1 := A y ltac:(lia) Fy Py). fold (fl_avrg1 rnd quadr mask f g b) in P1.
  set (s := map (fun x => x ^ 2) r). set (z2 := fl_mul rnd y (map (fun x => rnd (x * x)) r)).
  assert (Ms := mul_squares_within y r Py ltac:(lia)). fold s in Ms. fold z2 in Ms.
  assert (Lz : length z2 = length W).
  { apply Forall2_length in Ms. rewrite Ms, map2_length; unfold s; rewrite ?map_length; lia. }
  assert (W2 := A z2 Lz (fl_mul_fmt u 0 fmt rnd H _ _) (fl_mul_Forall_pos u 0 fmt rnd H _ _ Py (squares_pos u 0 fmt H r))).
  assert (W3 := within_trans u fmt rnd H _ _ _ _ _ W2 (wsum_within u 2 W _ _ PW Ms)).
  change (quadr z2) with (fl_avrg2 rnd quadr mask f g b r) in *. change (quadr y) with (fl_avrg1 rnd quadr mask f g b) in *.
  assert (S2 : 0 < wsum W (map2 Rmult y s)) by (eapply (within_pos' u fmt rnd H); [exact P2 | exact W3]).
  split; [exact S2|].
  assert (S1 : 0 <= wsum W y) by (apply wsum_pos; assumption).
  assert (Hp : 0 < pref p) by (unfold pref; destruct p; lra).
  unfold fl_expon. fold (pref p). replace (2 * kI + 4)%nat with (S (S (0 + kI) + (kI + 2)))%nat by lia.
  assert (Q0 : 0 <= pref p * fl_avrg1 rnd quadr mask f g b) by (apply Rmult_le_pos; lra).
  assert (Q1 : 0 <= rnd (pref p * fl_avrg1 rnd quadr mask f g b)) by (apply (rnd_pos u 0 fmt rnd H), Q0).
  apply (within_rnd u fmt rnd H); [apply Rmult_le_pos; [exact Q1 | left; apply Rinv_0_lt_compat, P2]|].
  apply (within_div u fmt rnd H); auto; [apply Rmult_le_pos; lra|].
  apply (within_rnd u fmt rnd H); [exact Q0|].
  apply (within_mult u fmt rnd H); auto; [lra | lra | apply within_refl].
Qed.

Lemma expon_bounds : forall kI W quadr p mask f g b r a2 b2,
  rule u fmt kI W quadr -> 0 <= mask -> length f = length W -> length g = length f -> length b = length f -> length r = length f ->
  Forall (Rle 0) f -> Forall (Rle 0) b -> fl_avrg2 rnd quadr mask f g b r <> 0 ->
  Forall (fun x => a2 <= x ^ 2 <= b2) r ->
  (1 - u) ^ (2 * kI + 4) * (pref p / b2) <= fl_expon rnd quadr p mask f g b r /\
  (0 < a2 -> (1 - u) ^ (2 * kI + 4) * fl_expon rnd quadr p mask f g b r <= pref p / a2).
Proof.
  intros kI W quadr p mask f g b r a2 b2 Ru Hm Lf Lg Lb Lr Pf Pb Nz B.
  destruct (expon_within kI W quadr p mask f g b r Ru Hm Lf Lg Lb Lr Pf Pb Nz) as [S2 [W1 W2]].
  set (y := fl_integrand rnd mask f g b) in *.
  assert (Py : Forall (Rle 0) y) by (apply (integrand_pos u 0 fmt rnd H); assumption).
  assert (Ly : length y = length f) by (unfold y; rewrite integrand_length; auto).
  destruct Ru as (PW & Q & A).
  set (s := map (fun x => x ^ 2) r) in *.
  assert (Bs : Forall (fun x => a2 <= x <= b2) s) by (unfold s; apply Forall_map; exact B).
  assert (K := wsum_squares W y s a2 b2 PW Py ltac:(unfold s; rewrite map_length; lia) Bs).
  assert (S1 : 0 <= wsum W y) by (apply wsum_pos; assumption).
  set (x1 := wsum W y) in *. set (x2 := wsum W (map2 Rmult y s)) in *.
  assert (Hp : 0 < pref p) by (unfold pref; destruct p; lra).
  assert (X1 : 0 < x1).
  { destruct S1 as [S1|S1]; [exact S1|]. exfalso. rewrite <- S1 in K. lra. }
  assert (B2 : 0 < b2).
  { destruct (Rlt_le_dec 0 b2) as [G|G]; [exact G|]. exfalso.
    assert (b2 * x1 <= 0 * x1) by (apply Rmult_le_compat_r; lra). lra. }
  assert (Uq := q_pow u fmt rnd H (2 * kI + 4)).
  split.
  - eapply Rle_trans; [|exact W1]. apply Rmult_le_compat_l; [lra|].
    apply Rmult_le_reg_r with (b2 * x2); [apply Rmult_lt_0_compat; assumption|].
    replace (pref p / b2 * (b2 * x2)) with (pref p * x2) by (field; lra).
    replace (pref p * x1 / x2 * (b2 * x2)) with (pref p * (b2 * x1)) by (field; lra).
    apply Rmult_le_compat_l; lra.
  - intro A2. eapply Rle_trans; [exact W2|].
    apply Rmult_le_reg_r with (a2 * x2); [apply Rmult_lt_0_compat; assumption|].
    replace (pref p / a2 * (a2 * x2)) with (pref p * x2) by (field; lra).
    replace (pref p * x1 / x2 * (a2 * x2)) with (pref p * (a2 * x1)) by (field; lra).
    apply Rmult_le_compat_l; lra.
Qed.

(** The new exponents after some passes. *)
Lemma fit_bounds : forall kI W quadr fused t norm mask N f ty D oc n c0 e0 c' e' k a2 b2,
  rule u fmt kI W quadr -> 0 < N -> 0 <= mask ->
  length f = length W -> length D = length f -> Forall fmt f -> Forall (Rle 0) f -> 0 < wsum W f ->
  length e0 = length c0 -> Forall (Rle 0) c0 -> Forall (Rle 0) e0 ->
  fit quadr fused t norm mask N f ty D oc true (S n) c0 e0 = Some (c', e') -> (k < length c0)%nat ->
  Forall (fun ds => a2 <= nth k ds 0 ^ 2 <= b2) D ->
  (1 - u) ^ (2 * kI + 4) * (pref (nth k ty false) / b2) <= nth k e' 0 /\
  (0 < a2 -> (1 - u) ^ (2 * kI + 4) * nth k e' 0 <= pref (nth k ty false) / a2).
Proof.
  intros kI W quadr fused t norm mask N f ty D oc n c0 e0 c' e' k a2 b2 Ru HN Hm Lf LD Ff Pf If Le Pc Pe E K B.
  assert (A := rule_accurate _ _ _ Ru). assert (Q := proj1 (proj2 Ru)).
  assert (Pl : 0 < rnd (quadr f / N)) by (eapply (lm_pos u fmt rnd H); eauto).
  rewrite fit_last in E. destruct (fl_fit _ _ _ _ _ _ _ _ _ _ _ _ _ _ _ n c0 e0) as [[c e]|] eqn:E1; [|discriminate].
  destruct (fit_length _ _ _ _ _ _ _ _ _ _ _ _ _ _ _ _ Le E1) as [L1 L2].
  destruct (fit_pos u 0 fmt H Hu8 lo kp Pw Hpi v z X _ _ _ _ _ _ _ _ _ _ _ _ _ _ _ _ Hm (Rlt_le _ _ HN) Q Pf Pl Le Pc Pe E1) as [P1 P2].
  destruct (params_expon _ _ _ _ _ _ _ _ _ _ _ _ _ _ k E ltac:(lia)) as [Nz ->].
  assert (LM : length (rows norm ty D e) = length f) by (unfold fl_rows; rewrite map_length; exact LD).
  apply expon_bounds with (W := W); auto; try (rewrite map_length; lia); try exact Nz.
  - apply col_pos, (rows_pos u 0 fmt H Hu8 lo kp Pw Hpi v z X), P2.
  - apply Forall_map. exact B.
Qed.

(** The new exponent compared with the formula, for the basis functions as they were computed. *)
Lemma exact_int_map2 : forall k c f M, exact_int k c f M = map2 (fun a row => a / wsum row c * nth k row 0) f M.
Proof. intros k c. induction f as [|a f IH]; intros [|row M]; try reflexivity. cbn [exact_int map2]. rewrite IH. reflexivity. Qed.

Lemma map2_ones : forall y n, length y = n -> map2 Rmult y (repeat 1 n) = y.
Proof. induction y as [|a y IH]; intros [|n] L; try discriminate; [reflexivity|]. cbn [repeat map2]. rewrite Rmult_1_r, IH; [reflexivity | simpl in L; lia]. Qed.

Lemma map2_within : forall k y y' s, Forall (Rle 0) s -> length s = length y -> Forall2 (within u k) y y' ->
  Forall2 (within u k) (map2 Rmult y s) (map2 Rmult y' s).
Proof.
  intros k y y' s Ps L B. revert s Ps L. induction B as [|a a' y y' [C1 C2] B IH]; intros s Ps L; [destruct s; constructor|].
  destruct Ps as [|s0 s P0 Ps]; [constructor|]. cbn [map2]. constructor; [|apply IH; [exact Ps | simpl in L; lia]].
  assert (Uq := q_pow u fmt rnd H k). split.
  - replace ((1 - u) ^ k * (a' * s0)) with ((1 - u) ^ k * a' * s0) by ring. apply Rmult_le_compat_r; assumption.
  - replace ((1 - u) ^ k * (a * s0)) with ((1 - u) ^ k * a * s0) by ring. apply Rmult_le_compat_r; assumption.
Qed.

Lemma params_formula : forall kI W quadr fused t norm mask N f ty D oc c e c' e' k,
  rule u fmt kI W quadr -> 0 <= mask ->
  length f = length W -> length D = length f -> Forall (Rle 0) f ->
  length e = length c -> length ty = length c -> Forall (fun ds => length ds = length c) D ->
  Forall (Rle 0) c -> Forall (Rle 0) e -> orders (length c) t ->
  params quadr fused t norm mask N f ty D oc true c e = Some (c', e') -> (k < length c)%nat ->
  Forall (fun ds => mask < fl_model rnd fexp fpow pi fused t norm (combine ty ds) c e) D ->
  let M := rows norm ty D e in
  let S1 := average W f M c k (repeat 1 (length f)) in
  let S2 := average W f M c k (map (fun ds => nth k ds 0 ^ 2) D) in
  0 < S2 /\ within u (2 * kI + 2 * height t + 10) (nth k e' 0) (pref (nth k ty false) * S1 / S2).
Proof.
  intros kI W quadr fused t norm mask N f ty D oc c e c' e' k Ru Hm Lf LD Pf Le Lt Ld Pc Pe O E K G M S1 S2.
  destruct (params_expon _ _ _ _ _ _ _ _ _ _ _ _ _ _ k E K) as [Nz ->]. fold M in Nz |- *.
  assert (LM : length M = length f) by (unfold M, fl_rows; rewrite map_length; exact LD).
  assert (PM := rows_pos u 0 fmt H Hu8 lo kp Pw Hpi v z X norm ty D e Pe). fold M in PM.
  assert (Sh : Forall (fun row => length row = length c) M).
  { assert (S := rows_shape norm ty D e). rewrite Le in S. apply S; [exact Lt|]. exact Ld. }
  assert (Gs : Forall (fun row => mask < fl_dot rnd fused t row c) M).
  { unfold M, fl_rows. apply Forall_map. exact G. }
  set (g := map (fun row => fl_dot rnd fused t row c) M) in *. set (b := map (fun row => nth k row 0) M) in *.
  set (r := map (fun ds => nth k ds 0) D) in *.
  assert (Lg : length g = length f) by (unfold g; rewrite map_length; exact LM).
  assert (Lb : length b = length f) by (unfold b; rewrite map_length; exact LM).
  assert (Lr : length r = length f) by (unfold r; rewrite map_length; exact LD).
  assert (Pb : Forall (Rle 0) b) by (apply col_pos, PM).
  destruct (expon_within kI W quadr (nth k ty false) mask f g b r Ru Hm Lf Lg Lb Lr Pf Pb Nz) as [Z2 Wt].
  set (y := fl_integrand rnd mask f g b) in *.
  assert (Py : Forall (Rle 0) y) by (apply (integrand_pos u 0 fmt rnd H); assumption).
  assert (Ly : length y = length f) by (unfold y; rewrite integrand_length; auto).
  assert (Iw : Forall2 (within u (height t + 3)) y (exact_int k c f M)).
  { unfold y, g, b. apply (integrand_within u fmt rnd H); auto. rewrite Forall_forall in *. intros row I. auto. }
  rewrite exact_int_map2 in Iw. set (y' := map2 _ f M) in Iw.
  set (s := map (fun x => x ^ 2) r) in *.
  assert (Es : map (fun ds => nth k ds 0 ^ 2) D = s) by (unfold s, r; rewrite map_map; reflexivity).
  assert (Ls : length s = length f) by (unfold s; rewrite map_length; exact Lr).
  assert (Ps : Forall (Rle 0) s) by (unfold s; apply Forall_map, Forall_forall; intros x _; apply pow2_ge_0).
  assert (Ly' : length y' = length f) by (apply Forall2_length in Iw; lia).
  assert (E1 : S1 = wsum W y') by (unfold S1, average; fold y'; rewrite map2_ones by exact Ly'; reflexivity).
  assert (E2 : S2 = wsum W (map2 Rmult y' s)) by (unfold S2, average; fold y'; rewrite Es; reflexivity).
  destruct Ru as (PW & Q & A).
  assert (V1 := wsum_within u _ W _ _ PW Iw).
  assert (V2 := wsum_within u _ W _ _ PW (map2_within _ y y' s Ps (eq_trans Ls (eq_sym Ly)) Iw)).
  rewrite <- E1 in V1. rewrite <- E2 in V2.
  assert (Z2' : 0 < S2) by (eapply (within_pos' u fmt rnd H); [exact Z2 | exact V2]).
  split; [exact Z2'|].
  assert (Z1 : 0 <= wsum W y) by (apply wsum_pos; assumption).
  assert (Z1' : 0 <= S1).
  { destruct V1 as [_ V1]. assert (Uq := q_pow u fmt rnd H (height t + 3)).
    assert (0 <= (1 - u) ^ (height t + 3) * wsum W y) by (apply Rmult_le_pos; lra). lra. }
  assert (Hp : 0 < pref (nth k ty false)) by (unfold pref; destruct (nth k ty false); lra).
  replace (2 * kI + 2 * height t + 10)%nat with ((2 * kI + 4) + ((0 + (height t + 3)) + (height t + 3)))%nat by lia.
  eapply (within_trans u fmt rnd H); [exact Wt|].
  apply (within_div u fmt rnd H); auto; try (apply Rmult_le_pos; lra).
  apply (within_mult u fmt rnd H); auto; [lra | lra | apply within_refl].
Qed.

End Relative.
End Loop.

(** The three kinds of grids. *)
Section Grids.
Context (u : R) (fmt : R -> Prop) (rnd : R -> R) (H : rounding u 0 fmt rnd).

Lemma rule_cubic : forall t w, orders (length w) t -> Forall (Rle 0) w -> rule u fmt (height t + 1) w (fl_cubic rnd t w).
Proof.
  intros t w O P. split; [exact P|]. split; [intros y Q; apply (cubic_pos u 0 fmt rnd H); assumption|].
  intros y L F Q. apply (cubic_accurate u fmt rnd H t w O P y L F Q).
Qed.

Lemma rule_radial : forall t x, ascending x -> orders (pred (length x)) t ->
  exists W, length W = length x /\ (forall y, length y = length x -> wsum W y = trap x y) /\ rule u fmt (height t + 4) W (fl_trapz rnd t x).
Proof.
  intros t x A O. exists (tweights x 0). split; [apply tweights_length|]. split; [intros y L; apply trap_wsum; auto|].
  split; [apply tweights_pos; [exact A | lra]|]. split; [intros y Q; apply (trapz_pos u 0 fmt rnd H); assumption|].
  intros y L F Q. apply (trapz_accurate u fmt rnd H t x A O y L F Q).
Qed.

Lemma rule_spherical : forall p t x, 0 < p -> ascending x -> orders (pred (length x)) t ->
  exists W, length W = length x /\ (forall y, length y = length x -> wsum W y = 4 * p * trap x (map2 (fun r b => r * r * b) x y)) /\
    rule u fmt (height t + 8) W (fl_spherical rnd p t x).
Proof.
  intros p t x Hp A O. exists (sweights p x (tweights x 0)).
  split; [apply sweights_length; rewrite tweights_length; reflexivity|].
  split; [intros y L; rewrite trap_sphere_wsum, sphere_scale by auto; reflexivity|].
  split; [apply sweights_pos; [lra|]; apply tweights_pos; [exact A | lra]|].
  split; [intros y Q; apply (spherical_pos u 0 fmt rnd H); auto; lra|].
  intros y L F Q. apply (spherical_accurate u fmt rnd H); auto. lra.
Qed.
End Grids.
