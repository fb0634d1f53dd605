(** Proofs about the measures (C12-C19). *)
From Coquelicot Require Import Coquelicot.
From Coq Require Import Reals List ZArith Lia Lra Bool.
From Verif Require Import XR SpecDens SpecMeas ModelMeas Lists ProofDeriv.
Import ListNotations.
Local Open Scope R_scope.

Lemma map2_fin (op : xr -> xr -> xr) (op' : R -> R -> R) :
  (forall x y, op (Fin x) (Fin y) = Fin (op' x y)) ->
  forall f g, map2 op (map Fin f) (map Fin g) = map Fin (map2 op' f g).
Proof. intros H f g. rewrite map2_map, map_map2. apply map2_ext_len. auto. Qed.

(** *** acceptance *)
Lemma evaluate_ok me f g b : length f = length g ->
  measure_evaluate me (VArr (A1 f)) (VArr (A1 g)) (VBool b) = Ok (measure_values me f g b).
Proof. intros H. unfold measure_evaluate. now rewrite H, Nat.eqb_refl. Qed.

Lemma evaluate_accepts me density model deriv :
  (exists out, measure_evaluate me density model deriv = Ok out) <->
  exists f g b, density = VArr (A1 f) /\ model = VArr (A1 g) /\ deriv = VBool b /\
                length f = length g.
Proof.
  split.
  - intros [out H]. unfold measure_evaluate in H.
    destruct model as [| | | | |[g|]| |]; try (destruct density; discriminate).
    + destruct density as [| | | | |[f|]| |]; try discriminate.
      destruct (Nat.eqb_spec (length g) (length f)); [|discriminate].
      destruct deriv as [|b| | | | | |]; try discriminate. exists f, g, b. auto.
    + destruct density as [| | | | |[f|]| |]; discriminate.
  - intros (f & g & b & -> & -> & -> & H). eexists. now apply evaluate_ok.
Qed.

Lemma evaluate_raises me f model deriv x :
  measure_evaluate me (VArr f) model deriv = Raise x ->
  (x = ValueError \/ x = TypeError) /\
  (x = TypeError <-> (exists l g, f = A1 l /\ model = VArr (A1 g) /\ length l = length g) /\
                     forall b, deriv <> VBool b).
Proof.
  intros H. unfold measure_evaluate in H.
  assert (N : forall P : Prop, (P -> False) -> x = ValueError ->
    (x = ValueError \/ x = TypeError) /\ (x = TypeError <-> P)).
  { intros P HP ->. split; auto. split; [discriminate|tauto]. }
  destruct model as [| | | | |[g|]| |];
    try (injection H as <-; apply N; auto; intros [(l & g & _ & E & _) _]; discriminate).
  - destruct f as [l|].
    2:{ injection H as <-. apply N; auto. intros [(l & g' & E & _) _]; discriminate. }
    destruct (Nat.eqb_spec (length g) (length l)); cbn [negb] in H.
    2:{ injection H as <-. apply N; auto. intros [(l' & g' & E & E' & E2) _]. congruence. }
    destruct deriv as [|b| | | | | |]; try discriminate; injection H as <-;
      (split; [auto|split; auto; intros _; split; [exists l, g; auto|discriminate]]).
  - destruct f; injection H as <-; apply N; auto;
      intros [(l0 & g0 & E1 & E & _) _]; discriminate.
Qed.

(** *** C12 *)
Lemma sq_value f g b : length f = length g ->
  exists d, measure_evaluate MSq (VArr (A1 (map Fin f))) (VArr (A1 (map Fin g))) (VBool b) =
    Ok (map Fin (map2 sq_fn f g), if b then Some (map Fin d) else None) /\
    length d = length f /\
    forall i, (i < length f)%nat -> is_derive (fun t : R => sq_fn (nth i f 0) t) (nth i g 0) (nth i d 0).
Proof.
  intros H. exists (map2 (fun x y => -2 * (x - y)) f g). split; [|split].
  - rewrite evaluate_ok by now rewrite !map_length. f_equal. simpl. unfold sq_values.
    rewrite (map2_fin xsub Rminus) by reflexivity.
    f_equal.
    + rewrite !map_map, !map_map2. apply map2_ext_len. intros. unfold sq_fn. simpl. f_equal. ring.
    + destruct b; auto. f_equal. rewrite !map_map, !map_map2. reflexivity.
  - rewrite map2_length; lia.
  - intros i Hi. rewrite (nth_map2 _ f g i 0 0) by lia. unfold sq_fn. auto_derive; auto. ring.
Qed.

Lemma sq_fn_nonneg f g : 0 <= sq_fn f g.
Proof. apply pow2_ge_0. Qed.
Lemma sq_fn_zero f g : sq_fn f g = 0 <-> f = g.
Proof.
  unfold sq_fn. split.
  - intros H. assert (H1 : (f - g) * (f - g) = 0) by (simpl in H; lra).
    apply Rmult_integral in H1. lra.
  - intros ->. ring.
Qed.

(** *** masked division *)
Lemma kept_nz mask f g : 0 <= mask -> kept mask f g -> 0 < g.
Proof. intros H [H1 _]. lra. Qed.

Lemma ma_div_kept mask f g : 0 <= mask -> kept mask f g ->
  ma_div (Fin mask) (Fin f) (Fin g) = Some (Fin (f / g)).
Proof.
  intros Hm Hk. pose proof (kept_nz _ _ _ Hm Hk) as Hg. destruct Hk as [H1 H2].
  unfold ma_div. cbn [xleb xdiv xabs xmul]. rewrite (reqb_false g 0) by lra.
  rewrite (rleb_false g mask) by lra. cbn [xfinite negb orb].
  rewrite rleb_false by (unfold tiny; lra). reflexivity.
Qed.

Lemma ma_div_masked mask f g : 0 <= mask -> ~ kept mask f g -> 0 <= g ->
  ma_div (Fin mask) (Fin f) (Fin g) = None.
Proof.
  intros Hm Hk Hg. unfold ma_div. cbn [xleb xabs xmul].
  destruct (Rlt_dec mask g) as [H1|H1].
  - assert (H2 : ~ Rabs f * / 2 ^ 1022 < Rabs g) by (intros H2; apply Hk; split; auto).
    rewrite (rleb_true (Rabs g)) by (unfold tiny; lra). now rewrite !orb_true_r.
  - rewrite rleb_true by lra. reflexivity.
Qed.

(** *** C13 *)
(** Value at one point: 0 where masked. *)
Lemma kl_point mask f g : 0 <= mask -> 0 < f -> 0 <= g ->
  exists v q, xmul (Fin f) (xln (filled (Fin 1) (ma_div (Fin mask) (Fin f) (Fin g)))) = Fin v /\
    filled (Fin 1) (ma_div (Fin mask) (Fin f) (Fin g)) = Fin q /\
    (kept mask f g -> v = kl_fn f g /\ q = f / g) /\ (~ kept mask f g -> v = 0 /\ q = 1).
Proof.
  intros Hm Hf Hg.
  destruct (Rlt_dec mask g) as [H1|H1].
  2:{ assert (Hn : ~ kept mask f g) by (intros [? ?]; lra).
      rewrite ma_div_masked by auto. simpl. rewrite rltb_true by lra. exists 0, 1. rewrite ln_1.
      split; [f_equal; ring|]. split; auto. tauto. }
  destruct (Rlt_dec (Rabs f * / 2 ^ 1022) (Rabs g)) as [H2|H2].
  2:{ assert (Hn : ~ kept mask f g) by (intros [? ?]; contradiction).
      rewrite ma_div_masked by auto. simpl. rewrite rltb_true by lra. exists 0, 1. rewrite ln_1.
      split; [f_equal; ring|]. split; auto. tauto. }
  assert (Hk : kept mask f g) by (split; auto).
  rewrite ma_div_kept by auto. simpl.
  assert (0 < f / g) by (apply Rdiv_lt_0_compat; lra).
  rewrite rltb_true by auto. exists (kl_fn f g), (f / g). split; [reflexivity|]. tauto.
Qed.

Lemma existsb_neg_false g : Forall (fun x => 0 <= x) g ->
  existsb (fun x => xltb x (Fin 0)) (map Fin g) = false.
Proof.
  induction 1 as [|x l Hx Hl IH]; auto. simpl. rewrite rltb_false by lra. auto.
Qed.
Lemma existsb_neg_true g : Exists (fun x => x < 0) g ->
  existsb (fun x => xltb x (Fin 0)) (map Fin g) = true.
Proof.
  induction 1 as [x l Hx|x l Hl IH]; simpl.
  - rewrite rltb_true by lra. auto.
  - rewrite IH. apply orb_true_r.
Qed.

Lemma kl_value mask neg f g b : 0 <= mask -> length f = length g ->
  Forall (fun x => 0 < x) f -> Forall (fun x => 0 <= x) g ->
  exists v q,
    measure_evaluate (MKL (Fin mask) neg) (VArr (A1 (map Fin f))) (VArr (A1 (map Fin g))) (VBool b) =
      Ok (map Fin v, if b then Some (map Fin q) else None) /\
    length v = length f /\ length q = length f /\
    forall i, (i < length f)%nat ->
      (kept mask (nth i f 0) (nth i g 0) ->
         nth i v 0 = kl_fn (nth i f 0) (nth i g 0) /\ nth i q 0 = - (nth i f 0 / nth i g 0)) /\
      (~ kept mask (nth i f 0) (nth i g 0) -> nth i v 0 = 0 /\ nth i q 0 = -1).
Proof.
  intros Hm Hl Hf Hg.
  assert (K : exists v q,
    map2 (fun d q => xmul d (xln q)) (map Fin f)
      (map2 (fun d m => filled (Fin 1) (ma_div (Fin mask) d m)) (map Fin f) (map Fin g)) = map Fin v /\
    map xneg (map2 (fun d m => filled (Fin 1) (ma_div (Fin mask) d m)) (map Fin f) (map Fin g))
      = map Fin q /\
    length v = length f /\ length q = length f /\
    forall i, (i < length f)%nat ->
      (kept mask (nth i f 0) (nth i g 0) ->
         nth i v 0 = kl_fn (nth i f 0) (nth i g 0) /\ nth i q 0 = - (nth i f 0 / nth i g 0)) /\
      (~ kept mask (nth i f 0) (nth i g 0) -> nth i v 0 = 0 /\ nth i q 0 = -1)).
  { revert g Hl Hg; induction Hf as [|x f Hx Hf IH]; intros [|y g] Hl Hg; simpl in Hl;
      try discriminate.
    - exists [], []. simpl. repeat split; auto; intros; lia.
    - inversion Hg; subst.
      destruct (IH g ltac:(lia) H2) as (v & q & E1 & E2 & L1 & L2 & HI).
      destruct (kl_point mask x y Hm Hx H1) as (v0 & q0 & F1 & F2 & K1 & K2).
      exists (v0 :: v), (- q0 :: q). cbn [map map2 length]. rewrite F1, E1, E2, F2.
      split; auto. split; auto. split; [lia|]. split; [lia|].
      intros [|i] Hi; cbn [nth].
      + split; intros Hk; [destruct (K1 Hk)|destruct (K2 Hk)]; subst; auto.
      + apply HI. simpl in Hi; lia. }
  destruct K as (v & q & E1 & E2 & L1 & L2 & HI). exists v, q. split; auto.
  rewrite evaluate_ok by now rewrite !map_length. f_equal. simpl. unfold kl_values.
  rewrite existsb_neg_false by auto. rewrite E1, E2. reflexivity.
Qed.

Lemma kl_negative mask neg f g b : length f = length g ->
  Exists (fun x => x < 0) g ->
  measure_evaluate (MKL mask neg) (VArr (A1 (map Fin f))) (VArr (A1 (map Fin g))) (VBool b) =
    Ok (repeat neg (length f), if b then Some (repeat neg (length f)) else None).
Proof.
  intros Hl He. rewrite evaluate_ok by now rewrite !map_length. f_equal. simpl. unfold kl_values.
  rewrite existsb_neg_true by auto. rewrite map_length, Hl. reflexivity.
Qed.

(** *** C14 *)
Lemma kl_fn_derive f g : 0 < f -> 0 < g -> is_derive (fun t : R => kl_fn f t) g (- (f / g)).
Proof.
  intros Hf Hg. unfold kl_fn. auto_derive.
  - split; [lra|]. split; auto. apply Rdiv_lt_0_compat; auto.
  - field. lra.
Qed.

(** At a masked point the integrand is locally constant but the derivative returned is -1. *)
Lemma kl_masked_deriv : exists mask f g v dv,
  0 < mask /\ 0 < f /\ 0 < g < mask /\
  measure_evaluate (MKL (Fin mask) (Fin 100000)) (VArr (A1 [Fin f])) (VArr (A1 [Fin g])) (VBool true) =
    Ok ([Fin v], Some [Fin dv]) /\
  (forall t, 0 <= t <= mask ->
     measure_evaluate (MKL (Fin mask) (Fin 100000)) (VArr (A1 [Fin f])) (VArr (A1 [Fin t])) (VBool false) =
       Ok ([Fin v], None)) /\
  dv = -1.
Proof.
  exists 1, 1, (1/2), 0, (-1).
  assert (HM : forall t, 0 <= t <= 1 -> ma_div (Fin 1) (Fin 1) (Fin t) = None).
  { intros t Ht. apply ma_div_masked; try lra. intros [? _]; lra. }
  repeat split; try lra.
  - rewrite evaluate_ok by auto. f_equal. simpl. unfold kl_values. simpl.
    rewrite rltb_false by lra. simpl. rewrite HM by lra. simpl. rewrite rltb_true by lra.
    rewrite ln_1. f_equal. f_equal. f_equal. ring.
  - intros t Ht. rewrite evaluate_ok by auto. f_equal. simpl. unfold kl_values. simpl.
    rewrite rltb_false by lra. simpl. rewrite HM by lra. simpl. rewrite rltb_true by lra.
    rewrite ln_1. f_equal. f_equal. f_equal. ring.
Qed.

(** *** C15 *)
Lemma kl_zero_density : forall mask neg, 0 <= mask < 1 ->
  measure_evaluate (MKL (Fin mask) neg) (VArr (A1 [Fin 0])) (VArr (A1 [Fin 1])) (VBool false) =
    Ok ([NaN], None).
Proof.
  intros mask neg Hm. rewrite evaluate_ok by auto. f_equal. simpl. unfold kl_values. simpl.
  rewrite rltb_false by lra. simpl.
  rewrite ma_div_kept.
  - simpl. replace (0 / 1) with 0 by lra. rewrite rltb_false by lra. rewrite reqb_true by lra.
    reflexivity.
  - lra.
  - split; [lra|]. rewrite Rabs_R0. rewrite Rabs_R1. lra.
Qed.

Lemma kl_nan_model : forall mask neg f,
  measure_evaluate (MKL mask neg) (VArr (A1 [Fin f])) (VArr (A1 [NaN])) (VBool false) =
    Ok ([Fin 0], None).
Proof.
  intros mask neg f. rewrite evaluate_ok by auto. f_equal. simpl. unfold kl_values. simpl.
  unfold ma_div. destruct mask; simpl; rewrite rltb_true by lra; rewrite ln_1;
    f_equal; f_equal; f_equal; ring.
Qed.

(** *** C16 *)
Lemma ln_le_sub x : 0 < x -> ln x <= x - 1.
Proof.
  intros H. pose proof (exp_ineq1_le (ln x)) as E. rewrite exp_ln in E; lra.
Qed.
Lemma ln_lt_sub x : 0 < x -> x <> 1 -> ln x < x - 1.
Proof.
  intros H Hn. assert (ln x <> 0).
  { intros E. apply Hn. rewrite <- (exp_ln x H), E. apply exp_0. }
  pose proof (exp_ineq1 (ln x) H0) as E. rewrite exp_ln in E; lra.
Qed.

Lemma kl_fn_ge f g : 0 < f -> 0 < g -> f - g <= kl_fn f g.
Proof.
  intros Hf Hg. unfold kl_fn.
  assert (E : ln (f / g) = - ln (g / f)).
  { rewrite !ln_div by auto. ring. }
  rewrite E. pose proof (ln_le_sub (g / f) ltac:(apply Rdiv_lt_0_compat; auto)).
  assert (f * ln (g / f) <= f * (g / f - 1)) by (apply Rmult_le_compat_l; lra).
  replace (f * (g / f - 1)) with (g - f) in H0 by (field; lra). lra.
Qed.
Lemma kl_fn_gt f g : 0 < f -> 0 < g -> f <> g -> f - g < kl_fn f g.
Proof.
  intros Hf Hg Hn. unfold kl_fn.
  assert (E : ln (f / g) = - ln (g / f)).
  { rewrite !ln_div by auto. ring. }
  assert (g / f <> 1).
  { intros H. apply Hn. apply (f_equal (fun x => x * f)) in H. field_simplify in H; lra. }
  rewrite E. pose proof (ln_lt_sub (g / f) ltac:(apply Rdiv_lt_0_compat; auto) H).
  assert (f * ln (g / f) < f * (g / f - 1)) by (apply Rmult_lt_compat_l; lra).
  replace (f * (g / f - 1)) with (g - f) in H1 by (field; lra). lra.
Qed.

Lemma nth_sum_ge : forall (w a b : list R), length a = length b -> length w = length a ->
  Forall (fun x => 0 <= x) w ->
  (forall i, (i < length a)%nat -> nth i a 0 <= nth i b 0) -> rdot w a <= rdot w b.
Proof.
  intros w a b Hl Hw Hp. revert a b Hl Hw; induction Hp as [|x w Hx Hp IH];
    intros [|y a] [|z b] Hl Hw H; simpl in *; try discriminate.
  - lra.
  - unfold rdot, rsum in *. simpl.
    pose proof (H 0%nat ltac:(lia)). simpl in H0.
    specialize (IH a b ltac:(lia) ltac:(lia)).
    assert (forall i, (i < length a)%nat -> nth i a 0 <= nth i b 0).
    { intros i Hi. apply (H (S i)). lia. }
    specialize (IH H1). pose proof (Rmult_le_compat_l x _ _ Hx H0). lra.
Qed.

Lemma nth_sum_eq : forall (w a b : list R), length a = length b -> length w = length a ->
  Forall (fun x => 0 <= x) w ->
  (forall i, (i < length a)%nat -> nth i a 0 <= nth i b 0) -> rdot w b <= rdot w a ->
  forall i, (i < length a)%nat -> 0 < nth i w 0 -> nth i a 0 = nth i b 0.
Proof.
  intros w a b Hl Hw Hp. revert a b Hl Hw; induction Hp as [|x w Hx Hp IH];
    intros [|y a] [|z b] Hl Hw H HS i Hi Hwi; simpl in *; try discriminate; try lia.
  assert (H1 : forall i, (i < length a)%nat -> nth i a 0 <= nth i b 0).
  { intros j Hj. apply (H (S j)). lia. }
  pose proof (H 0%nat ltac:(lia)) as H0. simpl in H0.
  pose proof (nth_sum_ge w a b ltac:(lia) ltac:(lia) Hp H1) as HG.
  pose proof (Rmult_le_compat_l x _ _ Hx H0) as HM.
  unfold rdot, rsum in *. simpl in HS.
  destruct i as [|i]; simpl.
  - assert (x * z <= x * y) by lra. simpl in Hwi.
    assert (z <= y) by (apply (Rmult_le_reg_l x); auto). lra.
  - eapply IH; eauto; try lia. lra.
Qed.

Lemma rdot_sub w a b : length a = length b -> length w = length a ->
  rdot w (map2 Rminus a b) = rdot w a - rdot w b.
Proof.
  revert a b; induction w as [|x w IH]; intros [|y a] [|z b] Hl Hw; simpl in *; try discriminate.
  - unfold rdot, rsum; simpl; ring.
  - unfold rdot, rsum in *. simpl. rewrite IH by lia. ring.
Qed.

Lemma gibbs mask neg w f g : 0 <= mask -> all_kept mask f g ->
  length w = length f -> Forall (fun x => 0 <= x) w ->
  exists v,
    measure_evaluate (MKL (Fin mask) neg) (VArr (A1 (map Fin f))) (VArr (A1 (map Fin g))) (VBool false)
      = Ok (map Fin v, None) /\
    quad w f - quad w g <= quad w v /\
    (quad w v <= quad w f - quad w g ->
     forall i, (i < length f)%nat -> 0 < nth i w 0 -> nth i f 0 = nth i g 0).
Proof.
  intros Hm [Hl Hk] Hw Hp.
  assert (Hf : Forall (fun x => 0 < x) f).
  { apply Forall_nth. intros i d Hi. rewrite (nth_indep _ d 0) by auto. now apply Hk. }
  assert (Hg : Forall (fun x => 0 <= x) g).
  { apply Forall_nth. intros i d Hi. rewrite (nth_indep _ d 0) by auto.
    destruct (Hk i ltac:(lia)) as [_ [H _]]. lra. }
  destruct (kl_value mask neg f g false Hm Hl Hf Hg) as (v & q & E & L1 & _ & HI).
  exists v. split; auto. unfold quad. rewrite <- rdot_sub by lia.
  assert (L : length (map2 Rminus f g) = length f) by (rewrite map2_length; lia).
  assert (HP : forall i, (i < length (map2 Rminus f g))%nat -> nth i (map2 Rminus f g) 0 <= nth i v 0).
  { intros i Hi. rewrite L in Hi. rewrite (nth_map2 _ f g i 0 0) by lia.
    destruct (Hk i Hi) as [K1 K2]. destruct (HI i Hi) as [K _]. destruct (K K2) as [-> _].
    apply kl_fn_ge; auto. eapply kept_nz; eauto. }
  split.
  - apply nth_sum_ge; auto; lia.
  - intros HS i Hi Hwi.
    pose proof (nth_sum_eq w (map2 Rminus f g) v ltac:(lia) ltac:(lia) Hp HP HS i ltac:(lia) Hwi) as H.
    rewrite (nth_map2 _ f g i 0 0) in H by lia.
    destruct (Hk i Hi) as [K1 K2]. destruct (HI i Hi) as [K _]. destruct (K K2) as [K3 _].
    rewrite K3 in H.
    destruct (Req_dec (nth i f 0) (nth i g 0)) as [?|Hne]; auto.
    pose proof (kl_fn_gt _ _ K1 (kept_nz _ _ _ Hm K2) Hne). lra.
Qed.

(** *** C17 *)
Lemma tsallis_accepts alpha mask :
  (exists m, tsallis_init alpha mask = Ok m) <-> 0 <= alpha /\ 1 / 10 ^ 10 <= Rabs (alpha - 1).
Proof.
  unfold tsallis_init, rltb. destruct (Rlt_dec alpha 0); [|destruct (Rlt_dec _ _)]; split;
    try (intros [m H]; discriminate); try lra; intros; eauto; lra.
Qed.

Lemma tsallis_ne1 alpha mask m : tsallis_init alpha mask = Ok m ->
  0 <= alpha /\ alpha <> 1 /\ m = MTs alpha mask.
Proof.
  intros H. assert (HA : exists m, tsallis_init alpha mask = Ok m) by eauto.
  apply tsallis_accepts in HA. destruct HA as [H1 H2]. split; auto. split.
  - intros ->. rewrite Rminus_diag_eq, Rabs_R0 in H2 by auto.
    assert (0 < 1 / 10 ^ 10) by (apply Rdiv_lt_0_compat; [lra|apply pow_lt; lra]). lra.
  - unfold tsallis_init in H. destruct (rltb alpha 0); [discriminate|].
    destruct (rltb _ _); [discriminate|]. congruence.
Qed.

Lemma ts_fn_derive alpha f g : alpha <> 1 -> 0 < f -> 0 < g ->
  is_derive (fun t : R => ts_fn alpha f t) g (- Rpower (f / g) alpha).
Proof.
  intros Ha Hf Hg. unfold ts_fn, Rpower.
  assert (Hfg : 0 < f / g) by (apply Rdiv_lt_0_compat; auto).
  auto_derive.
  - split; [lra|]. split; auto.
  - replace (alpha * ln (f / g)) with ((alpha - 1) * ln (f / g) + ln (f / g)) by ring.
    rewrite exp_plus, exp_ln by auto. unfold Rdiv. field. lra.
Qed.

Lemma xpow_pos x p : 0 < x -> xpow (Fin x) p = Fin (Rpower x p).
Proof.
  intros H. unfold xpow. destruct (Req_dec p 0) as [->|Hp].
  - rewrite reqb_true by auto. now rewrite Rpower_O.
  - rewrite reqb_false by auto. now rewrite rltb_true.
Qed.

Lemma ts_value alpha mask m f g b : 0 <= mask -> all_kept mask f g ->
  tsallis_init alpha (Fin mask) = Ok m ->
  exists d,
    measure_evaluate m (VArr (A1 (map Fin f))) (VArr (A1 (map Fin g))) (VBool b) =
      Ok (map Fin (map2 (ts_fn alpha) f g), if b then Some (map Fin d) else None) /\
    length d = length f /\
    forall i, (i < length f)%nat ->
      is_derive (fun t : R => ts_fn alpha (nth i f 0) t) (nth i g 0) (nth i d 0).
Proof.
  intros Hm [Hl Hk] Ht. destruct (tsallis_ne1 _ _ _ Ht) as (_ & Ha & ->).
  exists (map2 (fun x y => - Rpower (x / y) alpha) f g). split; [|split].
  - rewrite evaluate_ok by now rewrite !map_length. f_equal. simpl. unfold ts_values.
    assert (E : map2 (fun d m => filled (Fin 0) (ma_div (Fin mask) d m)) (map Fin f) (map Fin g) =
                map Fin (map2 Rdiv f g) /\ Forall (fun x => 0 < x) (map2 Rdiv f g)).
    { clear Ht b. revert g Hl Hk; induction f as [|x f IH]; intros [|y g] Hl Hk; simpl in Hl;
        try discriminate; [split; constructor|].
      destruct (Hk 0%nat ltac:(simpl; lia)) as [K1 K2]; simpl in K1, K2.
      cbn [map map2]. rewrite ma_div_kept by auto. cbn [filled].
      destruct (IH g ltac:(lia)) as [E1 E2].
      { intros i Hi. apply (Hk (S i)). simpl; lia. }
      rewrite E1. split; auto. constructor; auto. apply Rdiv_lt_0_compat; auto.
      eapply kept_nz; eauto. }
    destruct E as [E EP]. rewrite E. f_equal.
    + rewrite (map2_ext_len _ (fun d q => match d, q with Fin x, Fin y =>
        Fin (x * (Rpower y (alpha - 1) - 1)) | _, _ => NaN end)).
      * clear E EP Ht Hk. revert g Hl; induction f as [|x f IH]; intros [|y g] Hl; simpl in Hl;
          try discriminate; auto. cbn [map map2]. rewrite IH by lia.
        simpl. rewrite reqb_false by lra. reflexivity.
      * intros d q Hd Hq. apply in_map_iff in Hd. destruct Hd as (x & <- & _).
        apply in_map_iff in Hq. destruct Hq as (y & <- & Hy).
        rewrite Forall_forall in EP. rewrite xpow_pos by auto. reflexivity.
    + destruct b; auto. f_equal. rewrite map_map.
      assert (EE : map (fun x => xneg (xpow (Fin x) alpha)) (map2 Rdiv f g) =
                   map (fun x => Fin (- Rpower x alpha)) (map2 Rdiv f g)).
      { apply map_ext_in. intros x Hx. rewrite Forall_forall in EP. rewrite xpow_pos by auto.
        reflexivity. }
      rewrite EE, !map_map2. reflexivity.
  - rewrite map2_length; lia.
  - intros i Hi. rewrite (nth_map2 _ f g i 0 0) by lia. destruct (Hk i Hi) as [K1 K2].
    apply ts_fn_derive; auto. eapply kept_nz; eauto.
Qed.

(** *** C18 *)
Lemma ts_ge_kl alpha f g : 1 < alpha -> 0 < f -> 0 < g -> kl_fn f g <= ts_fn alpha f g.
Proof.
  intros Ha Hf Hg. unfold kl_fn, ts_fn, Rpower.
  pose proof (exp_ineq1_le ((alpha - 1) * ln (f / g))) as E.
  unfold Rdiv at 2. rewrite Rmult_assoc. apply Rmult_le_compat_l; [lra|].
  apply (Rmult_le_reg_r (alpha - 1)); [lra|]. rewrite Rmult_assoc, Rinv_l by lra. lra.
Qed.

Lemma kl_api_kept mask neg f g : 0 <= mask -> all_kept mask f g ->
  measure_evaluate (MKL (Fin mask) neg) (VArr (A1 (map Fin f))) (VArr (A1 (map Fin g))) (VBool false)
    = Ok (map Fin (map2 kl_fn f g), None).
Proof.
  intros Hm [Hl Hk].
  assert (Hf : Forall (fun x => 0 < x) f).
  { apply Forall_nth. intros i d Hi. rewrite (nth_indep _ d 0) by auto. now apply Hk. }
  assert (Hg : Forall (fun x => 0 <= x) g).
  { apply Forall_nth. intros i d Hi. rewrite (nth_indep _ d 0) by auto.
    destruct (Hk i ltac:(lia)) as [_ [H _]]. lra. }
  destruct (kl_value mask neg f g false Hm Hl Hf Hg) as (v & q & E & L1 & _ & HI).
  rewrite E. do 2 f_equal. f_equal. apply (nth_ext _ _ 0 0); [rewrite map2_length; lia|].
  intros i Hi. rewrite (nth_map2 _ f g i 0 0) by lia. apply HI; [lia|]. apply Hk. lia.
Qed.

Lemma ts_bounds_kl alpha mask neg m f g : 1 < alpha -> 0 <= mask -> all_kept mask f g ->
  tsallis_init alpha (Fin mask) = Ok m ->
  exists t k,
    measure_evaluate m (VArr (A1 (map Fin f))) (VArr (A1 (map Fin g))) (VBool false)
      = Ok (map Fin t, None) /\
    measure_evaluate (MKL (Fin mask) neg) (VArr (A1 (map Fin f))) (VArr (A1 (map Fin g))) (VBool false)
      = Ok (map Fin k, None) /\
    forall i, (i < length f)%nat -> nth i k 0 <= nth i t 0.
Proof.
  intros Ha Hm Hk Ht. destruct (ts_value alpha mask m f g false Hm Hk Ht) as (d & E & _).
  exists (map2 (ts_fn alpha) f g), (map2 kl_fn f g). split; auto.
  split; [now apply kl_api_kept|]. destruct Hk as [Hl Hk].
  intros i Hi. rewrite !(nth_map2 _ f g i 0 0) by lia. destruct (Hk i Hi) as [K1 K2].
  apply ts_ge_kl; auto. eapply kept_nz; eauto.
Qed.

(** At a masked point Tsallis is negative while KL is zero. *)
Lemma ts_masked alpha mask f g : 1 < alpha -> 0 <= mask -> 0 < f -> 0 <= g <= mask ->
  measure_evaluate (MTs alpha (Fin mask)) (VArr (A1 [Fin f])) (VArr (A1 [Fin g])) (VBool false) =
    Ok ([Fin (- (f / (alpha - 1)))], None) /\
  measure_evaluate (MKL (Fin mask) (Fin 100000)) (VArr (A1 [Fin f])) (VArr (A1 [Fin g])) (VBool false) =
    Ok ([Fin 0], None) /\
  - (f / (alpha - 1)) < 0.
Proof.
  intros Ha Hm Hf Hg.
  assert (HM : ma_div (Fin mask) (Fin f) (Fin g) = None).
  { apply ma_div_masked; try lra. intros [? _]; lra. }
  assert (HP : 0 < f / (alpha - 1)) by (apply Rdiv_lt_0_compat; lra).
  split; [|split; [|lra]]; rewrite evaluate_ok by auto; f_equal; simpl.
  - unfold ts_values. simpl. rewrite HM. simpl. unfold xpow.
    rewrite (reqb_false (alpha - 1) 0) by lra. rewrite rltb_false by lra. rewrite reqb_true by lra.
    rewrite rltb_true by lra. simpl. rewrite reqb_false by lra. do 3 f_equal. field. lra.
  - unfold kl_values. simpl. rewrite rltb_false by lra. simpl. rewrite HM. simpl.
    rewrite rltb_true by lra. rewrite ln_1. do 3 f_equal. ring.
Qed.

(** *** C19 *)
Lemma exp_quad y : Rabs (exp y - 1 - y) <= y ^ 2 * exp (Rabs y).
Proof.
  pose proof (exp_ineq1_le y) as E1. pose proof (exp_ineq1_le (- y)) as E2.
  rewrite Rabs_right by lra.
  assert (E3 : exp y - 1 <= y * exp y).
  { pose proof (exp_pos y). assert (exp y * exp (- y) = 1) by (rewrite <- exp_plus, Rplus_opp_r; apply exp_0).
    assert (exp y * (1 + - y) <= exp y * exp (- y)) by (apply Rmult_le_compat_l; lra). lra. }
  assert (E4 : exp y - 1 - y <= y * (exp y - 1)) by lra.
  eapply Rle_trans; [exact E4|].
  destruct (Rle_dec 0 y) as [H|H].
  - rewrite Rabs_right by lra. replace (y ^ 2 * exp y) with (y * (y * exp y)) by ring.
    apply Rmult_le_compat_l; lra.
  - rewrite Rabs_left by lra.
    assert (1 <= exp (- y)) by (pose proof (exp_ineq1_le (- y)); lra).
    assert (0 <= y ^ 2) by apply pow2_ge_0.
    assert (y ^ 2 * 1 <= y ^ 2 * exp (- y)) by (apply Rmult_le_compat_l; auto).
    assert (- y * (1 - exp y) <= - y * (- y)) by (apply Rmult_le_compat_l; lra).
    simpl in *. lra.
Qed.

Lemma ts_near_kl alpha f g : alpha <> 1 -> 0 < f -> 0 < g ->
  Rabs (ts_fn alpha f g - kl_fn f g) <=
  Rabs (alpha - 1) * (f * ln (f / g) ^ 2 * exp (Rabs (alpha - 1) * Rabs (ln (f / g)))).
Proof.
  intros Ha Hf Hg. set (L := ln (f / g)). set (y := (alpha - 1) * L).
  assert (E : ts_fn alpha f g - kl_fn f g = f / (alpha - 1) * (exp y - 1 - y)).
  { unfold ts_fn, kl_fn, Rpower, y. fold L. field. lra. }
  rewrite E, Rabs_mult. pose proof (exp_quad y) as HQ.
  assert (HA : 0 < Rabs (alpha - 1)) by (apply Rabs_pos_lt; lra).
  assert (HF : Rabs (f / (alpha - 1)) = f / Rabs (alpha - 1)).
  { rewrite Rabs_div by lra. rewrite (Rabs_right f) by lra. reflexivity. }
  rewrite HF. eapply Rle_trans.
  - apply Rmult_le_compat_l; [|exact HQ]. left. apply Rdiv_lt_0_compat; auto.
  - right. unfold y. rewrite Rabs_mult.
    assert (HS : (alpha - 1) ^ 2 = Rabs (alpha - 1) * Rabs (alpha - 1)).
    { rewrite <- Rabs_mult. rewrite Rabs_right; [ring|]. apply Rle_ge.
      replace ((alpha - 1) * (alpha - 1)) with ((alpha - 1) ^ 2) by ring. apply pow2_ge_0. }
    rewrite Rpow_mult_distr, HS. field. lra.
Qed.

Lemma ts_api_near mask neg alpha m f g : 0 <= mask -> all_kept mask f g ->
  tsallis_init alpha (Fin mask) = Ok m ->
  exists t k,
    measure_evaluate m (VArr (A1 (map Fin f))) (VArr (A1 (map Fin g))) (VBool false)
      = Ok (map Fin t, None) /\
    measure_evaluate (MKL (Fin mask) neg) (VArr (A1 (map Fin f))) (VArr (A1 (map Fin g))) (VBool false)
      = Ok (map Fin k, None) /\
    forall i, (i < length f)%nat ->
      let L := ln (nth i f 0 / nth i g 0) in
      Rabs (nth i t 0 - nth i k 0) <=
      Rabs (alpha - 1) * (nth i f 0 * L ^ 2 * exp (Rabs (alpha - 1) * Rabs L)).
Proof.
  intros Hm Hk Ht. destruct (ts_value alpha mask m f g false Hm Hk Ht) as (d & E & _).
  exists (map2 (ts_fn alpha) f g), (map2 kl_fn f g). split; auto.
  split; [now apply kl_api_kept|]. destruct Hk as [Hl Hk].
  intros i Hi. rewrite !(nth_map2 _ f g i 0 0) by lia. destruct (Hk i Hi) as [K1 K2].
  apply ts_near_kl; auto; [|eapply kept_nz; eauto].
  apply (tsallis_ne1 _ _ _ Ht).
Qed.

Lemma ts_limit f g : 0 < f -> 0 < g -> is_lim (fun alpha => ts_fn alpha f g) 1 (kl_fn f g).
Proof.
  intros Hf Hg. apply is_lim_spec. intros eps.
  set (L := ln (f / g)). set (C := f * L ^ 2 * exp (Rabs L)).
  assert (HC : 0 <= C).
  { unfold C. apply Rmult_le_pos; [apply Rmult_le_pos; [lra|apply pow2_ge_0]|left; apply exp_pos]. }
  assert (Hd : 0 < Rmin 1 (eps / (C + 1))).
  { apply Rmin_pos; [lra|]. apply Rdiv_lt_0_compat; [apply cond_pos|lra]. }
  exists (mkposreal _ Hd). intros alpha Hb Hne.
  change (Rabs (alpha - 1) < Rmin 1 (eps / (C + 1))) in Hb.
  assert (H1 : Rabs (alpha - 1) < 1) by (eapply Rlt_le_trans; [exact Hb|apply Rmin_l]).
  assert (H2 : Rabs (alpha - 1) < eps / (C + 1)) by (eapply Rlt_le_trans; [exact Hb|apply Rmin_r]).
  eapply Rle_lt_trans; [apply ts_near_kl; auto|]. fold L.
  assert (H3 : f * L ^ 2 * exp (Rabs (alpha - 1) * Rabs L) <= C).
  { unfold C. apply Rmult_le_compat_l; [apply Rmult_le_pos; [lra|apply pow2_ge_0]|].
    destruct (Req_dec (Rabs L) 0) as [->|HL]; [rewrite !Rmult_0_r; lra|].
    left. apply exp_increasing. pose proof (Rabs_pos L).
    rewrite <- (Rmult_1_l (Rabs L)) at 2. apply Rmult_lt_compat_r; lra. }
  pose proof (Rabs_pos (alpha - 1)).
  assert (H4 : Rabs (alpha - 1) * (f * L ^ 2 * exp (Rabs (alpha - 1) * Rabs L)) <=
               Rabs (alpha - 1) * (C + 1)) by (apply Rmult_le_compat_l; lra).
  eapply Rle_lt_trans; [exact H4|].
  apply (Rmult_lt_reg_r (/ (C + 1))); [apply Rinv_0_lt_compat; lra|].
  rewrite Rmult_assoc, Rinv_r, Rmult_1_r by lra. exact H2.
Qed.

(** *** C70 *)
Lemma ts_masked_small alpha mask f g : 0 <= alpha < 1 -> 0 <= mask -> 0 < f -> 0 <= g <= mask ->
  measure_evaluate (MTs alpha (Fin mask)) (VArr (A1 [Fin f])) (VArr (A1 [Fin g])) (VBool false) =
    Ok ([NInf], None).
Proof.
  intros Ha Hm Hf Hg.
  assert (HM : ma_div (Fin mask) (Fin f) (Fin g) = None).
  { apply ma_div_masked; try lra. intros [? _]; lra. }
  rewrite evaluate_ok by auto; f_equal; simpl. unfold ts_values. simpl. rewrite HM. simpl. unfold xpow.
  rewrite (reqb_false (alpha - 1) 0) by lra. rewrite rltb_false by lra. rewrite reqb_true by lra.
  rewrite rltb_false by lra. simpl. rewrite reqb_false by lra. rewrite rltb_true by lra. simpl.
  rewrite rltb_true by lra. reflexivity.
Qed.

(** *** C71 *)
Lemma young b y : 0 <= b <= 1 -> exp (b * y) <= 1 + b * (exp y - 1).
Proof.
  intros Hb. set (z := b * y).
  assert (T : forall t, exp z * (1 + (t - z)) <= exp t).
  { intros t. replace (exp t) with (exp z * exp (t - z)) by (rewrite <- exp_plus; f_equal; ring).
    apply Rmult_le_compat_l; [left; apply exp_pos|]. apply exp_ineq1_le. }
  pose proof (T y) as T1. pose proof (T 0) as T0. rewrite exp_0 in T0.
  assert (M1 : b * (exp z * (1 + (y - z))) <= b * exp y) by (apply Rmult_le_compat_l; lra).
  assert (M0 : (1 - b) * (exp z * (1 + (0 - z))) <= (1 - b) * 1) by (apply Rmult_le_compat_l; lra).
  assert (E : b * (exp z * (1 + (y - z))) + (1 - b) * (exp z * (1 + (0 - z))) = exp z).
  { unfold z. ring. }
  lra.
Qed.

Lemma ts_fn_ge alpha f g : 0 <= alpha -> alpha <> 1 -> 0 < f -> 0 < g -> f - g <= ts_fn alpha f g.
Proof.
  intros H0 H1 Hf Hg. destruct (Rlt_dec 1 alpha) as [Ha|Ha].
  - eapply Rle_trans; [apply kl_fn_ge; auto|]. now apply ts_ge_kl.
  - assert (Hb : 0 <= 1 - alpha <= 1) by lra.
    pose proof (young (1 - alpha) (ln (g / f)) Hb) as Y.
    rewrite exp_ln in Y by (apply Rdiv_lt_0_compat; auto).
    unfold ts_fn, Rpower.
    assert (E : ln (f / g) = - ln (g / f)) by (rewrite !ln_div by auto; ring).
    rewrite E. replace ((alpha - 1) * - ln (g / f)) with ((1 - alpha) * ln (g / f)) by ring.
    set (e := exp ((1 - alpha) * ln (g / f))) in *.
    replace (f * (e - 1) / (alpha - 1)) with (f * (1 - e) / (1 - alpha)) by (field; lra).
    assert (HM : f * ((1 - alpha) * (1 - g / f)) <= f * (1 - e)) by (apply Rmult_le_compat_l; lra).
    apply (Rmult_le_reg_r (1 - alpha)); [lra|].
    replace (f * (1 - e) / (1 - alpha) * (1 - alpha)) with (f * (1 - e)) by (field; lra).
    replace ((f - g) * (1 - alpha)) with (f * ((1 - alpha) * (1 - g / f))) by (field; lra). exact HM.
Qed.

Lemma ts_gibbs alpha mask m w f g : 0 <= mask -> all_kept mask f g ->
  tsallis_init alpha (Fin mask) = Ok m ->
  length w = length f -> Forall (fun x => 0 <= x) w ->
  exists v,
    measure_evaluate m (VArr (A1 (map Fin f))) (VArr (A1 (map Fin g))) (VBool false)
      = Ok (map Fin v, None) /\
    quad w f - quad w g <= quad w v.
Proof.
  intros Hm Hk Ht Hw Hp. destruct (ts_value alpha mask m f g false Hm Hk Ht) as (d & E & _).
  exists (map2 (ts_fn alpha) f g). split; auto. destruct Hk as [Hl Hk].
  unfold quad. rewrite <- rdot_sub by lia.
  assert (L : length (map2 Rminus f g) = length f) by (rewrite map2_length; lia).
  assert (L2 : length (map2 (ts_fn alpha) f g) = length f) by (rewrite map2_length; lia).
  apply nth_sum_ge; try lia; auto. rewrite L.
  intros i Hi. rewrite !(nth_map2 _ f g i 0 0) by lia. destruct (Hk i ltac:(lia)) as [K1 K2].
  destruct (tsallis_ne1 _ _ _ Ht) as (H0 & H1 & _). apply ts_fn_ge; auto. exact (kept_nz _ _ _ Hm K2).
Qed.

(** *** C72 *)
Lemma measure_flag me density model :
  res_fst (measure_evaluate me density model (VBool true)) =
  res_fst (measure_evaluate me density model (VBool false)).
Proof.
  unfold measure_evaluate. destruct model as [| | | | |[g|]| |]; auto.
  destruct density as [| | | | |[f|]| |]; auto.
  destruct (negb _); auto. simpl. destruct me; simpl; auto.
  unfold kl_values. destruct (existsb _ _); auto.
Qed.

(** *** C15: exactly which points are finite *)
Lemma kl_finite_iff mask neg f g b : 0 <= mask -> length f = length g ->
  Forall (fun x => 0 <= x) f -> Forall (fun x => 0 <= x) g ->
  exists v d,
    measure_evaluate (MKL (Fin mask) neg) (VArr (A1 (map Fin f))) (VArr (A1 (map Fin g))) (VBool b) =
      Ok (v, d) /\ length v = length f /\
    forall i, (i < length f)%nat ->
      (nth i f 0 = 0 /\ mask < nth i g 0 -> nth i v NaN = NaN) /\
      (~ (nth i f 0 = 0 /\ mask < nth i g 0) -> exists x, nth i v NaN = Fin x).
Proof.
  intros Hm Hl Hf Hg. rewrite evaluate_ok by now rewrite !map_length.
  cbn [measure_values]. unfold kl_values. rewrite existsb_neg_false by auto.
  eexists; eexists; split; [reflexivity|].
  split; [rewrite !map2_length, !map_length; lia|].
  intros i Hi.
  assert (E : nth i (map2 (fun d q => xmul d (xln q)) (map Fin f)
       (map2 (fun d m => filled (Fin 1) (ma_div (Fin mask) d m)) (map Fin f) (map Fin g))) NaN =
     xmul (Fin (nth i f 0)) (xln (filled (Fin 1) (ma_div (Fin mask) (Fin (nth i f 0)) (Fin (nth i g 0)))))).
  { rewrite (nth_map2 _ _ _ i (Fin 0) (Fin 0)) by (rewrite ?map2_length, ?map_length; lia).
    rewrite (nth_map2 _ _ _ i (Fin 0) (Fin 0)) by (rewrite ?map_length; lia).
    rewrite !(map_nth Fin). reflexivity. }
  rewrite E. clear E.
  assert (F0 : 0 <= nth i f 0) by (rewrite Forall_forall in Hf; apply Hf, nth_In; lia).
  assert (G0 : 0 <= nth i g 0) by (rewrite Forall_forall in Hg; apply Hg, nth_In; lia).
  set (x := nth i f 0) in *. set (y := nth i g 0) in *. clearbody x y.
  destruct F0 as [F0|F0].
  - split; [intros [? _]; lra|]. intros _.
    destruct (kl_point mask x y Hm F0 G0) as (v & q & -> & _). eauto.
  - subst x. destruct (Rlt_dec mask y) as [Hy|Hy].
    + split; [|intros H; exfalso; apply H; split; auto]. intros _.
      assert (Hk : kept mask 0 y).
      { split; auto. rewrite Rabs_R0, Rmult_0_l. apply Rabs_pos_lt. lra. }
      rewrite ma_div_kept by auto. simpl. unfold Rdiv. rewrite Rmult_0_l.
      rewrite rltb_false by lra. rewrite reqb_true by auto. reflexivity.
    + split; [intros [_ ?]; lra|]. intros _.
      assert (Hk : ~ kept mask 0 y) by (intros [? _]; lra).
      rewrite ma_div_masked by auto. simpl. rewrite rltb_true by lra. eauto.
Qed.
