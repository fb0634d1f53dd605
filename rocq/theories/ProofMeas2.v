(** Proofs about the Tsallis divergence of every order. *)
From Coq Require Import Reals List ZArith Bool Lia Lra.
From Verif Require Import XR SpecMeas ModelMeas ModelMeas2 SpecMeas2 Lists ProofMeas ProofErr2.
Import ListNotations.
Local Open Scope R_scope.

Lemma new_finite a mask : tsallis_new (Fin a) mask = match tsallis_init a mask with Ok _ => Ok (Fin a, mask) | Raise e => Raise e end.
Proof.
  unfold tsallis_new, tsallis_init. cbn [xltb xabs xsub xadd xneg]. replace (a + - (1)) with (a - 1) by ring.
  destruct (rltb a 0); [reflexivity|]. destruct (rltb _ _); reflexivity.
Qed.

Lemma evaluate_finite a mask d m b : tsallis_evaluate (Fin a, mask) d m b = measure_evaluate (MTs a mask) d m b.
Proof.
  unfold tsallis_evaluate, measure_evaluate, tsallis_values. cbn [measure_values xpowx xsub xadd xneg]. unfold ts_values. replace (a + - (1)) with (a - 1) by ring. reflexivity.
Qed.

Lemma new_iff alpha mask :
  (tsallis_new alpha mask = Ok (alpha, mask) <->
    alpha = NaN \/ alpha = PInf \/ exists a, alpha = Fin a /\ 0 <= a /\ 1 / 10 ^ 10 <= Rabs (a - 1)) /\
  (tsallis_new alpha mask <> Ok (alpha, mask) -> tsallis_new alpha mask = Raise ValueError).
Proof.
  destruct alpha as [a| | |].
  - rewrite new_finite. pose proof (tsallis_accepts a mask) as A. unfold tsallis_init in *. split.
    + split.
      * intros H. right. right. exists a. split; auto. apply A. destruct (rltb a 0); [discriminate|]. destruct (rltb _ _); [discriminate|eauto].
      * intros [H|[H|(x & H & K)]]; try discriminate. injection H as <-. apply A in K. destruct K as (m & K). destruct (rltb a 0); [discriminate|]. destruct (rltb _ _); [discriminate|reflexivity].
    + destruct (rltb a 0); [reflexivity|]. destruct (rltb _ _); [reflexivity|]. congruence.
  - split; [|intros H; exfalso; apply H]; cbn; auto. split; auto.
  - split; cbn; auto. split; [discriminate|]. intros [H|[H|(x & H & _)]]; discriminate.
  - split; [|intros H; exfalso; apply H]; cbn; auto. split; auto.
Qed.

(** One entry of the masked ratio of finite values. *)
Lemma ratio_of mask f g : 0 <= mask ->
  (kept mask f g /\ 0 < g /\ filled (Fin 0) (ma_div (Fin mask) (Fin f) (Fin g)) = Fin (f / g)) \/
  (~ kept mask f g /\ filled (Fin 0) (ma_div (Fin mask) (Fin f) (Fin g)) = Fin 0).
Proof.
  intros M. destruct (Rlt_dec mask g) as [H1|H1].
  - destruct (Rlt_dec (Rabs f * / 2 ^ 1022) (Rabs g)) as [H2|H2].
    + left. split; [split; auto|]. split; [lra|]. rewrite ma_div_kept; auto. split; auto.
    + right. assert (K : ~ kept mask f g) by (intros [_ K]; contradiction). split; auto. rewrite ma_div_masked; auto. lra.
  - right. split; [intros [K _]; lra|]. unfold ma_div. cbn [xleb]. rewrite rleb_true by lra. reflexivity.
Qed.

Lemma abs_ratio f g : 0 < g -> Rabs (f / g) = Rabs f / Rabs g.
Proof. intros H. unfold Rdiv. rewrite Rabs_mult, Rabs_inv. reflexivity. Qed.

Lemma inf_point mask f g : 0 <= mask -> let q := filled (Fin 0) (ma_div (Fin mask) (Fin f) (Fin g)) in
  inf_value mask f g (xdiv (xmul (Fin f) (xsub (xpowx q PInf) (Fin 1))) PInf) /\ inf_deriv mask f g (xneg (xpowx q PInf)).
Proof.
  intros M. cbv zeta. destruct (ratio_of mask f g M) as [(K & G & ->)|(K & ->)].
  - cbn [xpowx]. rewrite abs_ratio by auto. assert (AG : 0 < Rabs g) by (apply Rabs_pos_lt; lra).
    destruct (Rtotal_order (Rabs f) (Rabs g)) as [H|[H|H]].
    + assert (Rabs f / Rabs g < 1) by (apply Rmult_lt_reg_r with (Rabs g); auto; unfold Rdiv; rewrite Rmult_assoc, Rinv_l by lra; lra).
      rewrite (reqb_false _ 1) by lra. rewrite (rltb_true _ 1) by lra. cbn. split.
      * split; [intros [_ ?]; lra|]. intros _. reflexivity.
      * split; [intros [_ ?]; lra|]. split; [intros [_ ?]; lra|]. intros _. f_equal. lra.
    + rewrite H. replace (Rabs g / Rabs g) with 1 by (field; lra). rewrite (reqb_true 1 1) by lra. cbn. split.
      * split; [intros [_ ?]; lra|]. intros _. reflexivity.
      * split; [intros [_ ?]; lra|]. split; [intros [_ ?]; f_equal; lra|]. intros [?|?]; [contradiction|lra].
    + assert (1 < Rabs f / Rabs g) by (apply Rmult_lt_reg_r with (Rabs g); auto; unfold Rdiv; rewrite Rmult_assoc, Rinv_l by lra; lra).
      assert (F : f <> 0) by (intros ->; rewrite Rabs_R0 in H; lra).
      rewrite (reqb_false _ 1) by lra. rewrite (rltb_false _ 1) by lra. cbn. rewrite (reqb_false f 0) by auto. split.
      * split; [intros _; destruct (rltb 0 f); reflexivity|]. intros N. exfalso. apply N. split; auto.
      * split; [reflexivity|]. split; [intros [_ ?]; lra|]. intros [?|?]; [contradiction|lra].
  - cbn [xpowx]. rewrite Rabs_R0, (reqb_false 0 1), (rltb_true 0 1) by lra. cbn. split.
    + split; [intros [? _]; contradiction|]. intros _. reflexivity.
    + split; [intros [? _]; contradiction|]. split; [intros [? _]; contradiction|]. intros _. f_equal. lra.
Qed.

Lemma nan_point mask f g : 0 <= mask -> nan_deriv mask f g (xneg (xpowx (filled (Fin 0) (ma_div (Fin mask) (Fin f) (Fin g))) NaN)).
Proof.
  intros M. destruct (ratio_of mask f g M) as [(K & G & ->)|(K & ->)]; cbn [xpowx].
  - destruct (Req_dec f g) as [->|H].
    + replace (g / g) with 1 by (field; lra). rewrite (reqb_true 1 1) by lra. split; [intros _; cbn; f_equal; lra|]. intros N. exfalso. apply N. auto.
    + rewrite reqb_false; [split; [intros [_ ?]; contradiction|reflexivity]|]. intros E. apply H. apply Rmult_eq_reg_r with (/ g); [|apply Rinv_neq_0_compat; lra]. rewrite Rinv_r by lra. exact E.
  - rewrite (reqb_false 0 1) by lra. split; [intros [? _]; contradiction|reflexivity].
Qed.

Lemma map2_len {A B C} (h : A -> B -> C) : forall u v, length u = length v -> length (map2 h u v) = length u.
Proof. induction u as [|a u IH]; intros [|x v] H; cbn in *; auto; discriminate. Qed.

Lemma infinite_order mask f g b : 0 <= mask -> length f = length g ->
  exists v q, tsallis_evaluate (PInf, Fin mask) (VArr (A1 (map Fin f))) (VArr (A1 (map Fin g))) (VBool b) = Ok (v, if b then Some q else None) /\
    length v = length f /\ length q = length f /\
    forall i, (i < length f)%nat -> inf_value mask (nth i f 0) (nth i g 0) (nth i v NaN) /\ inf_deriv mask (nth i f 0) (nth i g 0) (nth i q NaN).
Proof.
  intros M L. unfold tsallis_evaluate, tsallis_values. rewrite !map_length, L, Nat.eqb_refl. cbn [negb xsub xadd xneg].
  set (ratio := map2 _ (map Fin f) (map Fin g)). eexists _, (map (fun q => xneg (xpowx q PInf)) ratio). split; [reflexivity|].
  assert (LR : length ratio = length f) by (unfold ratio; rewrite map2_len; rewrite !map_length; auto).
  split; [rewrite map_length, map2_len; rewrite !map_length; congruence|]. split; [rewrite map_length; congruence|].
  intros i Hi.
  assert (F : nth_error (map Fin f) i = Some (Fin (nth i f 0))) by (apply map_nth_error, nth_error_nth'; lia).
  assert (G : nth_error (map Fin g) i = Some (Fin (nth i g 0))) by (apply map_nth_error, nth_error_nth'; lia).
  pose proof (nth_error_map2 (fun d m => filled (Fin 0) (ma_div (Fin mask) d m)) _ _ _ _ _ F G) as R. fold ratio in R.
  pose proof (inf_point mask (nth i f 0) (nth i g 0) M) as [P1 P2]. split.
  - erewrite (nth_error_nth _ _ NaN); [exact P1|]. apply (map_nth_error (fun v => xdiv v PInf)). apply (nth_error_map2 (fun d q => xmul d (xsub (xpowx q PInf) (Fin 1)))); eauto.
  - erewrite (nth_error_nth _ _ NaN); [exact P2|]. apply (map_nth_error (fun q => xneg (xpowx q PInf))). exact R.
Qed.

Lemma xdiv_nan v : xdiv v NaN = NaN.
Proof. destruct v; reflexivity. Qed.

Lemma nan_order mask f g b : length f = length g ->
  exists q, tsallis_evaluate (NaN, mask) (VArr (A1 f)) (VArr (A1 g)) (VBool b) = Ok (repeat NaN (length f), if b then Some q else None) /\
    length q = length f /\
    forall m i, mask = Fin m -> 0 <= m -> forall u v, nth_error f i = Some (Fin u) -> nth_error g i = Some (Fin v) -> nan_deriv m u v (nth i q PInf).
Proof.
  intros L. unfold tsallis_evaluate, tsallis_values. rewrite L, Nat.eqb_refl. cbn [negb xsub xadd xneg].
  set (ratio := map2 _ f g). exists (map (fun q => xneg (xpowx q NaN)) ratio).
  assert (LR : length ratio = length f) by (unfold ratio; rewrite map2_len; auto). split; [|split; [rewrite map_length; congruence|]].
  - f_equal. f_equal. assert (E : forall l, map (fun v => xdiv v NaN) l = repeat NaN (length l)) by (induction l as [|a l IH]; cbn; [|rewrite xdiv_nan, IH]; reflexivity).
    rewrite E, map2_len by congruence. now rewrite L.
  - intros m i -> M u v F G.
    pose proof (nth_error_map2 (fun d m0 => filled (Fin 0) (ma_div (Fin m) d m0)) _ _ _ _ _ F G) as R. fold ratio in R.
    erewrite (nth_error_nth _ _ PInf); [exact (nan_point m u v M)|]. apply (map_nth_error (fun q => xneg (xpowx q NaN))). exact R.
Qed.
