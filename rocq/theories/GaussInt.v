(** The Gaussian integral and radial moments of Gaussian functions. *)
From Coquelicot Require Import Coquelicot.
From Coq Require Import Reals Lra Lia.
Local Open Scope R_scope.

Lemma exd_cont (f : R -> R) (x : R) : ex_derive f x -> continuous f x.
Proof. intros. now apply (ex_derive_continuous (V := R_NormedModule) f). Qed.
Lemma ex_RInt_cont (f : R -> R) a b : (forall x, continuous f x) -> ex_RInt f a b.
Proof. intros. apply (ex_RInt_continuous (V := R_CompleteNormedModule)). auto. Qed.

(** Improper integrals on [0, +oo) from limits of proper ones. *)
Lemma RInt_gen_of_lim (f F : R -> R) (l : R) :
  (forall T, 0 < T -> is_RInt f 0 T (F T)) -> is_lim F p_infty l ->
  is_RInt_gen f (at_point 0) (Rbar_locally p_infty) l.
Proof.
  intros HF HL P HP. 
  assert (HP' : Rbar_locally' p_infty (fun T => P (F T))).
  { apply HL. exact HP. }
  destruct HP' as [M HM].
  unfold filtermapi.
  apply Filter_prod with (Q := fun x => x = 0) (R := fun T => M < T /\ 0 < T).
  - reflexivity.
  - exists (Rmax M 0). intros x Hx. split.
    + eapply Rle_lt_trans; [apply Rmax_l|eauto].
    + eapply Rle_lt_trans; [apply Rmax_r|eauto].
  - intros x y -> [Hy Hy0]. exists (F y). split; auto.
Qed.

Definition E (t : R) : R := RInt (fun x => exp (- x ^ 2)) 0 t.
Definition h (t x : R) : R := exp (- (t ^ 2 * (1 + x ^ 2))) / (1 + x ^ 2).
Definition H (t : R) : R := RInt (h t) 0 1.

Lemma cont_gauss x : continuous (fun x => exp (- x ^ 2)) x.
Proof. apply exd_cont. auto_derive. auto. Qed.

Lemma is_RInt_E t : is_RInt (fun x => exp (- x ^ 2)) 0 t (E t).
Proof. apply (@RInt_correct R_CompleteNormedModule). apply ex_RInt_cont. intros; apply cont_gauss. Qed.

Lemma is_derive_E t : is_derive E t (exp (- t ^ 2)).
Proof.
  unfold E. apply (is_derive_RInt (fun x => exp (- x ^ 2)) _ 0).
  - apply filter_forall. intros. apply is_RInt_E.
  - apply cont_gauss.
Qed.

Lemma pos_1x (x : R) : 0 < 1 + x ^ 2.
Proof. pose proof (pow2_ge_0 x). lra. Qed.

Lemma cont_h t x : continuous (h t) x.
Proof.
  apply exd_cont. unfold h. auto_derive. pose proof (pos_1x x). simpl in *. lra.
Qed.

Lemma ex_RInt_h t a b : ex_RInt (h t) a b.
Proof. apply ex_RInt_cont. intros; apply cont_h. Qed.

Lemma is_derive_h (t x : R) : is_derive (fun u => h u x) t (- (2 * t) * exp (- (t ^ 2 * (1 + x ^ 2)))).
Proof.
  unfold h. auto_derive; auto. simpl. field. pose proof (pos_1x x). simpl in *. lra.
Qed.

Lemma Derive_h (t x : R) : Derive (fun u : R => h u x) t = - (2 * t) * exp (- (t ^ 2 * (1 + x ^ 2))).
Proof. apply is_derive_unique. apply is_derive_h. Qed.

Lemma is_RInt_E_subst t : is_RInt (fun x => t * exp (- (t * x) ^ 2)) 0 1 (E t).
Proof.
  apply (is_RInt_ext (fun y => scal t ((fun x => exp (- x ^ 2)) (t * y + 0)))).
  { intros x _. unfold scal; simpl; unfold mult; simpl. do 3 f_equal. ring. }
  apply (is_RInt_comp_lin (fun x => exp (- x ^ 2)) t 0 0 1).
  replace (t * 0 + 0) with 0 by ring. replace (t * 1 + 0) with t by ring. apply is_RInt_E.
Qed.

Lemma is_derive_H t : is_derive H t (- 2 * exp (- t ^ 2) * E t).
Proof.
  unfold H.
  replace (- 2 * exp (- t ^ 2) * E t) with (RInt (fun x : R => Derive (fun u : R => h u x) t) 0 1).
  2:{ apply is_RInt_unique.
      apply (is_RInt_ext (fun x => scal (- 2 * exp (- t ^ 2)) (t * exp (- (t * x) ^ 2)))).
      - intros x _. rewrite Derive_h.
        unfold scal; simpl; unfold mult; simpl.
        replace (- (t * (t * 1) * (1 + x * (x * 1)))) with
          (- (t * (t * 1)) + - (t * x * (t * x * 1))) by ring.
        rewrite exp_plus. ring.
      - apply (is_RInt_scal (fun x => t * exp (- (t * x) ^ 2))). apply is_RInt_E_subst. }
  apply is_derive_RInt_param.
  - apply filter_forall. intros x u _. eexists. apply is_derive_h.
  - intros u _.
    apply continuity_2d_pt_ext with (f := fun a b => - (2 * a) * exp (- (a ^ 2 * (1 + b ^ 2)))).
    { intros a b. symmetry. apply is_derive_unique. apply is_derive_h. }
    apply continuity_2d_pt_mult.
    + apply continuity_2d_pt_opp. apply continuity_2d_pt_mult; [apply continuity_2d_pt_const|apply continuity_2d_pt_id1].
    + apply (continuity_1d_2d_pt_comp exp (fun a b => - (a ^ 2 * (1 + b ^ 2)))).
      { apply derivable_continuous_pt. apply derivable_pt_exp. }
      apply continuity_2d_pt_opp. apply continuity_2d_pt_mult.
      * apply (continuity_1d_2d_pt_comp (fun x => x ^ 2) (fun a b => a)).
        { apply derivable_continuous_pt. apply derivable_pt_pow. }
        apply continuity_2d_pt_id1.
      * apply continuity_2d_pt_plus; [apply continuity_2d_pt_const|].
        apply (continuity_1d_2d_pt_comp (fun x => x ^ 2) (fun a b => b)).
        { apply derivable_continuous_pt. apply derivable_pt_pow. }
        apply continuity_2d_pt_id2.
  - apply filter_forall. intros y. apply ex_RInt_h.
Qed.

Lemma h_0 x : h 0 x = / (1 + x ^ 2).
Proof.
  unfold h. replace (- (0 ^ 2 * (1 + x ^ 2))) with 0 by ring. rewrite exp_0. unfold Rdiv. ring.
Qed.

Lemma H_0 : H 0 = PI / 4.
Proof.
  unfold H. transitivity (RInt (fun x => / (1 + x ^ 2)) 0 1).
  - apply RInt_ext. intros x _. apply h_0.
  - assert (HI : is_RInt (fun x => / (1 + x ^ 2)) 0 1 (minus (atan 1) (atan 0))).
    { apply (is_RInt_derive atan).
      - intros x _. apply is_derive_Reals.
        apply derivable_pt_lim_atan.
      - intros x _. apply exd_cont. auto_derive. pose proof (pos_1x x). simpl in *. lra. }
    rewrite (is_RInt_unique _ _ _ _ HI). rewrite atan_1, atan_0.
    unfold minus, plus, opp; simpl. lra.
Qed.

Lemma E_0 : E 0 = 0.
Proof. unfold E. rewrite RInt_point. reflexivity. Qed.

Lemma E_sq t : 0 <= t -> E t ^ 2 = PI / 4 - H t.
Proof.
  intros Ht. destruct (Req_dec t 0) as [->|Hne].
  { rewrite E_0, H_0. ring. }
  assert (C : (fun t => E t ^ 2 + H t) 0 = (fun t => E t ^ 2 + H t) t).
  { apply (eq_is_derive (fun t : R => E t ^ 2 + H t) 0 t); [|lra]. intros u _.
    assert (Ez : plus (INR 2 * exp (- u ^ 2) * E u ^ 1) (- 2 * exp (- u ^ 2) * E u) =
                 @zero R_NormedModule).
    { unfold plus, zero; simpl. ring. }
    rewrite <- Ez.
    apply (is_derive_plus (fun t => E t ^ 2) H).
    - apply (is_derive_pow E 2). apply is_derive_E.
    - apply is_derive_H. }
  simpl in C. rewrite E_0, H_0 in C. simpl. lra.
Qed.

Lemma H_bounds t : 0 <= H t <= exp (- t ^ 2).
Proof.
  split.
  - unfold H. apply RInt_ge_0; [lra|apply ex_RInt_h|].
    intros x _. unfold h. left. apply Rdiv_lt_0_compat; [apply exp_pos|apply pos_1x].
  - unfold H. replace (exp (- t ^ 2)) with (RInt (fun _ => exp (- t ^ 2)) 0 1).
    2:{ rewrite RInt_const. unfold scal; simpl; unfold mult; simpl. ring. }
    apply RInt_le; [lra|apply ex_RInt_h|apply ex_RInt_const|].
    intros x _. unfold h. apply Rle_div_l; [apply pos_1x|].
    replace (- (t ^ 2 * (1 + x ^ 2))) with (- t ^ 2 + - (t * x) ^ 2) by ring.
    rewrite exp_plus. apply Rmult_le_compat_l; [left; apply exp_pos|].
    apply Rle_trans with 1; [|pose proof (pow2_ge_0 x); lra].
    rewrite <- exp_0. pose proof (pow2_ge_0 (t * x)).
    destruct H0 as [H0|<-]; [|rewrite Ropp_0; lra].
    left. apply exp_increasing. lra.
Qed.

Lemma exp_neg_sq_le t : 1 <= t -> exp (- t ^ 2) <= exp (- t).
Proof.
  intros Ht. destruct Ht as [Ht|<-]; [|right; f_equal; ring].
  left. apply exp_increasing. assert (t * 1 < t * t) by (apply Rmult_lt_compat_l; lra). simpl. lra.
Qed.

Lemma lim_exp_neg : is_lim (fun t => exp (- t)) p_infty 0.
Proof.
  apply (is_lim_comp exp Ropp p_infty 0 m_infty).
  - apply is_lim_exp_m.
  - apply (is_lim_opp (fun x => x) p_infty p_infty). apply is_lim_id.
  - exists 0. intros; discriminate.
Qed.

Lemma H_lim : is_lim H p_infty 0.
Proof.
  apply (is_lim_le_le_loc (fun _ => 0) (fun t => exp (- t))).
  - exists 1. intros t Ht. pose proof (H_bounds t). split; [lra|].
    apply Rle_trans with (exp (- t ^ 2)); [lra|]. apply exp_neg_sq_le; lra.
  - apply is_lim_const.
  - apply lim_exp_neg.
Qed.

Lemma E_nonneg t : 0 <= t -> 0 <= E t.
Proof.
  intros Ht. unfold E. apply RInt_ge_0; auto.
  - apply ex_RInt_cont. intros; apply cont_gauss.
  - intros; left; apply exp_pos.
Qed.

Lemma E_lim : is_lim E p_infty (sqrt PI / 2).
Proof.
  apply (is_lim_ext_loc (fun t => sqrt (PI / 4 - H t))).
  { exists 0. intros t Ht. rewrite <- E_sq by lra. simpl. rewrite Rmult_1_r.
    apply sqrt_square. apply E_nonneg. lra. }
  replace (sqrt PI / 2) with (sqrt (PI / 4 - 0)).
  2:{ rewrite Rminus_0_r. unfold Rdiv. pose proof PI_RGT_0.
      rewrite sqrt_mult by lra. f_equal. 
      replace (/ 4) with ((/ 2) * (/ 2)) by lra. apply sqrt_square. lra. }
  apply (is_lim_comp_continuous (fun t => PI / 4 - H t) sqrt p_infty (PI / 4 - 0)).
  - apply (is_lim_minus (fun _ => PI / 4) H p_infty (PI / 4) 0).
    + apply is_lim_const.
    + apply H_lim.
    + reflexivity.
  - apply continuous_sqrt.
Qed.

(** *** Scaled Gaussian and its radial moments. *)
Definition Ga (a T : R) : R := / sqrt a * E (sqrt a * T).

Lemma is_RInt_Ga a T : 0 < a -> is_RInt (fun r => exp (- a * r ^ 2)) 0 T (Ga a T).
Proof.
  intros Ha. pose proof (sqrt_lt_R0 a Ha) as Hs. unfold Ga.
  assert (HI : is_RInt (fun y => scal (sqrt a) ((fun x => exp (- x ^ 2)) (sqrt a * y + 0))) 0 T
                       (E (sqrt a * T))).
  { apply (is_RInt_comp_lin (fun x => exp (- x ^ 2)) (sqrt a) 0 0 T).
    replace (sqrt a * 0 + 0) with 0 by ring. replace (sqrt a * T + 0) with (sqrt a * T) by ring.
    apply is_RInt_E. }
  apply (is_RInt_scal _ _ _ (/ sqrt a)) in HI.
  eapply is_RInt_ext; [|exact HI]. intros x _. unfold scal; simpl; unfold mult; simpl.
  replace (- ((sqrt a * x + 0) * ((sqrt a * x + 0) * 1))) with (- (sqrt a * sqrt a) * (x * (x * 1)))
    by ring.
  rewrite sqrt_sqrt by lra. field. lra.
Qed.

Lemma lim_scale (F : R -> R) (l s : R) : 0 < s -> is_lim F p_infty l ->
  is_lim (fun T => F (s * T)) p_infty l.
Proof.
  intros Hs HF. apply (is_lim_comp F (fun T => s * T) p_infty l p_infty).
  - auto.
  - evar_last.
    + apply (is_lim_scal_l (fun T => T) s p_infty p_infty). apply is_lim_id.
    + simpl. destruct (Rle_dec 0 s) as [Hle|]; [|lra].
      destruct (Rle_lt_or_eq_dec 0 s Hle); [reflexivity|lra].
  - exists 0. intros; discriminate.
Qed.

Lemma Ga_lim a : 0 < a -> is_lim (Ga a) p_infty (sqrt PI / (2 * sqrt a)).
Proof.
  intros Ha. pose proof (sqrt_lt_R0 a Ha) as Hs. unfold Ga.
  replace (Finite (sqrt PI / (2 * sqrt a))) with (Rbar_mult (/ sqrt a) (sqrt PI / 2)).
  2:{ simpl. f_equal. field. lra. }
  apply is_lim_scal_l. apply (lim_scale E); auto. apply E_lim.
Qed.

Lemma d_pow (n : nat) (x : R) : is_derive (fun y : R => y ^ S n) x (INR (S n) * x ^ n).
Proof. apply is_derive_Reals. apply (derivable_pt_lim_pow x (S n)). Qed.

(** Powers times a Gaussian vanish at infinity. *)
Lemma pow_exp_bound (n : nat) (x : R) : 0 <= x -> x ^ n <= INR (fact n) * exp x.
Proof.
  revert x. induction n as [|n IH]; intros x Hx.
  - simpl. rewrite Rmult_1_l. rewrite <- exp_0. destruct (Req_dec x 0) as [->|]; [lra|].
    left; apply exp_increasing; lra.
  - (* derivative comparison *)
    destruct (Req_dec x 0) as [->|Hne].
    { rewrite pow_ne_zero by lia. apply Rmult_le_pos; [apply pos_INR|left; apply exp_pos]. }
    destruct (MVT_cor2 (fun y => INR (fact (S n)) * exp y - y ^ S n)
                (fun y => INR (fact (S n)) * exp y - INR (S n) * y ^ n) 0 x) as (c & Hc & Hc0).
    + lra.
    + intros c _. apply is_derive_Reals.
      apply (is_derive_minus (fun y : R => INR (fact (S n)) * exp y) (fun y : R => y ^ S n)).
      * apply is_derive_scal. apply is_derive_Reals. apply derivable_pt_lim_exp.
      * apply d_pow.
    + assert (0 <= INR (fact (S n)) * exp c - INR (S n) * c ^ n).
      { rewrite fact_simpl, mult_INR. specialize (IH c ltac:(lra)).
        pose proof (pos_INR (S n)).
        replace (INR (S n) * INR (fact n) * exp c - INR (S n) * c ^ n) with
          (INR (S n) * (INR (fact n) * exp c - c ^ n)) by ring.
        apply Rmult_le_pos; lra. }
      assert (0 <= (INR (fact (S n)) * exp c - INR (S n) * c ^ n) * (x - 0)) by (apply Rmult_le_pos; lra).
      rewrite <- Hc in H1. rewrite exp_0, pow_ne_zero in H1 by lia.
      pose proof (pos_INR (fact (S n))). lra.
Qed.

Lemma pow_expneg_lim (n : nat) : is_lim (fun t => t ^ n * exp (- t)) p_infty 0.
Proof.
  apply (is_lim_le_le_loc (fun _ => 0) (fun t => INR (fact (S n)) * / t)).
  - exists 0. intros t Ht. pose proof (exp_pos (- t)). pose proof (pow_lt t n Ht).
    split; [left; apply Rmult_lt_0_compat; auto|].
    pose proof (pow_exp_bound (S n) t ltac:(lra)) as HB. simpl pow in HB.
    rewrite exp_Ropp. apply Rmult_le_reg_r with (t * exp t).
    { apply Rmult_lt_0_compat; [lra|apply exp_pos]. }
    pose proof (exp_pos t).
    replace (t ^ n * / exp t * (t * exp t)) with (t * t ^ n) by (field; lra).
    replace (INR (fact (S n)) * / t * (t * exp t)) with (INR (fact (S n)) * exp t) by (field; lra).
    exact HB.
  - apply is_lim_const.
  - replace (Finite 0) with (Rbar_mult (INR (fact (S n))) (Finite 0)) by (simpl; f_equal; ring).
    apply is_lim_scal_l.
    replace (Finite 0) with (Rbar_inv p_infty) by reflexivity.
    apply is_lim_inv; [apply is_lim_id|discriminate].
Qed.

Lemma pow_gauss_lim (n : nat) a : 0 < a -> is_lim (fun t => t ^ n * exp (- a * t ^ 2)) p_infty 0.
Proof.
  intros Ha.
  apply (is_lim_le_le_loc (fun _ => 0) (fun t => (/ a) ^ n * ((a * t) ^ n * exp (- (a * t))))).
  - exists 1. intros t Ht. pose proof (exp_pos (- a * t ^ 2)).
    pose proof (pow_lt t n ltac:(lra)). split; [left; apply Rmult_lt_0_compat; auto|].
    rewrite <- Rmult_assoc, <- Rpow_mult_distr, <- Rmult_assoc, Rinv_l, Rmult_1_l by lra.
    apply Rmult_le_compat_l; [lra|].
    left. apply exp_increasing.
    assert (a * t * 1 < a * t * t).
    { apply Rmult_lt_compat_l; [apply Rmult_lt_0_compat; lra|lra]. }
    simpl. lra.
  - apply is_lim_const.
  - replace (Finite 0) with (Rbar_mult ((/ a) ^ n) (Finite 0)) by (simpl; f_equal; ring).
    apply is_lim_scal_l. apply (lim_scale (fun t => t ^ n * exp (- t))); auto.
    apply pow_expneg_lim.
Qed.

(** Second and fourth moments on [0, T]. *)
Definition G2 a T : R := (Ga a T - T ^ 1 * exp (- a * T ^ 2)) / (2 * a).
Definition G4 a T : R := (3 * G2 a T - T ^ 3 * exp (- a * T ^ 2)) / (2 * a).

Lemma is_RInt_parts a n T : 0 < a ->
  is_RInt (fun r => INR (S n) * r ^ n * exp (- a * r ^ 2) - 2 * a * (r ^ (S (S n)) * exp (- a * r ^ 2)))
          0 T (T ^ (S n) * exp (- a * T ^ 2)).
Proof.
  intros Ha. 
  replace (T ^ S n * exp (- a * T ^ 2)) with
    (minus (T ^ S n * exp (- a * T ^ 2)) (0 ^ S n * exp (- a * 0 ^ 2))).
  2:{ unfold minus, plus, opp; simpl. ring. }
  apply (is_RInt_derive (fun r => r ^ S n * exp (- a * r ^ 2))).
  - intros x _.
    replace (INR (S n) * x ^ n * exp (- a * x ^ 2) - 2 * a * (x ^ S (S n) * exp (- a * x ^ 2))) with
      (plus (mult (INR (S n) * x ^ n) (exp (- a * x ^ 2)))
            (mult (x ^ S n) (- (2 * a * x) * exp (- a * x ^ 2)))).
    2:{ unfold plus, mult; cbn -[INR pow]. cbn [pow]. ring. }
    apply (is_derive_mult (fun y : R => y ^ S n) (fun y : R => exp (- a * y ^ 2))).
    + apply d_pow.
    + auto_derive; auto. simpl. ring.
    + intros; apply Rmult_comm.
  - intros x _. apply exd_cont.
    apply (ex_derive_minus (fun r : R => INR (S n) * r ^ n * exp (- a * r ^ 2))
                           (fun r : R => 2 * a * (r ^ S (S n) * exp (- a * r ^ 2)))).
    + auto_derive. auto.
    + auto_derive. auto.
Qed.

Lemma is_RInt_G2 a T : 0 < a -> is_RInt (fun r => r ^ 2 * exp (- a * r ^ 2)) 0 T (G2 a T).
Proof.
  intros Ha. pose proof (is_RInt_parts a 0 T Ha) as H1. pose proof (is_RInt_Ga a T Ha) as H2.
  pose proof (is_RInt_minus _ _ _ _ _ _ H2 H1) as H3.
  apply (is_RInt_scal _ _ _ (/ (2 * a))) in H3.
  unfold G2. replace ((Ga a T - T ^ 1 * exp (- a * T ^ 2)) / (2 * a)) with
    (scal (/ (2 * a)) (minus (Ga a T) (T ^ 1 * exp (- a * T ^ 2)))).
  2:{ unfold scal, minus, plus, opp; simpl; unfold mult; simpl. field. lra. }
  eapply is_RInt_ext; [|exact H3]. intros x _.
  unfold scal, minus, plus, opp; simpl; unfold mult; simpl. field. lra.
Qed.

Lemma is_RInt_G4 a T : 0 < a -> is_RInt (fun r => r ^ 4 * exp (- a * r ^ 2)) 0 T (G4 a T).
Proof.
  intros Ha. pose proof (is_RInt_parts a 2 T Ha) as H1. pose proof (is_RInt_G2 a T Ha) as H2.
  apply (is_RInt_scal _ _ _ 3) in H2.
  pose proof (is_RInt_minus _ _ _ _ _ _ H2 H1) as H3.
  apply (is_RInt_scal _ _ _ (/ (2 * a))) in H3.
  unfold G4. replace ((3 * G2 a T - T ^ 3 * exp (- a * T ^ 2)) / (2 * a)) with
    (scal (/ (2 * a)) (minus (scal 3 (G2 a T)) (T ^ 3 * exp (- a * T ^ 2)))).
  2:{ unfold scal, minus, plus, opp; simpl; unfold mult; simpl. field. lra. }
  eapply is_RInt_ext; [|exact H3]. intros x _.
  unfold scal, minus, plus, opp; simpl; unfold mult; simpl. field. lra.
Qed.

Lemma G2_lim a : 0 < a -> is_lim (G2 a) p_infty (sqrt PI / (4 * a * sqrt a)).
Proof.
  intros Ha. pose proof (sqrt_lt_R0 a Ha) as Hs. unfold G2.
  apply (is_lim_ext (fun T => / (2 * a) * (Ga a T - T ^ 1 * exp (- a * T ^ 2)))).
  { intros; field; lra. }
  replace (Finite (sqrt PI / (4 * a * sqrt a))) with
    (Rbar_mult (/ (2 * a)) (Finite (sqrt PI / (2 * sqrt a) - 0))).
  2:{ simpl. f_equal. field. lra. }
  apply is_lim_scal_l. apply (is_lim_minus (Ga a) (fun T => T ^ 1 * exp (- a * T ^ 2)) p_infty
    (sqrt PI / (2 * sqrt a)) 0).
  - now apply Ga_lim.
  - now apply pow_gauss_lim.
  - reflexivity.
Qed.

Lemma G4_lim a : 0 < a -> is_lim (G4 a) p_infty (3 * sqrt PI / (8 * a ^ 2 * sqrt a)).
Proof.
  intros Ha. pose proof (sqrt_lt_R0 a Ha) as Hs. unfold G4.
  apply (is_lim_ext (fun T => / (2 * a) * (3 * G2 a T - T ^ 3 * exp (- a * T ^ 2)))).
  { intros; field; lra. }
  replace (Finite (3 * sqrt PI / (8 * a ^ 2 * sqrt a))) with
    (Rbar_mult (/ (2 * a)) (Finite (3 * (sqrt PI / (4 * a * sqrt a)) - 0))).
  2:{ simpl. f_equal. field. lra. }
  apply is_lim_scal_l.
  apply (is_lim_minus (fun T => 3 * G2 a T) (fun T => T ^ 3 * exp (- a * T ^ 2)) p_infty
    (3 * (sqrt PI / (4 * a * sqrt a))) 0).
  - apply (is_lim_scal_l (G2 a) 3 p_infty (sqrt PI / (4 * a * sqrt a))). now apply G2_lim.
  - now apply pow_gauss_lim.
  - reflexivity.
Qed.

Lemma RInt_gen_G2 a : 0 < a ->
  is_RInt_gen (fun r => r ^ 2 * exp (- a * r ^ 2)) (at_point 0) (Rbar_locally p_infty)
              (sqrt PI / (4 * a * sqrt a)).
Proof.
  intros Ha. apply (RInt_gen_of_lim _ (G2 a)); [|now apply G2_lim].
  intros; now apply is_RInt_G2.
Qed.
Lemma RInt_gen_G4 a : 0 < a ->
  is_RInt_gen (fun r => r ^ 4 * exp (- a * r ^ 2)) (at_point 0) (Rbar_locally p_infty)
              (3 * sqrt PI / (8 * a ^ 2 * sqrt a)).
Proof.
  intros Ha. apply (RInt_gen_of_lim _ (G4 a)); [|now apply G4_lim].
  intros; now apply is_RInt_G4.
Qed.
