(** One step of the fixed point iteration does not increase the KL divergence. *)
From Coquelicot Require Import Coquelicot.
From Coq Require Import Reals List ZArith Lia Lra Bool.
From Verif Require Import XR SpecDens SpecMeas ModelDens ModelMeas ModelFit Lists ProofDens
  ProofDeriv ProofMeas SpecFit ProofFitView ProofFit.
Import ListNotations.
Local Open Scope R_scope.

(** ** Sums and positivity of the averages *)

Lemma nth_values norm lays c e i : (i < length lays)%nat ->
  nth i (values norm lays c e) 0 = gsum norm (nth i lays []) c e.
Proof.
  intros H. unfold values.
  rewrite (nth_indep _ 0 ((fun lay => gsum norm lay c e) [])) by (rewrite map_length; auto).
  now rewrite (map_nth (fun lay => gsum norm lay c e)).
Qed.

Lemma nth_upd_c mask W f norm lays lam c e k : (k < length c)%nat ->
  nth k (upd_c mask W f norm lays lam c e) 0 = nth k c 0 * avg1 mask W f norm lays c e k / lam.
Proof. intros H. unfold upd_c. now rewrite nth_map_seq. Qed.
Lemma nth_upd_e mask W f norm lays c e k : (k < length e)%nat ->
  nth k (upd_e mask W f norm lays c e) 0 =
  half_power (kind (nth 0 lays []) k) * avg1 mask W f norm lays c e k / avg2 mask W f norm lays c e k.
Proof. intros H. unfold upd_e. now rewrite nth_map_seq. Qed.
Lemma upd_c_length mask W f norm lays lam c e : length (upd_c mask W f norm lays lam c e) = length c.
Proof. unfold upd_c. now rewrite map_length, seq_length. Qed.
Lemma upd_e_length mask W f norm lays c e : length (upd_e mask W f norm lays c e) = length e.
Proof. unfold upd_e. now rewrite map_length, seq_length. Qed.

(** [sum_k c_k A_k = int f] when nothing is masked. *)
Lemma sum_cA m norm lays nb mask W f c e :
  vfacts m norm lays nb -> length lays = length W -> length f = length W ->
  length c = nb -> length e = nb -> 0 <= mask -> all_above mask f (values norm lays c e) ->
  sumn nb (fun k => nth k c 0 * avg1 mask W f norm lays c e k) = rdot W f.
Proof.
  intros Hv HlW Hf Hc He Hm Hk. unfold avg1. cbv zeta.
  transitivity (sumn nb (fun k => sumn (length W) (fun i => nth i W 0 * (nth i f 0 / gsum norm (nth i lays []) c e *
     (nth k c 0 * basis_fn norm (kind (nth i lays []) k) (nth k e 0) (away (nth i lays []) k)))))).
  { apply sumn_ext. intros k Hkk. rewrite <- sumn_scal. apply sumn_ext. intros i Hi.
    rewrite kl_ratio_kept; [ring|]. rewrite <- nth_values by lia. apply Hk. lia. }
  rewrite sumn_swap, rdot_sumn by auto. apply sumn_ext. intros i Hi.
  assert (Hg : 0 < gsum norm (nth i lays []) c e).
  { rewrite <- nth_values by lia. eapply kept_nz; eauto. apply Hk. lia. }
  rewrite (sumn_ext nb _ (fun k => (nth i W 0 * (nth i f 0 / gsum norm (nth i lays []) c e)) *
     (nth k c 0 * basis_fn norm (kind (nth i lays []) k) (nth k e 0) (away (nth i lays []) k))))
    by (intros; ring).
  rewrite sumn_scal.
  assert (Hl : length (nth i lays []) = nb) by (eapply vf_len; eauto; apply nth_In; lia).
  rewrite <- Hl at 1. rewrite <- gsum_sumn by lia. field. lra.
Qed.

Lemma upd_c_sum m norm lays nb mask W f c e lam :
  vfacts m norm lays nb -> length lays = length W -> length f = length W ->
  length c = nb -> length e = nb -> 0 <= mask -> all_above mask f (values norm lays c e) ->
  rsum (upd_c mask W f norm lays lam c e) = rdot W f / lam.
Proof.
  intros Hv HlW Hf Hc He Hm Hk.
  rewrite rsum_sumn, upd_c_length, Hc, <- (sum_cA m norm lays nb mask W f c e) by auto.
  unfold Rdiv. rewrite Rmult_comm, <- sumn_scal. apply sumn_ext. intros k Hkk.
  rewrite nth_upd_c by lia. unfold Rdiv. ring.
Qed.

Lemma avg1_pos m norm lays nb mask W f c e k :
  vfacts m norm lays nb -> length lays = length W -> length f = length W ->
  0 <= mask -> nonneg W -> nonneg f -> supported W f lays nb -> (k < nb)%nat ->
  0 < avg1 mask W f norm lays c e k.
Proof.
  intros Hv HlW Hf Hm HW Hnf Hs Hk. destruct (Hs k Hk) as (i & Hi & H1 & H2 & H3).
  unfold avg1. cbv zeta. apply sumn_pos.
  - intros j Hj. apply Rmult_le_pos; [now apply nonneg_nth|].
    apply Rmult_le_pos; [|apply basis_fn_nonneg]. apply kl_ratio_nonneg; auto. now apply nonneg_nth.
  - exists i. split; auto. apply Rmult_lt_0_compat; auto.
    apply Rmult_lt_0_compat; [now apply kl_ratio_pos|now apply basis_fn_pos].
Qed.
Lemma avg2_pos m norm lays nb mask W f c e k :
  vfacts m norm lays nb -> length lays = length W -> length f = length W ->
  0 <= mask -> nonneg W -> nonneg f -> supported W f lays nb -> (k < nb)%nat ->
  0 < avg2 mask W f norm lays c e k.
Proof.
  intros Hv HlW Hf Hm HW Hnf Hs Hk. destruct (Hs k Hk) as (i & Hi & H1 & H2 & H3).
  unfold avg2. cbv zeta. apply sumn_pos.
  - intros j Hj. apply Rmult_le_pos; [now apply nonneg_nth|].
    apply Rmult_le_pos; [|apply pow2_ge_0].
    apply Rmult_le_pos; [|apply basis_fn_nonneg]. apply kl_ratio_nonneg; auto. now apply nonneg_nth.
  - exists i. split; auto. apply Rmult_lt_0_compat; auto.
    apply Rmult_lt_0_compat; [apply Rmult_lt_0_compat; [now apply kl_ratio_pos|now apply basis_fn_pos]|].
    pose proof (Rsqr_pos_lt _ H3). unfold Rsqr in H. simpl. lra.
Qed.

Lemma half_power_pos p : 0 < half_power p.
Proof. destruct p; simpl; lra. Qed.

Lemma all_nth_Forall (P : R -> Prop) l : (forall k, (k < length l)%nat -> P (nth k l 0)) -> Forall P l.
Proof.
  intros H. apply Forall_forall. intros x Hx. destruct (In_nth _ _ 0 Hx) as (k & Hk & <-). auto.
Qed.

Lemma upd_c_pos m norm lays nb mask W f c e lam :
  vfacts m norm lays nb -> length lays = length W -> length f = length W ->
  0 <= mask -> nonneg W -> nonneg f -> supported W f lays nb -> length c = nb -> 0 < lam ->
  positive c -> positive (upd_c mask W f norm lays lam c e).
Proof.
  intros Hv HlW Hf Hm HW Hnf Hs Hc Hl Hp. apply all_nth_Forall. rewrite upd_c_length. intros k Hk.
  rewrite nth_upd_c by auto. apply Rdiv_lt_0_compat; auto. apply Rmult_lt_0_compat.
  - now apply positive_nth.
  - eapply avg1_pos; eauto. lia.
Qed.
Lemma upd_e_pos m norm lays nb mask W f c e :
  vfacts m norm lays nb -> length lays = length W -> length f = length W ->
  0 <= mask -> nonneg W -> nonneg f -> supported W f lays nb -> length e = nb ->
  positive (upd_e mask W f norm lays c e).
Proof.
  intros Hv HlW Hf Hm HW Hnf Hs He. apply all_nth_Forall. rewrite upd_e_length. intros k Hk.
  rewrite nth_upd_e by auto. apply Rdiv_lt_0_compat; [apply Rmult_lt_0_compat|].
  - apply half_power_pos.
  - eapply avg1_pos; eauto. lia.
  - eapply avg2_pos; eauto. lia.
Qed.

(** ** Jensen's inequality for the logarithm of a mixture *)

Lemma mix_jensen n (u v L : nat -> R) :
  (forall k, (k < n)%nat -> 0 <= u k) -> (forall k, (k < n)%nat -> 0 <= v k) ->
  0 < sumn n u -> 0 < sumn n v ->
  (forall k, (k < n)%nat -> 0 < u k -> 0 < v k /\ L k = ln (v k / u k)) ->
  sumn n (fun k => u k / sumn n u * L k) <= ln (sumn n v / sumn n u).
Proof.
  intros Hu Hv Hg Hh HL. set (g := sumn n u) in *. set (h := sumn n v) in *.
  apply Rle_trans with (sumn n (fun k => ln (h / g) / g * u k + (/ h * v k - / g * u k))).
  - apply sumn_le. intros k Hk. destruct (Req_dec (u k) 0) as [E|E].
    + rewrite E. assert (0 <= / h * v k); [|unfold Rdiv; lra].
      apply Rmult_le_pos; [left; now apply Rinv_0_lt_compat|auto].
    + assert (Huk : 0 < u k) by (specialize (Hu k Hk); lra).
      destruct (HL k Hk Huk) as [Hvk ->].
      assert (P1 : 0 < v k / u k) by now apply Rdiv_lt_0_compat.
      assert (P2 : 0 < g / h) by now apply Rdiv_lt_0_compat.
      assert (E1 : ln (v k / u k) = ln (h / g) + ln (v k / u k * (g / h))).
      { rewrite ln_mult by auto. rewrite (ln_div h g), (ln_div g h) by auto. ring. }
      rewrite E1.
      pose proof (ln_le_sub (v k / u k * (g / h)) ltac:(now apply Rmult_lt_0_compat)) as Hle.
      apply (Rmult_le_compat_l (u k / g)) in Hle; [|left; now apply Rdiv_lt_0_compat].
      rewrite Rmult_plus_distr_l.
      replace (u k / g * (v k / u k * (g / h) - 1)) with (/ h * v k - / g * u k) in Hle by (field; lra).
      replace (ln (h / g) / g * u k) with (u k / g * ln (h / g)) by (unfold Rdiv; ring). lra.
  - rewrite sumn_plus, sumn_minus, !sumn_scal. fold g h. right. field. lra.
Qed.

(** Logarithm of the ratio of a basis function at two exponents. *)
Lemma basis_ln p a a' r : 0 < a -> 0 < a' -> 0 < basis_fn true p a r ->
  0 < basis_fn true p a' r /\
  ln (basis_fn true p a' r / basis_fn true p a r) = half_power p * ln (a' / a) - (a' - a) * r ^ 2.
Proof.
  intros Ha Ha' Hb.
  assert (HP : forall x, 0 < x -> 0 < Rpower PI x) by (intros; apply Rpower_pos).
  assert (Hr : p = true -> 0 < r ^ 2).
  { intros ->. unfold basis_fn in Hb. apply Rnot_le_lt. intros Hn.
    assert (r ^ 2 = 0) by (pose proof (pow2_ge_0 r); lra). rewrite H in Hb. lra. }
  assert (Hb' : 0 < basis_fn true p a' r).
  { unfold basis_fn. apply Rmult_lt_0_compat; [apply Rmult_lt_0_compat|apply exp_pos].
    - apply norm_const_pos.
    - destruct p; [auto|lra]. }
  split; auto.
  assert (E : basis_fn true p a' r / basis_fn true p a r =
              Rpower (a' / a) (half_power p) * exp (- (a' - a) * r ^ 2)).
  { unfold basis_fn. pose proof (norm_const_pos p a). pose proof (exp_pos (- a * r ^ 2)).
    replace (- (a' - a) * r ^ 2) with (- a' * r ^ 2 + - (- a * r ^ 2)) by ring.
    rewrite exp_plus, exp_Ropp.
    assert (EN : norm_const p a' / norm_const p a = Rpower (a' / a) (half_power p)).
    { pose proof (Rpower_pos a (3/2)). pose proof (Rpower_pos PI (3/2)). pose proof (Rpower_pos a (5/2)).
      destruct p; cbn [half_power]; rewrite Rpower_mult_div by auto.
      - unfold norm_const. field. lra.
      - rewrite !norm_const_s by auto. field. lra. }
    rewrite <- EN. destruct p; field; repeat split; try lra.
    specialize (Hr eq_refl). intros Hz. rewrite Hz in Hr. simpl in Hr. lra. }
  rewrite E, ln_mult, ln_exp by (apply Rpower_pos || apply exp_pos).
  unfold Rpower. rewrite ln_exp. ring.
Qed.

(** ** The divergence before and after *)

Lemma kl_sum_sumn W f g : length f = length W -> length g = length W ->
  kl_sum W f g = sumn (length W) (fun i => nth i W 0 * kl_fn (nth i f 0) (nth i g 0)).
Proof.
  intros H1 H2. unfold kl_sum, quad. rewrite rdot_sumn by (rewrite map2_length; lia).
  apply sumn_ext. intros i Hi. f_equal. apply nth_map2; lia.
Qed.

Section EM.
Variables (m : gmodel) (lays : list (list (bool * R))) (nb : nat) (mask : R) (W f c e c' e' : list R).
Hypothesis Hv : vfacts m true lays nb.
Hypothesis HlW : length lays = length W.
Hypothesis Hf : length f = length W.
Hypothesis Hne : lays <> [].
Hypothesis Hc : length c = nb.
Hypothesis He : length e = nb.
Hypothesis Hc' : length c' = nb.
Hypothesis He' : length e' = nb.
Hypothesis Hm : 0 <= mask.
Hypothesis HW : nonneg W.
Hypothesis Hpf : positive f.
Hypothesis Hpc : positive c.
Hypothesis Hpe : positive e.
Hypothesis Hpc' : positive c'.
Hypothesis Hpe' : positive e'.
Hypothesis Hk : all_above mask f (values true lays c e).
Hypothesis Hk' : all_above mask f (values true lays c' e').

Let A k := avg1 mask W f true lays c e k.
Let B k := avg2 mask W f true lays c e k.
Let P k := half_power (kind (nth 0 lays []) k).

Lemma em_bound :
  kl_sum W f (values true lays c' e') +
  sumn nb (fun k => nth k c 0 * (A k * (ln (nth k c' 0 / nth k c 0) + P k * ln (nth k e' 0 / nth k e 0)) -
                                 (nth k e' 0 - nth k e 0) * B k))
  <= kl_sum W f (values true lays c e).
Proof.
  assert (HL : forall g, length (values true lays g e) = length W) by (intros; unfold values; now rewrite map_length).
  rewrite !kl_sum_sumn by (auto; unfold values; rewrite map_length; auto).
  set (u := fun i k => nth k c 0 * basis_fn true (kind (nth i lays []) k) (nth k e 0) (away (nth i lays []) k)).
  set (v := fun i k => nth k c' 0 * basis_fn true (kind (nth i lays []) k) (nth k e' 0) (away (nth i lays []) k)).
  assert (Hin : forall i, (i < length W)%nat -> In (nth i lays []) lays) by (intros; apply nth_In; lia).
  assert (Hll : forall i, (i < length W)%nat -> length (nth i lays []) = nb).
  { intros. eapply vf_len; eauto. }
  assert (Eg : forall i, (i < length W)%nat -> nth i (values true lays c e) 0 = sumn nb (u i)).
  { intros i Hi. rewrite nth_values, gsum_sumn, (Hll i Hi) by (rewrite ?Hll; auto; lia). reflexivity. }
  assert (Eh : forall i, (i < length W)%nat -> nth i (values true lays c' e') 0 = sumn nb (v i)).
  { intros i Hi. rewrite nth_values, gsum_sumn, (Hll i Hi) by (rewrite ?Hll; auto; lia). reflexivity. }
  set (L := fun i k => ln (nth k c' 0 / nth k c 0) + P k * ln (nth k e' 0 / nth k e 0) -
                       (nth k e' 0 - nth k e 0) * away (nth i lays []) k ^ 2).
  assert (J : forall i, (i < length W)%nat ->
     sumn nb (fun k => u i k / sumn nb (u i) * L i k) <= ln (sumn nb (v i) / sumn nb (u i))).
  { intros i Hi. apply mix_jensen.
    - intros k Hkk. apply Rmult_le_pos; [|apply basis_fn_nonneg]. apply nonneg_nth. now apply positive_nonneg.
    - intros k Hkk. apply Rmult_le_pos; [|apply basis_fn_nonneg]. apply nonneg_nth. now apply positive_nonneg.
    - rewrite <- Eg by auto. eapply kept_nz; eauto. apply Hk. lia.
    - rewrite <- Eh by auto. eapply kept_nz; eauto. apply Hk'. lia.
    - intros k Hkk Hu. unfold u in Hu.
      assert (Hck : 0 < nth k c 0) by (apply positive_nth; auto; lia).
      assert (Hck' : 0 < nth k c' 0) by (apply positive_nth; auto; lia).
      assert (Hek : 0 < nth k e 0) by (apply positive_nth; auto; lia).
      assert (Hek' : 0 < nth k e' 0) by (apply positive_nth; auto; lia).
      assert (Hb : 0 < basis_fn true (kind (nth i lays []) k) (nth k e 0) (away (nth i lays []) k)).
      { pose proof (basis_fn_nonneg true (kind (nth i lays []) k) (nth k e 0) (away (nth i lays []) k)) as Hnn.
        destruct Hnn as [|E]; auto. rewrite <- E in Hu. lra. }
      destruct (basis_ln _ _ (nth k e' 0) _ Hek Hek' Hb) as [Hb' Eb].
      split; [unfold v; now apply Rmult_lt_0_compat|].
      unfold v, u, L.
      set (b := basis_fn true (kind (nth i lays []) k) (nth k e 0) (away (nth i lays []) k)) in *.
      set (b' := basis_fn true (kind (nth i lays []) k) (nth k e' 0) (away (nth i lays []) k)) in *.
      replace (nth k c' 0 * b' / (nth k c 0 * b)) with (nth k c' 0 / nth k c 0 * (b' / b)) by (field; lra).
      rewrite ln_mult, Eb by (apply Rdiv_lt_0_compat; auto).
      unfold P. rewrite (vf_kind _ _ _ _ Hv k (nth 0 lays []) (nth i lays [])); auto; [ring|].
      apply nth_In. destruct lays; simpl; [congruence|lia]. }
  assert (E : sumn nb (fun k => nth k c 0 * (A k * (ln (nth k c' 0 / nth k c 0) + P k * ln (nth k e' 0 / nth k e 0)) -
                                 (nth k e' 0 - nth k e 0) * B k)) =
     sumn (length W) (fun i => nth i W 0 * (nth i f 0 * sumn nb (fun k => u i k / sumn nb (u i) * L i k)))).
  { transitivity (sumn (length W) (fun i => sumn nb (fun k => nth i W 0 * (nth i f 0 * (u i k / sumn nb (u i) * L i k))))).
    2:{ apply sumn_ext. intros i Hi. rewrite <- !sumn_scal. reflexivity. }
    rewrite sumn_swap. apply sumn_ext. intros k Hkk. unfold A, B, avg1, avg2. cbv zeta.
    rewrite (Rmult_comm (sumn _ _) (_ + _)), <- !sumn_scal, <- sumn_minus, <- sumn_scal.
    apply sumn_ext. intros i Hi. rewrite kl_ratio_kept.
    2:{ rewrite <- nth_values by lia. apply Hk. lia. }
    replace (gsum true (nth i lays []) c e) with (sumn nb (u i)) by (rewrite <- Eg, nth_values by lia; reflexivity).
    unfold L. unfold u at 3. unfold Rdiv. ring. }
  rewrite E, <- sumn_plus. apply sumn_le. intros i Hi. rewrite Eg, Eh by auto.
  rewrite <- Rmult_plus_distr_l. apply Rmult_le_compat_l; [now apply nonneg_nth|].
  assert (Hfi : 0 < nth i f 0) by (apply positive_nth; auto; lia).
  assert (Hgi : 0 < sumn nb (u i)).
  { rewrite <- Eg by auto. eapply kept_nz; eauto. apply Hk. lia. }
  assert (Hhi : 0 < sumn nb (v i)).
  { rewrite <- Eh by auto. eapply kept_nz; eauto. apply Hk'. lia. }
  unfold kl_fn. rewrite <- Rmult_plus_distr_l. apply Rmult_le_compat_l; [lra|].
  specialize (J i Hi). rewrite ln_div in J by auto. rewrite !ln_div by auto. lra.
Qed.

(** Coefficient part. *)
Lemma em_c_part lam : 0 < lam -> c' = upd_c mask W f true lays lam c e ->
  forall k, (k < nb)%nat ->
  lam * (nth k c' 0 - nth k c 0) <= nth k c 0 * (A k * ln (nth k c' 0 / nth k c 0)) /\
  (nth k c' 0 <> nth k c 0 ->
   lam * (nth k c' 0 - nth k c 0) < nth k c 0 * (A k * ln (nth k c' 0 / nth k c 0))).
Proof.
  intros Hl E k Hkk.
  assert (Hck : 0 < nth k c 0) by (apply positive_nth; auto; lia).
  assert (Hck' : 0 < nth k c' 0) by (apply positive_nth; auto; lia).
  assert (E1 : nth k c 0 * A k = lam * nth k c' 0).
  { rewrite E, nth_upd_c by lia. fold (A k). field. lra. }
  replace (nth k c 0 * (A k * ln (nth k c' 0 / nth k c 0))) with (lam * kl_fn (nth k c' 0) (nth k c 0))
    by (unfold kl_fn; rewrite <- !Rmult_assoc, E1; ring).
  split.
  - apply Rmult_le_compat_l; [lra|]. now apply kl_fn_ge.
  - intros Hn. apply Rmult_lt_compat_l; [lra|]. now apply kl_fn_gt.
Qed.

(** Exponent part. *)
Lemma em_e_part : (forall k, (k < nb)%nat -> 0 < A k) -> (forall k, (k < nb)%nat -> 0 < B k) ->
  e' = upd_e mask W f true lays c e ->
  forall k, (k < nb)%nat ->
  0 <= A k * (P k * ln (nth k e' 0 / nth k e 0)) - (nth k e' 0 - nth k e 0) * B k /\
  (nth k e' 0 <> nth k e 0 ->
   0 < A k * (P k * ln (nth k e' 0 / nth k e 0)) - (nth k e' 0 - nth k e 0) * B k).
Proof.
  intros HA HB E k Hkk.
  assert (Hek : 0 < nth k e 0) by (apply positive_nth; auto; lia).
  assert (Hek' : 0 < nth k e' 0) by (apply positive_nth; auto; lia).
  specialize (HA k Hkk). specialize (HB k Hkk).
  assert (HP : 0 < P k) by (unfold P; apply half_power_pos).
  assert (E1 : nth k e' 0 = P k * A k / B k) by (rewrite E at 1; rewrite nth_upd_e by lia; reflexivity).
  assert (E2 : B k = P k * A k / nth k e' 0) by (rewrite E1; field; lra).
  set (x := nth k e' 0) in *. set (y := nth k e 0) in *.
  assert (E3 : A k * (P k * ln (x / y)) - (x - y) * B k = P k * A k * (y / x - 1 - ln (y / x))).
  { rewrite E2 at 1. rewrite !ln_div by auto. field. lra. }
  rewrite E3. assert (HPA : 0 < P k * A k) by now apply Rmult_lt_0_compat.
  assert (Hyx : 0 < y / x) by now apply Rdiv_lt_0_compat.
  split.
  - apply Rmult_le_pos; [lra|]. pose proof (ln_le_sub _ Hyx). lra.
  - intros Hn. apply Rmult_lt_0_compat; auto.
    assert (y / x <> 1). { intros Hq. apply Hn. apply (f_equal (fun t => t * x)) in Hq. field_simplify in Hq; lra. }
    pose proof (ln_lt_sub _ Hyx H). lra.
Qed.

(** Both. *)
Lemma em_step (uc ue : bool) lam :
  0 < lam -> supported W f lays nb ->
  c' = (if uc then upd_c mask W f true lays lam c e else c) ->
  e' = (if ue then upd_e mask W f true lays c e else e) ->
  (uc = true -> rsum c <= rsum c') ->
  kl_sum W f (values true lays c' e') <= kl_sum W f (values true lays c e) /\
  (kl_sum W f (values true lays c' e') = kl_sum W f (values true lays c e) -> c' = c /\ e' = e).
Proof.
  intros Hl Hs Ec Ee Hsum.
  assert (Hnf : nonneg f) by now apply positive_nonneg.
  assert (HA : forall k, (k < nb)%nat -> 0 < A k) by (intros; eapply avg1_pos; eauto).
  assert (HB : forall k, (k < nb)%nat -> 0 < B k) by (intros; eapply avg2_pos; eauto).
  assert (Hcp : forall k, (k < nb)%nat -> 0 < nth k c 0) by (intros; apply positive_nth; auto; lia).
  assert (Hep : forall k, (k < nb)%nat -> 0 < nth k e 0) by (intros; apply positive_nth; auto; lia).
  set (T1 := fun k => nth k c 0 * (A k * ln (nth k c' 0 / nth k c 0))).
  set (D := fun k => lam * (nth k c' 0 - nth k c 0)).
  set (T2 := fun k => nth k c 0 * (A k * (P k * ln (nth k e' 0 / nth k e 0)) - (nth k e' 0 - nth k e 0) * B k)).
  assert (EB := em_bound).
  rewrite (sumn_ext nb _ (fun k => T1 k + T2 k)) in EB by (intros; unfold T1, T2; ring).
  rewrite sumn_plus in EB.
  assert (H1 : forall k, (k < nb)%nat -> D k <= T1 k /\ (nth k c' 0 <> nth k c 0 -> D k < T1 k)).
  { intros k Hkk. destruct uc.
    - now apply em_c_part.
    - unfold D, T1. rewrite Ec. unfold Rdiv at 1 2. rewrite Rinv_r by (specialize (Hcp k Hkk); lra).
      rewrite ln_1. split; [right; ring|]. intros Hn. congruence. }
  assert (H2 : forall k, (k < nb)%nat -> 0 <= T2 k /\ (nth k e' 0 <> nth k e 0 -> 0 < T2 k)).
  { intros k Hkk. specialize (Hcp k Hkk). destruct ue.
    - destruct (em_e_part HA HB Ee k Hkk) as [Q1 Q2]. unfold T2. split.
      + apply Rmult_le_pos; [lra|auto].
      + intros Hn. apply Rmult_lt_0_compat; auto.
    - unfold T2. rewrite Ee. unfold Rdiv at 1 2. rewrite Rinv_r by (specialize (Hep k Hkk); lra).
      rewrite ln_1. split; [right; ring|]. intros Hn. congruence. }
  assert (H3 : 0 <= sumn nb D).
  { unfold D. rewrite sumn_scal, sumn_minus. apply Rmult_le_pos; [lra|].
    rewrite <- Hc' at 1. rewrite <- Hc. rewrite <- !rsum_sumn. destruct uc.
    - specialize (Hsum eq_refl). lra.
    - rewrite Ec. lra. }
  assert (H4 : sumn nb D <= sumn nb T1) by (apply sumn_le; intros; now apply H1).
  assert (H5 : 0 <= sumn nb T2) by (apply sumn_nonneg; intros; now apply H2).
  split; [lra|]. intros Eq.
  assert (H6 : sumn nb T1 <= sumn nb D) by lra.
  assert (H7 : sumn nb T2 <= 0) by lra.
  split.
  - apply nth_ext with (d := 0) (d' := 0); [lia|]. intros k Hkk. rewrite Hc' in Hkk.
    destruct (Req_dec (nth k c' 0) (nth k c 0)) as [|Hn]; auto.
    pose proof (sumn_eq_le nb D T1 ltac:(intros; now apply H1) H6 k Hkk).
    destruct (H1 k Hkk) as [_ Q]. specialize (Q Hn). lra.
  - apply nth_ext with (d := 0) (d' := 0); [lia|]. intros k Hkk. rewrite He' in Hkk.
    destruct (Req_dec (nth k e' 0) (nth k e 0)) as [|Hn]; auto.
    assert (sumn nb T2 <= sumn nb (fun _ => 0)) by (rewrite (sumn_zero nb (fun _ => 0)); auto; lra).
    pose proof (sumn_eq_le nb (fun _ => 0) T2 ltac:(intros; now apply H2) H k Hkk).
    destruct (H2 k Hkk) as [_ Q]. specialize (Q Hn). simpl in *. lra.
Qed.
End EM.
