(** Proofs about the fixed point iteration (C42-C48). *)
From Coquelicot Require Import Coquelicot.
From Coq Require Import Reals List ZArith Lia Lra Bool.
From Verif Require Import XR SpecDens SpecMeas SpecGrid ModelDens ModelMeas ModelGrid ModelFit Lists ProofDens
  ProofDeriv ProofMeas ProofSlater SpecFit ProofFitView.
Import ListNotations.
Local Open Scope R_scope.

(** ** Lists *)

Lemma mapM_ok {A B} (f : A -> res B) (g : A -> B) l :
  (forall x, In x l -> f x = Ok (g x)) -> mapM f l = Ok (map g l).
Proof.
  induction l as [|x l IH]; intros H; auto. cbn [mapM map].
  rewrite H by now left. cbn [bind]. rewrite IH by (intros; apply H; now right). reflexivity.
Qed.
Lemma fits_refl n : fits n n = true.
Proof. unfold fits. now rewrite Nat.eqb_refl. Qed.
Lemma stretch_same {A B C} (op : A -> B -> C) u v : length u = length v -> stretch op u v = map2 op u v.
Proof. intros H. unfold stretch. now rewrite H, Nat.eqb_refl. Qed.
Lemma bcast_same {A B C} (op : A -> B -> C) u v : length u = length v -> bcast op u v = Ok (map2 op u v).
Proof. intros H. unfold bcast. now rewrite H, fits_refl, stretch_same. Qed.
Lemma emul_fin u v : length u = length v -> emul (map Fin u) (map Fin v) = Ok (map Fin (map2 Rmult u v)).
Proof.
  intros H. unfold emul. rewrite bcast_same by now rewrite !map_length. f_equal.
  now apply (map2_fin xmul Rmult).
Qed.
Lemma map2_seq_nth {A B C} (f : A -> B -> C) l m da db :
  length l = length m ->
  map2 f l m = map (fun i => f (nth i l da) (nth i m db)) (seq 0 (length l)).
Proof.
  revert m; induction l as [|x l IH]; intros [|y m] H; try discriminate; auto.
  cbn [map2 length seq map nth]. f_equal. rewrite <- seq_shift, map_map. apply IH. simpl in H. lia.
Qed.
Lemma nth_map_seq {B} (f : nat -> B) n i d : (i < n)%nat -> nth i (map f (seq 0 n)) d = f i.
Proof.
  intros H. rewrite (nth_indep _ d (f 0%nat)) by now rewrite map_length, seq_length.
  rewrite (map_nth f), seq_nth by auto. reflexivity.
Qed.

(** ** Integration *)

(** A fit whose integrate is a weighted sum with weights [W] on arrays of its length. *)
Definition good_int (ft : fit) (W : list R) : Prop :=
  forall y, length y = length W -> fit_integrate ft (map Fin y) = Ok (Fin (rdot W y)).

Lemma sph_dot W rs y : length rs = length W -> length y = length W ->
  rdot W (map2 Rmult (map (fun v => v * 4 * PI) y) (map (fun r => r ^ 2) rs)) =
  rdot (map2 (fun w r => w * (4 * PI * r ^ 2)) W rs) y.
Proof.
  revert rs y; induction W as [|w W IH]; intros [|r rs] [|v y] H1 H2; try discriminate; auto.
  unfold rdot in *. cbn [map map2]. rewrite !rsum_cons.
  rewrite IH by (simpl in *; lia). ring.
Qed.
Lemma xpow2_fin r : xpow (Fin r) 2 = Fin (r ^ 2).
Proof. replace 2 with (INR 2) by (simpl; lra). apply xpow_nat. Qed.

Lemma integrate_with_fin ga sph W p I y :
  integrator ga sph W -> ga = mkGridArg (Some p) (Some I) -> length y = length W ->
  integrate_with sph (mkGrid p I) (map Fin y) = Ok (Fin (rdot W y)).
Proof.
  intros H E Hy. destruct H.
  - injection E as -> ->. unfold integrate_with. cbn [gr_integrate]. auto.
  - injection E as <- ->. unfold integrate_with. cbn [gr_integrate gr_points].
    rewrite map2_length, H, Nat.min_id in Hy.
    rewrite (map_map Fin). rewrite (map_map Fin).
    assert (E1 : map (fun x => xmul (xmul (Fin x) (Fin 4)) (Fin PI)) y = map Fin (map (fun v => v * 4 * PI) y))
      by (rewrite map_map; reflexivity).
    assert (E2 : map (fun x => xpow (Fin x) 2) rs = map Fin (map (fun r => r ^ 2) rs)).
    { rewrite map_map. apply map_ext. intros r. apply xpow2_fin. }
    rewrite E1, E2, emul_fin by (rewrite !map_length; lia). cbn [bind].
    rewrite H0 by (rewrite map2_length, !map_length; lia). now rewrite sph_dot.
Qed.

Lemma base_init_inv ga density model me n0 sph mask ft :
  base_init ga density model me n0 sph mask = Ok ft ->
  exists p I n, ga = mkGridArg (Some p) (Some I) /\
    ft = mkFit (mkGrid p I) density model me sph n mask /\
    existsb (fun x => xltb x (Fin 0)) density = false /\
    (ndim p = 1%nat \/ sph = false) /\
    match n0 with None => integrate_with sph (mkGrid p I) density = Ok n | Some x => n = x end.
Proof.
  unfold base_init. destruct (existsb _ density) eqn:E; [discriminate|].
  destruct ga as [[p|] [I|]]; try discriminate. cbn [ga_points ga_integrate].
  destruct (Nat.eqb_spec (ndim p) 1) as [Hd|Hd]; destruct sph; cbn [negb andb]; intros H;
    try discriminate; destruct n0 as [x|]; cbn [bind] in H;
    try (injection H as <-; exists p, I, x; repeat split; auto; fail);
    destruct (integrate_with _ _ density) as [n|] eqn:En; try discriminate; cbn [bind] in H;
    injection H as <-; exists p, I, n; repeat split; auto.
Qed.

Lemma existsb_neg_nonneg f : existsb (fun x => xltb x (Fin 0)) (map Fin f) = false -> nonneg f.
Proof.
  intros H. unfold nonneg. rewrite Forall_forall. intros x Hx. apply Rnot_lt_le. intros Hn.
  rewrite existsb_neg_true in H; [discriminate|]. apply Exists_exists. eauto.
Qed.

(** What is needed of a constructed fit. *)
Record fitok (ft : fit) (W f : list R) (m : gmodel) (mask : R) : Prop := {
  fo_int : good_int ft W;
  fo_dens : ft_density ft = map Fin f;
  fo_len : length f = length W;
  fo_model : ft_model ft = m;
  fo_mask : ft_mask ft = Fin mask;
  fo_nonneg : nonneg f }.

Lemma base_fitok ga sph W f m me n0 mask ft :
  integrator ga sph W -> length f = length W ->
  base_init ga (map Fin f) m me n0 sph (Fin mask) = Ok ft ->
  fitok ft W f m mask /\ ft_measure ft = me /\
  ft_integral ft = match n0 with None => Fin (rdot W f) | Some x => x end.
Proof.
  intros Hi Hl H. apply base_init_inv in H.
  destruct H as (p & I & n & Hga & -> & Hneg & _ & Hn).
  assert (HI : forall y, length y = length W -> integrate_with sph (mkGrid p I) (map Fin y) = Ok (Fin (rdot W y)))
    by (intros y Hy; eapply integrate_with_fin; eauto).
  split; [|split].
  - constructor; auto. now apply existsb_neg_nonneg.
  - reflexivity.
  - cbn [ft_integral]. destruct n0; auto. rewrite HI in Hn by auto. now injection Hn as <-.
Qed.

(** The number the model is constrained to: the argument [integral_dens], or the integral of
    the density. *)
Lemma fpi_init_ok ga sph W f m n0 mask fp :
  integrator ga sph W -> length f = length W ->
  fpi_init ga (map Fin f) m (Fin mask) n0 sph = Ok fp ->
  fitok (fp_fit fp) W f m mask /\
  ft_measure (fp_fit fp) = MKL (Fin mask) (Fin 100000) /\
  ft_integral (fp_fit fp) = match n0 with None => Fin (rdot W f) | Some x => x end /\
  fp_lm fp = xdiv (Fin (rdot W f)) (ft_integral (fp_fit fp)) /\
  fp_lm fp <> Fin 0 /\ fp_lm fp <> NaN.
Proof.
  intros Hi Hl H. unfold fpi_init in H.
  destruct (base_init _ _ _ _ _ _ _) as [ft|] eqn:E; [|discriminate]. cbn [bind] in H.
  destruct (base_fitok _ _ _ _ _ _ _ _ _ Hi Hl E) as (Hf & Hm & Hn).
  rewrite (fo_int _ _ _ _ _ Hf) in H by auto. cbv beta iota zeta delta [bind] in H.
  set (q := xdiv (Fin (rdot W f)) (ft_integral ft)) in *.
  destruct (xeqb _ (Fin 0) || xisnan _) eqn:Eb; [discriminate|]. injection H as <-.
  apply orb_false_iff in Eb. destruct Eb as [Eb1 Eb2].
  cbn [fp_fit fp_lm]. split; [exact Hf|]. split; [exact Hm|]. split; [exact Hn|].
  split; [reflexivity|]. split.
  - intros Eq. rewrite Eq in Eb1. simpl in Eb1. rewrite reqb_true in Eb1; auto; discriminate.
  - intros Eq. rewrite Eq in Eb2. discriminate.
Qed.

(** Lagrange multiplier for a finite non-zero constraint. *)
Lemma lm_finite ga sph W f m n0 mask fp N :
  integrator ga sph W -> length f = length W ->
  fpi_init ga (map Fin f) m (Fin mask) n0 sph = Ok fp ->
  match n0 with None => N = rdot W f | Some x => x = Fin N end -> N <> 0 ->
  fp_lm fp = Fin (rdot W f / N) /\ rdot W f <> 0.
Proof.
  intros Hi Hl H Ht HN. destruct (fpi_init_ok _ _ _ _ _ _ _ _ Hi Hl H) as (_ & _ & E & E1 & E2 & _).
  assert (E3 : ft_integral (fp_fit fp) = Fin N) by (rewrite E; destruct n0; congruence).
  rewrite E3, xdiv_fin in E1 by auto. split; auto. intros E4. apply E2. rewrite E1, E4. f_equal.
  unfold Rdiv. ring.
Qed.

(** ** KL derivative *)

Lemma kl_deriv_point mask f g : 0 <= mask -> 0 <= g ->
  filled (Fin 1) (ma_div (Fin mask) (Fin f) (Fin g)) = Fin (kl_ratio mask f g).
Proof.
  intros Hm Hg. unfold kl_ratio.
  destruct (Rlt_dec mask g) as [H1|H1]; [destruct (Rlt_dec _ _) as [H2|H2]|].
  - now rewrite ma_div_kept by (auto; split; auto).
  - rewrite ma_div_masked; auto. intros [_ H]. auto.
  - rewrite ma_div_masked; auto. intros [H _]. auto.
Qed.
Lemma kl_deriv mask neg f g : 0 <= mask -> length f = length g -> nonneg g ->
  exists v, measure_evaluate (MKL (Fin mask) neg) (VArr (A1 (map Fin f))) (VArr (A1 (map Fin g))) (VBool true)
    = Ok (v, Some (map Fin (map2 (fun x y => - kl_ratio mask x y) f g))).
Proof.
  intros Hm Hl Hg. rewrite evaluate_ok by now rewrite !map_length. simpl. unfold kl_values.
  rewrite existsb_neg_false by auto. eexists. f_equal. f_equal. f_equal.
  rewrite map2_map, !map_map2. apply map2_ext_len. intros x y _ Hy.
  rewrite kl_deriv_point; auto. unfold nonneg in Hg. rewrite Forall_forall in Hg. auto.
Qed.
Lemma kl_ratio_kept mask f g : kept mask f g -> kl_ratio mask f g = f / g.
Proof.
  intros [H1 H2]. unfold kl_ratio. destruct (Rlt_dec mask g); [|lra]. destruct (Rlt_dec _ _); [auto|lra].
Qed.
Lemma kl_ratio_pos mask f g : 0 <= mask -> 0 < f -> 0 < kl_ratio mask f g.
Proof.
  intros Hm Hf. unfold kl_ratio. destruct (Rlt_dec mask g); [|lra]. destruct (Rlt_dec _ _); [|lra].
  apply Rdiv_lt_0_compat; lra.
Qed.
Lemma kl_ratio_nonneg mask f g : 0 <= mask -> 0 <= f -> 0 <= kl_ratio mask f g.
Proof.
  intros Hm Hf. unfold kl_ratio. destruct (Rlt_dec mask g); [|lra]. destruct (Rlt_dec _ _); [|lra].
  apply Rmult_le_pos; [lra|]. left. apply Rinv_0_lt_compat. lra.
Qed.

(** ** One update *)

Definition upd_c (mask : R) W f norm lays (lam : R) (c e : list R) : list R :=
  map (fun k => nth k c 0 * avg1 mask W f norm lays c e k / lam) (seq 0 (length c)).
Definition upd_e (mask : R) W f norm lays (c e : list R) : list R :=
  map (fun k => half_power (kind (nth 0 lays []) k) * avg1 mask W f norm lays c e k /
                avg2 mask W f norm lays c e k) (seq 0 (length e)).

Lemma column_fin (row : list (bool * R) -> list R) lays k n :
  (forall lay, In lay lays -> length (row lay) = n) -> (k < n)%nat ->
  column k (map (fun lay => map Fin (row lay)) lays) = map Fin (map (fun lay => nth k (row lay) 0) lays).
Proof.
  intros H Hk. unfold column. rewrite !map_map. apply map_ext_in. intros lay Hl.
  rewrite (nth_indep _ NaN (Fin 0)) by (rewrite map_length, H; auto). apply map_nth.
Qed.

Lemma averages_fin ft W f m mask norm lays nb c e ue k :
  fitok ft W f m mask -> vfacts m norm lays nb -> length lays = length W ->
  length c = nb -> length e = nb -> (k < nb)%nat ->
  averages ft (map Fin (map2 (fun x y => - kl_ratio mask x y) f (values norm lays c e)))
    (map (fun lay => map Fin (bcol norm lay e ++ ecol norm lay c e)) lays) ue k =
  Ok (Fin (avg1 mask W f norm lays c e k),
      if ue then Fin (avg2 mask W f norm lays c e k) else Fin 0).
Proof.
  intros Hft Hv HlW Hc He Hk. pose proof (fo_len _ _ _ _ _ Hft) as Hf.
  assert (Hlv : length (values norm lays c e) = length W) by (unfold values; now rewrite map_length).
  unfold averages.
  assert (Hrow : forall lay, In lay lays -> length (bcol norm lay e ++ ecol norm lay c e) = (nb + nb)%nat).
  { intros lay Hi. rewrite app_length, bcol_length, ecol_length; rewrite ?(vf_len _ _ _ _ Hv lay Hi); lia. }
  rewrite (column_fin _ lays k (nb + nb)) by (auto; lia).
  assert (E1 : map xneg (map Fin (map2 (fun x y => - kl_ratio mask x y) f (values norm lays c e))) =
    map Fin (map2 (kl_ratio mask) f (values norm lays c e))).
  { rewrite !map_map2. apply map2_ext_len. intros. cbn [xneg]. now rewrite Ropp_involutive. }
  rewrite E1, emul_fin by (rewrite map_length, map2_length; lia). cbn [bind].
  set (y := map2 Rmult _ _).
  assert (Ly : length y = length W) by (unfold y; rewrite map2_length, map_length, map2_length; lia).
  assert (Ny : forall i, (i < length W)%nat ->
    nth i y 0 = kl_ratio mask (nth i f 0) (gsum norm (nth i lays []) c e) *
                basis_fn norm (kind (nth i lays []) k) (nth k e 0) (away (nth i lays []) k)).
  { intros i Hi. unfold y. rewrite (nth_map2 _ _ _ i 0 0) by (rewrite ?map2_length, ?map_length; lia).
    rewrite (nth_map2 _ _ _ i 0 0) by lia. unfold values.
    rewrite (nth_indep (map (fun lay => gsum norm lay c e) lays) 0 ((fun lay => gsum norm lay c e) [])) by (rewrite map_length; lia).
    rewrite (map_nth (fun lay => gsum norm lay c e)).
    rewrite (nth_indep (map (fun lay => nth k (bcol norm lay e ++ ecol norm lay c e) 0) lays) 0
              ((fun lay => nth k (bcol norm lay e ++ ecol norm lay c e) 0) [])) by (rewrite map_length; lia).
    rewrite (map_nth (fun lay => nth k (bcol norm lay e ++ ecol norm lay c e) 0)).
    assert (Hin : In (nth i lays []) lays) by (apply nth_In; lia).
    pose proof (vf_len _ _ _ _ Hv _ Hin) as Hll.
    rewrite app_nth1 by (rewrite bcol_length; lia). rewrite nth_bcol by lia. reflexivity. }
  rewrite (fo_int _ _ _ _ _ Hft) by auto. cbn [bind].
  assert (EA : rdot W y = avg1 mask W f norm lays c e k).
  { rewrite rdot_sumn by auto. unfold avg1. apply sumn_ext. intros i Hi. now rewrite Ny. }
  rewrite EA. destruct ue; auto.
  rewrite (fo_model _ _ _ _ _ Hft), (vf_radii _ _ _ _ Hv) by auto. cbn [bind].
  assert (E2 : map xsq (map (fun lay => Fin (away lay k)) lays) = map Fin (map (fun lay => away lay k ^ 2) lays)).
  { rewrite !map_map. apply map_ext. intros lay. unfold xsq. cbn [xmul]. f_equal. ring. }
  rewrite E2, emul_fin by (rewrite map_length; lia). cbn [bind].
  rewrite (fo_int _ _ _ _ _ Hft) by (rewrite map2_length, map_length; lia). cbn [bind].
  f_equal. f_equal. f_equal. rewrite rdot_sumn by (rewrite map2_length, map_length; lia).
  unfold avg2. apply sumn_ext. intros i Hi. f_equal.
  rewrite (nth_map2 _ _ _ i 0 0) by (rewrite ?map_length; lia). rewrite Ny by auto. f_equal.
  rewrite (nth_indep _ 0 ((fun lay => away lay k ^ 2) [])) by (rewrite map_length; lia).
  now rewrite (map_nth (fun lay => away lay k ^ 2)).
Qed.

Lemma nonneg_nth l k : nonneg l -> 0 <= nth k l 0.
Proof.
  intros H. destruct (Nat.lt_ge_cases k (length l)) as [Hk|Hk].
  - unfold nonneg in H. rewrite Forall_forall in H. now apply H, nth_In.
  - rewrite nth_overflow by auto. lra.
Qed.
Lemma positive_nth l k : positive l -> (k < length l)%nat -> 0 < nth k l 0.
Proof. intros H Hk. unfold positive in H. rewrite Forall_forall in H. now apply H, nth_In. Qed.
Lemma positive_nonneg l : positive l -> nonneg l.
Proof. apply Forall_impl. intros; lra. Qed.

Lemma values_nonneg m norm lays nb c e : vfacts m norm lays nb ->
  length c = nb -> length e = nb -> nonneg c -> nonneg (values norm lays c e).
Proof.
  intros Hv Hc He Hp. unfold values, nonneg. rewrite Forall_map, Forall_forall. intros lay Hi.
  apply gsum_nonneg; auto; rewrite (vf_len _ _ _ _ Hv lay Hi); auto.
Qed.

Lemma map_fin_seq (F : nat -> R) n : map (fun k => Fin (F k)) (seq 0 n) = map Fin (map F (seq 0 n)).
Proof. now rewrite map_map. Qed.

Lemma update_gen fp W f m mask norm lays nb lam c e uc ue :
  fitok (fp_fit fp) W f m mask -> ft_measure (fp_fit fp) = MKL (Fin mask) (Fin 100000) ->
  fp_lm fp = Fin lam -> lam <> 0 -> 0 <= mask ->
  vfacts m norm lays nb -> length lays = length W -> lays <> [] ->
  length c = nb -> length e = nb -> nonneg c -> (norm = true -> positive e) ->
  uc || ue = true ->
  update_params fp (map Fin c) (map Fin e) uc ue =
  Ok (map Fin (if uc then upd_c mask W f norm lays lam c e else c),
      if ue then map (fun k => xdiv (Fin (half_power (kind (nth 0 lays []) k) * avg1 mask W f norm lays c e k))
                                    (Fin (avg2 mask W f norm lays c e k))) (seq 0 nb)
      else map Fin e).
Proof.
  intros Hft Hme Hlm Hl0 Hm Hv HlW Hne Hc He Hnc Hpe Hu.
  unfold update_params. replace (negb uc && negb ue) with false by (destruct uc, ue; auto; discriminate).
  cbv zeta. rewrite (fo_model _ _ _ _ _ Hft), (vf_eval _ _ _ _ Hv) by auto. cbn [bind snd fst].
  rewrite Hme, (fo_dens _ _ _ _ _ Hft).
  pose proof (fo_len _ _ _ _ _ Hft) as Hlf.
  destruct (kl_deriv mask (Fin 100000) f (values norm lays c e)) as [v Ev]; auto.
  { unfold values. rewrite map_length. lia. }
  { eapply values_nonneg; eauto. }
  rewrite Ev. cbn [bind snd].
  rewrite (vf_nb _ _ _ _ Hv), Nat2Z.id.
  rewrite (mapM_ok _ (fun k => (Fin (avg1 mask W f norm lays c e k),
      if ue then Fin (avg2 mask W f norm lays c e k) else Fin 0))).
  2:{ intros k Hk. apply in_seq in Hk. apply averages_fin with (m := m) (nb := nb); auto. lia. }
  cbn [bind]. rewrite !map_map. cbn [fst snd]. rewrite map_fin_seq.
  assert (E1 : (if uc then do p <- emul (map Fin c) (map Fin (map (avg1 mask W f norm lays c e) (seq 0 nb)));
                 Ok (map (fun x => xdiv x (fp_lm fp)) p) else Ok (map Fin c)) =
               Ok (map Fin (if uc then upd_c mask W f norm lays lam c e else c))).
  { destruct uc; auto. rewrite emul_fin by (rewrite map_length, seq_length; lia). cbn [bind].
    f_equal. rewrite Hlm, map_map. rewrite (map2_seq_nth Rmult c _ 0 0) by (rewrite map_length, seq_length; lia).
    unfold upd_c. rewrite !map_map. apply map_ext_in. intros k Hk. apply in_seq in Hk.
    rewrite nth_map_seq by lia. now apply xdiv_fin. }
  rewrite E1. cbn [bind].
  assert (E2 : (if ue then do p <- emul (g_prefactor m) (map Fin (map (avg1 mask W f norm lays c e) (seq 0 nb)));
                  ediv p (map (fun x => if ue then Fin (avg2 mask W f norm lays c e x) else Fin 0) (seq 0 nb))
                else Ok (map Fin e)) =
               Ok (if ue then map (fun k => xdiv (Fin (half_power (kind (nth 0 lays []) k) * avg1 mask W f norm lays c e k))
                                    (Fin (avg2 mask W f norm lays c e k))) (seq 0 nb)
      else map Fin e)).
  { destruct ue; auto.
    assert (Hin : In (nth 0 lays []) lays) by (apply nth_In; destruct lays; simpl; [congruence|lia]).
    assert (EP : g_prefactor m = map Fin (map (fun k => half_power (kind (nth 0 lays []) k)) (seq 0 nb))).
    { pose proof (vf_pre_len _ _ _ _ Hv) as HL.
      apply nth_ext with (d := NaN) (d' := NaN); [now rewrite !map_length, seq_length|].
      intros k Hk. rewrite HL in Hk. rewrite (vf_pre _ _ _ _ Hv k _ Hk Hin), map_map.
      now rewrite nth_map_seq. }
    rewrite EP, emul_fin by now rewrite !map_length. cbn [bind]. rewrite map_fin_seq. unfold ediv.
    rewrite bcast_same by now rewrite !map_length, map2_length, !map_length, seq_length, Nat.min_id. f_equal.
    rewrite map2_map.
    rewrite (map2_seq_nth _ _ _ 0 0) by (rewrite map2_length, !map_length, seq_length; lia).
    rewrite map2_length, !map_length, seq_length, Nat.min_id. apply map_ext_in. intros k Hk.
    apply in_seq in Hk. rewrite nth_map_seq by lia.
    rewrite (nth_map2 _ _ _ k 0 0) by (rewrite map_length, seq_length; lia).
    rewrite !nth_map_seq by lia. reflexivity. }
  rewrite E2. reflexivity.
Qed.

Lemma update_fin fp W f m mask norm lays nb lam c e uc ue :
  fitok (fp_fit fp) W f m mask -> ft_measure (fp_fit fp) = MKL (Fin mask) (Fin 100000) ->
  fp_lm fp = Fin lam -> lam <> 0 -> 0 <= mask ->
  vfacts m norm lays nb -> length lays = length W -> lays <> [] ->
  length c = nb -> length e = nb -> nonneg c -> (norm = true -> positive e) ->
  uc || ue = true ->
  (ue = true -> forall k, (k < nb)%nat -> avg2 mask W f norm lays c e k <> 0) ->
  update_params fp (map Fin c) (map Fin e) uc ue =
  Ok (map Fin (if uc then upd_c mask W f norm lays lam c e else c),
      map Fin (if ue then upd_e mask W f norm lays c e else e)).
Proof.
  intros Hft Hme Hlm Hl0 Hm Hv HlW Hne Hc He Hnc Hpe Hu Hb.
  rewrite (update_gen fp W f m mask norm lays nb lam c e uc ue) by auto. f_equal. f_equal.
  destruct ue; auto. unfold upd_e. rewrite map_map, He. apply map_ext_in. intros k Hk.
  apply in_seq in Hk. apply xdiv_fin. apply Hb; auto. lia.
Qed.
