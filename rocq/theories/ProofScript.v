(** The fits of the example scripts (C99): zeros of the densities, grids, runs. *)
From Coquelicot Require Import Coquelicot.
From Coq Require Import Reals List ZArith Lia Lra Bool Sorted.
From Verif Require Import XR SpecDens SpecMeas SpecGrid SpecSlater ModelDens ModelMeas ModelGrid ModelFit ModelSlater Lists ProofDens ProofInit
  ProofDeriv ProofMeas ProofGrid ProofSlater SpecFit ProofFitView ProofFit ProofEM ProofFPI ProofFPI2 ProofFPI3 ProofFPI4 ProofScipy SpecZero ProofZero SpecSteps ProofSteps ProofExpPoly SpecScript.
Import ListNotations.
Local Open Scope R_scope.

(** ** Orbitals, densities and kinetic energy densities have few zeros *)
Definition slater_term (t : R * R * nat) : R * R * nat :=
  let '(c, z, n) := t in (c * ((2 * z) ^ n * sqrt (2 * z / INR (fact (2 * n)))), z, (n - 1)%nat).
Lemma phi_terms s r : phi s r = eval (gathered (map slater_term (s_exp s))) r.
Proof.
  unfold phi. rewrite eval_gathered. f_equal. rewrite map_map. apply map_ext. intros [[c z] n]. unfold sto, slater_term, term. ring.
Qed.
Lemma size_terms s : valid s -> list_sum (map (fun t => S (snd t)) (map slater_term (s_exp s))) = size s.
Proof.
  intros V. unfold size. f_equal. rewrite map_map. apply map_ext_in. intros [[c z] n] I. cbn. destruct (V c z n I). lia.
Qed.
Lemma leading_terms s : valid s -> leading s -> exists ts1 a z k ts2, map slater_term (s_exp s) = ts1 ++ (a, z, k) :: ts2 /\ a <> 0 /\
  ~ In (z, k) (map (fun '(a, z, k) => (z, k)) (ts1 ++ ts2)) /\ 0 < z.
Proof.
  intros V (l1 & c & z & n & l2 & E & C & N). destruct (V c z n) as [Hz Hn]; [rewrite E; apply in_or_app; right; now left|].
  exists (map slater_term l1), (c * ((2 * z) ^ n * sqrt (2 * z / INR (fact (2 * n))))), z, (n - 1)%nat, (map slater_term l2).
  split; [rewrite E, map_app; reflexivity|]. split; [|split; [|exact Hz]].
  - apply Rmult_integral_contrapositive_currified; [exact C|]. apply Rgt_not_eq. apply Rmult_lt_0_compat; [apply pow_lt; lra|]. apply sqrt_lt_R0. apply Rdiv_lt_0_compat; [lra|]. apply lt_0_INR, lt_O_fact.
  - rewrite <- map_app, map_map. intros I. apply N. apply in_map_iff in I. destruct I as ([[c' z'] n'] & Q & I). apply in_map_iff. exists (c', z', n'). split; auto. cbn in Q. injection Q. auto.
Qed.
Lemma orbital_zeros s xs : valid s -> leading s -> StronglySorted Rlt xs -> Forall (fun r => phi s r = 0) xs -> (length xs < size s)%nat.
Proof.
  intros V Ld Sx Zs. destruct (leading_terms s V Ld) as (ts1 & a & z & k & ts2 & E & A & N & _). rewrite <- (size_terms s V), E. apply terms_zero; auto.
  eapply Forall_impl; [|exact Zs]. intros r Hr. cbv beta in *. now rewrite <- E, <- eval_gathered, <- phi_terms.
Qed.
Lemma orbital_slopes s xs : valid s -> leading s -> StronglySorted Rlt xs -> Forall (fun r => is_derive (phi s) r 0) xs -> (length xs < size s)%nat.
Proof.
  intros V Ld Sx Zs. destruct (leading_terms s V Ld) as (ts1 & a & z & k & ts2 & E & A & N & Hz). rewrite <- (size_terms s V).
  set (ts := map slater_term (s_exp s)) in *. destruct (Nat.lt_ge_cases (length xs) (list_sum (map (fun t => S (snd t)) ts))) as [|L]; auto. exfalso. apply A.
  assert (HF : Forall (fun g => pzero (fst g)) (tstep 0 (gathered ts))).
  { apply (exp_poly_zero (dim (gathered ts)) _ xs); auto.
    - now rewrite tstep_dim.
    - unfold tstep. rewrite map_map. cbn [snd]. apply nodup_gathered.
    - rewrite tstep_dim. exact (Nat.le_trans _ _ _ (dim_gathered ts) L).
    - eapply Forall_impl; [|exact Zs]. intros r Hr. cbv beta in *. pose proof (eval_derive (gathered ts) r 0) as D.
      assert (D2 : is_derive (phi s) r (exp (0 * r) * eval (tstep 0 (gathered ts)) r)).
      { eapply is_derive_ext; [|exact D]. intros t. cbv beta. rewrite Rmult_0_l, exp_0, Rmult_1_l. symmetry. apply phi_terms. }
      apply is_derive_unique in Hr. apply is_derive_unique in D2. rewrite Hr in D2. rewrite Rmult_0_l, exp_0, Rmult_1_l in D2. now symmetry. }
  rewrite <- (coef_gathered ts1 a z k ts2 N). rewrite <- E. clear -HF Hz.
  assert (G : forall F, Forall (fun g => pzero (fst g)) (tstep 0 F) -> coef z k F = 0).
  { induction F as [|[p w] F IH]; intros H; [reflexivity|]. cbn [coef]. cbn [tstep map] in H. inversion H as [|? ? H1 H2]; subst. cbn [fst snd] in H1. destruct (Req_EM_T z w) as [<-|]; [|now apply IH].
    apply pzero_nth. apply (pstep_zero (0 - z)); [lra|exact H1]. }
  now apply G.
Qed.
Lemma rsum_zero_in l x : Forall (fun y => 0 <= y) l -> rsum l = 0 -> In x l -> x = 0.
Proof.
  induction 1 as [|a l Ha Hl IH]; [intros _ []|]. rewrite rsum_cons'. assert (0 <= rsum l) by (clear -Hl; induction Hl as [|b l Hb _ IH]; [unfold rsum; cbn; lra|rewrite rsum_cons'; lra]).
  intros E [<-|I]; [lra|]. apply IH; [lra|exact I].
Qed.
Lemma rho_zero L s r : Forall (fun s => 0 <= s_occ s) L -> In s L -> 0 < s_occ s -> rho L r = 0 -> phi s r = 0.
Proof.
  intros O I P H. unfold rho, rho_w in H. pose proof PI_RGT_0.
  assert (E : rsum (map (fun s => s_occ s * phi s r ^ 2) L) = 0). { apply (Rmult_eq_reg_r (/ (4 * PI))); [unfold Rdiv in H; lra|apply Rinv_neq_0_compat; lra]. }
  assert (Q : s_occ s * phi s r ^ 2 = 0).
  { apply (rsum_zero_in _ _) with (2 := E); [|apply in_map_iff; exists s; auto]. rewrite Forall_map. eapply Forall_impl; [|exact O]. intros t Ht. cbv beta in *. apply Rmult_le_pos; [exact Ht|apply pow2_ge_0]. }
  apply Rmult_integral in Q. destruct Q as [Q|Q]; [lra|]. cbn in Q. rewrite Rmult_1_r in Q. apply Rmult_integral in Q. tauto.
Qed.
Lemma tau_zero dphi L s r : Forall (fun s => 0 <= s_occ s) L -> In s L -> 0 < s_occ s -> r <> 0 -> tau dphi L r = 0 -> dphi s r = 0.
Proof.
  intros O I P R0 H. unfold tau in H. pose proof PI_RGT_0.
  assert (R2 : 0 < r ^ 2) by (apply pow2_gt_0; exact R0).
  assert (T : forall t, 0 <= INR (s_l t) * (INR (s_l t) + 1) * phi t r ^ 2 / r ^ 2).
  { intros t. apply Rmult_le_pos; [|apply Rlt_le, Rinv_0_lt_compat; exact R2]. pose proof (pos_INR (s_l t)). apply Rmult_le_pos; [nra|apply pow2_ge_0]. }
  set (g := fun s => s_occ s * (dphi s r ^ 2 + INR (s_l s) * (INR (s_l s) + 1) * phi s r ^ 2 / r ^ 2)) in *.
  assert (E : rsum (map g L) = 0). { apply Rmult_integral in H. destruct H as [H|H]; [|exact H]. exfalso. revert H. apply Rinv_neq_0_compat. lra. }
  assert (Q : g s = 0).
  { apply (rsum_zero_in _ _) with (2 := E); [|apply in_map_iff; exists s; auto]. rewrite Forall_map. eapply Forall_impl; [|exact O]. intros t Ht. cbv beta in *. unfold g. apply Rmult_le_pos; [exact Ht|]. pose proof (pow2_ge_0 (dphi t r)). pose proof (T t). lra. }
  unfold g in Q. apply Rmult_integral in Q. destruct Q as [Q|Q]; [lra|]. pose proof (T s). pose proof (pow2_ge_0 (dphi s r)). assert (D : dphi s r ^ 2 = 0) by lra. cbn in D. rewrite Rmult_1_r in D. apply Rmult_integral in D. tauto.
Qed.
Lemma density_zeros L s xs : Forall (fun s => 0 <= s_occ s) L -> In s L -> 0 < s_occ s -> valid s -> leading s ->
  strictly_ascending xs -> Forall (fun r => rho L r = 0) xs -> (length xs < size s)%nat.
Proof.
  intros O I P V Ld Sx Zs. apply orbital_zeros; auto; [apply Sorted_StronglySorted; [intros a b c; lra|exact Sx]|].
  eapply Forall_impl; [|exact Zs]. intros r Hr. cbv beta in *. eapply rho_zero; eauto.
Qed.
Lemma kinetic_zeros (dphi : subshell -> R -> R) L s xs : Forall (fun s => 0 <= s_occ s) L -> In s L -> 0 < s_occ s -> valid s -> leading s ->
  strictly_ascending xs -> Forall (fun r => r <> 0 /\ is_derive (phi s) r (dphi s r) /\ tau dphi L r = 0) xs -> (length xs < size s)%nat.
Proof.
  intros O I P V Ld Sx Zs. apply orbital_slopes; auto; [apply Sorted_StronglySorted; [intros a b c; lra|exact Sx]|].
  eapply Forall_impl; [|exact Zs]. intros r (R0 & D & Z). rewrite <- (tau_zero dphi L s r O I P R0 Z). exact D.
Qed.

(** ** Grids with ties *)
Lemma trap_ties x : forall y v, ascending x -> length y = length x -> nonneg y -> In v x -> (forall i, (i < length x)%nat -> nth i x 0 = v -> 0 < nth i y 0) ->
  (exists u, In u x /\ u <> v) -> 0 < trap x y.
Proof.
  induction x as [|x0 x IH]; intros y v Hx L Hy Iv P (u & Iu & Nu); [destruct Iv|]. destruct x as [|x1 x]; [destruct Iv as [<-|[]]; destruct Iu as [<-|[]]; congruence|].
  destruct y as [|y0 [|y1 y]]; [discriminate|discriminate|]. rewrite trap_step. inversion Hx as [|? ? Hs Hd]; subst. inversion Hd as [|? ? Hle]; subst.
  inversion Hy as [|? ? H0 Hy']; subst. inversion Hy' as [|? ? H1 Hy'']; subst.
  assert (T0 : 0 <= trap (x1 :: x) (y1 :: y)) by (apply trap_nonneg; assumption).
  assert (Pt : forall i, (i < length (x1 :: x))%nat -> nth i (x1 :: x) 0 = v -> 0 < nth i (y1 :: y) 0) by (intros i Hi E; apply (P (S i)); [cbn in *; lia|exact E]).
  assert (S0 : 0 <= (x1 - x0) * (y0 + y1)) by (apply Rmult_le_pos; lra).
  destruct (Rlt_dec 0 ((x1 - x0) * (y0 + y1))) as [Q|Q]; [lra|]. assert (Q0 : (x1 - x0) * (y0 + y1) = 0) by lra.
  rewrite Q0. replace (0 / 2) with 0 by field. rewrite Rplus_0_l.
  apply Rmult_integral in Q0. destruct Q0 as [Q0|Q0].
  - assert (x1 = x0) by lra. subst x1. apply (IH (y1 :: y) v); auto.
    + destruct Iv as [->|Iv]; [now left|exact Iv].
    + exists u. split; [destruct Iu as [->|Iu]; [now left|exact Iu]|exact Nu].
  - assert (y0 = 0 /\ y1 = 0) as [Y0 Y1] by lra. subst y0 y1.
    assert (x0 <> v) by (intros E; specialize (P 0%nat ltac:(cbn; lia) E); cbn in P; lra). assert (x1 <> v) by (intros E; specialize (P 1%nat ltac:(cbn; lia) E); cbn in P; lra).
    apply (IH (0 :: y) v); auto; [destruct Iv; [congruence|assumption]|]. exists x1. split; [now left|assumption].
Qed.
Lemma substantial_at pts f v : ascending pts -> length f = length pts -> nonneg f -> In v pts -> v <> 0 -> (forall i, (i < length pts)%nat -> nth i pts 0 = v -> 0 < nth i f 0) ->
  (exists u, In u pts /\ u <> v) -> substantial pts f.
Proof.
  intros A L F I V P U. unfold substantial. apply (trap_ties _ _ v); auto.
  - rewrite map2_length. lia.
  - clear -F. revert pts. induction F as [|a l Ha Hl IH]; intros [|b p]; try (cbn [map2]; constructor; fail). cbn [map2]. constructor; [|apply IH]. pose proof (pow2_ge_0 b). now apply Rmult_le_pos.
  - intros i Hi E. rewrite (nth_map2 _ pts f i 0 0) by lia. apply Rmult_lt_0_compat; [rewrite E; now apply pow2_gt_0|now apply P].
Qed.

(** The far third of the diffuse points. *)
Lemma diffuse_far nd m : (0 < nd)%nat -> (3 * m <= nd + 3)%nat -> exists xs, length xs = m /\ strictly_ascending xs /\ Forall (fun r => In r (diffuse_points nd) /\ 25 / 2 <= r) xs.
Proof.
  intros Hn Hm. set (g := fun p => 25 * (1 - cos (5/10 * PI * INR p / INR nd))).
  assert (N0 : 0 < INR nd) by (apply lt_0_INR; lia). pose proof PI_RGT_0 as PI0.
  assert (Mon : forall p q, (p < q)%nat -> (q <= nd)%nat -> g p < g q).
  { intros p q H1 H2. unfold g. apply Rmult_lt_compat_l; [lra|]. apply Rplus_lt_compat_l, Ropp_lt_contravar.
    assert (Hq : INR q <= INR nd) by (apply le_INR; lia). assert (Hp : INR p < INR q) by (apply lt_INR; lia). pose proof (pos_INR p).
    apply cos_decreasing_1.
    - apply Rmult_le_pos; [nra|apply Rlt_le, Rinv_0_lt_compat; exact N0].
    - apply (Rmult_le_reg_r (INR nd)); [exact N0|]. unfold Rdiv. rewrite Rmult_assoc, Rinv_l by lra. nra.
    - apply Rmult_le_pos; [|apply Rlt_le, Rinv_0_lt_compat; exact N0]. pose proof (pos_INR q). nra.
    - apply (Rmult_le_reg_r (INR nd)); [exact N0|]. unfold Rdiv. rewrite Rmult_assoc, Rinv_l by lra. nra.
    - unfold Rdiv. apply Rmult_lt_compat_r; [apply Rinv_0_lt_compat; exact N0|]. nra. }
  exists (map g (seq (S nd - m) m)). split; [now rewrite map_length, seq_length|].
  assert (Low : forall p, (2 * nd <= 3 * p)%nat -> (p <= nd)%nat -> 25 / 2 <= g p).
  { intros p H1 H2. unfold g. assert (C : cos (5 / 10 * PI * INR p / INR nd) <= cos (PI / 3)).
    { assert (H3 : 2 * INR nd <= 3 * INR p) by (apply le_INR in H1; rewrite !mult_INR in H1; cbn [INR] in H1; lra). assert (H4 : INR p <= INR nd) by (apply le_INR; lia).
      apply cos_decr_1; try lra.
      - apply Rmult_le_pos; [|apply Rlt_le, Rinv_0_lt_compat; exact N0]. pose proof (pos_INR p). nra.
      - apply (Rmult_le_reg_r (INR nd)); [exact N0|]. unfold Rdiv. rewrite Rmult_assoc, Rinv_l by lra. nra.
      - apply (Rmult_le_reg_r (INR nd)); [exact N0|]. unfold Rdiv. rewrite (Rmult_assoc _ (/ INR nd)), Rinv_l by lra. nra. }
    rewrite cos_PI3 in C. lra. }
  split.
  - assert (K : forall a l, (a + l <= S nd)%nat -> strictly_ascending (map g (seq a l))).
    { intros a l. revert a. induction l as [|l IH]; intros a Ha; [constructor|]. cbn [seq map]. constructor; [apply IH; lia|]. destruct l; cbn [seq map]; constructor. apply Mon; lia. }
    destruct m as [|m]; [constructor|]. apply K. lia.
  - rewrite Forall_map. apply Forall_forall. intros p I. apply in_seq in I. split.
    + unfold diffuse_points. apply in_map_iff. exists p. split; [reflexivity|]. apply in_seq. lia.
    + apply Low; lia.
Qed.
Lemma clenshaw_far z nc nd inc extra m : (0 < z)%Z -> (0 <= nc)%Z -> (0 < nd)%Z -> (3 * Z.of_nat m <= nd + 3)%Z ->
  exists pts xs, clenshaw_init (VInt z) (VInt nc) (VInt nd) (EList (map Fin extra)) (VBool inc) = Ok (map Fin pts) /\ ascending pts /\
    length xs = m /\ strictly_ascending xs /\ Forall (fun r => In r pts /\ 25 / 2 <= r) xs.
Proof.
  intros Hz Hc Hd Hm. destruct (diffuse_far (Z.to_nat nd) m ltac:(lia) ltac:(lia)) as (xs & L & S & F).
  exists (rsort (core_points z (Z.to_nat nc) inc ++ diffuse_points (Z.to_nat nd) ++ extra)), xs.
  split; [apply clenshaw_ok; lia|]. split; [apply rsort_sorted|]. split; [exact L|]. split; [exact S|]. eapply Forall_impl; [|exact F]. intros r [I B]. split; [|exact B].
  apply (Permutation.Permutation_in _ (Permutation.Permutation_sym (rsort_perm _))). apply in_or_app. right. apply in_or_app. now left.
Qed.

(** Among more points than zeros one is not a zero; another is different from it. *)
Lemma pick (Z : R -> Prop) (dec : forall r, Z r \/ ~ Z r) xs n : strictly_ascending xs -> (n + 1 <= length xs)%nat -> (1 <= n)%nat ->
  (forall ys, strictly_ascending ys -> incl ys xs -> Forall Z ys -> (length ys < n)%nat) ->
  exists v u, In v xs /\ ~ Z v /\ In u xs /\ u <> v.
Proof.
  intros S L L1 H. assert (St : StronglySorted Rlt xs) by (apply Sorted_StronglySorted; [intros a b c; lra|exact S]).
  assert (Ex : exists v, In v xs /\ ~ Z v).
  { assert (D : Forall Z xs \/ exists v, In v xs /\ ~ Z v).
    { clear -dec. induction xs as [|a l [IH|(v & I & N)]]; [left; constructor| |right; exists v; split; [now right|exact N]]. destruct (dec a) as [A|A]; [left; now constructor|right; exists a; split; [now left|exact A]]. }
    destruct D as [D|D]; [|exact D]. specialize (H xs S (incl_refl _) D). lia. }
  destruct Ex as (v & I & N). exists v. assert (K : exists u, In u xs /\ u <> v).
  { destruct xs as [|a [|b l]]; [destruct I|cbn in L; lia|]. inversion St as [|? ? _ Hf]; subst. inversion Hf; subst. destruct (Req_dec a v) as [->|Q]; [exists b; split; [right; now left|lra]|exists a; split; [now left|exact Q]]. }
  destruct K as (u & Iu & Nu). exists u. auto.
Qed.

(** ** Runs with a given integral *)
Lemma steps_total pts f ns np norm sph mask n0 :
  ascending pts -> length f = length pts -> nonneg f -> substantial pts f -> (0 < ns + np)%nat -> 0 <= mask -> match n0 with Some N => 0 < N | None => True end ->
  exists m fp W N, atomic_init (VArr (A1 (map Fin pts))) VNone (VInt (Z.of_nat ns)) (VInt (Z.of_nat np)) norm = Ok m /\
    fpi_init (mkGridArg (Some (A1 (map Fin pts))) (Some (gr_integrate (radial_grid (map Fin pts))))) (map Fin f) (GAtom m) (Fin mask) (option_map Fin n0) sph = Ok fp /\
    fpi_setting fp W f norm (map (lay_atom ns np) (map Rabs pts)) mask N /\ 0 < N /\ nonneg W /\ supported W f (map (lay_atom ns np) (map Rabs pts)) (ns + np) /\
    nan_passes (fp_fit fp) (length W) /\ nfun (map (lay_atom ns np) (map Rabs pts)) = (ns + np)%nat /\ match n0 with Some M => N = M | None => N = rdot W f end.
Proof.
  intros Asc L Hf S Hn Hm HN. set (lays := map (lay_atom ns np) (map Rabs pts)).
  destruct (radial_integrator pts) as (w & Lw & Hw & Hq & I1 & I2). specialize (Hw Asc).
  set (W := if sph then map2 (fun w r => w * (4 * PI * r ^ 2)) w pts else w).
  assert (Int : integrator (arg_of (radial_grid (map Fin pts))) sph W) by (unfold W; destruct sph; assumption).
  assert (LW : length W = length pts) by (unfold W; destruct sph; [rewrite map2_length; lia|exact Lw]).
  destruct (rdot_pos_ex w (map2 (fun r y => r ^ 2 * y) pts f)) as (i & Hi & P1 & P2); [rewrite map2_length; lia|exact Hw|rewrite Hq by (rewrite map2_length; lia); exact S|].
  rewrite (nth_map2 _ pts f i 0 0) in P2 by lia.
  assert (R0 : nth i pts 0 <> 0). { intros E. rewrite E in P2. lra. }
  assert (R2 : 0 < nth i pts 0 ^ 2) by (apply pow2_gt_0; exact R0).
  assert (F0 : 0 < nth i f 0). { pose proof (nonneg_nth f i Hf) as Q. destruct (Rlt_dec 0 (nth i f 0)) as [|Q2]; [assumption|]. nra. }
  assert (NW : nonneg W).
  { unfold W. destruct sph; [|exact Hw]. clear -Hw Lw. pose proof PI_RGT_0. revert pts Lw. induction Hw as [|a l Ha Hl IH]; intros [|b p] Lp; try discriminate; constructor.
    - apply Rmult_le_pos; [exact Ha|]. pose proof (pow2_ge_0 b). nra.
    - apply IH. cbn in Lp. lia. }
  assert (PW : 0 < nth i W 0).
  { unfold W. destruct sph; [|exact P1]. rewrite (nth_map2 _ w pts i 0 0) by lia. pose proof PI_RGT_0. apply Rmult_lt_0_compat; nra. }
  assert (Nf : nfun lays = (ns + np)%nat).
  { unfold nfun, lays. destruct pts as [|p pts']; [cbn in Lw; lia|]. cbn [map hd]. apply lay_atom_length. }
  assert (Sup : supported W f lays (nfun lays)).
  { intros k Hk. rewrite Nf in Hk. exists i. split; [lia|]. split; [exact PW|]. split; [exact F0|]. unfold lays.
    rewrite (nth_indep _ [] (lay_atom ns np (Rabs 0))) by (rewrite !map_length; lia). rewrite map_nth, map_nth, away_atom by exact Hk. now apply Rabs_no_R0. }
  assert (LP : length lays = length W) by (unfold lays; rewrite !map_length; lia).
  assert (Pos : 0 < rdot W f) by (apply (supported_dot W f lays (nfun lays)); auto; [lia|rewrite Nf; exact Hn]).
  destruct (atomic_init_ok (A1 (map Fin pts)) VNone (map Rabs pts) ns np norm (geom_1d_default pts) Hn) as (m & Em & _).
  assert (V : views (GAtom m) norm lays) by (apply (views_atom (A1 (map Fin pts)) VNone _ ns np norm m); [apply geom_1d_default|exact Hn|exact Em]).
  assert (B : exists ft, base_init (arg_of (radial_grid (map Fin pts))) (map Fin f) (GAtom m) (MKL (Fin mask) (Fin 100000)) (option_map Fin n0) sph (Fin mask) = Ok ft).
  { apply base_accepts. split.
    - rewrite Forall_map. apply Forall_forall. intros x Hx. cbn [xltb]. apply rltb_false. pose proof (proj1 (Forall_forall _ _) Hf x Hx) as Q. cbv beta in Q. lra.
    - exists (A1 (map Fin pts)), (gr_integrate (radial_grid (map Fin pts))). repeat split; auto. intros _. eexists.
      apply (integrate_with_fin (arg_of (radial_grid (map Fin pts))) sph W); [exact Int|reflexivity|lia]. }
  destruct B as [ft B]. destruct (base_fitok _ _ _ _ _ _ _ _ _ Int (eq_trans L (eq_sym LW)) B) as (FO & _ & T).
  set (N := match n0 with Some N => N | None => rdot W f end).
  assert (PN : 0 < N) by (unfold N; destruct n0; assumption).
  assert (TN : ft_integral ft = Fin N) by (rewrite T; unfold N; destruct n0; reflexivity).
  assert (E : fpi_init (arg_of (radial_grid (map Fin pts))) (map Fin f) (GAtom m) (Fin mask) (option_map Fin n0) sph = Ok (mkFpi ft (Fin (rdot W f / N)))).
  { destruct (fpi_accepts (arg_of (radial_grid (map Fin pts))) (map Fin f) (GAtom m) (Fin mask) (option_map Fin n0) sph ft (Fin (rdot W f)) B) as [_ H].
    - apply (fo_int _ _ _ _ _ FO). lia.
    - rewrite TN in H. cbv zeta in H. rewrite xdiv_fin in H by lra. apply H; [|discriminate].
      intros C. injection C as C. assert (0 < rdot W f / N) by (apply Rdiv_lt_0_compat; assumption). lra. }
  exists m, (mkFpi ft (Fin (rdot W f / N))), W, N. split; [exact Em|]. split; [exact E|]. split; [|split; [exact PN|]; split; [exact NW|]; split; [rewrite <- Nf; exact Sup|]; split; [|split; [exact Nf|unfold N; destruct n0; reflexivity]]].
  - constructor; auto; [|lia|lra]. exists (arg_of (radial_grid (map Fin pts))), sph, (option_map Fin n0), (GAtom m). split; [exact Int|]. split; [exact V|]. split; [exact E|unfold N; destruct n0; reflexivity].
  - cbn [fp_fit]. rewrite LW, <- (map_length Fin pts). apply radial_passes.
    + destruct (base_init_inv _ _ _ _ _ _ _ _ B) as (p & I & n & G & -> & _). cbn [ft_grid]. injection G as <- <-. reflexivity.
    + rewrite map_length. destruct pts as [|p0 [|p1 pts']]; [cbn in Lw; lia| |cbn; lia]. unfold substantial in S. destruct f; cbn in S; lra.
Qed.
Lemma run_nonempty fp c0 e0 oc oe maxiter tc te td r : (0 < maxiter)%Z -> fpi_run fp c0 e0 oc oe maxiter (mkThr (Fin tc) (Fin te) (Fin td)) = Ok r -> (1 <= length (r_fun r))%nat /\ length (r_perf r) = length (r_fun r).
Proof.
  intros Hm H. destruct (run_inv _ _ _ _ _ _ _ _ H) as (c & e & s & n & _ & _ & _ & _ & Ht & _ & Hg & ->). cbn [r_fun r_perf]. destruct Ht as [T1 T2 T3 T4 T5 T6 Tz T7]. rewrite T2, T3. split; [|reflexivity].
  destruct n as [|n]; [|lia]. exfalso. destruct (Tz eq_refl) as [D1 D2]. cbn [Nat.leb] in T7. unfold go_on in Hg. rewrite D1, D2, T7, T1 in Hg. cbn [th_e th_c th_d xltb orb andb] in Hg. destruct (Z.ltb_spec (Z.of_nat 0) maxiter); [discriminate|lia].
Qed.
Lemma total_run pts f ns np mask n0 c e maxiter tc te td :
  ascending pts -> length f = length pts -> nonneg f -> substantial pts f -> (0 < ns + np)%nat -> 0 <= mask -> match n0 with Some N => 0 < N | None => True end ->
  (0 < maxiter)%Z -> length c = (ns + np)%nat -> length e = (ns + np)%nat -> positive c -> positive e ->
  exists m fp r c' e', atomic_init (VArr (A1 (map Fin pts))) VNone (VInt (Z.of_nat ns)) (VInt (Z.of_nat np)) true = Ok m /\
    fpi_init (mkGridArg (Some (A1 (map Fin pts))) (Some (gr_integrate (radial_grid (map Fin pts))))) (map Fin f) (GAtom m) (Fin mask) (option_map Fin n0) true = Ok fp /\
    fpi_run fp (VArr (A1 (map Fin c))) (VArr (A1 (map Fin e))) true true maxiter (mkThr (Fin tc) (Fin te) (Fin td)) = Ok r /\
    r_coeffs r = map Fin c' /\ r_exps r = map Fin e' /\ length c' = (ns + np)%nat /\ length e' = (ns + np)%nat /\ positive c' /\ positive e' /\
    (1 <= length (r_perf r))%nat /\ (positive f -> exists F, r_fun r = map Fin F).
Proof.
  intros Asc L Hf S Hn Hm HN Hi Lc Le Pc Pe.
  destruct (steps_total pts f ns np true true mask n0 Asc L Hf S Hn Hm HN) as (m & fp & W & N & Em & Ef & Hs & PN & HW & Sup & Nan & Nf & _).
  destruct (run_zero _ _ _ _ _ _ _ c e true true maxiter (mkThr (Fin tc) (Fin te) (Fin td)) Hs PN HW Nan ltac:(rewrite Nf; exact Sup) eq_refl ltac:(split; lia) Pc Pe) as (r & c' & e' & Hr & A & B & [C1 C2] & D & F & Fu).
  destruct (run_nonempty _ _ _ _ _ _ _ _ _ _ Hi Hr) as [R1 R2].
  exists m, fp, r, c', e'. repeat (split; [first [assumption | lia]|]). intros Pf.
  assert (K : forall j, (j < length (r_fun r))%nat -> exists x, nth j (r_fun r) PInf = Fin x).
  { intros j Hj. destruct (Fu j Hj) as (cj & ej & _ & _ & G). apply G. intros i [b1 [b2 b3]]. pose proof (proj1 (Forall_forall _ _) Pf (nth i f 0)) as Q. cbv beta in Q. assert (0 < nth i f 0); [|lra]. apply Q. now apply nth_In. }
  clear -K. induction (r_fun r) as [|x l IH]; [exists []; reflexivity|]. destruct (K 0%nat ltac:(cbn; lia)) as (y & E). cbn in E. subst x. destruct IH as (F & ->); [|exists (y :: F); reflexivity].
  intros j Hj. apply (K (S j)). cbn. lia.
Qed.
