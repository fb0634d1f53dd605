(** Rounded arithmetic: Slater functions, orbitals and densities. *)
From Coq Require Import Reals List ZArith Lia Lra Permutation.
From Verif Require Import XR SpecDens SpecSlater SpecRnd SpecRnd2 SpecRnd3 ModelRnd ModelRnd3 ProofRnd ProofRnd2 ProofRnd3 ProofRnd8 ProofRnd10 ProofRnd12 ProofRnd13.
Import ListNotations.
Local Open Scope R_scope.

Section Slater.
Context (u eta : R) (fmt : R -> Prop) (rnd : R -> R) (H : rounding u eta fmt rnd) (Hu8 : u <= 1 / 8).
Notation q := (/ (1 - u)).
Notation within := (within u).
Context (lo : R) (kp kf : nat) (fpow : R -> nat -> R) (ffact : nat -> R) (pi tiny : R).
Hypothesis (Hlo : 0 < lo <= 1 / 2) (Nr : normal u lo rnd) (Pw : ipow_error u lo kp fpow) (Pf : fact_error u kf ffact)
  (Hpi : Rabs (pi - PI) <= u * PI) (Hk : 1 / 2 <= (1 - u) ^ (2 * kp + kf + 4)).
Context (v z : R) (fexp : R -> R) (X : exp_error v z fexp).

Lemma k_small : forall k, (k <= 2 * kp + kf + 4)%nat -> 1 / 2 <= (1 - u) ^ k.
Proof.
  intros k L. eapply Rle_trans; [exact Hk|]. assert (U := u0 _ _ _ _ H). replace (2 * kp + kf + 4)%nat with ((2 * kp + kf + 4 - k) + k)%nat by lia.
  rewrite pow_add. assert (P := pow_lt (1 - u) k ltac:(lra)).
  assert ((1 - u) ^ (2 * kp + kf + 4 - k) <= 1) by (assert (T := pow_incr (1 - u) 1 (2 * kp + kf + 4 - k) ltac:(lra)); rewrite pow1 in T; exact T).
  assert ((1 - u) ^ (2 * kp + kf + 4 - k) * (1 - u) ^ k <= 1 * (1 - u) ^ k) by (apply Rmult_le_compat_r; lra). lra.
Qed.

Lemma within_low : forall k a b, (k <= 2 * kp + kf + 4)%nat -> 2 * lo <= b -> within k a b -> lo <= a.
Proof.
  intros k a b L B [W _]. assert (K := k_small k L).
  assert (1 / 2 * b <= (1 - u) ^ k * b) by (apply Rmult_le_compat_r; lra). lra.
Qed.

Lemma within_step : forall k a b, (k <= 2 * kp + kf + 4)%nat -> 2 * lo <= b -> within k a b -> within (S k) (rnd a) b.
Proof.
  intros k a b L B W. assert (A := within_low k a b L B W). change (S k) with (1 + k)%nat.
  apply (within_tr _ Hu8) with (b := a); [|exact W].
  apply (within_normal _ _ _ _ H Hu8); [lra|]. apply Nr. rewrite Rabs_pos_eq; lra.
Qed.

Lemma within_sqrt : forall k a b, 0 <= a -> 0 <= b -> within k a b -> within k (sqrt a) (sqrt b).
Proof.
  intros k a b Ha Hb [W1 W2]. assert (U := u0 _ _ _ _ H). assert (P := pow_lt (1 - u) k ltac:(lra)).
  assert (P1 : (1 - u) ^ k <= 1) by (assert (T := pow_incr (1 - u) 1 k ltac:(lra)); rewrite pow1 in T; exact T).
  assert (G : forall x y, 0 <= y -> (1 - u) ^ k * x <= y -> 0 <= x -> (1 - u) ^ k * sqrt x <= sqrt y).
  { intros x y Hy L Hx. rewrite <- (sqrt_pow2 ((1 - u) ^ k)) by lra. rewrite <- sqrt_mult by (try apply pow2_ge_0; lra).
    apply sqrt_le_1_alt. eapply Rle_trans; [|exact L]. apply Rmult_le_compat_r; [exact Hx|].
    simpl. assert ((1 - u) ^ k * (1 - u) ^ k <= 1 * (1 - u) ^ k) by (apply Rmult_le_compat_r; lra). lra. }
  split; apply G; assumption.
Qed.

Lemma within_prod : forall k k' a b a' b', 0 <= a -> 0 <= b -> 0 <= a' -> 0 <= b' ->
  within k a b -> within k' a' b' -> within (k + k') (a * a') (b * b').
Proof.
  intros k k' a b a' b' Ha Hb Ha' Hb' [C D] [C' D']. assert (U := u0 _ _ _ _ H). unfold SpecRnd.within. rewrite pow_add.
  assert (Q := pow_lt (1 - u) k ltac:(lra)). assert (Q' := pow_lt (1 - u) k' ltac:(lra)). split.
  - replace ((1 - u) ^ k * (1 - u) ^ k' * (b * b')) with (((1 - u) ^ k * b) * ((1 - u) ^ k' * b')) by ring.
    apply Rmult_le_compat; auto; apply Rmult_le_pos; lra.
  - replace ((1 - u) ^ k * (1 - u) ^ k' * (a * a')) with (((1 - u) ^ k * a) * ((1 - u) ^ k' * a')) by ring.
    apply Rmult_le_compat; auto; apply Rmult_le_pos; lra.
Qed.

Lemma fact_gt : forall n, 0 < INR (fact n).
Proof. intro n. apply lt_0_INR, lt_O_fact. Qed.
Lemma ffact_gt : forall n, 0 < ffact n.
Proof. intro n. exact (within_gt _ Hu8 _ _ _ (fact_gt n) (Pf n)). Qed.

Lemma norm_near : forall e n r, fmt (2 * e) -> sto_safe lo e n r ->
  within (kp + kf + 3) (fl_sto_norm rnd fpow ffact e n) ((2 * e) ^ n * sqrt (2 * e / INR (fact (2 * n)))) /\
  lo <= fl_sto_norm rnd fpow ffact e n.
Proof.
  intros e n r F (S1 & S2 & S3 & _). unfold fl_sto_norm. rewrite (rd_id _ _ _ _ H _ F).
  assert (Fp := fact_gt (2 * n)). assert (Fq := ffact_gt (2 * n)).
  assert (He : 0 < 2 * e).
  { apply Rmult_lt_reg_r with (/ INR (fact (2 * n))); [apply Rinv_0_lt_compat, Fp|]. unfold Rdiv in S2. lra. }
  set (x := 2 * e / INR (fact (2 * n))) in *. set (P := (2 * e) ^ n) in *.
  destruct (Pw (2 * e) n ltac:(lra)) as [P0 P1]. specialize (P1 (or_intror S1)). fold P in P1.
  assert (W1 : within (0 + kf) (2 * e / ffact (2 * n)%nat) x).
  { apply (within_quot _ Hu8); try lra; [split; simpl; lra | apply Pf]. }
  change (0 + kf)%nat with kf in W1. assert (W2 := within_step kf _ _ ltac:(lia) S2 W1). assert (L2 := within_low (S kf) _ _ ltac:(lia) S2 W2).
  set (x' := rnd (2 * e / ffact (2 * n)%nat)) in *.
  assert (W3 := within_sqrt (S kf) x' x ltac:(lra) ltac:(lra) W2).
  assert (L3 : lo <= sqrt x').
  { destruct (Rle_lt_dec 1 x') as [G|G].
    - apply Rle_trans with (sqrt 1); [rewrite sqrt_1; lra | apply sqrt_le_1_alt, G].
    - apply Rle_trans with x'; [exact L2|]. rewrite <- (sqrt_pow2 x') at 1 by lra. apply sqrt_le_1_alt.
      simpl. assert (x' * x' <= 1 * x') by (apply Rmult_le_compat_r; lra). lra. }
  assert (W4 : within (1 + S kf) (rnd (sqrt x')) (sqrt x)).
  { apply (within_tr _ Hu8) with (b := sqrt x'); [|exact W3].
    apply (within_normal _ _ _ _ H Hu8); [lra|]. apply Nr. rewrite Rabs_pos_eq; lra. }
  assert (Rp : 0 <= rnd (sqrt x')) by (apply (rnd_pos u eta fmt rnd H); lra).
  assert (W5 := within_prod _ _ _ _ _ _ P0 (Rle_trans _ _ _ (Rlt_le _ _ (proj1 Hlo)) S1) Rp (sqrt_pos x) P1 W4).
  assert (W6 := within_step (kp + (1 + S kf)) _ _ ltac:(lia) S3 W5).
  assert (L6 := within_low (S (kp + (1 + S kf))) _ _ ltac:(lia) S3 W6). split; [|exact L6].
  replace (kp + kf + 3)%nat with (S (kp + (1 + S kf))) by lia. exact W6.
Qed.

Lemma amp_near : forall e n r, 0 <= r -> fmt (2 * e) -> sto_safe lo e n r ->
  0 <= rnd (fl_sto_norm rnd fpow ffact e n * fpow r (n - 1)) /\ 0 <= amp e n r /\
  within (2 * kp + kf + 4) (rnd (fl_sto_norm rnd fpow ffact e n * fpow r (n - 1))) (amp e n r).
Proof.
  intros e n r Hr F S. destruct (norm_near e n r F S) as [W L]. destruct S as (_ & _ & S3 & S4).
  destruct (Pw r (n - 1)%nat Hr) as [P0 P1]. unfold amp in *. set (N := (2 * e) ^ n * sqrt (2 * e / INR (fact (2 * n)))) in *.
  assert (Pr : 0 <= r ^ (n - 1)) by (apply pow_le, Hr).
  split; [apply (rnd_pos u eta fmt rnd H), Rmult_le_pos; lra|]. split; [apply Rmult_le_pos; lra|].
  destruct S4 as [Z|[S4 S5]].
  - specialize (P1 (or_introl Z)). rewrite Z in *. destruct P1 as [_ P1]. assert (U := u0 _ _ _ _ H).
    assert (Q := pow_lt (1 - u) kp ltac:(lra)). rewrite !Rmult_0_r in *.
    assert (Z' : fpow r (n - 1)%nat = 0).
    { destruct P0 as [P0|P0]; [|auto]. assert (0 < (1 - u) ^ kp * fpow r (n - 1)%nat) by (apply Rmult_lt_0_compat; assumption). lra. }
    rewrite Z', Rmult_0_r, (rnd_0 u eta fmt rnd H). split; lra.
  - specialize (P1 (or_intror S4)). assert (HN : 0 <= N) by lra.
    assert (W5 := within_prod _ _ _ _ _ _ (Rle_trans _ _ _ (Rlt_le _ _ (proj1 Hlo)) L) HN P0 Pr W P1).
    assert (W6 := within_step (kp + kf + 3 + kp) _ _ ltac:(lia) S5 W5). replace (2 * kp + kf + 4)%nat with (Datatypes.S (kp + kf + 3 + kp)) by lia. exact W6.
Qed.

Lemma sto_near : forall e n r, 0 <= e -> 0 <= r -> fmt (2 * e) -> sto_safe lo e n r ->
  Rabs (fl_sto rnd fexp fpow ffact e n r - sto e n r) <= sto_bound u eta v z kp kf e n r.
Proof.
  intros e n r He Hr F S. destruct (amp_near e n r Hr F S) as (P & Q & W).
  assert (Per : 0 <= e * r) by (apply Rmult_le_pos; assumption).
  assert (G : Rabs (fexp (rnd (- e * r)) - exp (- (e * r))) <= exp_bound v z (e * r) (u * (e * r) + eta)).
  { apply (exp_near v z fexp X).
    - apply (rnd_neg u eta fmt rnd H). lra.
    - assert (E := rd_err _ _ _ _ H (- e * r)). replace (Rabs (- e * r)) with (e * r) in E.
      + replace (rnd (- e * r) + e * r) with (rnd (- e * r) - - e * r) by ring. exact E.
      + replace (- e * r) with (- (e * r)) by ring. rewrite Rabs_Ropp, Rabs_pos_eq by exact Per. reflexivity. }
  assert (A := grow_within _ _ _ _ H Hu8 _ _ _ _ _ _ Q P G W).
  unfold fl_sto. rewrite (Rmult_comm (fexp _)) in A.
  replace (exp (- (e * r)) * amp e n r) with (sto e n r) in A by (unfold sto, amp; replace (- e * r) with (- (e * r)) by ring; ring).
  assert (B := grow_rnd _ _ _ _ H Hu8 _ _ _ A). eapply Rle_trans; [exact B|]. apply Req_le. unfold sto_bound. f_equal.
  assert (Ep := exp_pos (- (e * r))).
  assert (Eq : Rabs (sto e n r) = amp e n r * exp (- (e * r))).
  { replace (sto e n r) with (amp e n r * exp (- (e * r))) by (unfold sto, amp; replace (- e * r) with (- (e * r)) by ring; ring).
    rewrite Rabs_pos_eq; [reflexivity|]. apply Rmult_le_pos; lra. }
  unfold grow. rewrite Eq, (Rabs_pos_eq (exp _)) by lra.
  replace (2 * kp + kf + 5)%nat with (1 + (2 * kp + kf + 4))%nat by lia. rewrite (pow_add q 1 (2 * kp + kf + 4)). ring.
Qed.

Lemma dsto_near : forall e n r, 0 <= e -> (1 <= n)%nat -> 0 < r -> tiny <= r -> fmt (2 * e) -> sto_safe lo e n r ->
  Rabs (fl_dsto rnd fexp fpow ffact tiny e n r - dsto e n r) <= dsto_bound u eta v z kp kf e n r.
Proof.
  intros e n r He Hn Hr Ht F S. unfold fl_dsto, dsto, dsto_bound.
  apply (prod_rnd _ _ _ _ H Hu8); [|apply sto_near; auto; lra].
  unfold fl_dpref. destruct (Rlt_dec (Rabs r) tiny) as [L|_]; [rewrite Rabs_pos_eq in L; lra|].
  apply (grow_rnd _ _ _ _ H Hu8).
  assert (Px : 0 <= (INR n - 1) / r).
  { apply Rmult_le_pos; [|left; apply Rinv_0_lt_compat, Hr]. apply le_INR in Hn. simpl in Hn. lra. }
  assert (E := rd_err _ _ _ _ H ((INR n - 1) / r)). rewrite (Rabs_pos_eq _ Px) in E.
  replace (rnd ((INR n - 1) / r) - e - ((INR n - 1) / r - e)) with (rnd ((INR n - 1) / r) - (INR n - 1) / r) by ring. exact E.
Qed.

(** *** Orbitals *)
Notation fits r s :=
  (Forall (fun '(c, e, n) => 0 <= e /\ (1 <= n)%nat /\ fmt (2 * e) /\ sto_safe lo e n r) (s_exp s)).

Lemma phi_near : forall fu to s r, 0 <= r -> orders (length (s_exp s)) (to s) -> fits r s ->
  Rabs (fl_phi rnd fexp fpow ffact fu to s r - phi s r) <= phi_bound u eta v z kp kf (to s) s r.
Proof.
  intros fu to s r Hr O F. rewrite Forall_forall in F.
  assert (D := dot_near _ _ _ _ H Hu8 _ (fu s) (to s) (s_exp s)
    (fun '(c, e, n) => fl_sto rnd fexp fpow ffact e n r) (fun '(c, e, n) => sto e n r) (fun '(c, e, n) => sto_bound u eta v z kp kf e n r)
    (fun '(c, e, n) => c) (fun '(c, e, n) => c) (fun _ => 0) O).
  assert (A : forall x : R * R * nat, In x (s_exp s) ->
    Rabs ((let '(c, e, n) := x in fl_sto rnd fexp fpow ffact e n r) - (let '(c, e, n) := x in sto e n r)) <= (let '(c, e, n) := x in sto_bound u eta v z kp kf e n r) /\
    Rabs ((let '(c, e, n) := x in c) - (let '(c, e, n) := x in c)) <= 0).
  { intros [[c e] n] I. destruct (F _ I) as (F1 & F2 & F3 & F4). split; [apply sto_near; assumption | apply near_refl]. }
  specialize (D A). unfold fl_phi, phi, phi_bound.
  replace (map (fun '(c, z0, n) => c * sto z0 n r) (s_exp s)) with
    (map (fun x : R * R * nat => (let '(c, e, n) := x in c) * (let '(c, e, n) := x in sto e n r)) (s_exp s)) by (apply map_ext; intros [[c e] n]; reflexivity).
  replace (map (fun '(c, e, n) => (sto e n r, sto_bound u eta v z kp kf e n r, c, 0)) (s_exp s)) with
    (map (fun x : R * R * nat => ((let '(c, e, n) := x in sto e n r), (let '(c, e, n) := x in sto_bound u eta v z kp kf e n r), (let '(c, e, n) := x in c), 0)) (s_exp s))
    by (apply map_ext; intros [[c e] n]; reflexivity).
  exact D.
Qed.

Lemma dphi_near : forall fu to s r, 0 < r -> tiny <= r -> orders (length (s_exp s)) (to s) -> fits r s ->
  Rabs (fl_dphi rnd fexp fpow ffact tiny fu to s r - dphi s r) <= dphi_bound u eta v z kp kf (to s) s r.
Proof.
  intros fu to s r Hr Ht O F. rewrite Forall_forall in F.
  assert (D := dot_near _ _ _ _ H Hu8 _ (fu s) (to s) (s_exp s)
    (fun '(c, e, n) => fl_dsto rnd fexp fpow ffact tiny e n r) (fun '(c, e, n) => dsto e n r) (fun '(c, e, n) => dsto_bound u eta v z kp kf e n r)
    (fun '(c, e, n) => c) (fun '(c, e, n) => c) (fun _ => 0) O).
  assert (A : forall x : R * R * nat, In x (s_exp s) ->
    Rabs ((let '(c, e, n) := x in fl_dsto rnd fexp fpow ffact tiny e n r) - (let '(c, e, n) := x in dsto e n r)) <= (let '(c, e, n) := x in dsto_bound u eta v z kp kf e n r) /\
    Rabs ((let '(c, e, n) := x in c) - (let '(c, e, n) := x in c)) <= 0).
  { intros [[c e] n] I. destruct (F _ I) as (F1 & F2 & F3 & F4). split; [apply dsto_near; assumption | apply near_refl]. }
  specialize (D A). unfold fl_dphi, dphi, dphi_bound.
  replace (map (fun '(c, z0, n) => c * dsto z0 n r) (s_exp s)) with
    (map (fun x : R * R * nat => (let '(c, e, n) := x in c) * (let '(c, e, n) := x in dsto e n r)) (s_exp s)) by (apply map_ext; intros [[c e] n]; reflexivity).
  replace (map (fun '(c, e, n) => (dsto e n r, dsto_bound u eta v z kp kf e n r, c, 0)) (s_exp s)) with
    (map (fun x : R * R * nat => ((let '(c, e, n) := x in dsto e n r), (let '(c, e, n) := x in dsto_bound u eta v z kp kf e n r), (let '(c, e, n) := x in c), 0)) (s_exp s))
    by (apply map_ext; intros [[c e] n]; reflexivity).
  exact D.
Qed.

(** *** The division by 4 pi *)
Lemma fourpi_near : within 2 (rnd (4 * pi)) (4 * PI) /\ 0 < rnd (4 * pi).
Proof.
  destruct (pi_within _ _ _ _ H Hu8 pi Hpi) as [P1 W]. assert (P := PI_RGT_0).
  assert (W' : within 1 (4 * pi) (4 * PI)) by (destruct W as [A B]; split; rewrite pow_1 in *; lra).
  assert (W2 : within 2 (rnd (4 * pi)) (4 * PI)).
  { change 2%nat with (1 + 1)%nat. apply (within_tr _ Hu8) with (b := 4 * pi); [|exact W'].
    apply (within_normal _ _ _ _ H Hu8); [lra|]. apply Nr. rewrite Rabs_pos_eq; lra. }
  split; [exact W2|]. apply (within_gt _ Hu8 2 _ (4 * PI)); [lra | exact W2].
Qed.

Lemma over_near : forall a' a d, Rabs (a' - a) <= d -> Rabs (rnd (a' / rnd (4 * pi)) - a / (4 * PI)) <= over_4pi u eta a d.
Proof.
  intros a' a d L. destruct fourpi_near as [W G]. assert (P := PI_RGT_0).
  assert (I1 : 0 < / (4 * PI)) by (apply Rinv_0_lt_compat; lra). assert (I2 : 0 < / rnd (4 * pi)) by (apply Rinv_0_lt_compat, G).
  assert (Wi : within (0 + 2) (1 / rnd (4 * pi)) (1 / (4 * PI))).
  { apply (within_quot _ Hu8); try lra; [split; simpl; lra | exact W]. }
  unfold Rdiv in Wi. rewrite !Rmult_1_l in Wi.
  assert (A := grow_within _ _ _ _ H Hu8 _ _ _ _ _ _ (Rlt_le _ _ I1) (Rlt_le _ _ I2) L Wi).
  assert (B := grow_rnd _ _ _ _ H Hu8 _ _ _ A). unfold over_4pi, Rdiv. eapply Rle_trans; [exact B|]. apply Req_le. f_equal.
  unfold grow. rewrite Rabs_mult, (Rabs_pos_eq (/ (4 * PI))) by lra. simpl. ring.
Qed.

(** *** Densities *)
Lemma fmt_homo : forall L, Forall (fun s => fmt (s_en s)) L -> fmt (last (map s_en L) 0).
Proof.
  intros L F. induction F as [|s L F0 F IH]; [apply (rd_zero _ _ _ _ H)|].
  destruct L as [|s' L]; [exact F0|]. exact IH.
Qed.

Lemma density_near : forall m fu to fused t L r, 0 <= r -> atom_ok fmt lo to r L -> Forall (fun s => fmt (s_en s)) L -> orders (length L) t ->
  Rabs (fl_density rnd fexp fpow ffact pi m fu to fused t L r - rho_w (weight m (homo L)) L r) <= rho_bound u eta v z kp kf m to t L r.
Proof.
  intros m fu to fused t L r Hr F Fe O. unfold fl_density, rho_w, rho_bound. apply over_near. fold (homo L).
  assert (Fh := fmt_homo L Fe). fold (homo L) in Fh. unfold atom_ok in F. rewrite Forall_forall in F, Fe.
  apply (dot_near _ _ _ _ H Hu8 _ fused t L (fun s => rnd (fl_phi rnd fexp fpow ffact fu to s r * fl_phi rnd fexp fpow ffact fu to s r))
    (fun s => phi s r ^ 2) _ (fl_weight rnd fexp m (homo L)) (weight m (homo L)) _ O).
  intros s I. destruct (F s I) as [F1 F2]. split.
  - replace (phi s r ^ 2) with (phi s r * phi s r) by ring. apply (prod_rnd _ _ _ _ H Hu8); apply phi_near; assumption.
  - apply (weight_near _ _ _ _ H Hu8 v z fexp X); [apply Fe, I | exact Fh].
Qed.

Lemma twice : forall a' b d, Rabs (a' - b) <= d -> Rabs (2 * a' - 2 * b) <= 2 * d.
Proof. intros a' b d L. replace (2 * a' - 2 * b) with (2 * (a' - b)) by ring. rewrite Rabs_mult, (Rabs_pos_eq 2); lra. Qed.

Lemma derivative_near : forall fu to fused t L r, 0 < r -> tiny <= r -> atom_ok fmt lo to r L -> orders (length L) t ->
  Rabs (fl_derivative rnd fexp fpow ffact pi tiny fu to fused t L r - drho L r) <= drho_bound u eta v z kp kf to t L r.
Proof.
  intros fu to fused t L r Hr Ht F O. unfold fl_derivative, drho, drho_bound. apply over_near.
  unfold atom_ok in F. rewrite Forall_forall in F.
  apply (dot_near _ _ _ _ H Hu8 _ fused t L
    (fun s => rnd (2 * rnd (fl_phi rnd fexp fpow ffact fu to s r * fl_dphi rnd fexp fpow ffact tiny fu to s r)))
    (fun s => 2 * (phi s r * dphi s r))
    (fun s => grow u 1 (2 * (phi s r * dphi s r)) (2 * prod_bound u eta (phi s r) (phi_bound u eta v z kp kf (to s) s r) (dphi s r) (dphi_bound u eta v z kp kf (to s) s r)) + eta)
    s_occ s_occ (fun _ => 0) O).
  intros s I. destruct (F s I) as [F1 F2]. split; [|apply near_refl].
  apply (grow_rnd _ _ _ _ H Hu8), twice, (prod_rnd _ _ _ _ H Hu8); [apply phi_near; auto; lra | apply dphi_near; assumption].
Qed.

Lemma term_near : forall fu to s r, 0 < r -> tiny <= r -> lo <= r ^ 2 -> orders (length (s_exp s)) (to s) -> fits r s ->
  Rabs (fl_kinetic_term rnd fexp fpow ffact tiny fu to s r - tau_term s r) <= tau_term_bound u eta v z kp kf to s r.
Proof.
  intros fu to s r Hr Ht Hr2 O F. unfold fl_kinetic_term, tau_term_bound.
  destruct (Rlt_dec (Rabs r) tiny) as [L|_]; [rewrite Rabs_pos_eq in L; lra|].
  apply (grow_rnd _ _ _ _ H Hu8). unfold tau_term.
  set (a := INR (s_l s) * (INR (s_l s) + 1)). set (p := phi s r). set (d := dphi s r).
  set (p' := fl_phi rnd fexp fpow ffact fu to s r). set (d' := fl_dphi rnd fexp fpow ffact tiny fu to s r).
  assert (Np : Rabs (p' - p) <= phi_bound u eta v z kp kf (to s) s r) by (apply phi_near; auto; lra).
  assert (Nd : Rabs (d' - d) <= dphi_bound u eta v z kp kf (to s) s r) by (apply dphi_near; auto; lra).
  replace (rnd (d' * d') + rnd (rnd (a * rnd (p' * p')) / rnd (r * r)) - (d ^ 2 + a * p ^ 2 / r ^ 2)) with
    ((rnd (d' * d') - d ^ 2) + (rnd (rnd (a * rnd (p' * p')) / rnd (r * r)) - a * p ^ 2 / r ^ 2)) by ring.
  eapply Rle_trans; [apply Rabs_triang|]. apply Rplus_le_compat.
  - replace (d ^ 2) with (d * d) by ring. apply (prod_rnd _ _ _ _ H Hu8); exact Nd.
  - assert (N2 : Rabs (rnd (p' * p') - p ^ 2) <= prod_bound u eta p (phi_bound u eta v z kp kf (to s) s r) p (phi_bound u eta v z kp kf (to s) s r)).
    { replace (p ^ 2) with (p * p) by ring. apply (prod_rnd _ _ _ _ H Hu8); exact Np. }
    assert (N3 := prod_rnd _ _ _ _ H Hu8 _ _ _ _ _ _ (near_refl a) N2).
    assert (Er : r ^ 2 = r * r) by ring.
    assert (Wr : within 1 (rnd (r * r)) (r * r)).
    { apply (within_normal _ _ _ _ H Hu8); [apply Rle_0_sqr|]. apply Nr. rewrite Rabs_pos_eq; [lra | apply Rle_0_sqr]. }
    assert (Pr : 0 < r * r) by (apply Rmult_lt_0_compat; assumption).
    assert (Gr := within_gt _ Hu8 _ _ _ Pr Wr).
    assert (I1 : 0 < / (r * r)) by (apply Rinv_0_lt_compat; lra). assert (I2 : 0 < / rnd (r * r)) by (apply Rinv_0_lt_compat, Gr).
    assert (Wi : within (0 + 1) (1 / rnd (r * r)) (1 / (r * r))).
    { apply (within_quot _ Hu8); try lra; [split; simpl; lra | exact Wr]. }
    unfold Rdiv in Wi. rewrite !Rmult_1_l in Wi.
    assert (A := grow_within _ _ _ _ H Hu8 _ _ _ _ _ _ (Rlt_le _ _ I1) (Rlt_le _ _ I2) N3 Wi).
    assert (B := grow_rnd _ _ _ _ H Hu8 _ _ _ A). rewrite Er. unfold Rdiv. eapply Rle_trans; [exact B|]. apply Req_le. f_equal.
    unfold grow. rewrite (Rabs_mult _ (/ (r * r))), (Rabs_pos_eq (/ (r * r))) by lra. simpl. ring.
Qed.

Lemma kinetic_near : forall fu to fused t L r, 0 < r -> tiny <= r -> lo <= r ^ 2 -> atom_ok fmt lo to r L -> orders (length L) t ->
  Rabs (fl_kinetic rnd fexp fpow ffact pi tiny fu to fused t L r - tau dphi L r) <= tau_bound u eta v z kp kf to t L r.
Proof.
  intros fu to fused t L r Hr Ht Hr2 F O. unfold fl_kinetic, tau, tau_bound.
  assert (P := PI_RGT_0).
  replace (/ (8 * PI) * rsum (map (fun s => s_occ s * (dphi s r ^ 2 + INR (s_l s) * (INR (s_l s) + 1) * phi s r ^ 2 / r ^ 2)) L)) with
    (rsum (map (fun s => s_occ s * tau_term s r) L) / 2 / (4 * PI)) by (unfold tau_term; field; lra).
  apply over_near, (grow_rnd _ _ _ _ H Hu8).
  unfold atom_ok in F. rewrite Forall_forall in F.
  assert (D := dot_near _ _ _ _ H Hu8 _ fused t L (fun s => fl_kinetic_term rnd fexp fpow ffact tiny fu to s r)
    (fun s => tau_term s r) (fun s => tau_term_bound u eta v z kp kf to s r) s_occ s_occ (fun _ => 0) O).
  match goal with |- Rabs (?a / 2 - ?b / 2) <= ?c / 2 => assert (G : Rabs (a - b) <= c) end.
  { apply D. intros s I. destruct (F s I) as [F1 F2]. split; [apply term_near; assumption | apply near_refl]. }
  match goal with |- Rabs (?a / 2 - ?b / 2) <= ?c / 2 => replace (a / 2 - b / 2) with ((a - b) * / 2) by field end.
  rewrite Rabs_mult, (Rabs_pos_eq (/ 2)) by lra. lra.
Qed.

(** *** Signs *)
Lemma density_pos : forall m fu to fused t L r, Forall (fun s => 0 <= s_occ s) L -> exp_at_most_1 fexp ->
  0 <= fl_density rnd fexp fpow ffact pi m fu to fused t L r.
Proof.
  intros m fu to fused t L r F E1. unfold fl_density. apply (rnd_pos u eta fmt rnd H). destruct fourpi_near as [_ G].
  apply Rmult_le_pos; [|left; apply Rinv_0_lt_compat, G]. rewrite Forall_forall in F.
  apply (dot_pos u eta fmt rnd H); apply Forall_forall; intros x I; apply in_map_iff in I; destruct I as (s & <- & I).
  - apply (rnd_pos u eta fmt rnd H), Rle_0_sqr.
  - specialize (F s I). destruct X as (_ & _ & HX). set (h := last (map s_en L) 0).
    assert (N : - rnd (rnd (s_en s - h) * rnd (s_en s - h)) <= 0).
    { assert (0 <= rnd (rnd (s_en s - h) * rnd (s_en s - h))) by (apply (rnd_pos u eta fmt rnd H), Rle_0_sqr). lra. }
    destruct m; cbn [fl_weight]; [exact F | |].
    + apply (rnd_pos u eta fmt rnd H), Rmult_le_pos; [exact F|]. apply HX, N.
    + apply (rnd_pos u eta fmt rnd H), Rmult_le_pos; [exact F|]. apply (rnd_pos u eta fmt rnd H).
      assert (T := E1 _ N). unfold fl_share. lra.
Qed.

Lemma kinetic_pos : forall fu to fused t L r, Forall (fun s => 0 <= s_occ s) L ->
  0 <= fl_kinetic rnd fexp fpow ffact pi tiny fu to fused t L r.
Proof.
  intros fu to fused t L r F. unfold fl_kinetic. apply (rnd_pos u eta fmt rnd H). destruct fourpi_near as [_ G].
  apply Rmult_le_pos; [|left; apply Rinv_0_lt_compat, G]. apply (rnd_pos u eta fmt rnd H). rewrite Forall_forall in F.
  apply Rmult_le_pos; [|lra].
  apply (dot_pos u eta fmt rnd H); apply Forall_forall; intros x I; apply in_map_iff in I; destruct I as (s & <- & I); [|apply F, I].
  apply (rnd_pos u eta fmt rnd H). apply Rplus_le_le_0_compat; [apply (rnd_pos u eta fmt rnd H), Rle_0_sqr|].
  destruct (Rlt_dec (Rabs r) tiny) as [_|_]; [lra|]. apply (rnd_pos u eta fmt rnd H).
  assert (P0 : 0 <= rnd (r * r)) by (apply (rnd_pos u eta fmt rnd H), Rle_0_sqr).
  assert (P1 : 0 <= / rnd (r * r)) by (destruct P0 as [P0|P0]; [left; apply Rinv_0_lt_compat, P0 | rewrite <- P0, Rinv_0; lra]).
  apply Rmult_le_pos; [|exact P1]. apply (rnd_pos u eta fmt rnd H). assert (N := pos_INR (s_l s)).
  apply Rmult_le_pos; [apply Rmult_le_pos; lra | apply (rnd_pos u eta fmt rnd H), Rle_0_sqr].
Qed.

(** The highest orbital. *)
Lemma homo_weight : forall h s, s_en s = h -> fmt (s_occ s) -> fexp 0 = 1 ->
  fl_weight rnd fexp Valence h s = s_occ s /\ fl_weight rnd fexp Core h s = 0.
Proof.
  intros h s E Fo E0. cbn [fl_weight]. unfold fl_share.
  rewrite E, Rminus_diag_eq, (rnd_0 u eta fmt rnd H), Rmult_0_r, (rnd_0 u eta fmt rnd H), Ropp_0, E0 by reflexivity.
  rewrite Rmult_1_r, Rminus_diag_eq, (rnd_0 u eta fmt rnd H), Rmult_0_r, (rnd_0 u eta fmt rnd H) by reflexivity.
  split; [apply (rd_id _ _ _ _ H), Fo | reflexivity].
Qed.
End Slater.

(** *** Exact arithmetic *)
Lemma dot_id : forall (X : Type) fused t (l : list X) (a b : X -> R), orders (length l) t ->
  fl_dot (fun x => x) fused t (map a l) (map b l) = rsum (map (fun x => b x * a x) l).
Proof.
  intros X fused t l a b O. rewrite dot_exact by (rewrite ?map_length; auto). clear O.
  induction l as [|x l IH]; [reflexivity|]. cbn [map wsum]. rewrite IH. unfold rsum. simpl. ring.
Qed.
Notation exact_phi := (fl_phi (fun x => x) exp pow (fun n => INR (fact n))).
Lemma phi_id : forall fu to s r, orders (length (s_exp s)) (to s) -> exact_phi fu to s r = phi s r.
Proof.
  intros fu to s r O. unfold fl_phi, phi. rewrite dot_id by exact O. f_equal. apply map_ext. intros [[c e] n]. reflexivity.
Qed.
Lemma dphi_id : forall tiny fu to s r, tiny <= Rabs r -> orders (length (s_exp s)) (to s) ->
  fl_dphi (fun x => x) exp pow (fun n => INR (fact n)) tiny fu to s r = dphi s r.
Proof.
  intros tiny fu to s r Ht O. unfold fl_dphi, dphi. rewrite dot_id by exact O. f_equal. apply map_ext. intros [[c e] n].
  unfold fl_dsto, fl_dpref. destruct (Rlt_dec (Rabs r) tiny); [lra | reflexivity].
Qed.
Lemma weight_id : forall m h s, fl_weight (fun x => x) exp m h s = weight m h s.
Proof. intros m h s. unfold fl_weight, weight, fl_share, share. replace ((s_en s - h) ^ 2) with ((s_en s - h) * (s_en s - h)) by ring. reflexivity. Qed.

Lemma density_id : forall m fu to fused t L r, Forall (fun s => orders (length (s_exp s)) (to s)) L -> orders (length L) t ->
  fl_density (fun x => x) exp pow (fun n => INR (fact n)) PI m fu to fused t L r = rho_w (weight m (homo L)) L r.
Proof.
  intros m fu to fused t L r F O. unfold fl_density, rho_w. rewrite dot_id by exact O. do 2 f_equal. fold (homo L).
  apply map_ext_in. intros s I. rewrite Forall_forall in F. rewrite phi_id by (apply F, I). rewrite weight_id. ring.
Qed.
Lemma derivative_id : forall tiny fu to fused t L r, tiny <= Rabs r -> Forall (fun s => orders (length (s_exp s)) (to s)) L -> orders (length L) t ->
  fl_derivative (fun x => x) exp pow (fun n => INR (fact n)) PI tiny fu to fused t L r = drho L r.
Proof.
  intros tiny fu to fused t L r Ht F O. unfold fl_derivative, drho. rewrite dot_id by exact O. do 2 f_equal.
  apply map_ext_in. intros s I. rewrite Forall_forall in F. rewrite phi_id, dphi_id by (try apply F; assumption). reflexivity.
Qed.
Lemma kinetic_id : forall tiny fu to fused t L r, tiny <= Rabs r -> Forall (fun s => orders (length (s_exp s)) (to s)) L -> orders (length L) t ->
  fl_kinetic (fun x => x) exp pow (fun n => INR (fact n)) PI tiny fu to fused t L r = tau dphi L r.
Proof.
  intros tiny fu to fused t L r Ht F O. unfold fl_kinetic, tau. rewrite dot_id by exact O. assert (P := PI_RGT_0).
  match goal with |- rsum ?a / 2 / (4 * PI) = / (8 * PI) * rsum ?b => replace a with b; [field; lra|] end.
  apply map_ext_in. intros s I. rewrite Forall_forall in F. unfold fl_kinetic_term.
  rewrite phi_id, dphi_id by (try apply F; assumption). destruct (Rlt_dec (Rabs r) tiny); [lra|].
  replace (r ^ 2) with (r * r) by ring. replace (phi s r ^ 2) with (phi s r * phi s r) by ring.
  replace (dphi s r ^ 2) with (dphi s r * dphi s r) by ring. reflexivity.
Qed.
