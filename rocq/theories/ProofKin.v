(** Kinetic energies of the subshells. *)
From Coq Require Import Reals.
From Coquelicot Require Import Coquelicot.
From Coq Require Import List Bool Arith ZArith Lia Lra.
From Verif Require Import XR SpecDens Lists GaussInt ProofNorm ModelSlater SpecSlater ProofSlater SpecKin ProofOver.
Import ListNotations.
Local Open Scope R_scope.

(** ** The integral of the kinetic energy density *)
Definition rdsto (z : R) (n : nat) (r : R) : R :=
  (2 * z) ^ n * sqrt (2 * z / INR (fact (2 * n))) * ((INR n - 1) * r ^ (n - 1) - z * r ^ n) * exp (- z * r).
Lemma rdsto_eq z n r : (1 <= n)%nat -> r <> 0 -> r * dsto z n r = rdsto z n r.
Proof.
  intros Hn Hr. unfold dsto, sto, rdsto. destruct n as [|n]; [lia|]. replace (S n - 1)%nat with n by lia. cbn [pow]. field. auto.
Qed.
Lemma pair_kin l z n z' n' : 0 < z -> 0 < z' -> (1 <= n)%nat -> (1 <= n')%nat ->
  is_RInt_gen (fun r : R => / 2 * (rdsto z n r * rdsto z' n' r + INR l * (INR l + 1) * (sto z n r * sto z' n' r))) (at_point 0) (Rbar_locally p_infty)
    (kin l z n z' n').
Proof.
  intros Hz Hz' Hn Hn'. destruct n as [|n]; [lia|]. destruct n' as [|n']; [lia|].
  assert (Hs : 0 < z + z') by lra.
  pose proof (RInt_gen_gam (z + z') (n + n') Hs) as G0. pose proof (RInt_gen_gam (z + z') (S (n + n')) Hs) as G1. pose proof (RInt_gen_gam (z + z') (S (S (n + n'))) Hs) as G2.
  set (K := (2 * z) ^ S n * sqrt (2 * z / INR (fact (2 * S n))) * ((2 * z') ^ S n' * sqrt (2 * z' / INR (fact (2 * S n'))))).
  set (A := (INR (S n) - 1) * (INR (S n') - 1) + INR l * (INR l + 1)). set (B := (INR (S n) - 1) * z' + (INR (S n') - 1) * z).
  apply (RInt_gen_scal_R _ (/ 2 * (K * A))) in G0. apply (RInt_gen_scal_R _ (/ 2 * (- (K * B)))) in G1. apply (RInt_gen_scal_R _ (/ 2 * (K * (z * z')))) in G2.
  eapply RInt_gen_ext_R; [| |exact (RInt_gen_plus_R _ _ _ _ G0 (RInt_gen_plus_R _ _ _ _ G1 G2))].
  - intros r. cbv beta. unfold rdsto, sto. replace (S n - 1)%nat with n by lia. replace (S n' - 1)%nat with n' by lia.
    replace (- (z + z') * r) with (- z * r + - z' * r) by ring. rewrite exp_plus. unfold K, A, B. set (q := (2 * z) ^ S n * _). set (q' := (2 * z') ^ S n' * _). cbn [pow]. rewrite pow_add. ring.
  - unfold kin, overlap. fold K. fold A. fold B. replace (S n + S n')%nat with (S (S (n + n'))) by lia. replace (n + n' + 1)%nat with (S (n + n')) by lia.
    replace (S (n + n') + 1)%nat with (S (S (n + n'))) by lia. replace (S (S (n + n')) + 1)%nat with (S (S (S (n + n')))) by lia.
    assert (F : forall k, INR (fact (S k)) = (INR k + 1) * INR (fact k)) by (intros k; change (fact (S k)) with (S k * fact k)%nat; rewrite mult_INR, S_INR; reflexivity).
    rewrite !F, !S_INR. cbn [pow]. assert (P : 0 <= INR (n + n')) by apply pos_INR. assert (Q : (z + z') ^ (n + n') <> 0) by (apply pow_nonzero; lra).
    set (x := INR (n + n')) in *. set (y := (z + z') ^ (n + n')) in *. set (f := INR (fact (n + n'))) in *. field. repeat split; lra.
Qed.
Definition dphi (s : subshell) (r : R) : R := rsum (map (fun '(c, z, n) => c * dsto z n r) (s_exp s)).
Lemma dphi_derive s r : valid s -> r <> 0 -> is_derive (phi s) r (dphi s r).
Proof.
  intros V Hr.
  pose (f := fun (x : R * R * nat) (t : R) => fst (fst x) * sto (snd (fst x)) (snd x) t).
  pose (df := fun (x : R * R * nat) (t : R) => fst (fst x) * dsto (snd (fst x)) (snd x) t).
  apply (is_derive_ext (fun t : R => rsum (map (fun x => f x t) (s_exp s)))).
  { intros t. unfold phi. f_equal. apply map_ext. intros [[c z] n]. reflexivity. }
  replace (dphi s r) with (rsum (map (fun x => df x r) (s_exp s))).
  2:{ unfold dphi. f_equal. apply map_ext. intros [[c z] n]. reflexivity. }
  apply rsum_derive. intros [[c z] n] Hi. destruct (V c z n Hi) as [Hz Hn]. unfold f, df. cbn [fst snd].
  apply (is_derive_scal (sto z n) r c). apply sto_derive; auto.
Qed.
Lemma cphi_dphi s r : / 10 ^ 10 <= Rabs r -> cphi true s r = dphi s r.
Proof.
  intros Hr. unfold cphi, dphi. f_equal. apply map_ext. intros [[c z] n]. unfold csto. destruct (Rlt_dec (Rabs r) (/ 10 ^ 10)); [lra|reflexivity].
Qed.
Lemma ctau_tau L r : / 10 ^ 10 <= Rabs r -> ctau L r = tau dphi L r.
Proof.
  intros Hr. unfold ctau, tau. pose proof PI_RGT_0.
  match goal with |- ?a / 2 / (4 * PI) = _ * ?b => replace a with b; [field; lra|] end.
  f_equal. apply map_ext. intros s. rewrite cphi_dphi by exact Hr. destruct (Rlt_dec (Rabs r) (/ 10 ^ 10)); [lra|reflexivity].
Qed.
Definition kpair (l : nat) (x y : R * R * nat) (r : R) : R :=
  fst (fst x) * fst (fst y) * (/ 2 * (rdsto (snd (fst x)) (snd x) r * rdsto (snd (fst y)) (snd y) r + INR l * (INR l + 1) * (sto (snd (fst x)) (snd x) r * sto (snd (fst y)) (snd y) r))).
Lemma orb_kin_int s : valid s ->
  is_RInt_gen (fun r : R => rsum (map (fun x => rsum (map (fun y => kpair (s_l s) x y r) (s_exp s))) (s_exp s))) (at_point 0) (Rbar_locally p_infty) (orb_kin s).
Proof.
  intros V. assert (E : orb_kin s = rsum (map (fun x : R * R * nat => rsum (map (fun y : R * R * nat => fst (fst x) * fst (fst y) * kin (s_l s) (snd (fst x)) (snd x) (snd (fst y)) (snd y)) (s_exp s))) (s_exp s))).
  { unfold orb_kin. f_equal. apply map_ext. intros [[c z] n]. f_equal. apply map_ext. intros [[c' z'] n']. reflexivity. }
  rewrite E. apply (RInt_gen_rsum (fun x r => rsum (map (fun y => kpair (s_l s) x y r) (s_exp s)))). intros [[c z] n] I. destruct (V _ _ _ I) as [Hz Hn].
  apply (RInt_gen_rsum (fun y r => kpair (s_l s) (c, z, n) y r)). intros [[c' z'] n'] I'. destruct (V _ _ _ I') as [Hz' Hn']. unfold kpair. cbn [fst snd].
  apply (RInt_gen_scal_R (fun r => / 2 * (rdsto z n r * rdsto z' n' r + INR (s_l s) * (INR (s_l s) + 1) * (sto z n r * sto z' n' r)))) with (k := c * c'). now apply pair_kin.
Qed.
Lemma kpair_sum s r : valid s -> r <> 0 ->
  rsum (map (fun x => rsum (map (fun y => kpair (s_l s) x y r) (s_exp s))) (s_exp s)) =
  / 2 * (r ^ 2 * dphi s r ^ 2 + INR (s_l s) * (INR (s_l s) + 1) * phi s r ^ 2).
Proof.
  intros V Hr. set (Lc := INR (s_l s) * (INR (s_l s) + 1)).
  assert (D : forall l, (forall c z n, In (c, z, n) l -> (1 <= n)%nat) -> r * rsum (map (fun '(c, z, n) => c * dsto z n r) l) = rsum (map (fun x : R * R * nat => fst (fst x) * rdsto (snd (fst x)) (snd x) r) l)).
  { induction l as [|[[c z] n] l IH]; intros H; [unfold rsum; simpl; ring|]. cbn [map]. rewrite !rsum_cons, Rmult_plus_distr_l, IH by (intros; eapply H; right; eauto). cbn [fst snd].
    rewrite <- rdsto_eq by (auto; eapply H; left; eauto). ring. }
  assert (D1 : r * dphi s r = rsum (map (fun x : R * R * nat => fst (fst x) * rdsto (snd (fst x)) (snd x) r) (s_exp s))).
  { apply D. intros c z n I. now destruct (V c z n I). }
  assert (D2 : phi s r = rsum (map (fun x : R * R * nat => fst (fst x) * sto (snd (fst x)) (snd x) r) (s_exp s))).
  { unfold phi. f_equal. apply map_ext. intros [[c z] n]. reflexivity. }
  transitivity (/ 2 * ((r * dphi s r) * (r * dphi s r) + Lc * (phi s r * phi s r))); [|ring]. rewrite D1, D2.
  set (e := s_exp s). set (P := rsum (map (fun x : R * R * nat => fst (fst x) * rdsto (snd (fst x)) (snd x) r) e)). set (Q := rsum (map (fun x : R * R * nat => fst (fst x) * sto (snd (fst x)) (snd x) r) e)).
  assert (In1 : forall x l, rsum (map (fun y => kpair (s_l s) x y r) l) = / 2 * (fst (fst x) * rdsto (snd (fst x)) (snd x) r * rsum (map (fun x : R * R * nat => fst (fst x) * rdsto (snd (fst x)) (snd x) r) l) +
     Lc * (fst (fst x) * sto (snd (fst x)) (snd x) r * rsum (map (fun x : R * R * nat => fst (fst x) * sto (snd (fst x)) (snd x) r) l)))).
  { intros x l. induction l as [|y l IH]; [unfold rsum; simpl; ring|]. cbn [map]. rewrite !rsum_cons, IH. unfold kpair, Lc. ring. }
  assert (Out : forall l, rsum (map (fun x => rsum (map (fun y => kpair (s_l s) x y r) e)) l) = / 2 * (rsum (map (fun x : R * R * nat => fst (fst x) * rdsto (snd (fst x)) (snd x) r) l) * P +
     Lc * (rsum (map (fun x : R * R * nat => fst (fst x) * sto (snd (fst x)) (snd x) r) l) * Q))).
  { induction l as [|x l IH]; [unfold rsum; simpl; ring|]. cbn [map]. rewrite !rsum_cons, IH, In1. fold P Q. ring. }
  apply Out.
Qed.
Lemma tau_integral L : Forall valid L ->
  is_RInt_gen (fun r : R => 4 * PI * r ^ 2 * tau dphi L r) (at_point 0) (Rbar_locally p_infty) (rsum (map (fun s => s_occ s * orb_kin s) L)).
Proof.
  intros V. rewrite Forall_forall in V.
  apply (is_RInt_gen_ext (fun r : R => rsum (map (fun s => s_occ s * rsum (map (fun x => rsum (map (fun y => kpair (s_l s) x y r) (s_exp s))) (s_exp s))) L))).
  - apply Filter_prod with (fun a => a = 0) (fun b => 0 < b); [reflexivity|exists 0; auto|]. intros a b -> Hb r [Hr _]. cbn [fst snd] in Hr. rewrite Rmin_left in Hr by lra.
    unfold tau. pose proof PI_RGT_0. match goal with |- @eq _ ?a ?b => change (@eq R a b) end. transitivity (/ 2 * (r ^ 2 * rsum (map (fun s => s_occ s * (dphi s r ^ 2 + INR (s_l s) * (INR (s_l s) + 1) * phi s r ^ 2 / r ^ 2)) L))); [|field; lra].
    revert V. clear -Hr. induction L as [|s L IH]; intros V; [unfold rsum; simpl; ring|]. cbn [map]. rewrite !rsum_cons, IH by (intros; apply V; now right).
    rewrite kpair_sum by (try apply V; try (now left); lra). field. lra.
  - apply (RInt_gen_rsum (fun s (r : R) => s_occ s * rsum (map (fun x => rsum (map (fun y => kpair (s_l s) x y r) (s_exp s))) (s_exp s)))). intros s I.
    apply (RInt_gen_scal_R (fun r => rsum (map (fun x => rsum (map (fun y => kpair (s_l s) x y r) (s_exp s))) (s_exp s)))). apply orb_kin_int. auto.
Qed.
Lemma kinetic_integral a L : describes a L -> Forall valid L ->
  exists dphi : subshell -> R -> R,
    (forall s r, In s L -> r <> 0 -> is_derive (phi s) r (dphi s r)) /\
    (forall pts, Forall (fun r => / 10 ^ 10 <= Rabs r) pts -> kinetic_energy a (A1 (map Fin pts)) = Ok (map Fin (map (tau dphi L) pts))) /\
    is_RInt_gen (fun r : R => 4 * PI * r ^ 2 * tau dphi L r) (at_point 0) (Rbar_locally p_infty) (rsum (map (fun s => s_occ s * orb_kin s) L)).
Proof.
  intros D V. exists dphi. split; [intros s r I Hr; apply dphi_derive; auto; rewrite Forall_forall in V; auto|]. split; [|now apply tau_integral]. intros pts F. rewrite (kinetic_ok a L pts D V). do 2 f_equal. apply map_ext_in. intros r I. rewrite Forall_forall in F. apply ctau_tau. auto.
Qed.

Lemma kin_element l z n z' n' : 0 < z -> 0 < z' -> (1 <= n)%nat -> (1 <= n')%nat ->
  is_RInt_gen (fun r : R => / 2 * (r ^ 2 * (Derive (sto z n) r * Derive (sto z' n') r) + INR l * (INR l + 1) * (sto z n r * sto z' n' r))) (at_point 0) (Rbar_locally p_infty)
    (kin l z n z' n').
Proof.
  intros Hz Hz' Hn Hn'. apply (is_RInt_gen_ext (fun r : R => / 2 * (rdsto z n r * rdsto z' n' r + INR l * (INR l + 1) * (sto z n r * sto z' n' r)))); [|now apply pair_kin].
  apply Filter_prod with (fun a => a = 0) (fun b => 0 < b); [reflexivity|exists 0; auto|]. intros a b -> Hb r [Hr _]. cbn [fst snd] in Hr. rewrite Rmin_left in Hr by lra.
  match goal with |- @eq _ ?a ?b => change (@eq R a b) end.
  assert (E : forall z n, 0 < z -> (1 <= n)%nat -> Derive (sto z n) r = dsto z n r) by (intros; apply is_derive_unique, sto_derive; auto; lra).
  rewrite !E by auto. rewrite <- !rdsto_eq by (auto; lra). ring.
Qed.

(** ** Bounds by integer arithmetic *)
Local Open Scope Z_scope.
Section Tri.
Context (g : Z * nat -> Z * nat -> R) (Hg : forall p q, g p q = g q p) (Sc : R).
Definition gfull (l : list (Z * (Z * nat))) : R :=
  rsum (map (fun x => rsum (map (fun y => (IZR (fst x) * IZR (fst y) * g (snd x) (snd y))%R) l)) l).
Lemma gfull_cons x l : gfull (x :: l) = (IZR (fst x) * (g (snd x) (snd x) * IZR (fst x) + 2 * rsum (map (fun y => g (snd x) (snd y) * IZR (fst y)) l)) + gfull l)%R.
Proof.
  unfold gfull. cbn [map].
  assert (E : rsum (map (fun y => (IZR (fst x) * IZR (fst y) * g (snd x) (snd y))%R) l) = (IZR (fst x) * rsum (map (fun y => g (snd x) (snd y) * IZR (fst y)) l))%R).
  { induction l as [|a l IH]; cbn; [lra|]. unfold rsum in IH. rewrite IH. ring. }
  assert (E2 : rsum (map (fun y => (IZR (fst y) * IZR (fst x) * g (snd y) (snd x) + rsum (map (fun y0 => IZR (fst y) * IZR (fst y0) * g (snd y) (snd y0)) l))%R) l) =
    (IZR (fst x) * rsum (map (fun y => g (snd x) (snd y) * IZR (fst y)) l) + gfull l)%R).
  { rewrite rsum_add. f_equal. rewrite <- E. f_equal. apply map_ext. intros y. rewrite Hg. ring. }
  transitivity ((IZR (fst x) * IZR (fst x) * g (snd x) (snd x) + rsum (map (fun y => IZR (fst x) * IZR (fst y) * g (snd x) (snd y)) l)) +
    rsum (map (fun y => IZR (fst y) * IZR (fst x) * g (snd y) (snd x) + rsum (map (fun y0 => IZR (fst y) * IZR (fst y0) * g (snd y) (snd y0)) l)) l))%R; [reflexivity|].
  rewrite E2, E. unfold gfull. ring.
Qed.
(** Values and error bounds of the upper triangle. *)
Definition close (p q : Z * nat) (x : Z * Z) : Prop := (Rabs (g p q * Sc - IZR (fst x)) <= IZR (snd x))%R.
Fixpoint approx (rs : list (Z * nat)) (m : list (list (Z * Z))) : Prop :=
  match rs, m with [], [] => True | p :: r, row :: m => Forall2 (close p) rs row /\ approx r m | _, _ => False end.
Lemma gdot_err p l row : Forall2 (close p) (map snd l) row ->
  (Rabs (rsum (map (fun y => g p (snd y) * IZR (fst y)) l) * Sc - IZR (zdot (map fst row) (map fst l))) <= IZR (zdot (map snd row) (map Z.abs (map fst l))))%R.
Proof.
  revert row. induction l as [|x l IH]; intros row F; cbn [map] in F; inversion F as [|? e ? row' C F']; subst.
  - change (Rabs (0 * Sc - 0) <= 0)%R. replace (0 * Sc - 0)%R with 0%R by ring. rewrite Rabs_R0. lra.
  - specialize (IH _ F'). cbn [map zdot]. rewrite rsum_cons, !plus_IZR, !mult_IZR, abs_IZR. unfold close in C.
    set (d := rsum _) in *. set (zz := zdot _ _) in *. set (w := zdot _ _) in *.
    replace ((g p (snd x) * IZR (fst x) + d) * Sc - (IZR (fst e) * IZR (fst x) + IZR zz))%R with ((g p (snd x) * Sc - IZR (fst e)) * IZR (fst x) + (d * Sc - IZR zz))%R by ring.
    eapply Rle_trans; [apply Rabs_triang|]. apply Rplus_le_compat; auto. rewrite (Rabs_mult (g p (snd x) * Sc - IZR (fst e)) (IZR (fst x))). apply Rmult_le_compat_r; auto. apply Rabs_pos.
Qed.
Lemma gquad_err l m : approx (map snd l) m ->
  (Rabs (gfull l * Sc - IZR (quad (map (map fst) m) (map fst l))) <= IZR (quad (map (map snd) m) (map Z.abs (map fst l))))%R.
Proof.
  revert m. induction l as [|x l IH]; intros [|row m] H; cbn [map approx] in H; try contradiction.
  - change (Rabs (0 * Sc - 0) <= 0)%R. replace (0 * Sc - 0)%R with 0%R by ring. rewrite Rabs_R0. lra.
  - destruct H as [F A]. inversion F as [|? e ? row' C F']; subst. specialize (IH m A). assert (D := gdot_err (snd x) l row' F'). unfold close in C.
    rewrite gfull_cons. cbn [map quad]. rewrite !plus_IZR, !mult_IZR, !plus_IZR, !mult_IZR, abs_IZR.
    set (d := rsum _) in *. set (z := zdot (map fst row') _) in *. set (w := zdot (map snd row') _) in *. set (q := quad (map (map fst) m) _) in *. set (q' := quad (map (map snd) m) _) in *. set (c := IZR (fst x)) in *.
    replace ((c * (g (snd x) (snd x) * c + 2 * d) + gfull l) * Sc - (c * (IZR (fst e) * c + 2 * IZR z) + IZR q))%R
      with (c * c * (g (snd x) (snd x) * Sc - IZR (fst e)) + 2 * c * (d * Sc - IZR z) + (gfull l * Sc - IZR q))%R by ring.
    assert (Q := Rabs_pos c).
    assert (X1 : (Rabs (c * c * (g (snd x) (snd x) * Sc - IZR (fst e))) <= Rabs c * Rabs c * IZR (snd e))%R) by (rewrite !Rabs_mult; apply Rmult_le_compat_l; auto; nra).
    assert (X2 : (Rabs (2 * c * (d * Sc - IZR z)) <= 2 * Rabs c * IZR w)%R).
    { rewrite !Rabs_mult, (Rabs_pos_eq 2) by lra. apply Rmult_le_compat_l; auto. lra. }
    eapply Rle_trans; [apply Rabs_triang|]. eapply Rle_trans; [apply Rplus_le_compat_r, Rabs_triang|]. lra.
Qed.
End Tri.

(** Twice the kinetic energy elements in units of 1 / (2^40 10^12 KM). *)
Definition KM : Z := 12252240.
Definition kfac (l : Z) (p q : Z * nat) : Z :=
  let n := Z.of_nat (snd p) in let m := Z.of_nat (snd q) in let s := fst p + fst q in let t := n + m in
  (((n - 1) * (m - 1) + l * (l + 1)) * (s * s) - ((n - 1) * fst q + (m - 1) * fst p) * s * (t - 1) + fst p * fst q * (t * (t - 1))) * (KM / (t * (t - 1))).
Definition kentry (l : Z) (p q : Z * nat) (i : Z * Z) : Z * Z := let k := kfac l p q in (fst i * k, W * Z.abs k).
Fixpoint kentries (l : Z) (p : Z * nat) (rs : list (Z * nat)) (row : list (Z * Z)) : list (Z * Z) :=
  match rs, row with q :: rs, i :: row => kentry l p q i :: kentries l p rs row | _, _ => [] end.
Fixpoint ktri (l : Z) (rs : list (Z * nat)) (os : list (list (Z * Z))) : list (list (Z * Z)) :=
  match rs, os with p :: r, o :: os => kentries l p rs o :: ktri l r os | _, _ => [] end.
Definition kdiv (t : nat) : bool := Nat.leb 2 t && (KM / (Z.of_nat t * (Z.of_nat t - 1)) * (Z.of_nat t * (Z.of_nat t - 1)) =? KM).
Lemma kdiv_ok t : (2 <= t <= 18)%nat -> kdiv t = true.
Proof. intros H. do 19 (destruct t as [|t]; [lia || reflexivity|]). lia. Qed.

Definition kval (l : nat) (p q : Z * nat) : R := (2 * kin l (IZR (fst p) / 10 ^ 6) (snd p) (IZR (fst q) / 10 ^ 6) (snd q))%R.
Lemma kval_sym l p q : kval l p q = kval l q p.
Proof.
  unfold kval, kin. fold (ov (10 ^ 6) p q) (ov (10 ^ 6) q p). rewrite (ov_sym (10 ^ 6) p q). rewrite (Nat.add_comm (snd q)), (Rplus_comm (IZR (fst q) / 10 ^ 6)).
  set (a := (IZR (fst p) / 10 ^ 6)%R). set (b := (IZR (fst q) / 10 ^ 6)%R). unfold Rdiv. ring.
Qed.
Definition KS : R := (IZR U * 10 ^ 12 * IZR KM)%R.
Local Opaque U W.
Lemma kfac_ok l p q : (1 <= snd p <= 9)%nat -> (1 <= snd q <= 9)%nat -> (kval l p q * KS = ov (10 ^ 6) p q * IZR U * IZR (kfac (Z.of_nat l) p q))%R.
Proof.
  intros Hp Hq. destruct p as [a n], q as [b m]. cbn [fst snd] in *. assert (K := kdiv_ok (n + m) ltac:(lia)). unfold kdiv in K. apply andb_true_iff in K. destruct K as [_ K]. apply Z.eqb_eq in K.
  unfold kval, kin, KS, kfac. cbn [fst snd]. fold (ov (10 ^ 6) (a, n) (b, m)). change (overlap (IZR a / 10 ^ 6) n (IZR b / 10 ^ 6) m) with (ov (10 ^ 6) (a, n) (b, m)). rewrite Nat2Z.inj_add in K.
  set (d := KM / ((Z.of_nat n + Z.of_nat m) * (Z.of_nat n + Z.of_nat m - 1))) in *. rewrite <- K. set (o := ov _ _ _).
  repeat (rewrite ?mult_IZR, ?plus_IZR, ?minus_IZR). rewrite <- !INR_IZR_INZ, plus_INR.
  assert (Hn : (1 <= INR n)%R) by (apply (le_INR 1); lia). assert (Hm : (1 <= INR m)%R) by (apply (le_INR 1); lia).
  set (x := INR n) in *. set (y := INR m) in *. set (w := INR l) in *. field. lra.
Qed.
Lemma kclose l p q : 0 < fst p -> 0 < fst q -> (1 <= snd p <= 9)%nat -> (1 <= snd q <= 9)%nat -> (let i := iover (fst p) (snd p) (fst q) (snd q) in snd i - fst i <=? W) = true ->
  close (kval l) KS p q (kentry (Z.of_nat l) p q (iover (fst p) (snd p) (fst q) (snd q))).
Proof.
  intros P Q Hp Hq T. assert (E := low_err (10 ^ 6) ltac:(lra) p q P Q T). unfold close, kentry. cbn [fst snd]. rewrite (kfac_ok l p q Hp Hq), !mult_IZR, abs_IZR.
  set (k := IZR (kfac _ _ _)). set (o := ov _ _ _) in *. set (i := fst (iover _ _ _ _)) in *. replace (o * IZR U * k - IZR i * k)%R with ((o * IZR U - IZR i) * k)%R by ring.
  rewrite (Rabs_mult (o * IZR U - IZR i) k). apply Rmult_le_compat_r; auto. apply Rabs_pos.
Qed.
Lemma kentries_ok l p rs : 0 < fst p -> (1 <= snd p <= 9)%nat -> (forall q, In q rs -> 0 < fst q /\ (1 <= snd q <= 9)%nat) ->
  forallb (fun i : Z * Z => snd i - fst i <=? W) (map (fun q => iover (fst p) (snd p) (fst q) (snd q)) rs) = true ->
  Forall2 (close (kval l) KS p) rs (kentries (Z.of_nat l) p rs (map (fun q => iover (fst p) (snd p) (fst q) (snd q)) rs)).
Proof.
  intros P Hp. induction rs as [|q rs IH]; intros H T; [constructor|]. cbn [map forallb] in T. apply andb_true_iff in T. destruct T as [T1 T2]. destruct (H q (or_introl eq_refl)) as [Q1 Q2].
  cbn [map kentries]. constructor; [apply kclose; auto|apply IH; auto; intros; apply H; now right].
Qed.
Lemma ktri_ok l rs : (forall p, In p rs -> 0 < fst p /\ (1 <= snd p <= 9)%nat) -> tight (overs rs) = true -> approx (kval l) KS rs (ktri (Z.of_nat l) rs (overs rs)).
Proof.
  induction rs as [|p rs IH]; intros H T; [exact I|]. cbn [overs tight forallb] in T. apply andb_true_iff in T. destruct T as [T1 T2].
  cbn [overs ktri approx]. split; [|apply IH; auto; intros; apply H; now right]. destruct (H p (or_introl eq_refl)) as [Hp1 Hp2]. now apply kentries_ok.
Qed.
(** Kinetic energy of an orbital. *)
Lemma kin_full s l : s_exp s = orbital_i l -> orb_kin s = (gfull (kval (s_l s)) l / (2 * 10 ^ 14))%R.
Proof.
  intros E. unfold orb_kin, gfull. rewrite E. unfold orbital_i. rewrite map_map.
  assert (D : forall A (f : A -> R) k, (rsum (map f k) / (2 * 10 ^ 14) = rsum (map (fun x => f x / (2 * 10 ^ 14)) k))%R).
  { intros A f k. induction k as [|a k IH]; [change (0 / (2 * 10 ^ 14) = 0)%R; lra|]. cbn [map]. rewrite !rsum_cons, <- IH. lra. }
  rewrite D. f_equal. apply map_ext. intros x. rewrite D, map_map. f_equal. apply map_ext. intros y. unfold kval. set (k := kin _ _ _ _ _). lra.
Qed.
Lemma kin_ok s l : s_exp s = orbital_i l -> (forall x, In x l -> 0 < fst (snd x) /\ (1 <= snd (snd x) <= 9)%nat) -> tight (overs (map snd l)) = true ->
  let m := ktri (Z.of_nat (s_l s)) (map snd l) (overs (map snd l)) in
  (Rabs (orb_kin s * (2 * 10 ^ 14 * KS) - IZR (quad (map (map fst) m) (map fst l))) <= IZR (quad (map (map snd) m) (map Z.abs (map fst l))))%R.
Proof.
  intros E H T. cbv zeta. rewrite (kin_full s l E).
  replace (gfull (kval (s_l s)) l / (2 * 10 ^ 14) * (2 * 10 ^ 14 * KS))%R with (gfull (kval (s_l s)) l * KS)%R by field.
  apply gquad_err; [apply kval_sym|]. apply ktri_ok; auto. intros p I. apply in_map_iff in I. destruct I as (x & <- & I). auto.
Qed.

Local Open Scope R_scope.
Lemma hydrogen_kin : let s := mkSub 1 (-1/2) 0 [(1, 1, 1%nat)] in
  let a := mkAtom [(1%nat, LS)] [1] [-1/2] (fun l => match l with LS => Some [1] | _ => None end)
             (fun l => match l with LS => Some [1%nat] | _ => None end) (fun o => match o with (1%nat, LS) => Some [1] | _ => None end) in
  describes a [s] /\ Forall valid [s] /\ rsum (map (fun s => s_occ s * orb_kin s) [s]) = 1 / 2.
Proof.
  cbv zeta. split; [|split].
  - split; [reflexivity|]. split; [reflexivity|]. constructor; [repeat split|]. constructor.
  - constructor; [|constructor]. intros c z n [H|[]]. injection H as <- <- <-. split; [lra|lia].
  - cbn [map s_occ]. unfold orb_kin, kin, overlap, rsum. cbn [s_exp s_l map fold_right Nat.add Nat.mul]. replace (INR (fact 2)) with 2 by (simpl; ring).
    set (q := sqrt (2 * 1 / 2)). assert (Q : q * q = 1) by (unfold q; rewrite sqrt_sqrt; lra). replace (INR 2) with 2 by (simpl; ring). cbn [INR].
    transitivity (q * q / 2); [field|lra].
Qed.
