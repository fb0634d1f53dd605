(** Slater densities in floating-point formats: accuracy, sign and a library that rounds correctly. *)
From Coq Require Import Reals List ZArith Bool Lia Lra Permutation.
From Flocq Require Import Core IEEE754.BinarySingleNaN.
From Verif Require Import SpecSlater SpecRnd SpecRnd2 SpecRnd3 SpecBin SpecBin64 SpecBinModel SpecBinSto ModelRnd ModelRnd3 ModelBin64 ModelBinModel ModelBinSto
  ProofRnd ProofRnd14 ProofRnd15 ProofBin64 ProofBin64b ProofBinModel ProofBinModel2 ProofBinModel3 ProofBinModel4 ProofBinSto ProofBinSto2.
From Coq Require Import List.
Import ListNotations.
Local Open Scope R_scope.

Section Format.
Variable fm : format.
Local Notation rnd := (near fm).
Local Notation pow2 := (Raux.bpow radix2).
Local Notation u := (pow2 (- digits fm)).
Local Notation eta := (pow2 (bottom fm - 1)).
Local Notation lo := (pow2 (bottom fm + digits fm - 1)).
Local Notation fmt := (bin_fmt (bottom fm) (digits fm)).

Lemma shells_fmt : forall L : list (bshell fm), Forall (fun s => fmt (s_en s)) (map worth L).
Proof. intro L. apply Forall_map, Forall_forall. intros s _. apply value_fmt. Qed.
Lemma density_value : forall bexp fexp bpow fpow bfact ffact (pi : number fm), exponential bexp fexp -> powers bpow fpow -> about_pi pi ->
  forall kp kf v z, ipow_error u lo kp fpow -> fact_error u kf ffact -> Rabs (value pi - PI) <= u * PI -> 1 / 2 <= (1 - u) ^ (2 * kp + kf + 4) -> exp_error v z fexp ->
  forall m fu to fused t L r, finite r -> 0 <= value r -> fusable fused t -> lone fused t = false -> Forall (proper bfact ffact) L -> good_sums fu to L ->
  atom_ok fmt lo to (value r) (map worth L) -> orders (length L) t ->
  finite (b_density bexp bpow bfact pi m fu to fused t L r) ->
  Rabs (value (b_density bexp bpow bfact pi m fu to fused t L r) - rho_w (weight m (homo (map worth L))) (map worth L) (value r)) <=
    rho_bound u eta v z kp kf m to t (map worth L) (value r).
Proof.
  intros bexp fexp bpow fpow bfact ffact pi He Hp Hc kp kf v z Ep Ef Epi Hk Ee m fu to fused t L r Fr Pr Fu Lo P G A O F.
  rewrite (density_agrees fm bexp fexp bpow fpow bfact ffact pi He Hp Hc fu to r Fr fused t L Fu Lo P G m F).
  apply (density_near u eta fmt rnd (r64 fm) (u_eighth fm) lo kp kf fpow ffact (value pi) (lo_small fm) (fm_normal fm) Ep Ef Epi Hk v z fexp Ee); try assumption.
  - apply shells_fmt.
  - rewrite map_length. exact O.
Qed.
Lemma derivative_value : forall bexp fexp bpow fpow bfact ffact (pi tiny : number fm), exponential bexp fexp -> powers bpow fpow -> about_pi pi -> threshold tiny ->
  forall kp kf v z, ipow_error u lo kp fpow -> fact_error u kf ffact -> Rabs (value pi - PI) <= u * PI -> 1 / 2 <= (1 - u) ^ (2 * kp + kf + 4) -> exp_error v z fexp ->
  forall fu to fused t L r, finite r -> value tiny <= value r -> fusable fused t -> lone fused t = false -> Forall (proper bfact ffact) L -> good_sums fu to L ->
  atom_ok fmt lo to (value r) (map worth L) -> orders (length L) t ->
  finite (b_derivative bexp bpow bfact pi tiny fu to fused t L r) ->
  Rabs (value (b_derivative bexp bpow bfact pi tiny fu to fused t L r) - drho (map worth L) (value r)) <= drho_bound u eta v z kp kf to t (map worth L) (value r).
Proof.
  intros bexp fexp bpow fpow bfact ffact pi tiny He Hp Hc Ht kp kf v z Ep Ef Epi Hk Ee fu to fused t L r Fr Pr Fu Lo P G A O F.
  rewrite (derivative_agrees fm bexp fexp bpow fpow bfact ffact pi tiny He Hp Hc Ht fu to r Fr fused t L Fu Lo P G F).
  apply (derivative_near u eta fmt rnd (r64 fm) (u_eighth fm) lo kp kf fpow ffact (value pi) (value tiny) (lo_small fm) (fm_normal fm) Ep Ef Epi Hk v z fexp Ee); try assumption.
  - destruct Ht. lra.
  - rewrite map_length. exact O.
Qed.
Lemma kinetic_value : forall bexp fexp bpow fpow bfact ffact (pi tiny : number fm), exponential bexp fexp -> powers bpow fpow -> about_pi pi -> threshold tiny ->
  forall kp kf v z, ipow_error u lo kp fpow -> fact_error u kf ffact -> Rabs (value pi - PI) <= u * PI -> 1 / 2 <= (1 - u) ^ (2 * kp + kf + 4) -> exp_error v z fexp ->
  forall fu to fused t L r, moderate r -> value tiny <= value r -> lo <= value r ^ 2 -> fusable fused t -> lone fused t = false -> Forall (proper bfact ffact) L -> good_sums fu to L ->
  atom_ok fmt lo to (value r) (map worth L) -> orders (length L) t ->
  finite (b_kinetic bexp bpow bfact pi tiny fu to fused t L r) ->
  Rabs (value (b_kinetic bexp bpow bfact pi tiny fu to fused t L r) - tau dphi (map worth L) (value r)) <= tau_bound u eta v z kp kf to t (map worth L) (value r).
Proof.
  intros bexp fexp bpow fpow bfact ffact pi tiny He Hp Hc Ht kp kf v z Ep Ef Epi Hk Ee fu to fused t L r Mr Pr Lr Fu Lo P G A O F.
  rewrite (kinetic_agrees fm bexp fexp bpow fpow bfact ffact pi tiny He Hp Hc Ht fu to r (proj1 Mr) fused t L Fu Lo P G Mr F).
  apply (kinetic_near u eta fmt rnd (r64 fm) (u_eighth fm) lo kp kf fpow ffact (value pi) (value tiny) (lo_small fm) (fm_normal fm) Ep Ef Epi Hk v z fexp Ee); try assumption.
  - destruct Ht. lra.
  - rewrite map_length. exact O.
Qed.
Lemma density_sign : forall bexp fexp bpow fpow bfact ffact (pi tiny : number fm), exponential bexp fexp -> powers bpow fpow -> about_pi pi -> threshold tiny ->
  forall v z, Rabs (value pi - PI) <= u * PI -> exp_error v z fexp -> exp_at_most_1 fexp ->
  forall fu to fused t L r, finite r -> fusable fused t -> lone fused t = false -> Forall (proper bfact ffact) L -> good_sums fu to L ->
  Forall (fun s => 0 <= value (h_occ s)) L ->
  (forall m, finite (b_density bexp bpow bfact pi m fu to fused t L r) -> 0 <= value (b_density bexp bpow bfact pi m fu to fused t L r)) /\
  (moderate r -> finite (b_kinetic bexp bpow bfact pi tiny fu to fused t L r) -> 0 <= value (b_kinetic bexp bpow bfact pi tiny fu to fused t L r)).
Proof.
  intros bexp fexp bpow fpow bfact ffact pi tiny He Hp Hc Ht v z Epi Ee E1 fu to fused t L r Fr Fu Lo P G Po.
  assert (Po' : Forall (fun s => 0 <= s_occ s) (map worth L)) by (apply Forall_map; exact Po).
  destruct (signs u eta fmt rnd (r64 fm) (u_eighth fm) lo fpow ffact (value pi) (value tiny) (lo_small fm) (fm_normal fm) Epi v z fexp Ee E1 fu to fused t (map worth L) (value r) Po') as [D K].
  split.
  - intros m F. rewrite (density_agrees fm bexp fexp bpow fpow bfact ffact pi He Hp Hc fu to r Fr fused t L Fu Lo P G m F). apply D.
  - intros Mr F. rewrite (kinetic_agrees fm bexp fexp bpow fpow bfact ffact pi tiny He Hp Hc Ht fu to r Fr fused t L Fu Lo P G Mr F). exact K.
Qed.

(** *** A library that rounds correctly *)
Lemma ideal_powers : powers (ideal_ipow fm) (fun x n => rnd (x ^ n)).
Proof. intros x n _ F. exact (nearest_agrees fm _ F). Qed.
Lemma ideal_ipow_error : ipow_error u lo 1 (fun x n => rnd (x ^ n)).
Proof. exact (round_ipow u eta fmt rnd (r64 fm) (u_eighth fm) lo (fm_normal fm)). Qed.
Lemma ideal_fact_error : fact_error u 1 (fun n => rnd (INR (fact n))).
Proof. apply (round_fact u eta fmt rnd (r64 fm) (u_eighth fm) lo (fm_normal fm)). generalize (lo_small fm). lra. Qed.
Lemma ideal_exp1 : exp_at_most_1 (fun y => rnd (exp y)).
Proof. apply (round_exp1 u eta fmt rnd (r64 fm)). destruct (lit_int fm 1 eq_refl) as [_ <-]. apply value_fmt. Qed.
Lemma ideal_about : about_pi (ideal_pi fm).
Proof. destruct (pi_rep fm) as [[F V] B]. split; [exact F | rewrite V; exact B]. Qed.
Lemma fact_double : forall n, (n <= 15)%nat -> represents (ideal_fact fm n) (rnd (INR (fact n))).
Proof.
  intros n L. apply nearest_exact. assert (B : (1 <= fact n <= 15 ^ 15)%nat).
  { split; [apply lt_O_fact|]. apply Nat.le_trans with (fact 15); [apply fact_le, L|].
    assert (H : forall a, (fact a <= 15 ^ a)%nat \/ (15 < a)%nat).
    { induction a as [|a IH]; [left; apply le_n|]. destruct (Nat.le_gt_cases (S a) 15) as [Q|Q]; [|right; exact Q]. left.
      destruct IH as [IH|IH]; [|lia]. cbn [fact]. rewrite Nat.pow_succ_r'. change (fact a + a * fact a)%nat with (S a * fact a)%nat. apply Nat.mul_le_mono; assumption. }
    destruct (H 15%nat) as [Q|Q]; [exact Q | lia]. }
  assert (F := facts fm). unfold fits. apply Rle_lt_trans with (pow2 60); [|apply pow_lt_largest; lia].
  apply rnd_bound; [apply bpow_fmt; lia|]. rewrite Rabs_pos_eq by apply pos_INR.
  eapply Rle_trans; [apply le_INR, B|]. rewrite pow_INR. apply Rle_trans with (16 ^ 15); [apply pow_incr; simpl; lra|].
  right. rewrite <- (IZR_Zpower radix2 60) by discriminate. rewrite pow_IZR. reflexivity.
Qed.
End Format.
