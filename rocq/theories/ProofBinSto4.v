(** Derivatives of Slater densities and kinetic energy densities that do not overflow. *)
From Coq Require Import Reals List ZArith Bool Lia Lra Permutation.
From Flocq Require Import Core IEEE754.BinarySingleNaN.
From Verif Require Import SpecSlater SpecRnd SpecRnd3 SpecBin SpecBin64 SpecBinModel SpecBinSto ModelRnd ModelRnd3 ModelBin64 ModelBinModel ModelBinSto
  ProofRnd ProofBin64 ProofBin64b ProofBinModel ProofBinModel2 ProofBinSto ProofBinSto2.
From Coq Require Import List.
Import ListNotations.
Local Open Scope R_scope.

Section Format.
Variable fm : format.
Local Notation rnd := (near fm).
Local Notation pow2 := (Raux.bpow radix2).

Section Library.
Context (bexp : number fm -> number fm) (fexp : R -> R) (bpow : number fm -> nat -> number fm) (fpow : R -> nat -> R)
        (bfact : nat -> number fm) (ffact : nat -> R) (pi tiny : number fm).
Hypothesis Hd : damping bexp fexp.
Hypothesis Hp : powers bpow fpow.
Hypothesis Hc : about_pi pi.
Hypothesis Ht : threshold tiny.
Context (k j b q o w d : Z) (fu : subshell -> nat -> bool) (to : subshell -> order) (r : number fm).
Hypothesis Fr : finite r.
Hypothesis Pr : 0 <= value r.
Hypothesis Pk : (0 <= k)%Z.
Hypothesis Pj : (0 <= j)%Z.
Hypothesis Pb : (0 <= b)%Z.
Hypothesis Pq : (0 <= q <= 52)%Z.
Hypothesis Po : (0 <= o)%Z.
Hypothesis Pw : (0 <= w <= 52)%Z.
Hypothesis Pd : (0 <= d)%Z.
Let p := (k + j + b + q)%Z.

Lemma dphi_rep : forall s, (2 * p + d + o + w < top fm)%Z -> proper bfact ffact s -> fusable (fu (worth s)) (to (worth s)) -> lone (fu (worth s)) (to (worth s)) = false ->
  small (b_sto_norm bpow bfact) bpow k j b q o to r s -> steep (fun z n => b_dpref tiny z n r) d s ->
  represents (b_dphi bexp bpow bfact tiny fu to s r) (fl_dphi rnd fexp fpow ffact (value tiny) fu to (worth s) (value r)) /\
  Rabs (fl_dphi rnd fexp fpow ffact (value tiny) fu to (worth s) (value r)) <= pow2 (p + d).
Proof.
  intros s Room (_ & _ & P) Gu Gl (_ & _ & N & S) T. assert (Facts := facts fm). unfold b_dphi, fl_dphi. cbn [s_exp worth] in *. unfold p in *. unfold steep in T.
  assert (C := count_bound _ q (k + j + d + b) (proj1 Pq) N).
  assert (X : Forall2 represents (map (fun '(c, z, n) => b_dsto bexp bpow bfact tiny z n r) (h_exp s))
      (map (fun '(c, z, n) => fl_dsto rnd fexp fpow ffact (value tiny) z n (value r)) (map (fun '(c, z, n) => (value c, value z, n)) (h_exp s))) /\
    Forall2 represents (map (fun '(c, z, n) => c) (h_exp s)) (map (fun '(c, z, n) => c) (map (fun '(c, z, n) => (value c, value z, n)) (h_exp s))) /\
    Forall (fun x => Rabs x <= pow2 (k + j + d)) (map (fun '(c, z, n) => fl_dsto rnd fexp fpow ffact (value tiny) z n (value r)) (map (fun '(c, z, n) => (value c, value z, n)) (h_exp s))) /\
    Forall (fun x => Rabs x <= pow2 b) (map (fun '(c, z, n) => c) (map (fun '(c, z, n) => (value c, value z, n)) (h_exp s)))).
  { clear C N Gu Gl. revert P S T. generalize (h_exp s). induction l as [|[[c z] n] l IH]; intros P S T; cbn [map]; [repeat split; constructor|].
    apply Forall_cons_iff in P. destruct P as [(Fz & Ln & Rf) P']. apply Forall_cons_iff in S. destruct S as [(Fc & Bc & Pz & Fn & Bn & Fw & Bw) S'].
    apply Forall_cons_iff in T. destruct T as [(Fd & Bd) T'].
    destruct (IH P' S' T') as (I1 & I2 & I3 & I4).
    destruct (sto_rep fm bexp fexp bpow fpow bfact ffact Hd Hp z n r k j Fz Fr Pz Pr Rf Pk Pj) as [R1 B1]; try assumption; [lia|].
    assert (Vd := dpref_agrees fm tiny Ht z n r Fr Ln Fd). assert (Bd' := Bd). rewrite Vd in Bd'.
    destruct (mul_rep fm _ _ _ _ d (k + j) (conj Fd Vd) R1 Bd' B1) as [R2 B2]; [lia|]. replace (d + (k + j))%Z with (k + j + d)%Z in B2 by lia.
    split; [|split; [|split]]; constructor; try assumption. exact (self_rep fm c Fc). }
  destruct X as (X1 & X2 & X3 & X4).
  assert (L1 : (bottom fm <= k + j + d + b)%Z) by lia.
  assert (L2 : INR (length (leaves (to (worth s)))) * pow2 (k + j + d + b) < largest fm) by (eapply Rle_lt_trans; [exact C | apply pow_lt_largest; lia]).
  destruct (dot_rep fm _ _ _ _ _ _ (k + j + d) b Gu Gl L1 (count_digits fm _ q Pq N) L2 X1 X2 X3 X4) as [R1 B1].
  split; [exact R1 | eapply Rle_trans; [exact B1|]]. replace (k + j + b + q + d)%Z with (k + j + d + b + q)%Z by lia. exact C.
Qed.

(** Sums of products of numbers at most [2^a] with the occupations, over 4 pi. *)
Lemma occ_sum : forall a (g : bshell fm -> number fm) g' fused t L, (0 <= a)%Z -> (a + o + w < top fm)%Z ->
  fusable fused t -> lone fused t = false -> (Z.of_nat (length (leaves t)) <= 2 ^ w)%Z ->
  Forall (fun s => represents (g s) (g' (worth s)) /\ Rabs (g' (worth s)) <= pow2 a) L -> Forall (small (b_sto_norm bpow bfact) bpow k j b q o to r) L ->
  represents (b_dot fused t (map g L) (map h_occ L)) (fl_dot rnd fused t (map g' (map worth L)) (map s_occ (map worth L))) /\
  Rabs (fl_dot rnd fused t (map g' (map worth L)) (map s_occ (map worth L))) <= pow2 (a + o + w).
Proof.
  intros a g g' fused t L Pa Room Fu Lo N G S. assert (Facts := facts fm).
  assert (X : Forall2 represents (map g L) (map g' (map worth L)) /\ Forall2 represents (map h_occ L) (map s_occ (map worth L)) /\
    Forall (fun x => Rabs x <= pow2 a) (map g' (map worth L)) /\ Forall (fun x => Rabs x <= pow2 o) (map s_occ (map worth L))).
  { clear N. induction L as [|s L IH]; cbn [map]; [repeat split; constructor|].
    apply Forall_cons_iff in G. destruct G as [[R1 B1] G']. apply Forall_cons_iff in S. destruct S as [(Fo & Bo & _) S'].
    destruct (IH G' S') as (I1 & I2 & I3 & I4). split; [|split; [|split]]; constructor; try assumption. exact (self_rep fm _ Fo). }
  destruct X as (X1 & X2 & X3 & X4). assert (C := count_bound _ w (a + o) (proj1 Pw) N).
  assert (L1 : (bottom fm <= a + o)%Z) by lia.
  assert (L2 : INR (length (leaves t)) * pow2 (a + o) < largest fm) by (eapply Rle_lt_trans; [exact C | apply pow_lt_largest; lia]).
  destruct (dot_rep fm _ _ _ _ _ _ a o Fu Lo L1 (count_digits fm _ w Pw N) L2 X1 X2 X3 X4) as [R1 B1].
  split; [exact R1 | exact (Rle_trans _ _ _ B1 C)].
Qed.
(** Division by a number that is at least 1. *)
Lemma div_small : forall (x y : number fm) a b' e, represents x a -> represents y b' -> 1 <= b' -> (bottom fm <= e < top fm)%Z -> Rabs a <= pow2 e ->
  represents (b_div x y) (rnd (a / b')) /\ Rabs (rnd (a / b')) <= pow2 e.
Proof.
  intros x y a b' e Rx Ry L E B. assert (D : Rabs (rnd (a / b')) <= pow2 e).
  { apply rnd_bound; [apply bpow_fmt; lia|]. eapply Rle_trans; [|exact B]. unfold Rdiv. rewrite Rabs_mult, Rabs_inv, (Rabs_pos_eq b') by lra.
    rewrite <- (Rmult_1_r (Rabs a)) at 2. apply Rmult_le_compat_l; [apply Rabs_pos|]. rewrite <- Rinv_1. apply Rinv_le_contravar; lra. }
  split; [|exact D]. apply div_fits; [exact Rx | exact Ry | lra|]. unfold fits. eapply Rle_lt_trans; [exact D | apply pow_lt_largest; lia].
Qed.
Lemma four_pi_1 : 1 <= rnd (4 * value pi).
Proof.
  destruct Hc as [_ Bp]. assert (E : rnd 1 = 1) by (apply (rd_id _ _ _ _ (r64 fm)); destruct (lit_int fm 1 eq_refl) as [_ <-]; apply value_fmt).
  rewrite <- E at 1. apply (rd_mono _ _ _ _ (r64 fm)). lra.
Qed.

Lemma derivative_rep : forall fused t L, (2 * p + d + 1 + o + w < top fm)%Z -> fusable fused t -> lone fused t = false -> (Z.of_nat (length (leaves t)) <= 2 ^ w)%Z ->
  Forall (proper bfact ffact) L -> good_sums fu to L -> Forall (small (b_sto_norm bpow bfact) bpow k j b q o to r) L -> Forall (steep (fun z n => b_dpref tiny z n r) d) L ->
  represents (b_derivative bexp bpow bfact pi tiny fu to fused t L r)
    (fl_derivative rnd fexp fpow ffact (value pi) (value tiny) fu to fused t (map worth L) (value r)).
Proof.
  intros fused t L Room Fu Lo N P G S T. assert (Facts := facts fm). assert (Pp : (0 <= p)%Z) by (unfold p; lia).
  unfold b_derivative, fl_derivative.
  destruct (occ_sum (1 + (p + (p + d))) (fun s => b_mul (b_lit 2 0) (b_mul (b_phi bexp bpow bfact fu to s r) (b_dphi bexp bpow bfact tiny fu to s r)))
    (fun s => rnd (2 * rnd (fl_phi rnd fexp fpow ffact fu to s (value r) * fl_dphi rnd fexp fpow ffact (value tiny) fu to s (value r)))) fused t L) as [R1 B1]; try assumption; try lia.
  - apply Forall_forall. intros s I. unfold good_sums in G. rewrite Forall_forall in P, G, S, T. destruct (G s I) as [Gu Gl].
    destruct (phi_rep fm bexp fexp bpow fpow bfact ffact Hd Hp k j b q o w fu to r Fr Pr Pk Pj Pb Pq Po Pw) with (s := s) as [R1 B1]; auto; [fold p; lia|]. fold p in B1.
    destruct (dphi_rep s) as [R2 B2]; auto; [lia|].
    destruct (mul_rep fm _ _ _ _ p (p + d) R1 R2 B1 B2) as [R3 B3]; [lia|].
    apply (mul_rep fm _ _ _ _ 1 (p + (p + d)) (two_rep fm) R3); [change (pow2 1) with 2; rewrite Rabs_pos_eq; lra | exact B3 | lia].
  - apply (div_small _ _ _ _ (1 + (p + (p + d)) + o + w) R1 (four_pi fm pi Hc) four_pi_1); [lia | exact B1].
Qed.

Lemma angular_small : forall l, (l <= 3)%nat -> represents (b_lit (fm := fm) (Z.of_nat l * (Z.of_nat l + 1)) 0) (INR l * (INR l + 1)) /\ Rabs (INR l * (INR l + 1)) <= pow2 4.
Proof.
  intros l L. split.
  - rewrite INR_IZR_INZ, <- plus_IZR, <- mult_IZR. apply lit_int. destruct l as [|[|[|[|l]]]]; try reflexivity. lia.
  - change (pow2 4) with 16. assert (Q : 0 <= INR l <= 3) by (split; [apply pos_INR | change 3 with (IZR (Z.of_nat 3)); rewrite <- INR_IZR_INZ; apply le_INR, L]).
    rewrite Rabs_pos_eq; nra.
Qed.
Lemma kinetic_rep : forall e fused t L, (0 <= e)%Z -> moderate r -> (value tiny <= value r -> pow2 (- e) <= rnd (value r * value r)) ->
  (2 * (p + d) + e + 5 + o + w < top fm)%Z -> fusable fused t -> lone fused t = false -> (Z.of_nat (length (leaves t)) <= 2 ^ w)%Z ->
  Forall (proper bfact ffact) L -> good_sums fu to L -> Forall (small (b_sto_norm bpow bfact) bpow k j b q o to r) L -> Forall (steep (fun z n => b_dpref tiny z n r) d) L ->
  represents (b_kinetic bexp bpow bfact pi tiny fu to fused t L r)
    (fl_kinetic rnd fexp fpow ffact (value pi) (value tiny) fu to fused t (map worth L) (value r)).
Proof.
  intros e fused t L Pe Mr Er Room Fu Lo N P G S T. assert (Facts := facts fm). assert (Pp : (0 <= p)%Z) by (unfold p; lia).
  set (M := (2 * (p + d) + e + 4)%Z). unfold b_kinetic, fl_kinetic.
  destruct (occ_sum (M + 1) (fun s => b_kinetic_term bexp bpow bfact tiny fu to s r) (fun s => fl_kinetic_term rnd fexp fpow ffact (value tiny) fu to s (value r)) fused t L) as [R1 B1];
    try assumption; try (unfold M; lia).
  - apply Forall_forall. intros s I. unfold good_sums in G. rewrite Forall_forall in P, G, S, T. destruct (G s I) as [Gu Gl]. assert (Ps := P s I).
    destruct (phi_rep fm bexp fexp bpow fpow bfact ffact Hd Hp k j b q o w fu to r Fr Pr Pk Pj Pb Pq Po Pw) with (s := s) as [R1 B1]; auto; [fold p; lia|]. fold p in B1.
    destruct (dphi_rep s) as [R2 B2]; auto; [lia|].
    unfold b_kinetic_term, fl_kinetic_term. cbv zeta.
    set (f := fl_phi rnd fexp fpow ffact fu to (worth s) (value r)) in *. set (h := fl_dphi rnd fexp fpow ffact (value tiny) fu to (worth s) (value r)) in *.
    destruct (mul_rep fm _ _ _ _ _ _ R2 R2 B2 B2) as [R3 B3]; [lia|].
    assert (B3' : Rabs (rnd (h * h)) <= pow2 M) by (eapply Rle_trans; [exact B3 | apply bpow_le; unfold M; lia]).
    destruct (mul_rep fm _ _ _ _ _ _ R1 R1 B1 B1) as [R4 B4]; [lia|].
    assert (Gg : forall (x : number fm) y, represents x y -> Rabs y <= pow2 M -> represents (b_add (b_mul (b_dphi bexp bpow bfact tiny fu to s r) (b_dphi bexp bpow bfact tiny fu to s r)) x) (rnd (rnd (h * h) + y)) /\
        Rabs (rnd (rnd (h * h) + y)) <= pow2 (M + 1)).
    { intros x y Rx By. assert (B5 : Rabs (rnd (rnd (h * h) + y)) <= pow2 (M + 1)).
      { apply rnd_bound; [apply bpow_fmt; unfold M; lia|]. rewrite <- double_pow. eapply Rle_trans; [apply Rabs_triang | lra]. }
      split; [|exact B5]. apply add_fits; [exact R3 | exact Rx|]. unfold fits. eapply Rle_lt_trans; [exact B5 | apply pow_lt_largest; unfold M; lia]. }
    assert (O := origin_spec fm tiny Ht r Fr). destruct (b_origin tiny r), (Rlt_dec (Rabs (value r)) (value tiny)) as [A|A].
    + apply Gg; [split; reflexivity | rewrite Rabs_R0; apply bpow_ge_0].
    + destruct (A (proj1 O eq_refl)).
    + discriminate (proj2 O A).
    + cbn [s_l worth]. destruct (angular_small (h_l s) (proj1 (proj2 Ps))) as [R5 B5].
      destruct (mul_rep fm _ _ _ _ 4 (p + p) R5 R4 B5 B4) as [R6 B6]; [lia|].
      assert (Q : pow2 (- e) <= rnd (value r * value r)) by (apply Er; rewrite (Rabs_pos_eq (value r) Pr) in A; lra).
      assert (P0 := bpow_gt_0 radix2 (- e)).
      assert (B7 : Rabs (rnd (rnd (INR (h_l s) * (INR (h_l s) + 1) * rnd (f * f)) / rnd (value r * value r))) <= pow2 M).
      { apply rnd_bound; [apply bpow_fmt; unfold M; lia|]. unfold Rdiv. rewrite Rabs_mult, Rabs_inv, (Rabs_pos_eq (rnd (value r * value r))) by lra.
        apply Rle_trans with (pow2 (4 + (p + p)) * pow2 e).
        - apply Rmult_le_compat; [apply Rabs_pos | left; apply Rinv_0_lt_compat; lra | exact B6|]. rewrite <- (Z.opp_involutive e), (bpow_opp radix2 (- e)). apply Rinv_le_contravar; assumption.
        - rewrite <- bpow_plus. apply bpow_le. unfold M. lia. }
      apply Gg; [|exact B7]. apply div_fits; [exact R6 | exact (square_rep fm r Mr) | lra|]. unfold fits. eapply Rle_lt_trans; [exact B7 | apply pow_lt_largest; unfold M; lia].
  - destruct (div_small _ _ _ _ (M + 1 + o + w) R1 (two_rep fm)) as [R2 B2]; [lra | unfold M; lia | exact B1|].
    apply (div_small _ _ _ _ (M + 1 + o + w) R2 (four_pi fm pi Hc) four_pi_1); [unfold M; lia | exact B2].
Qed.
End Library.
End Format.
