(** Property C120: Slater densities in floating-point formats with overflow, infinities and NaN. *)
From Coq Require Import Reals List ZArith Bool Lia Lra Permutation.
From Flocq Require Import Core IEEE754.BinarySingleNaN.
From Verif Require Import SpecSlater SpecRnd SpecRnd2 SpecRnd3 SpecBin SpecBin64 SpecBinModel SpecBinSto ModelRnd ModelRnd3 ModelBin64 ModelBinModel ModelBinSto
  ProofRnd ProofBin64 ProofBin64b ProofBinModel ProofBinModel2 ProofBinModel3 ProofBinModel4 ProofBinSto ProofBinSto2 ProofBinSto3 ProofBinSto4.
From Coq Require Import List.
Import ListNotations.
Local Open Scope R_scope.

(** One Slater function and its derivative: when they are finite they are those of the rounded program, also
    where the exponent [- z r] overflows. *)
Theorem C120_function : forall (fm : format) bexp fexp bpow fpow bfact ffact (tiny : number fm),
  exponential bexp fexp -> powers bpow fpow -> threshold tiny ->
  forall z n r, finite z -> finite r -> (Z.of_nat n < 2 ^ 53)%Z -> represents (bfact (2 * n)%nat) (ffact (2 * n)%nat) ->
  agrees (b_sto bexp bpow bfact z n r) (fl_sto (near fm) fexp fpow ffact (value z) n (value r)) /\
  agrees (b_dsto bexp bpow bfact tiny z n r) (fl_dsto (near fm) fexp fpow ffact (value tiny) (value z) n (value r)).
Proof.
  exact (fun fm bexp fexp bpow fpow bfact ffact tiny He Hp Ht z n r Fz Fr Ln Rf =>
    conj (sto_agrees fm bexp fexp bpow fpow bfact ffact He Hp z n r Fz Fr Rf)
         (dsto_agrees fm bexp fexp bpow fpow bfact ffact tiny He Hp Ht z n r Fz Fr Ln Rf)).
Qed.
Print Assumptions C120_function.

(** The weights of the orbitals in the valence and the core density, also where a difference of energies or its
    square overflows; they are finite for every finite energy and occupation. *)
Theorem C120_weights : forall (fm : format) bexp fexp, damping bexp fexp ->
  forall o m (h : number fm) s, (0 <= o < top fm)%Z -> finite h -> finite (h_en s) -> finite (h_occ s) -> Rabs (value (h_occ s)) <= Raux.bpow radix2 o ->
  represents (b_weight bexp m h s) (fl_weight (near fm) fexp m (value h) (worth s)) /\
  Rabs (fl_weight (near fm) fexp m (value h) (worth s)) <= Raux.bpow radix2 o.
Proof. exact weight_rep. Qed.
Print Assumptions C120_weights.

(** The total, the valence and the core density: a finite result is that of the rounded program. *)
Theorem C120_density : forall (fm : format) bexp fexp bpow fpow bfact ffact (pi : number fm),
  exponential bexp fexp -> powers bpow fpow -> about_pi pi ->
  forall fu to r, finite r -> forall fused t L, fusable fused t -> lone fused t = false ->
  Forall (proper bfact ffact) L -> good_sums fu to L ->
  forall m, agrees (b_density bexp bpow bfact pi m fu to fused t L r)
    (fl_density (near fm) fexp fpow ffact (value pi) m fu to fused t (map worth L) (value r)).
Proof. exact density_agrees. Qed.
Print Assumptions C120_density.

(** The same for the derivative of the density and for the kinetic energy density, the latter where the square of
    the distance does not overflow. *)
Theorem C120_slopes : forall (fm : format) bexp fexp bpow fpow bfact ffact (pi tiny : number fm),
  exponential bexp fexp -> powers bpow fpow -> about_pi pi -> threshold tiny ->
  forall fu to r, finite r -> forall fused t L, fusable fused t -> lone fused t = false ->
  Forall (proper bfact ffact) L -> good_sums fu to L ->
  agrees (b_derivative bexp bpow bfact pi tiny fu to fused t L r)
    (fl_derivative (near fm) fexp fpow ffact (value pi) (value tiny) fu to fused t (map worth L) (value r)) /\
  (moderate r -> agrees (b_kinetic bexp bpow bfact pi tiny fu to fused t L r)
    (fl_kinetic (near fm) fexp fpow ffact (value pi) (value tiny) fu to fused t (map worth L) (value r))).
Proof.
  exact (fun fm bexp fexp bpow fpow bfact ffact pi tiny He Hp Hc Ht fu to r Fr fused t L Fu Lo P G =>
    conj (derivative_agrees fm bexp fexp bpow fpow bfact ffact pi tiny He Hp Hc Ht fu to r Fr fused t L Fu Lo P G)
         (kinetic_agrees fm bexp fexp bpow fpow bfact ffact pi tiny He Hp Hc Ht fu to r Fr fused t L Fu Lo P G)).
Qed.
Print Assumptions C120_slopes.

(** A density is finite when normalization constants, powers of the distance, coefficients and occupations are at most
    [2^k], [2^j], [2^b] and [2^o], at most [2^q] functions make an orbital and [2^w] orbitals the density, and
    [2 (k + j + b + q) + o + w] is below the overflow exponent. *)
Theorem C120_no_overflow : forall (fm : format) bexp fexp bpow fpow bfact ffact (pi : number fm),
  damping bexp fexp -> powers bpow fpow -> about_pi pi ->
  forall k j b q o w fu to r, finite r -> 0 <= value r -> (0 <= k)%Z -> (0 <= j)%Z -> (0 <= b)%Z -> (0 <= q <= 52)%Z -> (0 <= o)%Z -> (0 <= w <= 52)%Z ->
  (2 * (k + j + b + q) + o + w < top fm)%Z ->
  forall m fused t L, fusable fused t -> lone fused t = false -> (Z.of_nat (length (leaves t)) <= 2 ^ w)%Z ->
  Forall (proper bfact ffact) L -> good_sums fu to L -> Forall (small (b_sto_norm bpow bfact) bpow k j b q o to r) L ->
  represents (b_density bexp bpow bfact pi m fu to fused t L r)
    (fl_density (near fm) fexp fpow ffact (value pi) m fu to fused t (map worth L) (value r)).
Proof. exact density_rep. Qed.
Print Assumptions C120_no_overflow.

(** The same for the derivative and the kinetic energy density, when the factors of the derivatives are at most
    [2^d] and, for the latter, the square of the distance is at least [2^-e]. *)
Theorem C120_no_overflow_slopes : forall (fm : format) bexp fexp bpow fpow bfact ffact (pi tiny : number fm),
  damping bexp fexp -> powers bpow fpow -> about_pi pi -> threshold tiny ->
  forall k j b q o w d fu to r, finite r -> 0 <= value r -> (0 <= k)%Z -> (0 <= j)%Z -> (0 <= b)%Z -> (0 <= q <= 52)%Z -> (0 <= o)%Z -> (0 <= w <= 52)%Z -> (0 <= d)%Z ->
  forall fused t L, fusable fused t -> lone fused t = false -> (Z.of_nat (length (leaves t)) <= 2 ^ w)%Z ->
  Forall (proper bfact ffact) L -> good_sums fu to L -> Forall (small (b_sto_norm bpow bfact) bpow k j b q o to r) L -> Forall (steep (fun z n => b_dpref tiny z n r) d) L ->
  ((2 * (k + j + b + q) + d + 1 + o + w < top fm)%Z ->
   represents (b_derivative bexp bpow bfact pi tiny fu to fused t L r)
     (fl_derivative (near fm) fexp fpow ffact (value pi) (value tiny) fu to fused t (map worth L) (value r))) /\
  (forall e, (0 <= e)%Z -> moderate r -> (value tiny <= value r -> Raux.bpow radix2 (- e) <= near fm (value r * value r)) ->
   (2 * (k + j + b + q + d) + e + 5 + o + w < top fm)%Z ->
   represents (b_kinetic bexp bpow bfact pi tiny fu to fused t L r)
     (fl_kinetic (near fm) fexp fpow ffact (value pi) (value tiny) fu to fused t (map worth L) (value r))).
Proof.
  exact (fun fm bexp fexp bpow fpow bfact ffact pi tiny Hd Hp Hc Ht k j b q o w d fu to r Fr Pr Pk Pj Pb Pq Po Pw Pd fused t L Fu Lo N P G S T => conj
    (fun Room => derivative_rep fm bexp fexp bpow fpow bfact ffact pi tiny Hd Hp Hc Ht k j b q o w d fu to r Fr Pr Pk Pj Pb Pq Po Pw Pd fused t L Room Fu Lo N P G S T)
    (fun e Pe Mr Er Room => kinetic_rep fm bexp fexp bpow fpow bfact ffact pi tiny Hd Hp Hc Ht k j b q o w d fu to r Fr Pr Pk Pj Pb Pq Po Pw Pd e fused t L Pe Mr Er Room Fu Lo N P G S T)).
Qed.
Print Assumptions C120_no_overflow_slopes.

(** A finite density is near the exact one, *)
Theorem C120_value : forall (fm : format) bexp fexp bpow fpow bfact ffact (pi : number fm),
  exponential bexp fexp -> powers bpow fpow -> about_pi pi ->
  let u := Raux.bpow radix2 (- digits fm) in
  let eta := Raux.bpow radix2 (bottom fm - 1) in
  let lo := Raux.bpow radix2 (bottom fm + digits fm - 1) in
  forall kp kf v z, ipow_error u lo kp fpow -> fact_error u kf ffact -> Rabs (value pi - PI) <= u * PI -> 1 / 2 <= (1 - u) ^ (2 * kp + kf + 4) -> exp_error v z fexp ->
  forall m fu to fused t L r, finite r -> 0 <= value r -> fusable fused t -> lone fused t = false -> Forall (proper bfact ffact) L -> good_sums fu to L ->
  atom_ok (bin_fmt (bottom fm) (digits fm)) lo to (value r) (map worth L) -> orders (length L) t ->
  finite (b_density bexp bpow bfact pi m fu to fused t L r) ->
  Rabs (value (b_density bexp bpow bfact pi m fu to fused t L r) - rho_w (weight m (homo (map worth L))) (map worth L) (value r)) <=
    rho_bound u eta v z kp kf m to t (map worth L) (value r).
Proof. exact density_value. Qed.
Print Assumptions C120_value.

(** and so are a finite derivative and a finite kinetic energy density. *)
Theorem C120_slope_values : forall (fm : format) bexp fexp bpow fpow bfact ffact (pi tiny : number fm),
  exponential bexp fexp -> powers bpow fpow -> about_pi pi -> threshold tiny ->
  let u := Raux.bpow radix2 (- digits fm) in
  let eta := Raux.bpow radix2 (bottom fm - 1) in
  let lo := Raux.bpow radix2 (bottom fm + digits fm - 1) in
  forall kp kf v z, ipow_error u lo kp fpow -> fact_error u kf ffact -> Rabs (value pi - PI) <= u * PI -> 1 / 2 <= (1 - u) ^ (2 * kp + kf + 4) -> exp_error v z fexp ->
  forall fu to fused t L r, moderate r -> value tiny <= value r -> fusable fused t -> lone fused t = false -> Forall (proper bfact ffact) L -> good_sums fu to L ->
  atom_ok (bin_fmt (bottom fm) (digits fm)) lo to (value r) (map worth L) -> orders (length L) t ->
  (finite (b_derivative bexp bpow bfact pi tiny fu to fused t L r) ->
   Rabs (value (b_derivative bexp bpow bfact pi tiny fu to fused t L r) - drho (map worth L) (value r)) <= drho_bound u eta v z kp kf to t (map worth L) (value r)) /\
  (lo <= value r ^ 2 -> finite (b_kinetic bexp bpow bfact pi tiny fu to fused t L r) ->
   Rabs (value (b_kinetic bexp bpow bfact pi tiny fu to fused t L r) - tau dphi (map worth L) (value r)) <= tau_bound u eta v z kp kf to t (map worth L) (value r)).
Proof.
  exact (fun fm bexp fexp bpow fpow bfact ffact pi tiny He Hp Hc Ht kp kf v z Ep Ef Epi Hk Ee fu to fused t L r Mr Pr Fu Lo P G A O =>
    conj (derivative_value fm bexp fexp bpow fpow bfact ffact pi tiny He Hp Hc Ht kp kf v z Ep Ef Epi Hk Ee fu to fused t L r (proj1 Mr) Pr Fu Lo P G A O)
         (fun Lr => kinetic_value fm bexp fexp bpow fpow bfact ffact pi tiny He Hp Hc Ht kp kf v z Ep Ef Epi Hk Ee fu to fused t L r Mr Pr Lr Fu Lo P G A O)).
Qed.
Print Assumptions C120_slope_values.

(** No finite density or kinetic energy density is negative. *)
Theorem C120_sign : forall (fm : format) bexp fexp bpow fpow bfact ffact (pi tiny : number fm),
  exponential bexp fexp -> powers bpow fpow -> about_pi pi -> threshold tiny ->
  forall v z, Rabs (value pi - PI) <= Raux.bpow radix2 (- digits fm) * PI -> exp_error v z fexp -> exp_at_most_1 fexp ->
  forall fu to fused t L r, finite r -> fusable fused t -> lone fused t = false -> Forall (proper bfact ffact) L -> good_sums fu to L ->
  Forall (fun s => 0 <= value (h_occ s)) L ->
  (forall m, finite (b_density bexp bpow bfact pi m fu to fused t L r) -> 0 <= value (b_density bexp bpow bfact pi m fu to fused t L r)) /\
  (moderate r -> finite (b_kinetic bexp bpow bfact pi tiny fu to fused t L r) -> 0 <= value (b_kinetic bexp bpow bfact pi tiny fu to fused t L r)).
Proof. exact density_sign. Qed.
Print Assumptions C120_sign.

(** A density is finite only where every normalization constant and every power of the distance is: far from the
    nucleus, where [r^(n-1)] overflows, the density is infinite or NaN and not zero. *)
Theorem C120_far : forall (fm : format) bexp bpow bfact (pi : number fm) m fu to fused t L r, about_pi pi ->
  Forall (fun s => orders (length (h_exp s)) (to (worth s))) L -> orders (length L) t ->
  finite (b_density bexp bpow bfact pi m fu to fused t L r) ->
  Forall (fun s => finite (h_occ s) /\
    Forall (fun '(c, z, n) => finite c /\ finite (b_sto_norm bpow bfact z n) /\ finite (bpow r (n - 1)%nat)) (h_exp s)) L.
Proof. exact finite_parts. Qed.
Print Assumptions C120_far.

(** Below the threshold the derivatives of finite Slater functions are zero. *)
Theorem C120_origin : forall (fm : format) bexp bpow bfact (tiny : number fm), threshold tiny ->
  forall z n r, finite r -> Rabs (value r) < value tiny -> finite (b_sto bexp bpow bfact z n r) ->
  represents (b_dsto bexp bpow bfact tiny z n r) 0.
Proof. exact origin_zero. Qed.
Print Assumptions C120_origin.

(** Powers and factorials that are correctly rounded meet what is asked of the library. *)
Theorem C120_library : forall fm : format,
  let u := Raux.bpow radix2 (- digits fm) in
  let lo := Raux.bpow radix2 (bottom fm + digits fm - 1) in
  powers (ideal_ipow fm) (fun x n => near fm (x ^ n)) /\ about_pi (ideal_pi fm) /\
  (forall n, (n <= 15)%nat -> represents (ideal_fact fm n) (near fm (INR (fact n)))) /\
  ipow_error u lo 1 (fun x n => near fm (x ^ n)) /\ fact_error u 1 (fun n => near fm (INR (fact n))) /\
  exp_at_most_1 (fun y => near fm (exp y)).
Proof.
  exact (fun fm => conj (ideal_powers fm) (conj (ideal_about fm) (conj (fact_double fm) (conj (ideal_ipow_error fm)
    (conj (ideal_fact_error fm) (ideal_exp1 fm)))))).
Qed.
Print Assumptions C120_library.

(** ** Examples *)
Local Notation lit := (@ModelBin64.b_lit binary64).
Local Notation double := (number binary64).
Definition one : double := lit 1 0.
Definition two : double := lit 2 0.
Definition ten : double := nearest binary64 (/ 10 ^ 10).
Lemma one_rep : represents one 1. Proof. exact (lit_int binary64 1 eq_refl). Qed.
Lemma two_value : represents two 2. Proof. exact (lit_int binary64 2 eq_refl). Qed.
Lemma ten_threshold : threshold ten /\ value ten <= 1.
Proof.
  assert (L : Raux.bpow radix2 (-34) <= / 10 ^ 10 <= 1).
  { split; [|rewrite <- Rinv_1; apply Rinv_le_contravar; [lra | apply pow_R1_Rle; lra]].
    change (-34)%Z with (- (34))%Z. rewrite bpow_opp. apply Rinv_le_contravar; [apply pow_lt; lra|].
    rewrite <- (IZR_Zpower radix2 34) by discriminate. rewrite pow_IZR. apply IZR_le. vm_compute. discriminate. }
  assert (B : Raux.bpow radix2 (-34) <= near binary64 (/ 10 ^ 10) <= 1).
  { split.
    - rewrite <- (rd_id _ _ _ _ (r64 binary64) _ (bpow_fmt binary64 (-34) ltac:(unfold bottom; simpl; lia))) at 1. apply (rd_mono _ _ _ _ (r64 binary64)), L.
    - apply (rnd_le_int binary64 1); [reflexivity | apply L]. }
  assert (P := bpow_gt_0 radix2 (-34)).
  assert (R : represents ten (near binary64 (/ 10 ^ 10))) by (apply (nearest_exact binary64), (int_fits binary64 1); [lia | lra]).
  destruct R as [F V]. split; [split; [exact F|]|]; rewrite V; lra.
Qed.

(** Two subshells, the first with two functions, the second of p-type. *)
Definition shells : list (bshell binary64) :=
  [mkShell two (lit (-2) 0) 0 [(one, one, 1%nat); (lit (-1) (-1), one, 2%nat)]; mkShell one (lit (-1) 0) 1 [(two, one, 2%nat)]].
Definition pair : order := Plus (At 0) (At 1).
Definition sums (s : subshell) : order := if (s_l s =? 0)%nat then pair else At 0.
Definition fuse (s : subshell) (i : nat) : bool := ((s_l s =? 0) && (i =? 1))%nat.
Definition none (i : nat) : bool := false.
Local Notation E := (ideal_exp binary64).
Local Notation P := (ideal_ipow binary64).
Local Notation F := (ideal_fact binary64).
Local Notation pi := (ideal_pi binary64).
Local Notation fP := (fun x n => near binary64 (x ^ n)).
Local Notation fF := (fun n => near binary64 (INR (fact n))).
Local Notation fE := (fun y => near binary64 (exp y)).
Lemma shells_good : good_sums fuse sums shells. Proof. repeat apply Forall_cons; try apply Forall_nil; repeat split. Qed.
Lemma fact_ok : forall n, (n <= 7)%nat -> represents (F (2 * n)%nat) (near binary64 (INR (fact (2 * n)))).
Proof. intros n L. apply (C120_library binary64). lia. Qed.
Lemma shells_proper : Forall (proper F fF) shells.
Proof.
  assert (O := proj1 one_rep).
  repeat apply Forall_cons; try apply Forall_nil; (split; [vm_compute; reflexivity|]); (split; [simpl; lia|]);
    repeat apply Forall_cons; try apply Forall_nil; (split; [exact O|]); (split; [reflexivity | apply fact_ok; lia]).
Qed.
Lemma power_ok : forall k, (k < 60)%nat -> represents (P two k) (Raux.bpow radix2 (Z.of_nat k)).
Proof.
  intros k L. assert (B : near binary64 (value two ^ k) = Raux.bpow radix2 (Z.of_nat k)).
  { rewrite (proj2 two_value), <- (IZR_Zpower radix2 (Z.of_nat k)) by lia. unfold near. rewrite pow_IZR. change (radix_val radix2) with 2%Z.
    apply (rd_id _ _ _ _ (r64 binary64)). change 2%Z with (radix_val radix2). rewrite IZR_Zpower by lia. apply (bpow_fmt binary64). unfold bottom. simpl. lia. }
  rewrite <- B. apply (nearest_exact binary64). rewrite B. unfold fits. rewrite Rabs_pos_eq by apply bpow_ge_0. apply (pow_lt_largest binary64). simpl. lia.
Qed.
Lemma one_ok : forall k, represents (P one k) 1.
Proof.
  intro k. assert (B : near binary64 (value one ^ k) = 1).
  { rewrite (proj2 one_rep), pow1. exact (rd_id _ _ _ _ (r64 binary64) 1 (bpow_fmt binary64 0 ltac:(unfold bottom; simpl; lia))). }
  rewrite <- B. apply (nearest_exact binary64). rewrite B. apply (int_fits binary64 1); [lia | lra].
Qed.
Lemma norm_ok : forall n, (n <= 7)%nat -> finite (b_sto_norm P F one n) /\ Rabs (value (b_sto_norm P F one n)) <= Raux.bpow radix2 (Z.of_nat n + 1).
Proof.
  intros n L. unfold b_sto_norm. replace (b_mul (lit 2 0) one) with two by (apply B2SF_inj; vm_compute; reflexivity).
  destruct (fact_ok n L) as [Ff Vf].
  assert (G : 1 <= value (F (2 * n)%nat)).
  { rewrite Vf. apply (rnd_int_le binary64 1); [reflexivity|]. change 1 with (INR 1). apply le_INR, lt_O_fact. }
  assert (Q : 0 <= 2 / value (F (2 * n)%nat) <= 2).
  { split; [apply Rmult_le_pos; [lra | left; apply Rinv_0_lt_compat; lra]|]. unfold Rdiv. rewrite <- (Rmult_1_r 2) at 2. apply Rmult_le_compat_l; [lra|]. rewrite <- Rinv_1. apply Rinv_le_contravar; lra. }
  assert (Q' : 0 <= near binary64 (2 / value (F (2 * n)%nat)) <= 2).
  { split; [apply (rnd_int_le binary64 0); [reflexivity | lra] | apply (rnd_le_int binary64 2); [reflexivity | lra]]. }
  assert (D : represents (b_div two (F (2 * n)%nat)) (near binary64 (2 / value (F (2 * n)%nat)))).
  { apply div_fits; [exact two_value | split; [exact Ff | reflexivity] | lra | apply (int_fits binary64 2); [lia | lra]]. }
  assert (S : represents (b_sqrt (b_div two (F (2 * n)%nat))) (near binary64 (sqrt (near binary64 (2 / value (F (2 * n)%nat)))))).
  { apply sqrt_rep; [exact D | apply Q']. }
  assert (B : 0 <= near binary64 (sqrt (near binary64 (2 / value (F (2 * n)%nat)))) <= 2).
  { assert (S0 := sqrt_pos (near binary64 (2 / value (F (2 * n)%nat)))).
    assert (S2 : sqrt (near binary64 (2 / value (F (2 * n)%nat))) <= 2).
    { apply Rle_trans with (sqrt (2 * 2)); [apply sqrt_le_1_alt; lra | rewrite sqrt_square; lra]. }
    split; [apply (rnd_int_le binary64 0); [reflexivity | lra] | apply (rnd_le_int binary64 2); [reflexivity | lra]]. }
  destruct (mul_rep binary64 _ _ _ _ (Z.of_nat n) 1 (power_ok n ltac:(lia)) S) as [[Fm Vm] Bm].
  - rewrite Rabs_pos_eq by apply bpow_ge_0. apply Rle_refl.
  - change (Raux.bpow radix2 1) with 2. rewrite Rabs_pos_eq; lra.
  - unfold bottom. simpl. lia.
  - split; [exact Fm | rewrite Vm; exact Bm].
Qed.
Lemma shells_small : Forall (small (b_sto_norm P F) P 3 0 1 1 1 sums one) shells.
Proof.
  assert (E3 : Raux.bpow radix2 3 = 8) by reflexivity. assert (E1 : Raux.bpow radix2 1 = 2) by reflexivity. assert (E0 : Raux.bpow radix2 0 = 1) by reflexivity.
  assert (H : represents (lit (-1) (-1)) (-1 / 2)) by exact (half_rep binary64 (-1) eq_refl).
  assert (K : forall (c : double) n, finite c -> Rabs (value c) <= 2 -> (n <= 2)%nat -> finite c /\ Rabs (value c) <= Raux.bpow radix2 1 /\ 0 <= value one /\
    finite (b_sto_norm P F one n) /\ Rabs (value (b_sto_norm P F one n)) <= Raux.bpow radix2 3 /\ finite (P one (n - 1)%nat) /\ Rabs (value (P one (n - 1)%nat)) <= Raux.bpow radix2 0).
  { intros c n Fc Bc L. destruct (norm_ok n) as [Fn Bn]; [lia|]. destruct (one_ok (n - 1)) as [Fo Vo].
    split; [exact Fc|]. split; [rewrite E1; exact Bc|]. split; [rewrite (proj2 one_rep); lra|]. split; [exact Fn|].
    split; [eapply Rle_trans; [exact Bn | apply bpow_le; lia]|]. split; [exact Fo | rewrite Vo, E0, Rabs_R1; lra]. }
  destruct one_rep as [F1 V1]. destruct two_value as [F2 V2]. destruct H as [Fh Vh].
  repeat apply Forall_cons; try apply Forall_nil.
  - split; [exact F2|]. split; [cbn [h_occ]; rewrite V2, E1, Rabs_pos_eq; lra|]. split; [simpl; lia|].
    repeat apply Forall_cons; try apply Forall_nil; apply K; try assumption; try lia; [rewrite V1, Rabs_R1; lra | rewrite Vh, Rabs_left; lra].
  - split; [exact F1|]. split; [cbn [h_occ]; rewrite V1, E1, Rabs_R1; lra|]. split; [simpl; lia|].
    repeat apply Forall_cons; try apply Forall_nil; apply K; try assumption; try lia. rewrite V2, Rabs_pos_eq; lra.
Qed.

Example C120_no_overflow_example : forall m,
  represents (b_density E P F pi m fuse sums none pair shells one)
    (fl_density (near binary64) fE fP fF (value pi) m fuse sums none pair (map worth shells) 1).
Proof.
  intro m. destruct (C120_library binary64) as (Hp & Hc & _). rewrite <- (proj2 one_rep).
  apply (C120_no_overflow binary64 E fE P fP F fF pi (ideal_damping binary64) Hp Hc 3 0 1 1 1 1); try lia; try reflexivity;
    first [exact shells_proper | exact shells_good | exact shells_small | exact (Rlt_le _ _ (eq_ind_r (Rlt 0) Rlt_0_1 (proj2 one_rep))) | simpl; lia | repeat split].
Qed.
Example C120_density_example : forall m r, finite r ->
  agrees (b_density E P F pi m fuse sums none pair shells r) (fl_density (near binary64) fE fP fF (value pi) m fuse sums none pair (map worth shells) (value r)).
Proof.
  intros m r Fr. destruct (C120_library binary64) as (Hp & Hc & _).
  apply (C120_density binary64 E fE P fP F fF pi (proj1 (ideal_damping binary64)) Hp Hc fuse sums r Fr none pair shells); [repeat split | reflexivity | exact shells_proper | exact shells_good].
Qed.
Example C120_slopes_example : forall r, finite r ->
  agrees (b_derivative E P F pi ten fuse sums none pair shells r)
    (fl_derivative (near binary64) fE fP fF (value pi) (value ten) fuse sums none pair (map worth shells) (value r)).
Proof.
  intros r Fr. destruct (C120_library binary64) as (Hp & Hc & _).
  apply (C120_slopes binary64 E fE P fP F fF pi ten (proj1 (ideal_damping binary64)) Hp Hc (proj1 ten_threshold) fuse sums r Fr none pair shells);
    [repeat split | reflexivity | exact shells_proper | exact shells_good].
Qed.
(** The exponent -2^1000 * 2^1000 overflows: the function is zero, not NaN. *)
Example C120_function_example :
  agrees (b_sto E P F (lit 1 1000) 2 (lit 1 1000)) (fl_sto (near binary64) fE fP fF (value (lit 1 1000)) 2 (value (lit 1 1000))) /\
  E (b_mul (Bopp (lit 1 1000)) (lit 1 1000)) = b_zero.
Proof.
  destruct (C120_library binary64) as (Hp & _). split.
  - apply (C120_function binary64 E fE P fP F fF ten (proj1 (ideal_damping binary64)) Hp (proj1 ten_threshold)); [vm_compute; reflexivity.. | apply fact_ok; lia].
  - replace (b_mul (Bopp (lit 1 1000)) (lit 1 1000)) with (B754_infinity true : double); [reflexivity|]. apply B2SF_inj. vm_compute. reflexivity.
Qed.
(** Energies 2^1023 and -2^1023, whose difference overflows: the orbital counts in full in the core density. *)
Example C120_weights_example : let s := mkShell two (lit (-1) 1023) 0 [] in
  represents (b_weight E Valence (lit 1 1023) s) 0 /\ represents (b_weight E Core (lit 1 1023) s) 2.
Proof.
  cbv zeta. assert (Z : b_share E (lit 1 1023) (mkShell two (lit (-1) 1023) 0 []) = b_zero).
  { unfold b_share. cbv zeta. cbn [h_en]. replace (b_sub (lit (-1) 1023) (lit 1 1023)) with (B754_infinity true : double) by (apply B2SF_inj; vm_compute; reflexivity). reflexivity. }
  cbn [b_weight h_occ]. rewrite Z. split.
  - replace (b_mul two b_zero) with (b_zero : double) by (apply B2SF_inj; vm_compute; reflexivity). split; reflexivity.
  - replace (b_mul two (b_sub (lit 1 0) b_zero)) with two by (apply B2SF_inj; vm_compute; reflexivity). exact two_value.
Qed.
Example C120_sign_example : forall m, 0 <= value (b_density E P F pi m fuse sums none pair shells one).
Proof.
  intro m. destruct (C120_library binary64) as (Hp & Hc & _ & _ & _ & H1).
  apply (C120_sign binary64 E fE P fP F fF pi ten (proj1 (ideal_damping binary64)) Hp Hc (proj1 ten_threshold) _ _ (ideal_pi_error binary64) (ideal_exp_error binary64) H1
    fuse sums none pair shells one); [apply one_rep | repeat split | reflexivity | exact shells_proper | exact shells_good | | apply C120_no_overflow_example].
  repeat apply Forall_cons; try apply Forall_nil; cbn [h_occ]; rewrite ?(proj2 one_rep), ?(proj2 two_value); lra.
Qed.
(** At the distance 2^1023 the power of a function with n = 3 overflows; the density is not finite. *)
Example C120_far_example : forall m, ~ finite (b_density E P F pi m fuse sums none (At 0) [mkShell two one 1 [(one, one, 3%nat)]] (lit 1 1023)).
Proof.
  intros m Fd. apply (C120_far binary64 E P F pi) in Fd.
  - apply Forall_inv in Fd. destruct Fd as [_ Fd]. apply Forall_inv in Fd. destruct Fd as (_ & _ & Fd). revert Fd. apply (nearest_exact binary64).
    destruct (fmt_lit binary64 1023 ltac:(unfold bottom; simpl; lia)) as [_ V]. rewrite V. change (3 - 1)%nat with 2%nat.
    assert (E2 : Raux.bpow radix2 1023 ^ 2 = Raux.bpow radix2 2046) by (replace 2046%Z with (1023 + 1023)%Z by lia; rewrite bpow_plus; ring). rewrite E2.
    rewrite (rd_id _ _ _ _ (r64 binary64) _ (bpow_fmt binary64 2046 ltac:(unfold bottom; simpl; lia)) : near binary64 _ = _).
    rewrite Rabs_pos_eq by apply bpow_ge_0. apply bpow_le. simpl. lia.
  - apply (C120_library binary64).
  - repeat constructor.
  - apply Permutation_refl.
Qed.
Example C120_origin_example : represents (b_dsto E P F ten one 1 b_zero) 0.
Proof.
  destruct ten_threshold as [Ht L]. apply (C120_origin binary64 E P F ten Ht one 1 b_zero); [reflexivity | change (value (b_zero : double)) with 0; rewrite Rabs_R0; apply Ht|].
  destruct (sto_rep binary64 E fE P fP F fF (ideal_damping binary64) (proj1 (C120_library binary64)) one 1 b_zero 2 0) as [[Fs _] _]; try exact Fs; try lia; try reflexivity.
  - rewrite (proj2 one_rep). lra.
  - apply Rle_refl.
  - apply (fact_ok 1). lia.
  - apply (norm_ok 1). lia.
  - apply (norm_ok 1). lia.
  - change (P b_zero (1 - 1)%nat) with (P one 0). apply (one_ok 0).
  - change (P b_zero (1 - 1)%nat) with (P one 0). rewrite (proj2 (one_ok 0)), Rabs_R1. apply Rle_refl.
Qed.
Example C120_library_example : represents (ideal_fact extended 4) (near extended 24) /\ represents (ideal_fact binary64 14) (near binary64 (INR (fact 14))).
Proof. replace 24 with (INR (fact 4)) by (simpl; lra). split; apply C120_library; lia. Qed.

(** *** Accuracy *)
Lemma near_sto : forall n, (1 <= n <= 2)%nat -> sto_safe (Raux.bpow radix2 (bottom binary64 + digits binary64 - 1)) 1 n 1.
Proof.
  intros n L. assert (B : Raux.bpow radix2 (bottom binary64 + digits binary64 - 1) <= / 64).
  { change (/ 64) with (Raux.bpow radix2 (-6)). apply bpow_le. unfold bottom. simpl. lia. }
  assert (Hf : 1 / 16 <= 2 * 1 / INR (fact (2 * n))).
  { assert (n = 1 \/ n = 2)%nat as [-> | ->] by lia; [simpl; lra|]. replace (INR (fact (2 * 2))) with 24 by (simpl; lra). lra. }
  assert (P1 := pow_R1_Rle (2 * 1) n ltac:(lra)).
  assert (S1 : 1 / 4 <= sqrt (2 * 1 / INR (fact (2 * n)))).
  { replace (1 / 4) with (sqrt (1 / 16)); [apply sqrt_le_1_alt, Hf|]. replace (1 / 16) with ((1 / 4) * (1 / 4)) by lra. apply sqrt_square. lra. }
  assert (N1 : 1 / 4 <= (2 * 1) ^ n * sqrt (2 * 1 / INR (fact (2 * n)))) by (replace (1 / 4) with (1 * (1 / 4)) by lra; apply Rmult_le_compat; lra).
  unfold sto_safe, amp. rewrite pow1. split; [lra|]. split; [lra|]. split; [lra|]. right. lra.
Qed.
Lemma shells_ok : atom_ok (bin_fmt (bottom binary64) (digits binary64)) (Raux.bpow radix2 (bottom binary64 + digits binary64 - 1)) sums 1 (map worth shells).
Proof.
  assert (K : forall n, (1 <= n <= 2)%nat -> 0 <= value one /\ (1 <= n)%nat /\ bin_fmt (bottom binary64) (digits binary64) (2 * value one) /\
      sto_safe (Raux.bpow radix2 (bottom binary64 + digits binary64 - 1)) (value one) n 1).
  { intros n L. rewrite (proj2 one_rep). split; [lra|]. split; [lia|]. split; [|apply near_sto, L]. rewrite Rmult_1_r. destruct two_value as [_ <-]. apply value_fmt. }
  repeat apply Forall_cons; try apply Forall_nil.
  - split; [apply Permutation_refl|]. repeat apply Forall_cons; try apply Forall_nil; apply K; lia.
  - split; [apply Permutation_refl|]. repeat apply Forall_cons; try apply Forall_nil; apply K; lia.
Qed.
Lemma many_ok : 1 / 2 <= (1 - Raux.bpow radix2 (- digits binary64)) ^ (2 * 1 + 1 + 4).
Proof.
  assert (U0 : 0 <= Raux.bpow radix2 (- digits binary64)) by apply bpow_ge_0.
  assert (U : Raux.bpow radix2 (- digits binary64) <= 1 / 32) by (replace (1 / 32) with (Raux.bpow radix2 (- (5))) by (simpl; lra); apply bpow_le; simpl; lia).
  assert (T := pow_incr (31 / 32) (1 - Raux.bpow radix2 (- digits binary64)) 7 ltac:(lra)).
  change (2 * 1 + 1 + 4)%nat with 7%nat. assert (X : 1 / 2 <= (31 / 32) ^ 7) by (simpl; lra). lra.
Qed.
Example C120_value_example : forall m,
  let u := Raux.bpow radix2 (- digits binary64) in
  let eta := Raux.bpow radix2 (bottom binary64 - 1) in
  Rabs (value (b_density E P F pi m fuse sums none pair shells one) - rho_w (weight m (homo (map worth shells))) (map worth shells) 1) <=
    rho_bound u eta u eta 1 1 m sums pair (map worth shells) 1.
Proof.
  intros m u eta. destruct (C120_library binary64) as (Hp & Hc & _ & Ep & Ef & _). rewrite <- (proj2 one_rep).
  apply (C120_value binary64 E fE P fP F fF pi (proj1 (ideal_damping binary64)) Hp Hc 1 1 _ _ Ep Ef (ideal_pi_error binary64) many_ok (ideal_exp_error binary64));
    [apply one_rep | rewrite (proj2 one_rep); lra | repeat split | reflexivity | exact shells_proper | exact shells_good | | apply Permutation_refl | apply C120_no_overflow_example].
  rewrite (proj2 one_rep). exact shells_ok.
Qed.
Lemma one_moderate : moderate one.
Proof. split; [apply one_rep|]. rewrite (proj2 one_rep), Rmult_1_r. apply (int_fits binary64 1); [lia|]. rewrite (rd_id _ _ _ _ (r64 binary64) 1 (bpow_fmt binary64 0 ltac:(unfold bottom; simpl; lia)) : near binary64 1 = 1). lra. Qed.
Lemma shells_steep : Forall (steep (fun z n => b_dpref ten z n one) 0) shells.
Proof.
  assert (O : b_origin ten one = false).
  { destruct ten_threshold as [Ht L]. destruct (b_origin ten one) eqn:B; [|reflexivity]. apply (origin_spec binary64 ten Ht one (proj1 one_rep)) in B.
    rewrite (proj2 one_rep), Rabs_R1 in B. lra. }
  assert (D1 : represents (b_dpref ten one 1 one) (-1)).
  { unfold b_dpref. rewrite O. replace (b_sub _ one) with (lit (-1) 0) by (apply B2SF_inj; vm_compute; reflexivity). exact (lit_int binary64 (-1) eq_refl). }
  assert (D2 : represents (b_dpref ten one 2 one) 0).
  { unfold b_dpref. rewrite O. replace (b_sub _ one) with (lit 0 0) by (apply B2SF_inj; vm_compute; reflexivity). exact (lit_int binary64 0 eq_refl). }
  assert (E0 : Raux.bpow radix2 0 = 1) by reflexivity.
  assert (K1 : finite (b_dpref ten one 1 one) /\ Rabs (value (b_dpref ten one 1 one)) <= Raux.bpow radix2 0) by (destruct D1 as [F1 V1]; split; [exact F1 | rewrite V1, E0, Rabs_left; lra]).
  assert (K2 : finite (b_dpref ten one 2 one) /\ Rabs (value (b_dpref ten one 2 one)) <= Raux.bpow radix2 0) by (destruct D2 as [F2 V2]; split; [exact F2 | rewrite V2, E0, Rabs_R0; lra]).
  repeat apply Forall_cons; try apply Forall_nil; repeat apply Forall_cons; try apply Forall_nil; assumption.
Qed.
Example C120_no_overflow_slopes_example :
  represents (b_derivative E P F pi ten fuse sums none pair shells one)
    (fl_derivative (near binary64) fE fP fF (value pi) (value ten) fuse sums none pair (map worth shells) 1) /\
  represents (b_kinetic E P F pi ten fuse sums none pair shells one)
    (fl_kinetic (near binary64) fE fP fF (value pi) (value ten) fuse sums none pair (map worth shells) 1).
Proof.
  destruct (C120_library binary64) as (Hp & Hc & _). destruct ten_threshold as [Ht _].
  assert (P1 : 0 <= value one) by (rewrite (proj2 one_rep); lra).
  assert (N : (Z.of_nat (length (leaves pair)) <= 2 ^ 1)%Z) by (simpl; lia).
  assert (Fu : fusable none pair) by (repeat split).
  destruct (C120_no_overflow_slopes binary64 E fE P fP F fF pi ten (ideal_damping binary64) Hp Hc Ht 3 0 1 1 1 1 0 fuse sums one (proj1 one_rep) P1
    ltac:(lia) ltac:(lia) ltac:(lia) ltac:(lia) ltac:(lia) ltac:(lia) ltac:(lia) none pair shells Fu eq_refl N shells_proper shells_good shells_small shells_steep) as [D K].
  rewrite <- (proj2 one_rep). split; [apply D; reflexivity|]. apply (K 0%Z); [lia | exact one_moderate | | reflexivity].
  intros _. rewrite (proj2 one_rep), Rmult_1_r. right. symmetry. exact (rd_id _ _ _ _ (r64 binary64) 1 (bpow_fmt binary64 0 ltac:(unfold bottom; simpl; lia))).
Qed.
Example C120_slope_values_example :
  let u := Raux.bpow radix2 (- digits binary64) in
  let eta := Raux.bpow radix2 (bottom binary64 - 1) in
  Rabs (value (b_derivative E P F pi ten fuse sums none pair shells one) - drho (map worth shells) 1) <= drho_bound u eta u eta 1 1 sums pair (map worth shells) 1 /\
  Rabs (value (b_kinetic E P F pi ten fuse sums none pair shells one) - tau dphi (map worth shells) 1) <= tau_bound u eta u eta 1 1 sums pair (map worth shells) 1.
Proof.
  intros u eta. destruct (C120_library binary64) as (Hp & Hc & _ & Ep & Ef & _). destruct ten_threshold as [Ht L].
  assert (L1 : value ten <= value one) by (rewrite (proj2 one_rep); exact L).
  assert (Fu : fusable none pair) by (repeat split). assert (A := shells_ok). rewrite <- (proj2 one_rep) in A.
  destruct (C120_slope_values binary64 E fE P fP F fF pi ten (proj1 (ideal_damping binary64)) Hp Hc Ht 1%nat 1%nat _ _ Ep Ef (ideal_pi_error binary64) many_ok (ideal_exp_error binary64)
    fuse sums none pair shells one one_moderate L1 Fu eq_refl shells_proper shells_good A (Permutation_refl _)) as [D K].
  rewrite <- (proj2 one_rep). split; [apply D, C120_no_overflow_slopes_example | apply K, C120_no_overflow_slopes_example].
  rewrite (proj2 one_rep), pow1. generalize (lo_small binary64). lra.
Qed.
