(** Property C114: Slater densities in floating point. *)
From Coquelicot Require Import Coquelicot.
From Coq Require Import Reals List ZArith Lia Lra Permutation.
From Flocq Require Import Core.
From Verif Require Import PropRnd2.
From Verif Require Import XR SpecDens SpecSlater SpecRnd SpecRnd2 SpecRnd3 SpecBin ModelRnd ModelRnd3 ProofRnd ProofRnd6 ProofRnd8
  ProofRnd13 ProofRnd14 ProofRnd15.
From Coq Require Import List.
Import ListNotations.
Local Open Scope R_scope.

(** The computed total, valence or core density is that of the formula up to [rho_bound]: some 13
    roundings of each Slater function and those of the sums, relative to the terms that are added,
    the errors of the library, and underflow. *)
Theorem C114_density : forall u eta fmt rnd, rounding u eta fmt rnd -> u <= 1 / 8 ->
  forall lo kp kf fpow ffact pi, 0 < lo <= 1 / 2 -> normal u lo rnd -> ipow_error u lo kp fpow -> fact_error u kf ffact ->
  Rabs (pi - PI) <= u * PI -> 1 / 2 <= (1 - u) ^ (2 * kp + kf + 4) ->
  forall v z fexp, exp_error v z fexp ->
  forall m fu to fused t L r, 0 <= r -> atom_ok fmt lo to r L -> Forall (fun s => fmt (s_en s)) L -> orders (length L) t ->
  Rabs (fl_density rnd fexp fpow ffact pi m fu to fused t L r - rho_w (weight m (homo L)) L r) <= rho_bound u eta v z kp kf m to t L r.
Proof. exact density_near. Qed.
Print Assumptions C114_density.

(** The same for the derivative of the density, which [drho] is, *)
Theorem C114_derivative : forall u eta fmt rnd, rounding u eta fmt rnd -> u <= 1 / 8 ->
  forall lo kp kf fpow ffact pi tiny, 0 < lo <= 1 / 2 -> normal u lo rnd -> ipow_error u lo kp fpow -> fact_error u kf ffact ->
  Rabs (pi - PI) <= u * PI -> 1 / 2 <= (1 - u) ^ (2 * kp + kf + 4) ->
  forall v z fexp, exp_error v z fexp ->
  forall fu to fused t L r, 0 < r -> tiny <= r -> atom_ok fmt lo to r L -> orders (length L) t ->
  Rabs (fl_derivative rnd fexp fpow ffact pi tiny fu to fused t L r - drho L r) <= drho_bound u eta v z kp kf to t L r.
Proof. exact derivative_near. Qed.
Print Assumptions C114_derivative.

(** and for the kinetic energy density. *)
Theorem C114_kinetic : forall u eta fmt rnd, rounding u eta fmt rnd -> u <= 1 / 8 ->
  forall lo kp kf fpow ffact pi tiny, 0 < lo <= 1 / 2 -> normal u lo rnd -> ipow_error u lo kp fpow -> fact_error u kf ffact ->
  Rabs (pi - PI) <= u * PI -> 1 / 2 <= (1 - u) ^ (2 * kp + kf + 4) ->
  forall v z fexp, exp_error v z fexp ->
  forall fu to fused t L r, 0 < r -> tiny <= r -> lo <= r ^ 2 -> atom_ok fmt lo to r L -> orders (length L) t ->
  Rabs (fl_kinetic rnd fexp fpow ffact pi tiny fu to fused t L r - tau dphi L r) <= tau_bound u eta v z kp kf to t L r.
Proof. exact kinetic_near. Qed.
Print Assumptions C114_kinetic.

(** [dphi] and [drho] are the derivatives. *)
Theorem C114_slopes : forall L r, (forall s, In s L -> valid s) -> r <> 0 ->
  is_derive (rho L) r (drho L r) /\ forall s, In s L -> is_derive (phi s) r (dphi s r).
Proof. exact (fun L r V Hr => conj (rho_slope L r V Hr) (fun s I => dphi_slope s r (V s I) Hr)). Qed.
Print Assumptions C114_slopes.

(** Neither the total, valence and core density nor the kinetic energy density is ever computed as
    a negative number, whatever cancels in the orbitals. *)
Theorem C114_sign : forall u eta fmt rnd, rounding u eta fmt rnd -> u <= 1 / 8 ->
  forall lo fpow ffact pi tiny, 0 < lo <= 1 / 2 -> normal u lo rnd -> Rabs (pi - PI) <= u * PI ->
  forall v z fexp, exp_error v z fexp -> exp_at_most_1 fexp ->
  forall fu to fused t L r, Forall (fun s => 0 <= s_occ s) L ->
  (forall m, 0 <= fl_density rnd fexp fpow ffact pi m fu to fused t L r) /\
  0 <= fl_kinetic rnd fexp fpow ffact pi tiny fu to fused t L r.
Proof. exact signs. Qed.
Print Assumptions C114_sign.

(** The highest orbital counts in full in the valence density and not at all in the core density. *)
Theorem C114_homo : forall u eta fmt rnd, rounding u eta fmt rnd ->
  forall fexp h s, s_en s = h -> fmt (s_occ s) -> fexp 0 = 1 ->
  fl_weight rnd fexp Valence h s = s_occ s /\ fl_weight rnd fexp Core h s = 0.
Proof. exact homo_weight. Qed.
Print Assumptions C114_homo.

(** With exact arithmetic the program computes the formulas. *)
Theorem C114_exact : forall tiny fu to fused t L r, Forall (fun s => orders (length (s_exp s)) (to s)) L -> orders (length L) t ->
  (forall m, fl_density (fun x => x) exp pow (fun n => INR (fact n)) PI m fu to fused t L r = rho_w (weight m (homo L)) L r) /\
  (tiny <= Rabs r ->
   fl_derivative (fun x => x) exp pow (fun n => INR (fact n)) PI tiny fu to fused t L r = drho L r /\
   fl_kinetic (fun x => x) exp pow (fun n => INR (fact n)) PI tiny fu to fused t L r = tau dphi L r).
Proof.
  exact (fun tiny fu to fused t L r F O => conj (fun m => density_id m fu to fused t L r F O)
    (fun T => conj (derivative_id tiny fu to fused t L r T F O) (kinetic_id tiny fu to fused t L r T F O))).
Qed.
Print Assumptions C114_exact.

(** *** Examples in double precision *)
Definition d_ipow (x : R) (n : nat) := d_rnd (x ^ n).
Definition d_fact (n : nat) := d_rnd (INR (fact n)).
Lemma d_int : forall m, (Z.abs m < 2 ^ 53)%Z -> bin_fmt (-1074) 53 (IZR m).
Proof. intros m L. apply int_fmt; [reflexivity | lia | exact L]. Qed.
Lemma d_ipow_error : ipow_error d_u d_lo 1 d_ipow.
Proof. exact (round_ipow _ _ _ _ d_rounding d_small _ d_normal). Qed.
Lemma d_fact_error : fact_error d_u 1 d_fact.
Proof. apply (round_fact _ _ _ _ d_rounding d_small _ d_normal). generalize d_lo_small. lra. Qed.
Lemma d_exp_1 : exp_at_most_1 d_exp.
Proof. exact (round_exp1 _ _ _ _ d_rounding (d_int 1 eq_refl)). Qed.
Lemma d_many : 1 / 2 <= (1 - d_u) ^ (2 * 1 + 1 + 4).
Proof.
  assert (U0 : 0 <= d_u) by apply bpow_ge_0.
  assert (U : d_u <= 1 / 32) by (unfold d_u; replace (1 / 32) with (bpow radix2 (- (5))) by (simpl; lra); apply bpow_le; lia).
  assert (T := pow_incr (31 / 32) (1 - d_u) 7 ltac:(lra)). simpl in *. lra.
Qed.
Lemma d_lo_half : 0 < d_lo <= 1 / 2.
Proof. generalize d_lo_small. lra. Qed.

(** Two subshells, one of them p-type. *)
Definition ex_atom : list subshell :=
  [mkSub 2 (-2) 0 [(3 / 4, 2, 1%nat); (-1 / 2, 5 / 2, 1%nat)]; mkSub 1 (-1) 1 [(1, 3 / 2, 2%nat)]].
Definition ex_to (s : subshell) : order := if (length (s_exp s) =? 2)%nat then ex_t else At 0.
Lemma ex_sto : forall e n, 1 <= 2 * e -> 1 / 16 <= 2 * e / INR (fact (2 * n)) -> sto_safe d_lo e n 1.
Proof.
  intros e n H1 H2. assert (L := d_lo_small). assert (P := pow_R1_Rle (2 * e) n H1).
  assert (S : 1 / 4 <= sqrt (2 * e / INR (fact (2 * n)))).
  { replace (1 / 4) with (sqrt (1 / 16)); [apply sqrt_le_1_alt, H2|].
    replace (1 / 16) with ((1 / 4) * (1 / 4)) by lra. apply sqrt_square. lra. }
  assert (N : 1 / 4 <= (2 * e) ^ n * sqrt (2 * e / INR (fact (2 * n)))).
  { replace (1 / 4) with (1 * (1 / 4)) by lra. apply Rmult_le_compat; lra. }
  unfold sto_safe, amp. rewrite pow1. split; [lra|]. split; [lra|]. split; [lra|]. right. lra.
Qed.
Lemma ex_atom_ok : atom_ok (bin_fmt (-1074) 53) d_lo ex_to 1 ex_atom.
Proof.
  unfold atom_ok, ex_atom. constructor; [|constructor; [|constructor]].
  - split; [exact ex_t_orders|]. constructor; [|constructor; [|constructor]].
    + split; [lra|]. split; [lia|]. split; [replace (2 * 2) with 4 by lra; apply (d_int 4 eq_refl)|]. apply ex_sto; simpl; lra.
    + split; [lra|]. split; [lia|]. split; [replace (2 * (5 / 2)) with 5 by lra; apply (d_int 5 eq_refl)|]. apply ex_sto; simpl; lra.
  - split; [apply Permutation_refl|]. constructor; [|constructor].
    split; [lra|]. split; [lia|]. split; [replace (2 * (3 / 2)) with 3 by lra; apply (d_int 3 eq_refl)|].
    apply ex_sto; [lra|]. replace (INR (fact (2 * 2))) with 24 by (simpl; lra). lra.
Qed.
Lemma ex_energies : Forall (fun s => bin_fmt (-1074) 53 (s_en s)) ex_atom.
Proof. repeat constructor; cbn [s_en]; apply d_int; reflexivity. Qed.

Lemma ex_tiny : d_rnd (/ 10 ^ 10) <= 1.
Proof.
  rewrite <- (rd_id _ _ _ _ d_rounding 1 (d_int 1 eq_refl)). apply (rd_mono _ _ _ _ d_rounding).
  rewrite <- Rinv_1. apply Rinv_le_contravar; [lra|]. apply pow_R1_Rle. lra.
Qed.

Example C114_density_example : forall m,
  Rabs (fl_density d_rnd d_exp d_ipow d_fact (d_rnd PI) m (fun _ i => Nat.eqb i 0) ex_to (fun _ => false) ex_t ex_atom 1
        - rho_w (weight m (-1)) ex_atom 1) <= rho_bound d_u d_eta d_u d_eta 1 1 m ex_to ex_t ex_atom 1.
Proof.
  intro m. change (-1) with (homo ex_atom). apply (C114_density _ _ _ _ d_rounding d_small d_lo 1 1 d_ipow d_fact (d_rnd PI)
    d_lo_half d_normal d_ipow_error d_fact_error d_pi d_many _ _ _ d_exp_error); [lra | exact ex_atom_ok | exact ex_energies | exact ex_t_orders].
Qed.

Example C114_derivative_example :
  Rabs (fl_derivative d_rnd d_exp d_ipow d_fact (d_rnd PI) (d_rnd (/ 10 ^ 10)) (fun _ i => Nat.eqb i 0) ex_to (fun _ => false) ex_t ex_atom 1
        - drho ex_atom 1) <= drho_bound d_u d_eta d_u d_eta 1 1 ex_to ex_t ex_atom 1.
Proof.
  apply (C114_derivative _ _ _ _ d_rounding d_small d_lo 1 1 d_ipow d_fact (d_rnd PI) _
    d_lo_half d_normal d_ipow_error d_fact_error d_pi d_many _ _ _ d_exp_error); [lra | exact ex_tiny | exact ex_atom_ok | exact ex_t_orders].
Qed.

Example C114_kinetic_example :
  Rabs (fl_kinetic d_rnd d_exp d_ipow d_fact (d_rnd PI) (d_rnd (/ 10 ^ 10)) (fun _ i => Nat.eqb i 0) ex_to (fun _ => false) ex_t ex_atom 1
        - tau dphi ex_atom 1) <= tau_bound d_u d_eta d_u d_eta 1 1 ex_to ex_t ex_atom 1.
Proof.
  apply (C114_kinetic _ _ _ _ d_rounding d_small d_lo 1 1 d_ipow d_fact (d_rnd PI) _
    d_lo_half d_normal d_ipow_error d_fact_error d_pi d_many _ _ _ d_exp_error);
    [lra | exact ex_tiny | generalize d_lo_small; lra | exact ex_atom_ok | exact ex_t_orders].
Qed.

Example C114_slopes_example : is_derive (rho ex_atom) 1 (drho ex_atom 1).
Proof.
  apply C114_slopes; [|lra]. intros s I c e n J. unfold ex_atom in I. simpl in I.
  destruct I as [<-|[<-|[]]]; simpl in J; repeat (destruct J as [J|J]; [injection J as <- <- <-; split; [lra | lia]|]); destruct J.
Qed.

(** Although the two functions of the first orbital have coefficients of opposite signs. *)
Example C114_sign_example : forall m r,
  0 <= fl_density d_rnd d_exp d_ipow d_fact (d_rnd PI) m (fun _ i => Nat.eqb i 0) ex_to (fun _ => true) ex_t ex_atom r.
Proof.
  intros m r. apply (C114_sign _ _ _ _ d_rounding d_small d_lo d_ipow d_fact (d_rnd PI) 0 d_lo_half d_normal d_pi _ _ _ d_exp_error d_exp_1).
  repeat constructor; simpl; lra.
Qed.

Example C114_homo_example : let s := mkSub 1 (-1) 1 [(1, 3 / 2, 2%nat)] in
  fl_weight d_rnd d_exp Valence (-1) s = 1 /\ fl_weight d_rnd d_exp Core (-1) s = 0.
Proof.
  apply (C114_homo _ _ _ _ d_rounding); [reflexivity | apply (d_int 1 eq_refl)|].
  unfold d_exp. rewrite exp_0. apply (rd_id _ _ _ _ d_rounding), (d_int 1 eq_refl).
Qed.

Example C114_exact_example :
  fl_density (fun x => x) exp pow (fun n => INR (fact n)) PI Total (fun _ _ => false) ex_to (fun _ => false) ex_t ex_atom 1 = rho ex_atom 1.
Proof.
  apply (C114_exact 0); [|exact ex_t_orders].
  constructor; [exact ex_t_orders|]. constructor; [apply Permutation_refl | constructor].
Qed.

(** The bounds are small: the density of the hydrogen atom, [exp (- 2 r) / PI], at the distance 1
    is off by less than [10 / 2^53]. *)
Definition hydrogen : list subshell := [mkSub 1 (-1 / 2) 0 [(1, 1, 1%nat)]].
Lemma d_u_eq : d_u = / 9007199254740992.
Proof. unfold d_u. simpl. lra. Qed.
Lemma d_eta_small : 0 <= d_eta <= d_u / 1024.
Proof.
  split; [apply bpow_ge_0|]. replace (d_u / 1024) with (bpow radix2 (-63)); [apply bpow_le; lia|].
  rewrite d_u_eq. simpl. lra.
Qed.
Lemma d_q : / (1 - d_u) <= 1 + 2 * d_u /\ 0 < / (1 - d_u).
Proof.
  assert (U := d_u_eq). assert (P : 0 < 1 - d_u) by lra. split; [|apply Rinv_0_lt_compat, P].
  apply Rmult_le_reg_l with (1 - d_u); [exact P|]. rewrite Rinv_r by lra. rewrite U. lra.
Qed.
Lemma d_qk : forall k c, (1 + 2 * d_u) ^ k <= c -> 0 <= (/ (1 - d_u)) ^ k <= c.
Proof.
  intros k c L. destruct d_q as [A B]. split; [apply pow_le; lra|]. eapply Rle_trans; [|exact L]. apply pow_incr. lra.
Qed.
Lemma exp_small : forall x, 0 <= x -> x < 1 -> exp x <= / (1 - x).
Proof.
  intros x H0 H1. assert (E := exp_ineq1_le (- x)). rewrite exp_Ropp in E. rewrite <- (Rinv_inv (exp x)).
  apply Rinv_le_contravar; lra.
Qed.
Lemma half_exp : 0 < exp (- (1)) <= 1 / 2.
Proof.
  split; [apply exp_pos|]. rewrite exp_Ropp. replace (1 / 2) with (/ 2) by lra. apply Rinv_le_contravar; [lra|].
  generalize (exp_ineq1_le 1). lra.
Qed.

Example C114_hydrogen_example :
  Rabs (fl_density d_rnd d_exp d_ipow d_fact (d_rnd PI) Total (fun _ _ => false) (fun _ => At 0) (fun _ => false) (At 0) hydrogen 1
        - exp (- (2)) / PI) <= 10 * / 2 ^ 53.
Proof.
  assert (HP := PI_RGT_0). assert (P3 : 3 < PI) by (generalize PI2_3_2; lra).
  assert (S1 : sqrt (2 * 1 / INR (fact (2 * 1))) = 1) by (simpl INR; replace (2 * 1 / (1 + 1)) with 1 by lra; apply sqrt_1).
  assert (Sto : sto 1 1 1 = 2 * exp (- (1))) by (unfold sto; rewrite S1; simpl; replace (- (1) * 1) with (- (1)) by ring; ring).
  assert (Amp : amp 1 1 1 = 2) by (unfold amp; rewrite S1; simpl; ring).
  assert (Phi : phi (mkSub 1 (-1 / 2) 0 [(1, 1, 1%nat)]) 1 = 2 * exp (- (1))).
  { unfold phi, rsum. cbn [s_exp map fold_right]. rewrite Sto. ring. }
  assert (Rho : rho_w (weight Total (homo hydrogen)) hydrogen 1 = exp (- (2)) / PI).
  { unfold rho_w, hydrogen, rsum. cbn [map fold_right weight s_occ]. rewrite Phi.
    replace (- (2)) with (- (1) + - (1)) by ring. rewrite exp_plus. field. lra. }
  rewrite <- Rho. eapply Rle_trans.
  { apply (C114_density _ _ _ _ d_rounding d_small d_lo 1 1 d_ipow d_fact (d_rnd PI)
      d_lo_half d_normal d_ipow_error d_fact_error d_pi d_many _ _ _ d_exp_error); [lra | | | apply Permutation_refl].
    - unfold atom_ok, hydrogen. constructor; [|constructor]. split; [apply Permutation_refl|]. constructor; [|constructor].
      split; [lra|]. split; [lia|]. split; [replace (2 * 1) with 2 by lra; apply (d_int 2 eq_refl)|]. apply ex_sto; simpl; lra.
    - constructor; [|constructor]. cbn [s_en]. unfold bin_fmt. apply generic_format_FLT. exists (Float radix2 (-1) (-1)); [unfold F2R; simpl; lra | reflexivity | simpl; lia]. }
  unfold rho_bound, hydrogen. cbn [map]. rewrite Phi. unfold rsum. cbn [fold_right weight weight_bound s_occ].
  unfold phi_bound. cbn [map s_exp]. rewrite Sto. unfold sto_bound. rewrite Sto, Amp.
  assert (U := d_u_eq). assert (Eta := d_eta_small). destruct half_exp as [E0 E1]. set (e := exp (- (1))) in *.
  set (q := / (1 - d_u)). set (u := d_u) in *. set (eta := d_eta) in *.
  assert (X : exp_bound u eta (1 * 1) (u * (1 * 1) + eta) <= 3 * u).
  { unfold exp_bound. replace (- (1 * 1)) with (- (1)) by ring. fold e.
    assert (G : exp (u * (1 * 1) + eta) <= 1 + 3 * u).
    { eapply Rle_trans; [apply exp_small; lra|]. assert (Pd : 0 < 1 - (u * (1 * 1) + eta)) by lra.
      apply Rmult_le_reg_l with (1 - (u * (1 * 1) + eta)); [exact Pd|]. rewrite Rinv_r by lra.
      assert ((1 - 2 * u) * (1 + 3 * u) <= (1 - (u * (1 * 1) + eta)) * (1 + 3 * u)) by (apply Rmult_le_compat_r; lra).
      assert (1 <= (1 - 2 * u) * (1 + 3 * u)) by (rewrite U; lra). lra. }
    assert (G2 : (1 + u) * exp (u * (1 * 1) + eta) <= (1 + u) * (1 + 3 * u)) by (apply Rmult_le_compat_l; lra).
    assert (G3 : (1 + u) * (1 + 3 * u) - 1 <= 5 * u) by (rewrite U; lra).
    assert (e * ((1 + u) * exp (u * (1 * 1) + eta) - 1) <= e * (5 * u)) by (apply Rmult_le_compat_l; lra).
    assert (e * (5 * u) <= 1 / 2 * (5 * u)) by (apply Rmult_le_compat_r; lra). lra. }
  assert (X0 : 0 <= exp_bound u eta (1 * 1) (u * (1 * 1) + eta)).
  { unfold exp_bound. assert (1 <= exp (u * (1 * 1) + eta)) by (eapply Rle_trans; [|apply exp_ineq1_le]; lra).
    assert (1 * 1 <= (1 + u) * exp (u * (1 * 1) + eta)) by (apply Rmult_le_compat; lra).
    assert (0 <= exp (- (1 * 1)) * ((1 + u) * exp (u * (1 * 1) + eta) - 1)) by (apply Rmult_le_pos; [left; apply exp_pos | lra]). lra. }
  set (x := exp_bound u eta (1 * 1) (u * (1 * 1) + eta)) in *. clearbody x.
  replace (10 * / 2 ^ 53) with (10 * u) by (rewrite U; simpl; lra).
  unfold over_4pi, dot_bound, prod_bound, grow. cbn [map height additions length fold_right pow Nat.add]. fold q.
  assert (Q8 := d_qk 8 (1 + 24 * u) ltac:(fold u; rewrite U; simpl; lra)). cbn [pow] in Q8. fold u q in Q8.
  assert (Q1 := d_qk 1 (1 + 3 * u) ltac:(fold u; rewrite U; simpl; lra)). cbn [pow] in Q1. fold u q in Q1.
  assert (Q3 := d_qk 3 (1 + 7 * u) ltac:(fold u; rewrite U; simpl; lra)). cbn [pow] in Q3. fold u q in Q3.
  clearbody q e eta.
  unfold rsum. cbn [fold_right Nat.mul Nat.add pow]. rewrite !Rplus_0_r, !Rmult_1_r in *.
  set (a := 2 * e). assert (Ha : 0 < a <= 1) by (unfold a; lra). clearbody a.
  rewrite (Rmult_1_l (a * a)), Rabs_R1, !Rmult_1_r, (Rabs_mult a a), (Rabs_pos_eq a), !Rmult_1_l by lra.
  set (Q := q * (q * (q * (q * (q * (q * (q * q))))))) in *. set (P := q * (q * q)) in *. clearbody Q P.
  replace (a + (Q * (a + 2 * x) - a + eta)) with (Q * (a + 2 * x) + eta) by ring.
  assert (A1 : 0 <= Q * (a + 2 * x) + eta <= a + 31 * u).
  { assert (Q * (a + 2 * x) <= (1 + 24 * u) * (a + 6 * u)) by (apply Rmult_le_compat; lra).
    assert (0 <= Q * (a + 2 * x)) by (apply Rmult_le_pos; lra). rewrite U in *. lra. }
  set (a1 := Q * (a + 2 * x) + eta) in *. clearbody a1.
  replace (a + (q * a1 - a + eta)) with (q * a1 + eta) by ring.
  assert (A2 : 0 <= q * a1 + eta <= a + 35 * u).
  { assert (q * a1 <= (1 + 3 * u) * (a + 31 * u)) by (apply Rmult_le_compat; lra).
    assert (0 <= q * a1) by (apply Rmult_le_pos; lra). rewrite U in *. lra. }
  set (a2 := q * a1 + eta) in *. clearbody a2.
  assert (Sq : 0 <= a2 * a2 <= a * a + 71 * u).
  { assert (a2 * a2 <= (a + 35 * u) * (a + 35 * u)) by (apply Rmult_le_compat; lra).
    assert (0 <= a2 * a2) by (apply Rmult_le_pos; lra). rewrite U in *. lra. }
  assert (Ha2 : 0 <= a * a <= 1).
  { assert (a * a <= 1 * 1) by (apply Rmult_le_compat; lra). assert (0 <= a * a) by (apply Rmult_le_pos; lra). lra. }
  set (b := a2 * a2) in *. set (c := a * a) in *. clearbody b c.
  replace (c + (q * b - c + eta)) with (q * b + eta) by ring.
  assert (A3 : 0 <= q * b + eta <= c + 75 * u).
  { assert (q * b <= (1 + 3 * u) * (c + 71 * u)) by (apply Rmult_le_compat; lra).
    assert (0 <= q * b) by (apply Rmult_le_pos; lra). rewrite U in *. lra. }
  set (a3 := q * b + eta) in *. clearbody a3.
  replace (c + (q * a3 - c + eta)) with (q * a3 + eta) by ring.
  assert (A4 : 0 <= q * a3 + eta <= c + 79 * u).
  { assert (q * a3 <= (1 + 3 * u) * (c + 75 * u)) by (apply Rmult_le_compat; lra).
    assert (0 <= q * a3) by (apply Rmult_le_pos; lra). rewrite U in *. lra. }
  set (a4 := q * a3 + eta) in *. clearbody a4.
  assert (A5 : P * a4 - c <= 87 * u).
  { assert (P * a4 <= (1 + 7 * u) * (c + 79 * u)) by (apply Rmult_le_compat; lra). rewrite U in *. lra. }
  assert (A6 : (P * a4 - c) / (4 * PI) <= 8 * u).
  { apply Rmult_le_reg_r with (4 * PI); [lra|]. unfold Rdiv. rewrite Rmult_assoc, Rinv_l by lra.
    assert (8 * u * 12 <= 8 * u * (4 * PI)) by (apply Rmult_le_compat_l; lra). lra. }
  lra.
Qed.
