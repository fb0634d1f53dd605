(** Densities of atoms on uniform grids: the quadrature tends to the number of electrons, and fits keep it (C111). *)
From Coquelicot Require Import Coquelicot.
From Coq Require Import Reals List ZArith Lia Lra Bool.
From Verif Require Import XR SpecDens SpecMeas SpecGrid SpecSlater ModelGrid ProofGrid ProofSlater.
Import ListNotations.
Local Open Scope R_scope.

(** ** Functions that are bounded and Lipschitz on [0, b] *)
Definition tame (b : R) (f : R -> R) : Prop := exists L M, 0 <= L /\ 0 <= M /\ lipschitz f 0 b L /\ forall x, 0 <= x <= b -> Rabs (f x) <= M.
Lemma tame_ext b f g : (forall x, f x = g x) -> tame b f -> tame b g.
Proof. intros E (L & M & A & B & C & D). exists L, M. split; auto. split; auto. split. - intros x y Hx Hy. rewrite <- !E. auto. - intros x Hx. rewrite <- E. auto. Qed.
Lemma tame_const b k : tame b (fun _ => k).
Proof. exists 0, (Rabs k). split; [lra|]. split; [apply Rabs_pos|]. split; [|intros; lra]. intros x y _ _. rewrite Rminus_eq_0, Rabs_R0. lra. Qed.
Lemma tame_id b : 0 <= b -> tame b (fun x => x).
Proof. intros Hb. exists 1, b. split; [lra|]. split; [lra|]. split. - intros x y _ _. lra. - intros x Hx. rewrite Rabs_pos_eq; lra. Qed.
Lemma tame_add b f g : tame b f -> tame b g -> tame b (fun x => f x + g x).
Proof.
  intros (L & M & A & B & C & D) (L' & M' & A' & B' & C' & D'). exists (L + L'), (M + M'). split; [lra|]. split; [lra|]. split.
  - intros x y Hx Hy. replace (f x + g x - (f y + g y)) with ((f x - f y) + (g x - g y)) by ring. eapply Rle_trans; [apply Rabs_triang|].
    specialize (C x y Hx Hy). specialize (C' x y Hx Hy). lra.
  - intros x Hx. eapply Rle_trans; [apply Rabs_triang|]. specialize (D x Hx). specialize (D' x Hx). lra.
Qed.
Lemma tame_mul b f g : tame b f -> tame b g -> tame b (fun x => f x * g x).
Proof.
  intros (L & M & A & B & C & D) (L' & M' & A' & B' & C' & D'). exists (M * L' + M' * L), (M * M').
  split; [pose proof (Rmult_le_pos _ _ B A'); pose proof (Rmult_le_pos _ _ B' A); lra|]. split; [now apply Rmult_le_pos|]. split.
  - intros x y Hx Hy. replace (f x * g x - f y * g y) with (f x * (g x - g y) + g y * (f x - f y)) by ring. eapply Rle_trans; [apply Rabs_triang|]. rewrite !Rabs_mult.
    replace ((M * L' + M' * L) * Rabs (x - y)) with (M * (L' * Rabs (x - y)) + M' * (L * Rabs (x - y))) by ring.
    apply Rplus_le_compat; apply Rmult_le_compat; auto using Rabs_pos.
  - intros x Hx. rewrite Rabs_mult. apply Rmult_le_compat; auto using Rabs_pos.
Qed.
Lemma tame_pow b f n : tame b f -> tame b (fun x => f x ^ n).
Proof. intros H. induction n; [apply (tame_const b 1)|]. cbn. now apply tame_mul. Qed.
Lemma tame_exp b z : 0 < z -> tame b (fun x => exp (- z * x)).
Proof.
  intros Hz. exists z, 1. split; [lra|]. split; [lra|].
  assert (B : forall x, 0 <= x -> exp (- z * x) <= 1). { intros x Hx. rewrite <- exp_0. assert (H : - z * x <= 0) by nra. destruct H as [H|H]; [left; now apply exp_increasing|right; now rewrite H]. }
  split.
  - assert (K : forall x y, 0 <= x -> x <= y -> Rabs (exp (- z * x) - exp (- z * y)) <= z * Rabs (x - y)).
    { intros x y Hx Hxy. assert (E : exp (- z * y) = exp (- z * x) * exp (- z * (y - x))) by (rewrite <- exp_plus; f_equal; ring).
      pose proof (exp_ineq1_le (- z * (y - x))) as I. pose proof (B x Hx). pose proof (B (y - x) ltac:(lra)). pose proof (exp_pos (- z * x)). rewrite E, (Rabs_left1 (x - y)), Rabs_pos_eq by nra. nra. }
    intros x y Hx Hy. destruct (Rle_dec x y); [apply K; lra|]. rewrite Rabs_minus_sym, (Rabs_minus_sym x y). apply K; lra.
  - intros x Hx. rewrite Rabs_pos_eq by (left; apply exp_pos). apply B. lra.
Qed.
Lemma tame_sum {A} b (F : A -> R -> R) l : (forall a, In a l -> tame b (F a)) -> tame b (fun x => rsum (map (fun a => F a x) l)).
Proof.
  induction l as [|a l IH]; intros H; [apply (tame_const b 0)|].
  apply (tame_ext b (fun x => F a x + rsum (map (fun a => F a x) l))); [reflexivity|]. apply tame_add; [apply H; now left|apply IH; intros; apply H; now right].
Qed.
Lemma tame_phi b s : 0 <= b -> valid s -> tame b (phi s).
Proof.
  intros Hb V. unfold phi. apply (tame_ext b (fun r => rsum (map (fun t => let '(c, z, n) := t in c * sto z n r) (s_exp s)))); [reflexivity|].
  apply (tame_sum b (fun t r => let '(c, z, n) := t in c * sto z n r)). intros [[c z] n] I. destruct (V c z n I) as [Hz _]. unfold sto.
  apply (tame_mul b (fun _ => c)); [apply tame_const|]. apply (tame_mul b (fun r => (2 * z) ^ n * sqrt (2 * z / INR (fact (2 * n))) * r ^ (n - 1)) (fun r => exp (- z * r))); [|now apply tame_exp].
  apply (tame_mul b (fun _ => (2 * z) ^ n * sqrt (2 * z / INR (fact (2 * n)))) (fun r => r ^ (n - 1))); [apply tame_const|]. apply (tame_pow b (fun x => x)). now apply tame_id.
Qed.
Lemma tame_rho b L : 0 <= b -> Forall valid L -> tame b (fun r => 4 * PI * r ^ 2 * rho L r).
Proof.
  intros Hb V. apply (tame_mul b (fun r => 4 * PI * r ^ 2)).
  - apply (tame_mul b (fun _ => 4 * PI)); [apply tame_const|]. apply (tame_pow b (fun x => x)). now apply tame_id.
  - unfold rho, rho_w. apply (tame_ext b (fun r => rsum (map (fun s => s_occ s * phi s r ^ 2) L) * / (4 * PI))); [reflexivity|]. apply tame_mul; [|apply tame_const].
    apply (tame_sum b (fun s r => s_occ s * phi s r ^ 2)). intros s I. apply (tame_mul b (fun _ => s_occ s)); [apply tame_const|]. apply tame_pow. apply tame_phi; auto.
    rewrite Forall_forall in V. auto.
Qed.

(** ** The quadrature *)
Lemma trap_scale k x y : trap x (map (fun v => k * v) y) = k * trap x y.
Proof.
  revert y. induction x as [|x0 x IH]; intros y; [cbn; ring|]. destruct x as [|x1 x]; [destruct y; cbn; ring|]. destruct y as [|y0 [|y1 y]]; [cbn; ring|cbn; ring|].
  cbn [map]. rewrite !trap_step. specialize (IH (y1 :: y)). cbn [map] in IH. rewrite IH. field.
Qed.
Lemma gen_limit (f : R -> R) N eps : is_RInt_gen f (at_point 0) (Rbar_locally p_infty) N -> 0 < eps -> exists b0, forall b, b0 < b -> exists I, is_RInt f 0 b I /\ Rabs (I - N) < eps.
Proof.
  intros H He. assert (P : locally N (fun I => Rabs (I - N) < eps)) by (exists (mkposreal eps He); intros y Hy; exact Hy).
  destruct (H _ P) as [Q S HQ [M HM] K]. exists M. intros b Hb. apply (K 0 b); [exact HQ|]. now apply HM.
Qed.
Lemma uniform_limit (f : R -> R) N : (forall b, 0 <= b -> tame b f) -> is_RInt_gen f (at_point 0) (Rbar_locally p_infty) N ->
  forall eps, 0 < eps -> exists b0, 0 < b0 /\ forall b, b0 <= b -> exists n0 : Z, (1 < n0)%Z /\ forall n, (n0 <= n)%Z ->
    Rabs (trap (equispaced 0 b (Z.to_nat n)) (map f (equispaced 0 b (Z.to_nat n))) - N) < eps.
Proof.
  intros T H eps He. destruct (gen_limit f N (eps / 2) H) as (b0 & B); [lra|]. exists (Rmax 1 (b0 + 1)). split; [pose proof (Rmax_l 1 (b0 + 1)); lra|].
  intros b Hb. pose proof (Rmax_l 1 (b0 + 1)). pose proof (Rmax_r 1 (b0 + 1)). destruct (B b) as (I & HI & Q); [lra|]. destruct (T b ltac:(lra)) as (L & M & L0 & _ & Hl & _).
  set (k := L * b ^ 2 / eps). assert (k0 : 0 <= k) by (unfold k; apply Rmult_le_pos; [apply Rmult_le_pos; [lra|apply pow2_ge_0]|left; apply Rinv_0_lt_compat; lra]).
  exists (Z.max 2 (up k + 2)). split; [lia|]. intros n Hn. destruct (archimed k) as [Hu _].
  assert (Hn2 : (2 <= Z.to_nat n)%nat) by lia. destruct (uniform_error f L 0 b (Z.to_nat n) Hn2 ltac:(lra) Hl) as [_ E]. rewrite (is_RInt_unique _ _ _ _ HI) in E.
  assert (D : k < INR (Z.to_nat n - 1)).
  { rewrite INR_IZR_INZ. apply Rlt_le_trans with (IZR (up k)); [lra|]. apply IZR_le. lia. }
  assert (E2 : L * (b - 0) ^ 2 / (2 * INR (Z.to_nat n - 1)) < eps / 2 \/ L * b ^ 2 = 0).
  { destruct (Req_dec (L * b ^ 2) 0) as [Z|Z]; [now right|]. left. rewrite Rminus_0_r. unfold Rdiv. assert (Pk : 0 < INR (Z.to_nat n - 1)) by lra.
    apply (Rmult_lt_reg_r (2 * INR (Z.to_nat n - 1))); [lra|]. rewrite Rmult_assoc, Rinv_l, Rmult_1_r by lra.
    assert (V : L * b ^ 2 = eps * k) by (unfold k; field; lra). rewrite V. assert (eps * k < eps * INR (Z.to_nat n - 1)) by (apply Rmult_lt_compat_l; lra). lra. }
  assert (E3 : Rabs (trap (equispaced 0 b (Z.to_nat n)) (map f (equispaced 0 b (Z.to_nat n))) - I) < eps / 2).
  { eapply Rle_lt_trans; [exact E|]. destruct E2 as [E2|E2]; [exact E2|]. rewrite Rminus_0_r, E2. unfold Rdiv. rewrite Rmult_0_l. lra. }
  replace (trap _ _ - N) with ((trap (equispaced 0 b (Z.to_nat n)) (map f (equispaced 0 b (Z.to_nat n))) - I) + (I - N)) by ring.
  eapply Rle_lt_trans; [apply Rabs_triang|]. lra.
Qed.
