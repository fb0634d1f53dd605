(** Bounds for norms of orbitals by integer arithmetic. *)
From Coq Require Import Reals List Bool Arith ZArith Lia Lra.
From Verif Require Import XR SpecDens SpecSlater.
Import ListNotations.
Local Open Scope Z_scope.

(** ** Intervals of numbers in units of 2^-40 *)
Definition B : Z := 40.
Definition U : Z := 2 ^ B.
Notation ival := (Z * Z)%type.
Definition encl (i : ival) (v : R) : Prop := 0 <= fst i /\ (IZR (fst i) <= v * IZR U <= IZR (snd i))%R.
Definition imul (i j : ival) : ival := (Z.shiftr (fst i * fst j) B, Z.shiftr (snd i * snd j) B + 1).
Definition isqrt (i : ival) : ival := (Z.sqrt (fst i * U), Z.sqrt (snd i * U) + 1).
Definition idiv (p q : Z) : ival := let d := p * U / q in (d, d + 1).
Fixpoint ipow (i : ival) (n : nat) : ival := match n with O => (U, U) | S k => imul i (ipow i k) end.

Lemma U_pos : (0 < IZR U)%R.
Proof. apply IZR_lt. reflexivity. Qed.
Lemma div_bounds p q : 0 < q -> (IZR (p / q) <= IZR p / IZR q < IZR (p / q) + 1)%R.
Proof.
  intros Q. assert (Q' : (0 < IZR q)%R) by now apply IZR_lt. split.
  - apply Rmult_le_reg_r with (IZR q); auto. unfold Rdiv. rewrite Rmult_assoc, Rinv_l, Rmult_1_r by lra. rewrite <- mult_IZR. apply IZR_le. rewrite Z.mul_comm. now apply Z.mul_div_le.
  - apply Rmult_lt_reg_r with (IZR q); auto. unfold Rdiv. rewrite Rmult_assoc, Rinv_l, Rmult_1_r by lra. rewrite <- plus_IZR, <- mult_IZR. apply IZR_lt.
    rewrite Z.mul_comm. change (p / q + 1) with (Z.succ (p / q)). now apply Z.mul_succ_div_gt.
Qed.
Lemma shift_bounds p : (IZR (Z.shiftr p B) <= IZR p / IZR U < IZR (Z.shiftr p B) + 1)%R.
Proof. rewrite Z.shiftr_div_pow2 by (unfold B; lia). apply div_bounds. reflexivity. Qed.
Lemma encl_nonneg i v : encl i v -> (0 <= v)%R.
Proof. intros [H [L _]]. apply IZR_le in H. apply Rmult_le_reg_r with (IZR U); [apply U_pos|lra]. Qed.
Lemma encl_mul i j v w : encl i v -> encl j w -> encl (imul i j) (v * w).
Proof.
  intros Hi Hj. assert (V := encl_nonneg _ _ Hi). assert (W := encl_nonneg _ _ Hj). destruct Hi as [A [A1 A2]], Hj as [C [C1 C2]]. assert (P := U_pos).
  assert (A' := IZR_le _ _ A). assert (C' := IZR_le _ _ C). unfold encl, imul. cbn [fst snd]. split; [apply Z.shiftr_nonneg; nia|].
  assert (E : (v * w * IZR U = (v * IZR U) * (w * IZR U) / IZR U)%R) by (field; lra).
  assert (X := shift_bounds (fst i * fst j)). assert (Y := shift_bounds (snd i * snd j)). rewrite mult_IZR in X, Y. rewrite plus_IZR, E. split.
  - apply Rle_trans with (IZR (fst i) * IZR (fst j) / IZR U)%R; [lra|]. unfold Rdiv. apply Rmult_le_compat_r; [left; now apply Rinv_0_lt_compat|]. apply Rmult_le_compat; auto.
  - apply Rle_trans with (IZR (snd i) * IZR (snd j) / IZR U)%R; [|lra]. unfold Rdiv. apply Rmult_le_compat_r; [left; now apply Rinv_0_lt_compat|]. apply Rmult_le_compat; auto; apply Rmult_le_pos; lra.
Qed.
Lemma encl_pow i v n : encl i v -> encl (ipow i n) (v ^ n).
Proof.
  intros H. induction n as [|n IH]; [|now apply encl_mul]. unfold encl. cbn [ipow fst snd pow]. split; [discriminate|lra].
Qed.
Lemma encl_div p q : 0 <= p -> 0 < q -> encl (idiv p q) (IZR p / IZR q).
Proof.
  intros P Q. unfold encl, idiv. cbn [fst snd]. split; [apply Z.div_pos; unfold U; lia|]. assert (X := div_bounds (p * U) q Q). rewrite mult_IZR in X. rewrite plus_IZR.
  replace (IZR p / IZR q * IZR U)%R with (IZR p * IZR U / IZR q)%R; [lra|]. field. apply IZR_lt in Q. lra.
Qed.
Lemma sqrt_bounds p : 0 <= p -> (IZR (Z.sqrt p) <= sqrt (IZR p) < IZR (Z.sqrt p) + 1)%R.
Proof.
  intros P. destruct (Z.sqrt_spec p P) as [L H]. assert (N := Z.sqrt_nonneg p). apply IZR_le in L. apply IZR_lt in H. apply IZR_le in N. rewrite mult_IZR in L, H.
  rewrite succ_IZR in H. split.
  - rewrite <- (sqrt_square (IZR (Z.sqrt p))) by auto. now apply sqrt_le_1_alt.
  - rewrite <- (sqrt_square (IZR (Z.sqrt p) + 1)) by lra. apply sqrt_lt_1_alt. split; auto. now apply IZR_le.
Qed.
Lemma encl_sqrt i v : encl i v -> encl (isqrt i) (sqrt v).
Proof.
  intros Hi. assert (V := encl_nonneg _ _ Hi). destruct Hi as [A [A1 A2]]. assert (P := U_pos). unfold encl, isqrt. cbn [fst snd]. split; [apply Z.sqrt_nonneg|].
  assert (E : (sqrt v * IZR U = sqrt (v * IZR U * IZR U))%R) by (rewrite Rmult_assoc, sqrt_mult_alt, sqrt_square; lra || auto).
  assert (S0 : 0 <= snd i) by (apply le_IZR; apply Rle_trans with (v * IZR U)%R; auto; apply Rmult_le_pos; lra).
  assert (X := sqrt_bounds (fst i * U)). assert (Y := sqrt_bounds (snd i * U)). rewrite mult_IZR in X, Y. rewrite plus_IZR, E. split.
  - apply Rle_trans with (sqrt (IZR (fst i) * IZR U)); [apply X; unfold U; lia|]. apply sqrt_le_1_alt. apply Rmult_le_compat_r; lra.
  - apply Rle_trans with (sqrt (IZR (snd i) * IZR U)); [|left; apply Y; unfold U; lia]. apply sqrt_le_1_alt. apply Rmult_le_compat_r; lra.
Qed.

(** ** Overlaps; exponents in any unit *)
Fixpoint zfact (n : nat) : Z := match n with O => 1 | S k => Z.of_nat n * zfact k end.
Definition iover (a : Z) (n : nat) (b : Z) (m : nat) : ival :=
  let x := idiv (2 * a) (a + b) in let y := (2 * U - snd x, 2 * U - fst x) in
  let f := zfact (n + m) in
  imul (isqrt (imul (idiv (f * f) (zfact (2 * n) * zfact (2 * m))) (imul x y))) (imul (ipow x n) (ipow y m)).
Lemma zfact_nat n : zfact n = Z.of_nat (fact n).
Proof. induction n as [|n IH]; auto. cbn [zfact]. rewrite IH, <- Nat2Z.inj_mul. reflexivity. Qed.
Lemma zfact_R n : IZR (zfact n) = INR (fact n).
Proof. rewrite zfact_nat. symmetry. apply INR_IZR_INZ. Qed.
Lemma zfact_pos n : 0 < zfact n.
Proof. rewrite zfact_nat. assert (H := lt_O_fact n). lia. Qed.
Lemma overlap_eq z n z' m : (0 < z)%R -> (0 < z')%R ->
  overlap z n z' m = (sqrt (INR (fact (n + m)) * INR (fact (n + m)) / (INR (fact (2 * n)) * INR (fact (2 * m))) * (2 * z / (z + z') * (2 * z' / (z + z')))) *
    ((2 * z / (z + z')) ^ n * (2 * z' / (z + z')) ^ m))%R.
Proof.
  intros Hz Hz'. assert (F : forall k, (0 < INR (fact k))%R) by (intros; apply INR_fact_lt_0). assert (F1 := F (n + m)%nat). assert (F2 := F (2 * n)%nat). assert (F3 := F (2 * m)%nat).
  unfold overlap. set (f := INR (fact (n + m))) in *. set (g := INR (fact (2 * n))) in *. set (h := INR (fact (2 * m))) in *. set (s := (z + z')%R). assert (Hs : (0 < s)%R) by (unfold s; lra).
  replace (f * f / (g * h) * (2 * z / s * (2 * z' / s)))%R with ((f / s) * (f / s) * ((2 * z / g) * (2 * z' / h)))%R by (field; lra).
  assert (Q1 : (0 < 2 * z / g)%R) by (apply Rdiv_lt_0_compat; lra). assert (Q2 : (0 < 2 * z' / h)%R) by (apply Rdiv_lt_0_compat; lra). assert (Q3 : (0 < f / s)%R) by now apply Rdiv_lt_0_compat.
  rewrite (sqrt_mult_alt (f / s * (f / s))) by nra. rewrite sqrt_square by lra. rewrite (sqrt_mult_alt (2 * z / g)) by lra. unfold Rdiv. rewrite !Rpow_mult_distr. fold (Rdiv (2 * z) g) (Rdiv (2 * z') h).
  rewrite <- !Rinv_pow by lra. rewrite !pow_add, pow_1. field. repeat split; try lra; apply pow_nonzero; lra.
Qed.
Lemma encl_over u a n b m : (0 < u)%R -> 0 < a -> 0 < b -> encl (iover a n b m) (overlap (IZR a / u) n (IZR b / u) m).
Proof.
  intros Hu Ha Hb. assert (Ra := IZR_lt _ _ Ha). assert (Rb := IZR_lt _ _ Hb). rewrite overlap_eq by now apply Rdiv_lt_0_compat.
  assert (Ex : (2 * (IZR a / u) / (IZR a / u + IZR b / u) = IZR (2 * a) / IZR (a + b))%R) by (rewrite mult_IZR, plus_IZR; field; lra).
  assert (Ey : (2 * (IZR b / u) / (IZR a / u + IZR b / u) = IZR (2 * b) / IZR (a + b))%R) by (rewrite mult_IZR, plus_IZR; field; lra).
  rewrite Ex, Ey. unfold iover. rewrite <- !zfact_R, <- !mult_IZR.
  assert (X : encl (idiv (2 * a) (a + b)) (IZR (2 * a) / IZR (a + b))) by (apply encl_div; lia).
  assert (Y : encl (2 * U - snd (idiv (2 * a) (a + b)), 2 * U - fst (idiv (2 * a) (a + b))) (IZR (2 * b) / IZR (a + b))).
  { assert (B1 : snd (idiv (2 * a) (a + b)) <= 2 * U). { unfold idiv. cbn [snd]. enough (2 * a * U / (a + b) < 2 * U) by lia. apply Z.div_lt_upper_bound; [lia|]. assert (0 < U) by reflexivity. nia. }
    destruct X as [X0 [X1 X2]]. assert (Ev : (IZR (2 * b) / IZR (a + b) = 2 - IZR (2 * a) / IZR (a + b))%R) by (rewrite !mult_IZR, plus_IZR; field; lra).
    rewrite Ev. unfold encl. cbn [fst snd]. rewrite !minus_IZR, mult_IZR. assert (U0 := U_pos). repeat split; [lia|lra|lra]. }
  assert (P1 := zfact_pos (n + m)). assert (P2 := zfact_pos (2 * n)). assert (P3 := zfact_pos (2 * m)).
  apply encl_mul; [apply encl_sqrt, encl_mul; [apply encl_div; nia|now apply encl_mul]|apply encl_mul; now apply encl_pow].
Qed.

(** ** Quadratic forms, from the upper triangle.  Rows are pairs (exponent, n). *)
Definition W : Z := 4096.
Notation row_i := (Z * nat)%type.
Fixpoint overs (rs : list row_i) : list (list ival) :=
  match rs with [] => [] | p :: r => map (fun q => iover (fst p) (snd p) (fst q) (snd q)) rs :: overs r end.
Definition tight (m : list (list ival)) : bool := forallb (forallb (fun i => snd i - fst i <=? W)) m.
Definition lows (m : list (list ival)) : list (list Z) := map (map fst) m.
Fixpoint zdot (a b : list Z) : Z := match a, b with x :: a, y :: b => x * y + zdot a b | _, _ => 0 end.
Fixpoint quad (m : list (list Z)) (c : list Z) : Z :=
  match m, c with (o :: r) :: m, x :: c => x * (o * x + 2 * zdot r c) + quad m c | _, _ => 0 end.
Definition zabs_sum (c : list Z) : Z := fold_right (fun x s => Z.abs x + s) 0 c.
(** Coefficients in units of 10^-7; the norm is within [tol] * 10^-7 of one. *)
Definition near_one (tol : Z) (m : list (list Z)) (c : list Z) : bool :=
  10 ^ 7 * (Z.abs (quad m c - 10 ^ 14 * U) + W * (zabs_sum c * zabs_sum c)) <=? tol * (10 ^ 14 * U).

Local Opaque U W.
Section Sum.
Context (u : R) (Hu : (0 < u)%R).
Definition ov (p q : row_i) : R := overlap (IZR (fst p) / u) (snd p) (IZR (fst q) / u) (snd q).
Lemma ov_sym p q : ov p q = ov q p.
Proof. unfold ov, overlap. rewrite (Nat.add_comm (snd q)), (Rplus_comm (IZR (fst q) / u)). ring. Qed.
(** sum over all pairs *)
Definition full (l : list (Z * row_i)) : R :=
  rsum (map (fun x => rsum (map (fun y => (IZR (fst x) * IZR (fst y) * ov (snd x) (snd y))%R) l)) l).
Lemma rsum_add {A} (f g : A -> R) l : rsum (map (fun x => (f x + g x)%R) l) = (rsum (map f l) + rsum (map g l))%R.
Proof. induction l as [|a l IH]; cbn; [lra|]. unfold rsum in *. rewrite IH. lra. Qed.
Lemma full_cons x l : full (x :: l) = (IZR (fst x) * (ov (snd x) (snd x) * IZR (fst x) + 2 * rsum (map (fun y => ov (snd x) (snd y) * IZR (fst y)) l)) + full l)%R.
Proof.
  unfold full. cbn [map]. change (rsum (?a :: ?b)) with (a + rsum b)%R. 
  assert (E : rsum (map (fun y => (IZR (fst x) * IZR (fst y) * ov (snd x) (snd y))%R) l) = (IZR (fst x) * rsum (map (fun y => ov (snd x) (snd y) * IZR (fst y)) l))%R).
  { induction l as [|a l IH]; cbn; [lra|]. unfold rsum in IH. rewrite IH. ring. }
  assert (E2 : rsum (map (fun y => (IZR (fst y) * IZR (fst x) * ov (snd y) (snd x) + rsum (map (fun y0 => IZR (fst y) * IZR (fst y0) * ov (snd y) (snd y0)) l))%R) l) =
    (IZR (fst x) * rsum (map (fun y => ov (snd x) (snd y) * IZR (fst y)) l) + full l)%R).
  { rewrite rsum_add. f_equal. rewrite <- E. f_equal. apply map_ext. intros y. rewrite ov_sym. ring. }
  transitivity ((IZR (fst x) * IZR (fst x) * ov (snd x) (snd x) + rsum (map (fun y => IZR (fst x) * IZR (fst y) * ov (snd x) (snd y)) l)) +
    rsum (map (fun y => IZR (fst y) * IZR (fst x) * ov (snd y) (snd x) + rsum (map (fun y0 => IZR (fst y) * IZR (fst y0) * ov (snd y) (snd y0)) l)) l))%R; [reflexivity|].
  rewrite E2, E. unfold full. ring.
Qed.
Lemma low_err p q : 0 < fst p -> 0 < fst q -> (let i := iover (fst p) (snd p) (fst q) (snd q) in snd i - fst i <=? W) = true ->
  (Rabs (ov p q * IZR U - IZR (fst (iover (fst p) (snd p) (fst q) (snd q)))) <= IZR W)%R.
Proof.
  intros P Q T. cbv zeta in T. apply Z.leb_le in T. destruct (encl_over u (fst p) (snd p) (fst q) (snd q) Hu P Q) as [_ [L H]]. fold (ov p q) in L, H. apply IZR_le in T. rewrite minus_IZR in T.
  apply Rabs_le. assert (0 < IZR W)%R by (apply IZR_lt; reflexivity). lra.
Qed.
Lemma zabs_nonneg c : 0 <= zabs_sum c.
Proof. induction c as [|a c IH]; [reflexivity|]. change (zabs_sum (a :: c)) with (Z.abs a + zabs_sum c). lia. Qed.
Lemma dot_err p l : 0 < fst p -> (forall x, In x l -> 0 < fst (snd x)) ->
  forallb (fun i => snd i - fst i <=? W) (map (fun q => iover (fst p) (snd p) (fst q) (snd q)) (map snd l)) = true ->
  (Rabs (rsum (map (fun y => ov p (snd y) * IZR (fst y)) l) * IZR U - IZR (zdot (map fst (map (fun q => iover (fst p) (snd p) (fst q) (snd q)) (map snd l))) (map fst l))) <= IZR W * IZR (zabs_sum (map fst l)))%R.
Proof.
  intros P. induction l as [|x l IH]; intros H T.
  - cbn [map zdot quad zabs_sum fold_right]. change (Rabs (0 * IZR U - 0) <= IZR W * 0)%R. replace (0 * IZR U - 0)%R with 0%R by ring. rewrite Rabs_R0. lra.
  - cbn [map forallb] in T. apply andb_true_iff in T. destruct T as [T1 T2]. specialize (IH (fun y I => H y (or_intror I)) T2). assert (E := low_err p (snd x) P (H x (or_introl eq_refl)) T1).
    cbn [map zdot]. change (zabs_sum (fst x :: map fst l)) with (Z.abs (fst x) + zabs_sum (map fst l)). change (rsum (?a :: ?b)) with (a + rsum b)%R. rewrite !plus_IZR, mult_IZR, abs_IZR.
    set (d := rsum _) in *. set (z := zdot _ _) in *. set (i := fst (iover _ _ _ _)) in *.
    replace ((ov p (snd x) * IZR (fst x) + d) * IZR U - (IZR i * IZR (fst x) + IZR z))%R with ((ov p (snd x) * IZR U - IZR i) * IZR (fst x) + (d * IZR U - IZR z))%R by ring.
    eapply Rle_trans; [apply Rabs_triang|]. rewrite (Rmult_plus_distr_l (IZR W)). apply Rplus_le_compat; auto. rewrite (Rabs_mult (ov p (snd x) * IZR U - IZR i) (IZR (fst x))). apply Rmult_le_compat_r; auto. apply Rabs_pos.
Qed.
Lemma quad_err l : (forall x, In x l -> 0 < fst (snd x)) -> tight (overs (map snd l)) = true ->
  (Rabs (full l * IZR U - IZR (quad (lows (overs (map snd l))) (map fst l))) <= IZR W * (IZR (zabs_sum (map fst l)) * IZR (zabs_sum (map fst l))))%R.
Proof.
  induction l as [|x l IH]; intros H T.
  - change (Rabs (0 * IZR U - 0) <= IZR W * (0 * 0))%R. replace (0 * IZR U - 0)%R with 0%R by ring. rewrite Rabs_R0. lra.
  - cbn [map overs tight forallb] in T. apply andb_true_iff in T. destruct T as [T0 T2]. apply andb_true_iff in T0. destruct T0 as [T1 T3].
    specialize (IH (fun y I => H y (or_intror I)) T2). assert (P := H x (or_introl eq_refl)). assert (D := dot_err (snd x) l P (fun y I => H y (or_intror I)) T3). assert (E := low_err (snd x) (snd x) P P T1).
    rewrite full_cons. cbn [map overs lows quad]. change (zabs_sum (fst x :: map fst l)) with (Z.abs (fst x) + zabs_sum (map fst l)). rewrite !plus_IZR, !mult_IZR, plus_IZR, !mult_IZR, abs_IZR.
    set (d := rsum _) in *. set (z := zdot _ _) in *. set (i := fst (iover _ _ _ _)) in *. unfold lows in IH. set (q := quad _ _) in *. set (S := IZR (zabs_sum (map fst l))) in *.
    assert (S0 : (0 <= S)%R) by (apply IZR_le, zabs_nonneg). set (c := IZR (fst x)) in *. set (w := IZR W) in *.
    replace ((c * (ov (snd x) (snd x) * c + 2 * d) + full l) * IZR U - (c * (IZR i * c + 2 * IZR z) + IZR q))%R
      with (c * c * (ov (snd x) (snd x) * IZR U - IZR i) + 2 * c * (d * IZR U - IZR z) + (full l * IZR U - IZR q))%R by ring.
    assert (A : (Rabs (c * c * (ov (snd x) (snd x) * IZR U - IZR i)) <= Rabs c * Rabs c * w)%R) by (rewrite !Rabs_mult; apply Rmult_le_compat_l; auto; assert (Q := Rabs_pos c); nra).
    assert (A2 : (Rabs (2 * c * (d * IZR U - IZR z)) <= 2 * Rabs c * (w * S))%R).
    { rewrite !Rabs_mult, (Rabs_pos_eq 2) by lra. apply Rmult_le_compat_l; auto. assert (Q := Rabs_pos c). lra. }
    eapply Rle_trans; [apply Rabs_triang|]. eapply Rle_trans; [apply Rplus_le_compat_r, Rabs_triang|]. nra.
Qed.
End Sum.

(** Norm of an orbital with coefficients in units of 10^-7 and exponents in units of 10^-6. *)
Definition orbital_i (l : list (Z * row_i)) : list (R * R * nat) :=
  map (fun x => (IZR (fst x) / 10 ^ 7, IZR (fst (snd x)) / 10 ^ 6, snd (snd x)))%R l.
Lemma norm_full s l : s_exp s = orbital_i l -> orb_norm s = (full (10 ^ 6) l / 10 ^ 14)%R.
Proof.
  intros E. unfold orb_norm, full. rewrite E. unfold orbital_i. rewrite map_map.
  assert (D : forall A (f : A -> R) k, (rsum (map f k) / 10 ^ 14 = rsum (map (fun x => f x / 10 ^ 14) k))%R).
  { intros A f k. induction k as [|a k IH]; [change (0 / 10 ^ 14 = 0)%R; lra|]. change ((f a + rsum (map f k)) / 10 ^ 14 = f a / 10 ^ 14 + rsum (map (fun x => f x / 10 ^ 14) k))%R. rewrite <- IH. lra. }
  rewrite D. f_equal. apply map_ext. intros x. rewrite D, map_map. f_equal. apply map_ext. intros y. unfold ov. 
  set (o := overlap _ _ _ _). lra.
Qed.
Lemma near_ok tol s l : s_exp s = orbital_i l -> (forall x, In x l -> 0 < fst (snd x)) -> tight (overs (map snd l)) = true ->
  near_one tol (lows (overs (map snd l))) (map fst l) = true -> (Rabs (orb_norm s - 1) <= IZR tol / 10 ^ 7)%R.
Proof.
  intros E H T N. assert (P : (0 < 10 ^ 6)%R) by lra. assert (Q := quad_err (10 ^ 6) P l H T). rewrite (norm_full s l E). unfold near_one in N. apply Z.leb_le in N.
  set (q := quad _ _) in *. set (S := zabs_sum _) in *. assert (U0 := U_pos). apply IZR_le in N. rewrite !mult_IZR, plus_IZR, !mult_IZR, abs_IZR, minus_IZR, mult_IZR in N.
  change (IZR (10 ^ 7)) with (10000000)%R in N. change (IZR (10 ^ 14)) with (100000000000000)%R in N. set (f := full _ _) in *.
  assert (A : (Rabs (f * IZR U - 100000000000000 * IZR U) <= Rabs (f * IZR U - IZR q) + Rabs (IZR q - 100000000000000 * IZR U))%R).
  { replace (f * IZR U - 100000000000000 * IZR U)%R with ((f * IZR U - IZR q) + (IZR q - 100000000000000 * IZR U))%R by ring. apply Rabs_triang. }
  replace (f / 10 ^ 14 - 1)%R with ((f * IZR U - 100000000000000 * IZR U) / (100000000000000 * IZR U))%R by (field; lra).
  unfold Rdiv at 1. rewrite Rabs_mult, (Rabs_pos_eq (/ _)) by (left; apply Rinv_0_lt_compat; lra).
  apply Rmult_le_reg_r with (100000000000000 * IZR U)%R; [lra|]. rewrite Rmult_assoc, Rinv_l, Rmult_1_r by lra. lra.
Qed.
