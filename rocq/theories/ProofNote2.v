(** The density of beryllium is positive and its radial density is bounded (C109). *)
From Coquelicot Require Import Coquelicot.
From Coq Require Import Reals String List Bool Arith ZArith Lia Lra.
From Verif Require Import XR SpecDens SpecSlater SpecScript4 Lists.
Import ListNotations.
Local Open Scope R_scope.

Lemma sto_one z r : 0 < z -> sto z 1 r = 2 * z * sqrt z * exp (- (z * r)).
Proof.
  intros H. unfold sto. change (fact (2 * 1)) with 2%nat. replace (2 * z / INR 2) with z by (cbn; field). replace (- z * r) with (- (z * r)) by ring. cbn. ring.
Qed.
Lemma sto_two z r : 0 < z -> sto z 2 r = 4 * z * z * sqrt (z / 12) * r * exp (- (z * r)).
Proof.
  intros H. unfold sto. change (fact (2 * 2)) with 24%nat. replace (2 * z / INR 24) with (z / 12) by (rewrite INR_IZR_INZ; cbn; field). replace (- z * r) with (- (z * r)) by ring. cbn. ring.
Qed.
Lemma sqrt_between a b z : 0 <= a -> 0 <= b -> a * a <= z -> z <= b * b -> a <= sqrt z <= b.
Proof.
  intros Ha Hb H1 H2. split.
  - rewrite <- (sqrt_Rsqr a Ha). apply sqrt_le_1_alt. exact H1.
  - rewrite <- (sqrt_Rsqr b Hb). apply sqrt_le_1_alt. exact H2.
Qed.
(** [r exp (-x r)] and the like. *)
Lemma exp_one x : 0 <= x -> x * exp (- x) <= 1.
Proof.
  intros H. pose proof (exp_ineq1_le x). pose proof (exp_pos (- x)). assert (E : exp x * exp (- x) = 1) by (rewrite <- exp_plus, Rplus_opp_r; apply exp_0). nra.
Qed.
Lemma exp_two x : 0 <= x -> x * x * exp (- x) <= 4.
Proof.
  intros H. pose proof (exp_one (x / 2) ltac:(lra)) as A. set (y := x / 2 * exp (- (x / 2))) in *. assert (Y : 0 <= y) by (unfold y; pose proof (exp_pos (- (x / 2))); nra).
  replace (x * x * exp (- x)) with (4 * (y * y)).
  - nra.
  - unfold y. replace (- x) with (- (x / 2) + - (x / 2)) by lra. rewrite exp_plus. lra.
Qed.
Lemma r_sto_one z r : 0 < z <= 16 -> 0 <= r -> Rabs (r * sto z 1 r) <= 8.
Proof.
  intros Hz Hr. rewrite sto_one by lra. destruct (sqrt_between 0 4 z) as [A B]; try lra. pose proof (exp_one (z * r) ltac:(nra)) as E. pose proof (exp_pos (- (z * r))).
  replace (r * (2 * z * sqrt z * exp (- (z * r)))) with (2 * sqrt z * (z * r * exp (- (z * r)))) by ring.
  assert (P : 0 <= z * r * exp (- (z * r))) by (apply Rmult_le_pos; nra). rewrite Rabs_pos_eq by nra. nra.
Qed.
Lemma r_sto_two z r : 0 < z <= 2 -> 0 <= r -> Rabs (r * sto z 2 r) <= 8.
Proof.
  intros Hz Hr. rewrite sto_two by lra. destruct (sqrt_between 0 (1/2) (z / 12)) as [A B]; try lra. pose proof (exp_two (z * r) ltac:(nra)) as E. pose proof (exp_pos (- (z * r))).
  replace (r * (4 * z * z * sqrt (z / 12) * r * exp (- (z * r)))) with (4 * sqrt (z / 12) * (z * r * (z * r) * exp (- (z * r)))) by ring.
  assert (P : 0 <= z * r * (z * r) * exp (- (z * r))) by (apply Rmult_le_pos; [|lra]; apply Rmult_le_pos; nra). rewrite Rabs_pos_eq by nra. nra.
Qed.

Ltac terms := unfold be_1s, be_2s, be_orbital; cbn [map combine fst snd].
Lemma be_orbital_in cs c z n : In (c, z, n) (be_orbital cs) -> (n = 1%nat /\ 0 < z <= 16) \/ (n = 2%nat /\ 0 < z <= 2).
Proof.
  unfold be_orbital. rewrite in_map_iff. intros ([k [y m]] & E & I). cbn [fst snd] in E. injection E as <- <- <-. apply in_combine_r in I. cbn [In] in I.
  repeat (destruct I as [I|I]; [injection I as <- <-; first [left; split; [reflexivity|split; lra] | right; split; [reflexivity|split; lra]]|]). destruct I.
Qed.
Lemma r_phi (l : list (R * R * nat)) r : 0 <= r -> (forall c z n, In (c, z, n) l -> (n = 1%nat /\ 0 < z <= 16) \/ (n = 2%nat /\ 0 < z <= 2)) ->
  Rabs (r * rsum (map (fun '(c, z, n) => c * sto z n r) l)) <= 8 * rsum (map (fun x => Rabs (fst (fst x))) l).
Proof.
  intros Hr. induction l as [|[[c z] n] l IH]; intros H.
  - cbn. rewrite Rmult_0_r, Rabs_R0. lra.
  - cbn [map fst]. rewrite !rsum_cons. specialize (IH (fun c z n I => H c z n (or_intror I))).
    assert (B : Rabs (r * sto z n r) <= 8). { destruct (H c z n (or_introl eq_refl)) as [[-> Hz]|[-> Hz]]; [now apply r_sto_one|now apply r_sto_two]. }
    set (S := rsum _) in *. set (U := rsum _) in *. replace (r * (c * sto z n r + S)) with (c * (r * sto z n r) + r * S) by ring.
    eapply Rle_trans; [apply Rabs_triang|]. rewrite Rabs_mult. pose proof (Rabs_pos c). nra.
Qed.
Lemma abs_neg_bound x y : x <= y -> - y <= x -> Rabs x <= y.
Proof. intros. apply Rabs_le. lra. Qed.
Lemma be_1s_sum : rsum (map (fun x => Rabs (fst (fst x))) be_1s) <= 3.
Proof.
  terms. unfold rsum. cbn [fold_right].
  rewrite (Rabs_left (-24917 / 10 ^ 7)), (Rabs_right (314015 / 10 ^ 7)), (Rabs_right (849694 / 10 ^ 7)), (Rabs_right (8685562 / 10 ^ 7)), (Rabs_right (315855 / 10 ^ 7)),
    (Rabs_left (-35284 / 10 ^ 7)), (Rabs_left (-4149 / 10 ^ 7)), (Rabs_right (12299 / 10 ^ 7)); lra.
Qed.
Lemma be_2s_sum : rsum (map (fun x => Rabs (fst (fst x))) be_2s) <= 3.
Proof.
  terms. unfold rsum. cbn [fold_right].
  rewrite (Rabs_right (4442 / 10 ^ 7)), (Rabs_left (-30990 / 10 ^ 7)), (Rabs_left (-367056 / 10 ^ 7)), (Rabs_right (138910 / 10 ^ 7)), (Rabs_left (-3598016 / 10 ^ 7)),
    (Rabs_left (-2563459 / 10 ^ 7)), (Rabs_right (2434108 / 10 ^ 7)), (Rabs_right (11150995 / 10 ^ 7)); lra.
Qed.
Lemma be_bound e1 e2 r : 0 <= r -> 4 * PI * r ^ 2 * rho (be_subs e1 e2) r <= 2304.
Proof.
  intros Hr. unfold rho, rho_w, be_subs. cbn [map]. rewrite !rsum_cons. change (rsum []) with 0. cbn [s_occ]. pose proof PI_RGT_0.
  set (p := phi _ r). set (q := phi _ r). replace (4 * PI * r ^ 2 * ((2 * p ^ 2 + (2 * q ^ 2 + 0)) / (4 * PI))) with (2 * (r * p) ^ 2 + 2 * (r * q) ^ 2) by (field; lra).
  assert (A : Rabs (r * p) <= 24) by (eapply Rle_trans; [apply (r_phi be_1s r Hr (be_orbital_in _))|]; pose proof be_1s_sum; lra).
  assert (B : Rabs (r * q) <= 24) by (eapply Rle_trans; [apply (r_phi be_2s r Hr (be_orbital_in _))|]; pose proof be_2s_sum; lra).
  apply Rabs_le_between in A. apply Rabs_le_between in B. nra.
Qed.

(** A term is dominated by another one. *)
Lemma dominated a b x y r : 0 <= a <= b -> x <= y -> 0 <= r -> a * exp (- (y * r)) <= b * exp (- (x * r)).
Proof.
  intros H Hx Hr. assert (E : exp (- (y * r)) <= exp (- (x * r))). { destruct (Req_dec (x * r) (y * r)) as [->|N]; [lra|]. left. apply exp_increasing. nra. }
  pose proof (exp_pos (- (y * r))). nra.
Qed.
Lemma amplitude z a b : 0 < z -> 0 <= a -> 0 <= b -> a * a <= z -> z <= b * b -> 2 * z * a <= 2 * z * sqrt z <= 2 * z * b.
Proof. intros Hz Ha Hb H1 H2. destruct (sqrt_between a b z Ha Hb H1 H2). nra. Qed.
Lemma exp_five : exp 5 <= 243.
Proof. replace 5 with (1 + 1 + 1 + 1 + 1) by ring. rewrite !exp_plus. pose proof exp_le_3. pose proof (exp_pos 1). set (e := exp 1) in *. assert (e * e <= 9) by nra. assert (e * e * e <= 27) by nra. assert (e * e * e * e <= 81) by nra. nra. Qed.

Lemma be_1s_pos e r : 0 <= r <= 2 -> 0 < phi (mkSub 2 e 0 be_1s) r.
Proof.
  intros Hr. unfold phi. cbn [s_exp]. terms. unfold rsum. cbn [fold_right]. rewrite !sto_one, sto_two by lra.
  set (z1 := 12683501 / 10 ^ 6). set (z2 := 8105927 / 10 ^ 6). set (z3 := 5152556 / 10 ^ 6). set (z4 := 3472467 / 10 ^ 6). set (z5 := 2349757 / 10 ^ 6). set (z6 := 1406429 / 10 ^ 6). set (z7 := 821620 / 10 ^ 6). set (z8 := 786473 / 10 ^ 6).
  pose proof (amplitude z1 0 4 ltac:(unfold z1; lra) ltac:(lra) ltac:(lra) ltac:(unfold z1; lra) ltac:(unfold z1; lra)) as A1.
  pose proof (amplitude z2 2 3 ltac:(unfold z2; lra) ltac:(lra) ltac:(lra) ltac:(unfold z2; lra) ltac:(unfold z2; lra)) as A2.
  pose proof (amplitude z3 0 3 ltac:(unfold z3; lra) ltac:(lra) ltac:(lra) ltac:(unfold z3; lra) ltac:(unfold z3; lra)) as A3.
  pose proof (amplitude z4 1 3 ltac:(unfold z4; lra) ltac:(lra) ltac:(lra) ltac:(unfold z4; lra) ltac:(unfold z4; lra)) as A4.
  pose proof (amplitude z5 0 3 ltac:(unfold z5; lra) ltac:(lra) ltac:(lra) ltac:(unfold z5; lra) ltac:(unfold z5; lra)) as A5.
  pose proof (amplitude z6 0 2 ltac:(unfold z6; lra) ltac:(lra) ltac:(lra) ltac:(unfold z6; lra) ltac:(unfold z6; lra)) as A6.
  pose proof (amplitude z8 (8/10) 2 ltac:(unfold z8; lra) ltac:(lra) ltac:(lra) ltac:(unfold z8; lra) ltac:(unfold z8; lra)) as A8.
  destruct (sqrt_between 0 (3/10) (z7 / 12)) as [B1 B2]; try (unfold z7; lra).
  set (a1 := 2 * z1 * sqrt z1) in *. set (a2 := 2 * z2 * sqrt z2) in *. set (a3 := 2 * z3 * sqrt z3) in *. set (a4 := 2 * z4 * sqrt z4) in *.
  set (a5 := 2 * z5 * sqrt z5) in *. set (a6 := 2 * z6 * sqrt z6) in *. set (a8 := 2 * z8 * sqrt z8) in *. set (q := sqrt (z7 / 12)) in *.
  pose proof (dominated (24917 / 10 ^ 7 * a1) (314015 / 10 ^ 7 * a2) z2 z1 r ltac:(unfold z1, z2 in *; lra) ltac:(unfold z1, z2; lra) ltac:(lra)) as D1.
  assert (D2 : 35284 / 10 ^ 7 * a6 * exp (- (z6 * r)) < 8685562 / 10 ^ 7 * a4 * exp (- (z4 * r))).
  { replace (- (z6 * r)) with ((z4 - z6) * r + - (z4 * r)) by ring. rewrite exp_plus.
    assert (X : exp ((z4 - z6) * r) <= 243). { eapply Rle_trans; [|apply exp_five]. destruct (Rle_lt_or_eq_dec ((z4 - z6) * r) 5) as [H|H]; [unfold z4, z6; lra|left; now apply exp_increasing|rewrite H; lra]. }
    pose proof (exp_pos ((z4 - z6) * r)). pose proof (exp_pos (- (z4 * r))) as P. rewrite <- Rmult_assoc. apply Rmult_lt_compat_r; [exact P|].
    apply Rle_lt_trans with (35284 / 10 ^ 7 * a6 * 243); [apply Rmult_le_compat_l; [unfold z6 in *; lra|exact X]|]. unfold z4, z6 in *; lra. }
  assert (Q : 0 <= 4149 / 10 ^ 7 * (4 * z7 * z7 * q) * r <= 12299 / 10 ^ 7 * a8).
  { assert (Z : 0 <= 4 * z7 * z7 * q <= 82 / 100).
    { assert (0 <= 4 * z7 * z7 <= 271 / 100) by (unfold z7; lra). nra. }
    split; [apply Rmult_le_pos; lra|]. apply Rle_trans with (4149 / 10 ^ 7 * (82 / 100) * 2); [apply Rmult_le_compat; lra|]. unfold z8 in *; lra. }
  pose proof (dominated _ _ z8 z7 r Q ltac:(unfold z8, z7; lra) ltac:(lra)) as D3.
  assert (P3 : 0 <= 849694 / 10 ^ 7 * (a3 * exp (- (z3 * r)))). { pose proof (exp_pos (- (z3 * r))). apply Rmult_le_pos; [lra|]. apply Rmult_le_pos; [|lra]. lra. }
  assert (P5 : 0 <= 315855 / 10 ^ 7 * (a5 * exp (- (z5 * r)))). { pose proof (exp_pos (- (z5 * r))). apply Rmult_le_pos; [lra|]. apply Rmult_le_pos; [|lra]. lra. }
  clear A1 A2 A3 A4 A5 A6 A8 Q. rewrite !Rmult_assoc in *. 
  revert D1 D2 D3 P3 P5. clearbody a1 a2 a3 a4 a5 a6 a8.
  generalize (a1 * exp (- (z1 * r))) (a2 * exp (- (z2 * r))) (a3 * exp (- (z3 * r))) (a4 * exp (- (z4 * r))) (a5 * exp (- (z5 * r))) (a6 * exp (- (z6 * r))) (a8 * exp (- (z8 * r))) (z7 * (z7 * (q * (r * exp (- (z7 * r)))))).
  intros. lra.
Qed.
(** A term that is small enough at 2. *)
Lemma outer a x y t r : 0 <= a -> y <= x -> a <= t * (1 + 2 * (x - y)) -> 2 <= r -> a * exp (- (x * r)) <= t * exp (- (y * r)).
Proof.
  intros Ha Hx Ht Hr. replace (- (x * r)) with (- ((x - y) * r) + - (y * r)) by ring. rewrite exp_plus, <- Rmult_assoc. apply Rmult_le_compat_r; [left; apply exp_pos|].
  pose proof (exp_ineq1_le ((x - y) * r)) as E. assert (F : exp ((x - y) * r) * exp (- ((x - y) * r)) = 1) by (rewrite <- exp_plus, Rplus_opp_r; apply exp_0).
  pose proof (exp_pos (- ((x - y) * r))). set (u := exp ((x - y) * r)) in *. set (v := exp (- ((x - y) * r))) in *.
  assert (1 + 2 * (x - y) <= u) by nra. assert (0 <= t) by nra. apply Rle_trans with (t * u * v); [|rewrite Rmult_assoc, F; lra]. apply Rmult_le_compat_r; [lra|]. nra.
Qed.
Lemma be_2s_pos e r : 2 <= r -> 0 < phi (mkSub 2 e 0 be_2s) r.
Proof.
  intros Hr. unfold phi. cbn [s_exp]. terms. unfold rsum. cbn [fold_right]. rewrite !sto_one, sto_two by lra.
  set (z1 := 12683501 / 10 ^ 6). set (z2 := 8105927 / 10 ^ 6). set (z3 := 5152556 / 10 ^ 6). set (z4 := 3472467 / 10 ^ 6). set (z5 := 2349757 / 10 ^ 6). set (z6 := 1406429 / 10 ^ 6). set (z7 := 821620 / 10 ^ 6). set (z8 := 786473 / 10 ^ 6).
  pose proof (amplitude z1 0 4 ltac:(unfold z1; lra) ltac:(lra) ltac:(lra) ltac:(unfold z1; lra) ltac:(unfold z1; lra)) as A1.
  pose proof (amplitude z2 0 3 ltac:(unfold z2; lra) ltac:(lra) ltac:(lra) ltac:(unfold z2; lra) ltac:(unfold z2; lra)) as A2.
  pose proof (amplitude z3 0 (23/10) ltac:(unfold z3; lra) ltac:(lra) ltac:(lra) ltac:(unfold z3; lra) ltac:(unfold z3; lra)) as A3.
  pose proof (amplitude z4 0 3 ltac:(unfold z4; lra) ltac:(lra) ltac:(lra) ltac:(unfold z4; lra) ltac:(unfold z4; lra)) as A4.
  pose proof (amplitude z5 0 (154/100) ltac:(unfold z5; lra) ltac:(lra) ltac:(lra) ltac:(unfold z5; lra) ltac:(unfold z5; lra)) as A5.
  pose proof (amplitude z6 0 (12/10) ltac:(unfold z6; lra) ltac:(lra) ltac:(lra) ltac:(unfold z6; lra) ltac:(unfold z6; lra)) as A6.
  pose proof (amplitude z8 (88/100) 2 ltac:(unfold z8; lra) ltac:(lra) ltac:(lra) ltac:(unfold z8; lra) ltac:(unfold z8; lra)) as A8.
  pose proof (sqrt_pos (z7 / 12)) as B1.
  set (a1 := 2 * z1 * sqrt z1) in *. set (a2 := 2 * z2 * sqrt z2) in *. set (a3 := 2 * z3 * sqrt z3) in *. set (a4 := 2 * z4 * sqrt z4) in *.
  set (a5 := 2 * z5 * sqrt z5) in *. set (a6 := 2 * z6 * sqrt z6) in *. set (a8 := 2 * z8 * sqrt z8) in *. set (q := sqrt (z7 / 12)) in *.
  pose proof (outer (30990 / 10 ^ 7 * a2) z2 z8 (2 / 100) r ltac:(lra) ltac:(unfold z2, z8; lra) ltac:(unfold z2, z8 in *; lra) Hr) as D2.
  pose proof (outer (367056 / 10 ^ 7 * a3) z3 z8 (1 / 10) r ltac:(lra) ltac:(unfold z3, z8; lra) ltac:(unfold z3, z8 in *; lra) Hr) as D3.
  pose proof (outer (3598016 / 10 ^ 7 * a5) z5 z8 (65 / 100) r ltac:(lra) ltac:(unfold z5, z8; lra) ltac:(unfold z5, z8 in *; lra) Hr) as D5.
  pose proof (outer (2563459 / 10 ^ 7 * a6) z6 z8 (4 / 10) r ltac:(lra) ltac:(unfold z6, z8; lra) ltac:(unfold z6, z8 in *; lra) Hr) as D6.
  assert (D8 : 15 / 10 * exp (- (z8 * r)) <= 11150995 / 10 ^ 7 * (a8 * exp (- (z8 * r)))). { pose proof (exp_pos (- (z8 * r))). rewrite <- Rmult_assoc. apply Rmult_le_compat_r; [lra|]. unfold z8 in *; lra. }
  assert (P1 : 0 <= 4442 / 10 ^ 7 * (a1 * exp (- (z1 * r)))). { pose proof (exp_pos (- (z1 * r))). apply Rmult_le_pos; [lra|]. apply Rmult_le_pos; lra. }
  assert (P4 : 0 <= 138910 / 10 ^ 7 * (a4 * exp (- (z4 * r)))). { pose proof (exp_pos (- (z4 * r))). apply Rmult_le_pos; [lra|]. apply Rmult_le_pos; lra. }
  assert (P7 : 0 <= 2434108 / 10 ^ 7 * (4 * z7 * z7 * q * r * exp (- (z7 * r)))).
  { pose proof (exp_pos (- (z7 * r))). apply Rmult_le_pos; [lra|]. apply Rmult_le_pos; [|lra]. apply Rmult_le_pos; [|lra]. apply Rmult_le_pos; [unfold z7; lra|exact B1]. }
  pose proof (exp_pos (- (z8 * r))) as E8.
  clear A1 A2 A3 A4 A5 A6 A8. revert E8 D2 D3 D5 D6 D8 P1 P4 P7. rewrite (Rmult_assoc (30990 / 10 ^ 7)), (Rmult_assoc (367056 / 10 ^ 7)), (Rmult_assoc (3598016 / 10 ^ 7)), (Rmult_assoc (2563459 / 10 ^ 7)).
  clearbody a1 a2 a3 a4 a5 a6 a8.
  generalize (a1 * exp (- (z1 * r))) (a2 * exp (- (z2 * r))) (a3 * exp (- (z3 * r))) (a4 * exp (- (z4 * r))) (a5 * exp (- (z5 * r))) (a6 * exp (- (z6 * r))) (a8 * exp (- (z8 * r))) (4 * z7 * z7 * q * r * exp (- (z7 * r))) (exp (- (z8 * r))).
  intros. lra.
Qed.
Lemma be_pos e1 e2 r : 0 <= r -> 0 < rho (be_subs e1 e2) r.
Proof.
  intros Hr. unfold rho, rho_w, be_subs. cbn [map]. rewrite !rsum_cons. change (rsum []) with 0. cbn [s_occ]. pose proof PI_RGT_0. apply Rdiv_lt_0_compat; [|lra].
  destruct (Rle_dec r 2) as [L|L].
  - pose proof (be_1s_pos e1 r (conj Hr L)) as P. pose proof (pow_lt _ 2 P). pose proof (pow2_ge_0 (phi (mkSub 2 e2 0 be_2s) r)). lra.
  - pose proof (be_2s_pos e2 r ltac:(lra)) as P. pose proof (pow_lt _ 2 P). pose proof (pow2_ge_0 (phi (mkSub 2 e1 0 be_1s) r)). lra.
Qed.
