(** Rounded arithmetic: Slater densities. *)
From Coq Require Import Reals List ZArith Lia Lra Permutation.
From Verif Require Import XR SpecDens SpecSlater SpecRnd SpecRnd2 SpecRnd3 ModelRnd ModelRnd3 ProofRnd ProofRnd2 ProofRnd3 ProofRnd8.
Import ListNotations.
Local Open Scope R_scope.

Lemma nth_map_at : forall (X : Type) (l : list X) i, (i < length l)%nat ->
  exists x, In x l /\ forall f : X -> R, nth i (map f l) 0 = f x.
Proof.
  induction l as [|a l IH]; intros i I; [simpl in I; lia|]. destruct i as [|i].
  - exists a. split; [left; reflexivity | reflexivity].
  - destruct (IH i) as [x [A B]]; [simpl in I; lia|]. exists x. split; [right; exact A | exact B].
Qed.

Lemma rsum_map_le : forall (X : Type) (f g : X -> R) l, (forall x, In x l -> f x <= g x) -> rsum (map f l) <= rsum (map g l).
Proof.
  induction l as [|a l IH]; intro L; unfold rsum in *; simpl; [lra|].
  assert (f a <= g a) by (apply L; left; reflexivity). assert (fold_right Rplus 0 (map f l) <= fold_right Rplus 0 (map g l)); [|lra].
  apply IH. intros x I. apply L. right; exact I.
Qed.
Lemma rsum_map_minus : forall (X : Type) (f g : X -> R) l, rsum (map f l) - rsum (map g l) = rsum (map (fun x => f x - g x) l).
Proof. induction l as [|a l IH]; unfold rsum in *; simpl; [ring|]. rewrite <- IH. ring. Qed.
Lemma rsum_map_abs : forall (X : Type) (f : X -> R) l, Rabs (rsum (map f l)) <= rsum (map (fun x => Rabs (f x)) l).
Proof.
  induction l as [|a l IH]; unfold rsum in *; simpl; [rewrite Rabs_R0; lra|].
  eapply Rle_trans; [apply Rabs_triang|]. lra.
Qed.
Lemma rsum_map_const : forall (X : Type) (a : R) (l : list X), rsum (map (fun _ => a) l) = INR (length l) * a.
Proof. induction l as [|x l IH]; [unfold rsum; simpl; ring|]. cbn [map length]. rewrite S_INR. unfold rsum in *. cbn [fold_right]. rewrite IH. ring. Qed.

Lemma mul_near : forall a a' da b b' db, Rabs (a' - a) <= da -> Rabs (b' - b) <= db ->
  Rabs (a' * b' - a * b) <= (Rabs a + da) * (Rabs b + db) - Rabs a * Rabs b.
Proof.
  intros a a' da b b' db A B. assert (PA := Rabs_pos a). assert (PB := Rabs_pos b).
  assert (QA := Rabs_pos (a' - a)). assert (QB := Rabs_pos (b' - b)).
  replace (a' * b' - a * b) with ((a' - a) * (b' - b) + ((a' - a) * b + a * (b' - b))) by ring.
  eapply Rle_trans; [apply Rabs_triang|]. assert (T := Rabs_triang ((a' - a) * b) (a * (b' - b))). rewrite !Rabs_mult in *.
  assert (Rabs (a' - a) * Rabs (b' - b) <= da * db) by (apply Rmult_le_compat; assumption).
  assert (Rabs (a' - a) * Rabs b <= da * Rabs b) by (apply Rmult_le_compat_r; assumption).
  assert (Rabs a * Rabs (b' - b) <= Rabs a * db) by (apply Rmult_le_compat_l; assumption). lra.
Qed.
Lemma near_abs : forall a a' d, Rabs (a' - a) <= d -> Rabs a' <= Rabs a + d.
Proof. intros a a' d L. replace a' with (a + (a' - a)) by ring. eapply Rle_trans; [apply Rabs_triang|]. lra. Qed.
Lemma near_refl : forall a, Rabs (a - a) <= 0.
Proof. intro a. rewrite Rminus_diag_eq, Rabs_R0 by reflexivity. lra. Qed.

Section Slater.
Context (u eta : R) (fmt : R -> Prop) (rnd : R -> R) (H : rounding u eta fmt rnd) (Hu8 : u <= 1 / 8).
Notation q := (/ (1 - u)).
Notation within := (within u).

Lemma grow_rnd : forall a' b d, Rabs (a' - b) <= d -> Rabs (rnd a' - b) <= grow u 1 b d + eta.
Proof.
  intros a' b d L. assert (E := rd_err _ _ _ _ H a'). assert (N := near_abs _ _ _ L). assert (Q := q_ge _ _ _ _ H Hu8).
  assert (U := u0 _ _ _ _ H). assert (P := Rabs_pos a'). replace (rnd a' - b) with ((rnd a' - a') + (a' - b)) by ring.
  eapply Rle_trans; [apply Rabs_triang|]. unfold grow. rewrite pow_1.
  assert (u * Rabs a' <= u * (Rabs b + d)) by (apply Rmult_le_compat_l; lra).
  assert ((1 + u) * (Rabs b + d) <= q * (Rabs b + d)) by (apply Rmult_le_compat_r; lra). lra.
Qed.

Lemma grow_within : forall k a' b d f' f, 0 <= f -> 0 <= f' -> Rabs (a' - b) <= d -> within k f' f ->
  Rabs (a' * f' - b * f) <= grow u k b d * f.
Proof.
  intros k a' b d f' f Hf Hf' L W. assert (Up := within_up _ _ _ _ H Hu8 _ _ _ W). assert (Df := within_diff _ _ _ _ H Hu8 _ _ _ Hf W).
  assert (Pb := Rabs_pos b). assert (Pd : 0 <= d) by (generalize (Rabs_pos (a' - b)); lra).
  replace (a' * f' - b * f) with ((a' - b) * f' + b * (f' - f)) by ring.
  eapply Rle_trans; [apply Rabs_triang|]. rewrite !Rabs_mult, (Rabs_pos_eq f' Hf'). unfold grow.
  assert (Rabs (a' - b) * f' <= d * (q ^ k * f)) by (apply Rmult_le_compat; auto using Rabs_pos).
  assert (Rabs b * Rabs (f' - f) <= Rabs b * ((q ^ k - 1) * f)) by (apply Rmult_le_compat_l; auto). lra.
Qed.

Lemma prod_rnd : forall a a' da b b' db, Rabs (a' - a) <= da -> Rabs (b' - b) <= db ->
  Rabs (rnd (a' * b') - a * b) <= prod_bound u eta a da b db.
Proof.
  intros a a' da b b' db A B. eapply Rle_trans; [apply grow_rnd, (mul_near _ _ _ _ _ _ A B)|].
  unfold grow, prod_bound. rewrite pow_1, Rabs_mult. apply Req_le. ring.
Qed.

Lemma grow_mono : forall k b d d', d <= d' -> grow u k b d <= grow u k b d'.
Proof.
  intros k b d d' L. unfold grow. assert (Q := q_pow1 _ _ _ _ H Hu8 k).
  assert (q ^ k * (Rabs b + d) <= q ^ k * (Rabs b + d')) by (apply Rmult_le_compat_l; lra). lra.
Qed.

Lemma grow_grow : forall j k b d e, 0 <= e -> grow u j b (grow u k b d + e) <= grow u (j + k) b d + q ^ j * e.
Proof. intros. unfold grow. rewrite pow_add. apply Req_le. ring. Qed.

(** *** Sums of products *)
Lemma dot_near : forall (X : Type) fused t (l : list X) (a' a da b' b db : X -> R), orders (length l) t ->
  (forall x, In x l -> Rabs (a' x - a x) <= da x /\ Rabs (b' x - b x) <= db x) ->
  Rabs (fl_dot rnd fused t (map a' l) (map b' l) - rsum (map (fun x => b x * a x) l)) <=
    dot_bound u eta t (map (fun x => (a x, da x, b x, db x)) l).
Proof.
  intros X fused t l a' a da b' b db O N. assert (He := rd_eta _ _ _ _ H). assert (U := u0 _ _ _ _ H).
  set (P := fun x => (Rabs (a x) + da x) * (Rabs (b x) + db x)).
  assert (PP : forall x, In x l -> Rabs (a' x * b' x) <= P x).
  { intros x I. destruct (N x I) as [Na Nb]. rewrite Rabs_mult. apply Rmult_le_compat; auto using Rabs_pos, near_abs. }
  assert (C : close u (height t + 1) ((1 + u) ^ height t * (tsum t (map (fun _ => eta) l) + INR (additions t) * eta))
     (fl_dot rnd fused t (map a' l) (map b' l)) (tsum t (map (fun x => a' x * b' x) l)) (tsum t (map P l))).
  { unfold fl_dot. apply (fl_sum_close_any u eta fmt rnd H).
    - intro i. destruct (Nat.lt_ge_cases i (length l)) as [I|I].
      + destruct (nth_map_at _ l i I) as [x [_ ->]]. exact He.
      + rewrite nth_overflow by (rewrite map_length; exact I). lra.
    - intros i I. apply (orders_lt _ _ _ O) in I. rewrite nth_fl_prods by (rewrite !map_length; auto).
      destruct (nth_map_at _ l i I) as [x [Ix Ex]]. rewrite !Ex. specialize (PP x Ix). split; [exact PP|].
      assert (E := rd_err _ _ _ _ H (a' x * b' x)). rewrite pow_1.
      assert (u * Rabs (a' x * b' x) <= u * P x) by (apply Rmult_le_compat_l; lra).
      assert (PPx := Rabs_pos (a' x * b' x)).
      destruct (fused (0 + i)%nat); [|lra]. rewrite Rminus_diag_eq, Rabs_R0 by reflexivity.
      assert (0 <= u * P x) by (apply Rmult_le_pos; lra). lra. }
  rewrite !tsum_all in C by (rewrite map_length; exact O). destruct C as [_ C].
  rewrite rsum_map_const in C. unfold dot_bound. rewrite !map_map, map_length.
  change (fun x : X => (Rabs (a x) + da x) * (Rabs (b x) + db x)) with P.
  assert (D : Rabs (rsum (map (fun x => a' x * b' x) l) - rsum (map (fun x => b x * a x) l)) <=
    rsum (map P l) - rsum (map (fun x => Rabs (a x) * Rabs (b x)) l)).
  { rewrite !rsum_map_minus. eapply Rle_trans; [apply rsum_map_abs|]. apply rsum_map_le. intros x I.
    destruct (N x I) as [Na Nb]. rewrite (Rmult_comm (b x)). apply mul_near; assumption. }
  assert (S0 : 0 <= rsum (map P l)).
  { replace 0 with (rsum (map (fun _ => 0) l)) by (rewrite rsum_map_const; ring). apply rsum_map_le. intros x I.
    generalize (PP x I), (Rabs_pos (a' x * b' x)). lra. }
  assert (G : forall k, (1 + u) ^ k <= q ^ k) by (intro k; apply pow_incr; generalize (q_ge _ _ _ _ H Hu8); lra).
  assert (G1 : (1 + u) ^ (height t + 1) * rsum (map P l) <= q ^ (height t + 1) * rsum (map P l)) by (apply Rmult_le_compat_r; auto).
  assert (G2 : (1 + u) ^ height t * (INR (length l) * eta + INR (additions t) * eta) <= q ^ height t * (eta * INR (length l + additions t))).
  { rewrite plus_INR. replace (INR (length l) * eta + INR (additions t) * eta) with (eta * (INR (length l) + INR (additions t))) by ring.
    apply Rmult_le_compat_r; [|apply G]. apply Rmult_le_pos; [exact He|]. generalize (pos_INR (length l)), (pos_INR (additions t)); lra. }
  replace (fl_dot rnd fused t (map a' l) (map b' l) - rsum (map (fun x => b x * a x) l)) with
    ((fl_dot rnd fused t (map a' l) (map b' l) - rsum (map (fun x => a' x * b' x) l)) +
     (rsum (map (fun x => a' x * b' x) l) - rsum (map (fun x => b x * a x) l))) by ring.
  eapply Rle_trans; [apply Rabs_triang|]. lra.
Qed.

(** *** Exponentials *)
Section Exp.
Context (v z : R) (fexp : R -> R) (X : exp_error v z fexp).

Lemma exp_near : forall s t d, s <= 0 -> Rabs (s + t) <= d -> Rabs (fexp s - exp (- t)) <= exp_bound v z t d.
Proof.
  intros s t d Hs L. destruct X as (Hv & Hz & HX). destruct (HX s Hs) as [_ E]. assert (Pt := exp_pos (- t)).
  assert (Hd : 0 <= d) by (generalize (Rabs_pos (s + t)); lra).
  assert (L1 : s + t <= d) by (generalize (Rle_abs (s + t)); lra).
  assert (L2 : - d <= s + t) by (generalize (Rle_abs (- (s + t))); rewrite Rabs_Ropp; lra).
  assert (Es : exp s = exp (- t) * exp (s + t)) by (rewrite <- exp_plus; f_equal; ring).
  assert (M : forall x y, x <= y -> exp x <= exp y) by (intros x y [l| ->]; [left; apply exp_increasing, l | right; reflexivity]).
  assert (U1 : exp (s + t) <= exp d) by (apply M, L1).
  assert (U2 : 2 - exp d <= exp (s + t)).
  { apply Rle_trans with (exp (- d)); [|apply M, L2].
    assert (P := exp_pos d). assert (E1 : exp d * exp (- d) = 1) by (rewrite <- exp_plus, Rplus_opp_r; apply exp_0).
    assert (0 <= (exp d - 1) * (exp d - 1)) by apply Rle_0_sqr. apply Rmult_le_reg_l with (exp d); [exact P|]. rewrite E1. lra. }
  assert (D : Rabs (exp s - exp (- t)) <= exp (- t) * (exp d - 1)).
  { replace (exp s - exp (- t)) with (exp (- t) * (exp (s + t) - 1)) by (rewrite Es; ring).
    rewrite Rabs_mult, (Rabs_pos_eq (exp (- t))) by lra. apply Rmult_le_compat_l; [lra|]. apply Rabs_le. lra. }
  assert (B : v * exp s <= v * (exp (- t) * exp d)).
  { apply Rmult_le_compat_l; [exact Hv|]. rewrite Es. apply Rmult_le_compat_l; lra. }
  replace (fexp s - exp (- t)) with ((fexp s - exp s) + (exp s - exp (- t))) by ring.
  eapply Rle_trans; [apply Rabs_triang|]. unfold exp_bound. lra.
Qed.

Lemma share_near : forall h s, fmt (s_en s) -> fmt h -> Rabs (fl_share rnd fexp h s - share h s) <= share_bound u eta v z h s.
Proof.
  intros h s Fe Fh. assert (He := rd_eta _ _ _ _ H). assert (U := u0 _ _ _ _ H). unfold fl_share, share, share_bound. set (x := s_en s - h).
  apply exp_near.
  - assert (P : 0 <= rnd (rnd x * rnd x)) by (apply (rnd_pos u eta fmt rnd H), Rle_0_sqr). lra.
  - assert (A := rd_add _ _ _ _ H (s_en s) (- h) Fe (rd_opp _ _ _ _ H h Fh)). fold (s_en s - h) in A. fold x in A.
    assert (E := rd_err _ _ _ _ H (rnd x * rnd x)).
    assert (Px := Rabs_pos x). assert (Sx : x ^ 2 = Rabs x * Rabs x) by (rewrite <- Rabs_mult, Rabs_pos_eq by apply Rle_0_sqr; ring).
    assert (M := mul_near x (rnd x) (u * Rabs x) x (rnd x) (u * Rabs x) A A).
    assert (N := near_abs _ _ _ M). rewrite (Rabs_mult x x) in N.
    replace (- rnd (rnd x * rnd x) + x ^ 2) with (- ((rnd (rnd x * rnd x) - rnd x * rnd x) + (rnd x * rnd x - x * x))) by ring.
    rewrite Rabs_Ropp. eapply Rle_trans; [apply Rabs_triang|]. rewrite Sx.
    assert (u * Rabs (rnd x * rnd x) <= u * (Rabs x * Rabs x + ((Rabs x + u * Rabs x) * (Rabs x + u * Rabs x) - Rabs x * Rabs x))) by (apply Rmult_le_compat_l; lra).
    simpl. lra.
Qed.

Lemma weight_near : forall m h s, fmt (s_en s) -> fmt h ->
  Rabs (fl_weight rnd fexp m h s - weight m h s) <= weight_bound u eta v z m h s.
Proof.
  intros m h s Fe Fh. assert (S := share_near h s Fe Fh). destruct m; cbn [fl_weight weight weight_bound].
  - apply near_refl.
  - apply prod_rnd; [apply near_refl | exact S].
  - apply prod_rnd; [apply near_refl|]. apply grow_rnd.
    replace (1 - fl_share rnd fexp h s - (1 - share h s)) with (- (fl_share rnd fexp h s - share h s)) by ring. rewrite Rabs_Ropp. exact S.
Qed.
End Exp.
End Slater.
