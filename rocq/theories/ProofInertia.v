(** Number arguments of UniformRadialGrid; the axes of inertia of from_molecule (C21, C25, C26). *)
From Coquelicot Require Import Coquelicot.
From Coq Require Import Reals List ZArith Lia Lra Bool Nsatz.
From Verif Require Import XR SpecDens SpecGrid ModelDens ModelGrid ProofGrid ProofErr2 ProofCubic SpecInertia.
Import ListNotations.
Local Open Scope R_scope.

Lemma number_iff v x : number_arg v x <-> as_number v = Some x.
Proof.
  split; [intros []; reflexivity|]. destruct v; cbn; try discriminate; intros H; injection H as <-; try constructor. destruct b; constructor.
Qed.
Lemma uniform_ok' num n v w a b : int_arg num n -> (0 < n)%Z -> number_arg v (Fin a) -> number_arg w (Fin b) -> a < b ->
  uniform_init num v w = Ok (map Fin (equispaced a b (Z.to_nat n))).
Proof.
  intros I Hn Hv Hw Hab. apply number_iff in Hv, Hw. rewrite <- (uniform_ok n v w a b Hn Hv Hw Hab).
  apply as_int_iff in I. unfold uniform_init. now rewrite I.
Qed.
Lemma uniform_accepts' num v w : (exists pts, uniform_init num v w = Ok pts) <->
  exists n a b, int_arg num n /\ (0 < n)%Z /\ number_arg v a /\ number_arg w b /\ xleb b a = false.
Proof. rewrite uniform_accepts. split; intros (n & a & b & H1 & H2 & H3 & H4 & H5); exists n, a, b; rewrite !number_iff in *; auto. Qed.
Lemma uniform_rejects' num v w x : uniform_init num v w = Raise x ->
  ((exists n a b, int_arg num n /\ (0 < n)%Z /\ number_arg v a /\ number_arg w b /\ xleb b a = true) /\ x = ValueError) \/
  (~ (exists n a b, int_arg num n /\ (0 < n)%Z /\ number_arg v a /\ number_arg w b) /\ x = TypeError).
Proof.
  intros H. destruct (uniform_rejects _ _ _ _ H) as [[(n & a & b & H1 & H2 & H3 & H4 & H5) E]|[N E]]; [left|right]; split; auto.
  - exists n, a, b. rewrite !number_iff. auto.
  - intros (n & a & b & H1 & H2 & H3 & H4). apply N. exists n, a, b. rewrite !number_iff in *. auto.
Qed.

(** ** The inertia tensor *)
Lemma crd_mrow_madd m n j k : crd (mrow (madd m n) j) k = crd (mrow m j) k + crd (mrow n j) k.
Proof. destruct m as [[[[? ?] ?] [[? ?] ?]] [[? ?] ?]], n as [[[[? ?] ?] [[? ?] ?]] [[? ?] ?]]. destruct j as [|[|j]], k as [|[|k]]; reflexivity. Qed.
Lemma atom_entry c z x j k : (j < 3)%nat -> (k < 3)%nat -> let d := (crd x 0 - crd c 0, crd x 1 - crd c 1, crd x 2 - crd c 2) in
  crd (mrow (atom_tensor c z x) j) k = z * ((if Nat.eqb j k then dot3 d d else 0) - crd d j * crd d k).
Proof.
  intros Hj Hk. destruct c as [[c0 c1] c2], x as [[x0 x1] x2]. cbv zeta. unfold atom_tensor.
  replace (sqrt (vdot (vsub (x0, x1, x2) (c0, c1, c2)) (vsub (x0, x1, x2) (c0, c1, c2))) ^ 2) with (vdot (vsub (x0, x1, x2) (c0, c1, c2)) (vsub (x0, x1, x2) (c0, c1, c2))).
  2:{ symmetry. apply pow2_sqrt. unfold vdot, vsub. repeat apply Rplus_le_le_0_compat; apply Rle_0_sqr. }
  destruct j as [|[|[|j]]]; try lia; destruct k as [|[|[|k]]]; try lia; unfold dot3, vdot, vsub, madd, mscal, outer, diag, vscal, vadd, row, mrow, crd; cbn [Nat.eqb]; ring.
Qed.
Lemma itensor_entry zs xs j k : length zs = length xs -> (j < 3)%nat -> (k < 3)%nat -> crd (mrow (itensor zs xs) j) k = inertia zs xs j k.
Proof.
  intros L Hj Hk. unfold itensor, inertia.
  assert (G : forall l m t, crd (mrow (fold_left (fun t zx => madd t (atom_tensor (com zs xs) (fst zx) (snd zx))) (combine l m) t) j) k =
    crd (mrow t j) k + inertia_sum j k (combine l (map (offset zs xs) m))).
  { induction l as [|z l IH]; intros [|x m] t; cbn [combine fold_left map inertia_sum]; try ring.
    rewrite IH, crd_mrow_madd. cbn [fst snd]. rewrite atom_entry by auto. rewrite !com_crd by exact L. fold (offset zs xs x). ring. }
  rewrite G. replace (crd (mrow (diag 0 0 0) j) k) with 0; [ring|]. destruct j as [|[|j]], k as [|[|k]]; reflexivity.
Qed.

(** ** Rows of an orthogonal matrix *)
Lemma rows_orthogonal v : orthogonal v -> forall i j, (i < 3)%nat -> (j < 3)%nat -> dot3 (mrow v i) (mrow v j) = if Nat.eqb i j then 1 else 0.
Proof.
  intros H. destruct v as [[u v] w]. destruct u as [[a b] c]. destruct v as [[d e] f]. destruct w as [[g h] i].
  pose proof (H 0%nat 0%nat ltac:(lia) ltac:(lia)) as H00. pose proof (H 0%nat 1%nat ltac:(lia) ltac:(lia)) as H01. pose proof (H 0%nat 2%nat ltac:(lia) ltac:(lia)) as H02.
  pose proof (H 1%nat 1%nat ltac:(lia) ltac:(lia)) as H11. pose proof (H 1%nat 2%nat ltac:(lia) ltac:(lia)) as H12. pose proof (H 2%nat 2%nat ltac:(lia) ltac:(lia)) as H22. clear H.
  unfold dot3, mcol, mrow, crd in *. cbn [Nat.eqb] in *.
  intros p q Hp Hq. destruct p as [|[|[|p]]]; try lia; destruct q as [|[|[|q]]]; try lia; cbn [Nat.eqb]; clear Hp Hq; nsatz.
Qed.
Lemma frame v : orthogonal v -> forall x k, (k < 3)%nat -> crd x k = dot3 x (mrow v 0) * crd (mrow v 0) k + dot3 x (mrow v 1) * crd (mrow v 1) k + dot3 x (mrow v 2) * crd (mrow v 2) k.
Proof.
  intros H. destruct v as [[u v] w]. destruct u as [[a b] c]. destruct v as [[d e] f]. destruct w as [[g h] i].
  pose proof (H 0%nat 0%nat ltac:(lia) ltac:(lia)) as H00. pose proof (H 0%nat 1%nat ltac:(lia) ltac:(lia)) as H01. pose proof (H 0%nat 2%nat ltac:(lia) ltac:(lia)) as H02.
  pose proof (H 1%nat 1%nat ltac:(lia) ltac:(lia)) as H11. pose proof (H 1%nat 2%nat ltac:(lia) ltac:(lia)) as H12. pose proof (H 2%nat 2%nat ltac:(lia) ltac:(lia)) as H22. clear H.
  unfold dot3, mcol, mrow, crd in *. cbn [Nat.eqb] in *. intros [[x y] z] k Hk.
  destruct k as [|[|[|k]]]; try lia; clear Hk; nsatz.
Qed.

(** ** The rotated grid *)
Lemma proj_crd zs xs v x k : length zs = length xs -> (k < 3)%nat -> crd (vmul (vsub x (com zs xs)) v) k = dot3 (offset zs xs x) (mcol v k).
Proof.
  intros L Hk. unfold offset. rewrite <- !com_crd by exact L. destruct (com zs xs) as [[c0 c1] c2], x as [[x0 x1] x2], v as [[[[? ?] ?] [[? ?] ?]] [[? ?] ?]].
  destruct k as [|[|[|k]]]; try lia; unfold dot3, mcol, crd, vmul, vsub, vadd, vscal, row; ring.
Qed.
Lemma rotated eigh zs xs h ext : 0 < h -> 0 <= ext -> length zs = length xs -> xs <> [] -> let v := eigh (itensor zs xs) in orthogonal v ->
  exists n0 n1 n2 g, from_molecule eigh zs xs h ext true = Ok g /\ length (cg_points g) = (n0 * n1 * n2)%nat /\
    (forall p, In p (cg_points g) <-> exists i0 i1 i2, (i0 < n0 /\ i1 < n1 /\ i2 < n2)%nat /\
       forall k, (k < 3)%nat -> dot3 (offset zs xs p) (mrow v k) = (INR (choose i0 i1 i2 k) - INR (choose n0 n1 n2 k) / 2) * h) /\
    (forall k lo hi, (k < 3)%nat -> proj_range zs xs (mcol v k) lo hi -> hi - lo + 2 * ext <= INR (choose n0 n1 n2 k) * h < hi - lo + 2 * ext + h) /\
    (forall x, in_box (cg_origin g) (cg_axes g) (INR n0) (INR n1) (INR n2) x <-> forall k, (k < 3)%nat -> Rabs (dot3 (offset zs xs x) (mrow v k)) <= INR (choose n0 n1 n2 k) * h / 2).
Proof.
  intros Hh He L Ne v Ho. destruct xs as [|x0 l]; [congruence|]. unfold from_molecule. fold v.
  set (pj := fun x => vmul (vsub x (com zs (x0 :: l))) v). cbv zeta. cbn [map]. fold (pj x0).
  pose proof (amax_is_range 0 (pj x0) (map pj l)) as R0'. pose proof (amax_is_range 1 (pj x0) (map pj l)) as R1'. pose proof (amax_is_range 2 (pj x0) (map pj l)) as R2'.
  assert (Hrng : forall k lo hi, (k < 3)%nat -> proj_range zs (x0 :: l) (mcol v k) lo hi -> crd (amax (pj x0) (map pj l)) k = hi /\ crd (amin (pj x0) (map pj l)) k = lo).
  { intros k lo hi Hk (A & (y & Iy & Ey) & (z & Iz & Ez)). apply amax_range. change (pj x0 :: map pj l) with (map pj (x0 :: l)).
    assert (P : forall x, crd (pj x) k = dot3 (offset zs (x0 :: l) x) (mcol v k)) by (intros x; now apply proj_crd). split; [|split].
    - intros q Iq. apply in_map_iff in Iq. destruct Iq as (x & <- & Ix). rewrite P. now apply A.
    - exists (pj y). split; [now apply in_map|]. now rewrite P.
    - exists (pj z). split; [now apply in_map|]. now rewrite P. }
  destruct (amax (pj x0) (map pj l)) as [[m0 m1] m2] eqn:Emax. destruct (amin (pj x0) (map pj l)) as [[l0 l1] l2] eqn:Emin.
  cbn [crd] in R0', R1', R2'.
  assert (Hle : forall k a b, is_range k (pj x0 :: map pj l) a b -> a <= b). { intros k a b [Hb _]. specialize (Hb (pj x0) (or_introl eq_refl)). lra. }
  destruct (npoints_spec m0 l0 ext h Hh (Hle _ _ _ R0') He) as [n0 [E0 B0]].
  destruct (npoints_spec m1 l1 ext h Hh (Hle _ _ _ R1') He) as [n1 [E1 B1]].
  destruct (npoints_spec m2 l2 ext h Hh (Hle _ _ _ R2') He) as [n2 [E2 B2]].
  rewrite E0, E1, E2. set (o := vsub (com zs (x0 :: l)) _). rewrite cubic_ok.
  exists n0, n1, n2. eexists. split; [reflexivity|]. cbn [cg_points cg_weights cg_origin cg_axes].
  split; [rewrite map_length; apply coords_length|].
  pose proof (rows_orthogonal v Ho) as Ro. pose proof (frame v Ho) as Fr.
  assert (Oc : forall k, (k < 3)%nat -> crd o k = center_of_charge k zs (x0 :: l) - h / 2 * (INR n0 * crd (mrow v 0) k + INR n1 * crd (mrow v 1) k + INR n2 * crd (mrow v 2) k)).
  { intros k Hk. unfold o. rewrite <- com_crd by exact L. rewrite <- !INR_IZR_INZ. destruct (com zs (x0 :: l)) as [[c0 c1] c2]. clear. destruct v as [[[[? ?] ?] [[? ?] ?]] [[? ?] ?]].
    destruct k as [|[|k]]; unfold vsub, mscal, vmul; cbn [row]; unfold vscal, vadd, mrow, crd; field. }
  assert (Pt : forall s t r x, (forall k, (k < 3)%nat -> crd x k = crd o k + s * (h * crd (mrow v 0) k) + t * (h * crd (mrow v 1) k) + r * (h * crd (mrow v 2) k)) <->
     (dot3 (offset zs (x0 :: l) x) (mrow v 0) = (s - INR n0 / 2) * h /\ dot3 (offset zs (x0 :: l) x) (mrow v 1) = (t - INR n1 / 2) * h /\ dot3 (offset zs (x0 :: l) x) (mrow v 2) = (r - INR n2 / 2) * h)).
  { intros s t r x. set (q := offset zs (x0 :: l) x).
    assert (Q : forall k, (k < 3)%nat -> crd x k = crd q k + center_of_charge k zs (x0 :: l)).
    { intros k Hk. unfold q, offset. destruct k as [|[|[|k]]]; try lia; cbn [crd]; ring. }
    split.
    - intros H.
      assert (D : forall k, (k < 3)%nat -> crd q k = (s - INR n0 / 2) * h * crd (mrow v 0) k + (t - INR n1 / 2) * h * crd (mrow v 1) k + (r - INR n2 / 2) * h * crd (mrow v 2) k).
      { intros k Hk. specialize (H k Hk). rewrite (Q k Hk), (Oc k Hk) in H. lra. }
      pose proof (D 0%nat ltac:(lia)) as D0. pose proof (D 1%nat ltac:(lia)) as D1. pose proof (D 2%nat ltac:(lia)) as D2.
      set (s' := (s - INR n0 / 2) * h) in *. set (t' := (t - INR n1 / 2) * h) in *. set (r' := (r - INR n2 / 2) * h) in *.
      assert (S : forall j, dot3 q (mrow v j) = s' * dot3 (mrow v 0) (mrow v j) + t' * dot3 (mrow v 1) (mrow v j) + r' * dot3 (mrow v 2) (mrow v j)).
      { intros j. unfold dot3 at 1. rewrite D0, D1, D2. unfold dot3. ring. }
      split; [|split]; rewrite S, !Ro by lia; cbn [Nat.eqb]; ring.
    - intros (A & B & C) k Hk. rewrite (Q k Hk), (Oc k Hk), (Fr q k Hk), A, B, C. field. }
  split; [|split].
  - intros p. rewrite in_map_iff. split.
    + intros [[[i j] k] [<- Hi]]. apply in_coords in Hi. exists i, j, k. split; [lia|].
      destruct (proj1 (Pt (INR i) (INR j) (INR k) (cubic_point o (mscal h v) (i, j, k)))) as (A & B & C).
      { intros a Ha. rewrite cubic_point_lattice. clear -Ha. destruct o as [[? ?] ?]. destruct v as [[[[? ?] ?] [[? ?] ?]] [[? ?] ?]]. destruct a as [|[|[|a]]]; try lia; reflexivity. }
      intros a Ha. destruct a as [|[|[|a]]]; try lia; assumption.
    + intros (i & j & k & Hi & H). exists (i, j, k). split; [|apply in_coords; lia].
      pose proof (proj2 (Pt (INR i) (INR j) (INR k) p) (conj (H 0%nat ltac:(lia)) (conj (H 1%nat ltac:(lia)) (H 2%nat ltac:(lia))))) as G.
      rewrite cubic_point_lattice. pose proof (G 0%nat ltac:(lia)) as G0. pose proof (G 1%nat ltac:(lia)) as G1. pose proof (G 2%nat ltac:(lia)) as G2. clear -G0 G1 G2.
      destruct o as [[? ?] ?]. destruct v as [[[[? ?] ?] [[? ?] ?]] [[? ?] ?]]. destruct p as [[? ?] ?]. cbn [crd mrow] in G0, G1, G2. subst. reflexivity.
  - intros k lo hi Hk Hr. destruct (Hrng k lo hi Hk Hr) as [Eh El]. destruct k as [|[|[|k]]]; [| | |lia]; cbn [crd choose] in *; subst; assumption.
  - intros x. assert (Bx : forall n y, Rabs y <= n * h / 2 <-> exists s, 0 <= s <= n /\ y = (s - n / 2) * h).
    { intros n y. split.
      - intros B. exists (y / h + n / 2). assert (- (n * h / 2) <= y <= n * h / 2) by (unfold Rabs in B; destruct (Rcase_abs y); lra). split; [|field; lra].
        assert (y / h <= n / 2 /\ - (n / 2) <= y / h); [|lra]. split; apply Rmult_le_reg_r with h; try lra; unfold Rdiv; rewrite (Rmult_assoc y), Rinv_l by lra; lra.
      - intros (s & B & ->). assert (s * h <= n * h) by (apply Rmult_le_compat_r; lra). assert (0 <= s * h) by (apply Rmult_le_pos; lra). apply Rabs_le. lra. }
    assert (Ib : in_box o (mscal h v) (INR n0) (INR n1) (INR n2) x <-> exists s t r, 0 <= s <= INR n0 /\ 0 <= t <= INR n1 /\ 0 <= r <= INR n2 /\
      forall k, (k < 3)%nat -> crd x k = crd o k + s * (h * crd (mrow v 0) k) + t * (h * crd (mrow v 1) k) + r * (h * crd (mrow v 2) k)).
    { clear. destruct v as [[[[a1 a2] a3] [[a4 a5] a6]] [[a7 a8] a9]]. unfold in_box, mscal, row, vscal, mrow. split; intros (s & t & r & A & B & C & D); exists s, t, r; do 3 (split; [assumption|]); intros k Hk; rewrite (D k Hk); destruct k as [|[|[|k]]]; try lia; reflexivity. }
    rewrite Ib. split.
    + intros (s & t & r & A & B & C & D). apply Pt in D. destruct D as (D0 & D1 & D2). intros k Hk. apply Bx. destruct k as [|[|[|k]]]; try lia; cbn [choose]; eauto.
    + intros H. destruct (proj1 (Bx _ _) (H 0%nat ltac:(lia))) as (s & A & A'). destruct (proj1 (Bx _ _) (H 1%nat ltac:(lia))) as (t & B & B'). destruct (proj1 (Bx _ _) (H 2%nat ltac:(lia))) as (r & C & C').
      exists s, t, r. do 3 (split; [assumption|]). apply Pt. auto.
Qed.

Lemma proj_exists zs xs u : xs <> [] -> exists lo hi, proj_range zs xs u lo hi.
Proof.
  destruct xs as [|x0 l]; [congruence|]. intros _. set (F := fun x => dot3 (offset zs (x0 :: l) x) u).
  destruct (fold_max_spec (map F l) (F x0)) as [H1 H2]. destruct (fold_min_spec (map F l) (F x0)) as [H3 H4].
  rewrite <- (map_cons F) in H1, H2, H3, H4. exists (fold_left Rmin (map F l) (F x0)), (fold_left Rmax (map F l) (F x0)). repeat split.
  - apply H4. apply (in_map F). assumption.
  - apply H2. apply (in_map F). assumption.
  - apply in_map_iff in H3. destruct H3 as [x [E Hx]]. eauto.
  - apply in_map_iff in H1. destruct H1 as [x [E Hx]]. eauto.
Qed.

Lemma rotated_cover eigh zs xs h ext : 0 < h -> 0 <= ext -> length zs = length xs -> xs <> [] -> let v := eigh (itensor zs xs) in orthogonal v ->
  exists n0 n1 n2 g, from_molecule eigh zs xs h ext true = Ok g /\ length (cg_points g) = (n0 * n1 * n2)%nat /\
    (forall p, In p (cg_points g) <-> exists i0 i1 i2, (i0 < n0 /\ i1 < n1 /\ i2 < n2)%nat /\
       forall k, (k < 3)%nat -> dot3 (offset zs xs p) (mrow v k) = (INR (choose i0 i1 i2 k) - INR (choose n0 n1 n2 k) / 2) * h) /\
    (forall k lo hi, (k < 3)%nat -> proj_range zs xs (mcol v k) lo hi -> hi - lo + 2 * ext <= INR (choose n0 n1 n2 k) * h < hi - lo + 2 * ext + h) /\
    (forall x, in_box (cg_origin g) (cg_axes g) (INR n0) (INR n1) (INR n2) x <-> forall k, (k < 3)%nat -> Rabs (dot3 (offset zs xs x) (mrow v k)) <= INR (choose n0 n1 n2 k) * h / 2) /\
    (forall x, dot3 (offset zs xs x) (offset zs xs x) <= ext ^ 2 -> in_box (cg_origin g) (cg_axes g) (INR n0) (INR n1) (INR n2) x) /\
    ((forall k, (k < 3)%nat -> mrow v k = mcol v k) -> forall k lo hi, (k < 3)%nat -> proj_range zs xs (mcol v k) lo hi ->
       forall x, In x xs -> Rabs (dot3 (offset zs xs x) (mrow v k)) + (ext - Rabs ((lo + hi) / 2)) <= INR (choose n0 n1 n2 k) * h / 2).
Proof.
  intros Hh He L Ne v Ho. destruct (rotated eigh zs xs h ext Hh He L Ne Ho) as (n0 & n1 & n2 & g & E & Len & Pts & Sz & Box). fold v in Pts, Sz, Box.
  exists n0, n1, n2, g. do 5 (split; [assumption|]). split.
  - intros x D. apply Box. intros k Hk. destruct (proj_exists zs xs (mcol v k) Ne) as (lo & hi & Pr).
    assert (lo <= hi). { destruct Pr as (A & _). destruct xs as [|y l]; [congruence|]. specialize (A y (or_introl eq_refl)). lra. }
    pose proof (Sz k lo hi Hk Pr) as [S _]. apply Rle_trans with ext; [|lra].
    set (d := offset zs xs x) in *. pose proof (frame v Ho d) as F. pose proof (F 0%nat ltac:(lia)) as F0. pose proof (F 1%nat ltac:(lia)) as F1. pose proof (F 2%nat ltac:(lia)) as F2.
    assert (Pa : dot3 d d = dot3 d (mrow v 0) ^ 2 + dot3 d (mrow v 1) ^ 2 + dot3 d (mrow v 2) ^ 2).
    { set (p := dot3 d (mrow v 0)) in *. set (q := dot3 d (mrow v 1)) in *. set (r := dot3 d (mrow v 2)) in *.
      assert (Q : dot3 d d = p * dot3 d (mrow v 0) + q * dot3 d (mrow v 1) + r * dot3 d (mrow v 2)). { unfold dot3 at 1. rewrite F0 at 1. rewrite F1 at 1. rewrite F2 at 1. unfold dot3. ring. }
      rewrite Q. fold p q r. ring. }
    assert (Sq : dot3 d (mrow v k) ^ 2 <= ext ^ 2).
    { rewrite Pa in D. pose proof (pow2_ge_0 (dot3 d (mrow v 0))). pose proof (pow2_ge_0 (dot3 d (mrow v 1))). pose proof (pow2_ge_0 (dot3 d (mrow v 2))). destruct k as [|[|[|k]]]; try lia; lra. }
    rewrite <- (Rabs_right ext) by lra. apply Rsqr_le_abs_0. unfold Rsqr. lra.
  - intros Sy k lo hi Hk Pr x Ix. destruct (Sz k lo hi Hk Pr) as [S _]. rewrite (Sy k Hk). destruct Pr as (A & _). specialize (A x Ix).
    unfold Rabs. destruct (Rcase_abs (dot3 (offset zs xs x) (mcol v k))), (Rcase_abs ((lo + hi) / 2)); lra.
Qed.
Lemma no_atoms eigh zs h ext rotate : from_molecule eigh zs [] h ext rotate = Raise ValueError.
Proof. destruct rotate; reflexivity. Qed.
