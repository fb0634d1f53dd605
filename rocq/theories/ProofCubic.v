(** Proofs about the cubic grid. *)
From Coquelicot Require Import Coquelicot.
From Coq Require Import Reals List ZArith Lia Lra Bool.
From Verif Require Import XR SpecDens Lists SpecMeas SpecGrid ModelGrid.
Import ListNotations.
Local Open Scope R_scope.

(** ** Enumeration *)

Lemma flat_map_length_const {A B} (f : A -> list B) l m :
  (forall a, In a l -> length (f a) = m) -> length (flat_map f l) = (length l * m)%nat.
Proof.
  induction l as [|a l IH]; intros H; [reflexivity|]. simpl. rewrite app_length, IH, H.
  - reflexivity.
  - left; reflexivity.
  - intros b Hb. apply H. right; exact Hb.
Qed.

Lemma nth_flat_map {A B} (f : A -> list B) l m i j da d :
  (forall a, In a l -> length (f a) = m) -> (i < length l)%nat -> (j < m)%nat ->
  nth (i * m + j) (flat_map f l) d = nth j (f (nth i l da)) d.
Proof.
  revert i. induction l as [|a l IH]; intros i H Hi Hj; [simpl in Hi; lia|].
  assert (Ha : length (f a) = m) by (apply H; left; reflexivity).
  simpl flat_map. destruct i as [|i].
  - simpl. rewrite app_nth1 by lia. reflexivity.
  - rewrite app_nth2 by (rewrite Ha; simpl; lia).
    replace (S i * m + j - length (f a))%nat with (i * m + j)%nat by (rewrite Ha; simpl; lia).
    simpl nth. apply IH; [|simpl in Hi; lia|exact Hj].
    intros b Hb. apply H. right; exact Hb.
Qed.

Lemma coords_length n0 n1 n2 : length (coords n0 n1 n2) = (n0 * n1 * n2)%nat.
Proof.
  unfold coords, flat_coords. rewrite flat_map_length_const with (m := (n1 * n2)%nat).
  - rewrite seq_length. lia.
  - intros i _. rewrite flat_map_length_const with (m := n2).
    + rewrite seq_length. reflexivity.
    + intros j _. rewrite map_length, seq_length. reflexivity.
Qed.

Lemma nth_coords n0 n1 n2 i j k d : (i < n0)%nat -> (j < n1)%nat -> (k < n2)%nat ->
  nth ((i * n1 + j) * n2 + k) (coords n0 n1 n2) d = (i, j, k).
Proof.
  intros Hi Hj Hk. unfold coords, flat_coords.
  replace ((i * n1 + j) * n2 + k)%nat with (i * (n1 * n2) + (j * n2 + k))%nat by lia.
  rewrite nth_flat_map with (da := 0%nat).
  - rewrite seq_nth by exact Hi. rewrite nth_flat_map with (da := 0%nat).
    + rewrite seq_nth by exact Hj.
      match goal with |- nth k (map ?f _) d = _ =>
        rewrite nth_indep with (d' := f 0%nat) by (rewrite map_length, seq_length; exact Hk);
        rewrite (map_nth f), seq_nth by exact Hk end.
      reflexivity.
    + intros b _. rewrite map_length, seq_length. reflexivity.
    + rewrite seq_length. exact Hj.
    + exact Hk.
  - intros a _. rewrite flat_map_length_const with (m := n2).
    + rewrite seq_length. reflexivity.
    + intros b _. rewrite map_length, seq_length. reflexivity.
  - rewrite seq_length. exact Hi.
  - nia.
Qed.

Lemma in_coords n0 n1 n2 i j k :
  In (i, j, k) (coords n0 n1 n2) <-> (i < n0 /\ j < n1 /\ k < n2)%nat.
Proof.
  unfold coords, flat_coords. rewrite in_flat_map. split.
  - intros [a [Ha H]]. apply in_flat_map in H. destruct H as [b [Hb H]].
    apply in_map_iff in H. destruct H as [c [E Hc]].
    apply in_seq in Ha. apply in_seq in Hb. apply in_seq in Hc.
    unfold swapaxes, meshgrid_xy in E. injection E as <- <- <-. lia.
  - intros [Hi [Hj Hk]]. exists i. split; [apply in_seq; lia|].
    apply in_flat_map. exists j. split; [apply in_seq; lia|].
    apply in_map_iff. exists k. split; [reflexivity|apply in_seq; lia].
Qed.

Lemma cubic_point_lattice o axes i j k : cubic_point o axes (i, j, k) = lattice_point o axes i j k.
Proof.
  destruct o as [[o0 o1] o2]. destruct axes as [[u v] w].
  destruct u as [[u0 u1] u2]. destruct v as [[v0 v1] v2]. destruct w as [[w0 w1] w2].
  unfold cubic_point, lattice_point, vmul, vadd, vscal, row, crd.
  f_equal; [f_equal|]; ring.
Qed.

Lemma cubic_ok o axes (n0 n1 n2 : nat) :
  cubic_init o axes (Z.of_nat n0) (Z.of_nat n1) (Z.of_nat n2) =
  Ok (mkCubic o axes (map (cubic_point o axes) (coords n0 n1 n2))
        (repeat (cubic_volume axes (Z.of_nat n0) (Z.of_nat n1) (Z.of_nat n2) /
                 (1 * IZR (Z.of_nat n0 * Z.of_nat n1 * Z.of_nat n2))) (n0 * n1 * n2))).
Proof.
  unfold cubic_init. cbv zeta. destruct (Z.ltb_spec (Z.of_nat n0 * Z.of_nat n1 * Z.of_nat n2) 0); [lia|].
  rewrite !Nat2Z.id.
  replace (Z.to_nat (Z.of_nat n0 * Z.of_nat n1 * Z.of_nat n2)) with (n0 * n1 * n2)%nat
    by (rewrite <- !Nat2Z.inj_mul, Nat2Z.id; reflexivity).
  reflexivity.
Qed.

Lemma cubic_enum o axes (n0 n1 n2 : nat) : exists g,
  cubic_init o axes (Z.of_nat n0) (Z.of_nat n1) (Z.of_nat n2) = Ok g /\
  length (cg_points g) = (n0 * n1 * n2)%nat /\
  forall i j k d, (i < n0)%nat -> (j < n1)%nat -> (k < n2)%nat ->
    nth ((i * n1 + j) * n2 + k) (cg_points g) d = lattice_point o axes i j k.
Proof.
  eexists. split; [apply cubic_ok|]. cbn [cg_points]. split.
  - rewrite map_length. apply coords_length.
  - intros i j k d Hi Hj Hk.
    rewrite nth_indep with (d' := cubic_point o axes (0, 0, 0)%nat).
    + rewrite map_nth, nth_coords by assumption. apply cubic_point_lattice.
    + rewrite map_length, coords_length. assert (i * n1 + j < n0 * n1)%nat by nia. nia.
Qed.

(** ** Weights *)

Lemma volume_det axes n0 n1 n2 :
  cubic_volume axes n0 n1 n2 = Rabs (IZR (n0 * n1 * n2) * det3 axes).
Proof.
  destruct axes as [[u v] w].
  destruct u as [[u0 u1] u2]. destruct v as [[v0 v1] v2]. destruct w as [[w0 w1] w2].
  unfold cubic_volume, vdot, vcross, vscal, row, det3. rewrite !mult_IZR. f_equal. ring.
Qed.

Lemma weight_det axes n0 n1 n2 : (0 < n0 * n1 * n2)%Z ->
  cubic_volume axes n0 n1 n2 / (1 * IZR (n0 * n1 * n2)) = Rabs (det3 axes).
Proof.
  intros H. rewrite volume_det, Rabs_mult. apply IZR_lt in H. rewrite (Rabs_right (IZR _)) by lra.
  field. lra.
Qed.

Lemma weights_eq axes (n0 n1 n2 : nat) :
  repeat (cubic_volume axes (Z.of_nat n0) (Z.of_nat n1) (Z.of_nat n2) /
          (1 * IZR (Z.of_nat n0 * Z.of_nat n1 * Z.of_nat n2))) (n0 * n1 * n2) =
  repeat (Rabs (det3 axes)) (n0 * n1 * n2).
Proof.
  destruct (Nat.eq_dec (n0 * n1 * n2) 0) as [->|H]; [reflexivity|].
  rewrite weight_det; [reflexivity|]. lia.
Qed.

Lemma rdot_repeat c : forall y n, length y = n -> rdot (repeat c n) y = c * rsum y.
Proof.
  induction y as [|a y IH]; intros n <-; [unfold rdot, rsum; simpl; ring|].
  unfold rdot in *. cbn [length repeat map2]. rewrite !rsum_cons, (IH (length y)) by reflexivity. ring.
Qed.

Lemma cubic_integral o axes (n0 n1 n2 : nat) g :
  cubic_init o axes (Z.of_nat n0) (Z.of_nat n1) (Z.of_nat n2) = Ok g ->
  cg_weights g = repeat (Rabs (det3 axes)) (n0 * n1 * n2) /\
  forall y, length y = (n0 * n1 * n2)%nat ->
    cubic_integrate g (A1 (map Fin y)) = Ok (Fin (Rabs (det3 axes) * rsum y)).
Proof.
  rewrite cubic_ok. intros H. injection H as <-. cbn [cg_weights]. split; [apply weights_eq|].
  intros y Hy. unfold cubic_integrate. cbn [cg_points cg_weights].
  rewrite !map_length, coords_length, Hy, Nat.eqb_refl, weights_eq.
  change (xsum (map2 xmul ?a ?b)) with (xdot a b). rewrite xdot_fin, rdot_repeat by exact Hy.
  reflexivity.
Qed.

Lemma cubic_integrate_iff g arr :
  (exists v, cubic_integrate g arr = Ok v) <->
  (exists y, arr = A1 y /\ length y = length (cg_points g)).
Proof.
  unfold cubic_integrate. split.
  - intros [v H]. destruct arr as [y|r y]; [|discriminate].
    destruct (Nat.eqb_spec (length y) (length (cg_points g))); [eauto|discriminate].
  - intros [y [-> H]]. rewrite H, Nat.eqb_refl. eauto.
Qed.

Lemma cubic_integrate_raises g arr e : cubic_integrate g arr = Raise e -> e = ValueError.
Proof.
  unfold cubic_integrate. destruct arr as [y|]; [destruct (Nat.eqb _ _)|]; congruence.
Qed.

(** ** from_molecule *)

Lemma rceil_spec x : IZR (rceil x) - 1 < x <= IZR (rceil x).
Proof.
  unfold rceil. destruct (base_Int_part (- x)) as [H1 H2]. rewrite opp_IZR. lra.
Qed.

Lemma rceil_eq z x : x = IZR z -> rceil x = z.
Proof.
  intros ->. destruct (rceil_spec (IZR z)) as [H1 H2].
  apply le_IZR in H2. rewrite <- minus_IZR in H1. apply lt_IZR in H1. lia.
Qed.

Lemma com_crd k zs : forall xs, length zs = length xs ->
  crd (com zs xs) k = center_of_charge k zs xs.
Proof.
  intros xs H. unfold com, center_of_charge.
  assert (E1 : totz zs = charge zs) by (clear; unfold totz; induction zs; simpl; congruence).
  assert (E2 : forall l m, crd (wsum l m) k = moment k l m).
  { unfold wsum. induction l as [|z l IH]; intros m.
    - destruct k as [|[|k]]; reflexivity.
    - destruct m as [|x m]; [destruct k as [|[|k]]; reflexivity|].
      cbn [map2 fold_right moment]. rewrite <- IH. clear.
      destruct x as [[x0 x1] x2].
      destruct (fold_right vadd (0, 0, 0) (map2 vscal l m)) as [[y0 y1] y2].
      destruct k as [|[|k]]; reflexivity. }
  rewrite <- (E2 zs xs), <- E1. destruct (wsum zs xs) as [[y0 y1] y2].
  unfold Rdiv. destruct k as [|[|k]]; simpl; ring.
Qed.

Lemma amax_crd k : forall l x0, crd (amax x0 l) k = fold_left Rmax (map (fun x => crd x k) l) (crd x0 k).
Proof.
  unfold amax. induction l as [|y l IH]; intros x0; [reflexivity|]. cbn [fold_left map].
  rewrite IH. f_equal. destruct x0 as [[a b] c]. destruct y as [[d e] f].
  destruct k as [|[|k]]; reflexivity.
Qed.

Lemma amin_crd k : forall l x0, crd (amin x0 l) k = fold_left Rmin (map (fun x => crd x k) l) (crd x0 k).
Proof.
  unfold amin. induction l as [|y l IH]; intros x0; [reflexivity|]. cbn [fold_left map].
  rewrite IH. f_equal. destruct x0 as [[a b] c]. destruct y as [[d e] f].
  destruct k as [|[|k]]; reflexivity.
Qed.

Lemma fold_max_spec l : forall a, In (fold_left Rmax l a) (a :: l) /\
  forall x, In x (a :: l) -> x <= fold_left Rmax l a.
Proof.
  induction l as [|b l IH]; intros a.
  - simpl. split; [auto|]. intros x [->|[]]. lra.
  - cbn [fold_left]. destruct (IH (Rmax a b)) as [H1 H2]. split.
    + destruct H1 as [H1|H1]; [|right; right; exact H1]. rewrite <- H1.
      unfold Rmax at 1. destruct (Rle_dec a b); [right; left|left]; reflexivity.
    + intros x Hx. pose proof (H2 (Rmax a b) (or_introl eq_refl)).
      pose proof (Rmax_l a b). pose proof (Rmax_r a b).
      destruct Hx as [->|[->|Hx]]; [lra|lra|]. apply H2. right. exact Hx.
Qed.

Lemma fold_min_spec l : forall a, In (fold_left Rmin l a) (a :: l) /\
  forall x, In x (a :: l) -> fold_left Rmin l a <= x.
Proof.
  induction l as [|b l IH]; intros a.
  - simpl. split; [auto|]. intros x [->|[]]. lra.
  - cbn [fold_left]. destruct (IH (Rmin a b)) as [H1 H2]. split.
    + destruct H1 as [H1|H1]; [|right; right; exact H1]. rewrite <- H1.
      unfold Rmin at 1. destruct (Rle_dec a b); [left|right; left]; reflexivity.
    + intros x Hx. pose proof (H2 (Rmin a b) (or_introl eq_refl)).
      pose proof (Rmin_l a b). pose proof (Rmin_r a b).
      destruct Hx as [->|[->|Hx]]; [lra|lra|]. apply H2. right. exact Hx.
Qed.

Lemma amax_range k x0 l lo hi : is_range k (x0 :: l) lo hi ->
  crd (amax x0 l) k = hi /\ crd (amin x0 l) k = lo.
Proof.
  intros [Hb [[xl [Il El]] [xh [Ih Eh]]]]. rewrite amax_crd, amin_crd.
  destruct (fold_max_spec (map (fun x => crd x k) l) (crd x0 k)) as [H1 H2].
  destruct (fold_min_spec (map (fun x => crd x k) l) (crd x0 k)) as [H3 H4].
  rewrite <- (map_cons (fun x => crd x k)) in H1, H2, H3, H4.
  split; apply Rle_antisym.
  - apply in_map_iff in H1. destruct H1 as [x [<- Hx]]. apply Hb. exact Hx.
  - rewrite <- Eh. apply H2. apply in_map_iff. eauto.
  - rewrite <- El. apply H4. apply in_map_iff. eauto.
  - apply in_map_iff in H3. destruct H3 as [x [<- Hx]]. apply Hb. exact Hx.
Qed.

Lemma amax_is_range k x0 l :
  is_range k (x0 :: l) (crd (amin x0 l) k) (crd (amax x0 l) k).
Proof.
  rewrite amax_crd, amin_crd.
  destruct (fold_max_spec (map (fun x => crd x k) l) (crd x0 k)) as [H1 H2].
  destruct (fold_min_spec (map (fun x => crd x k) l) (crd x0 k)) as [H3 H4].
  rewrite <- (map_cons (fun x => crd x k)) in H1, H2, H3, H4.
  repeat split.
  - apply H4. apply in_map_iff. eauto.
  - apply H2. apply in_map_iff. eauto.
  - apply in_map_iff in H3. destruct H3 as [x [E Hx]]. eauto.
  - apply in_map_iff in H1. destruct H1 as [x [E Hx]]. eauto.
Qed.

(** Number of points along an axis. *)
Lemma npoints_spec mx mn ext h : 0 < h -> mn <= mx -> 0 <= ext -> exists n : nat,
  npoints mx mn ext h = Z.of_nat n /\
  mx - mn + 2 * ext <= INR n * h < mx - mn + 2 * ext + h.
Proof.
  intros Hh Hm He. unfold npoints. set (q := (mx - mn + 2 * ext) / h).
  destruct (rceil_spec q) as [H1 H2].
  assert (Hq : 0 <= q) by (apply Rdiv_le_0_compat; lra).
  assert (H3 : (0 <= rceil q)%Z) by (apply le_IZR; lra).
  exists (Z.to_nat (rceil q)). rewrite Z2Nat.id by exact H3. split; [reflexivity|].
  rewrite INR_IZR_INZ, Z2Nat.id by exact H3.
  replace (mx - mn + 2 * ext) with (q * h) by (unfold q; field; lra). nra.
Qed.

Definition sel {A} (a b c : A) (k : nat) : A :=
  match k with 0%nat => a | 1%nat => b | _ => c end.

Lemma from_mol_axes eigh zs xs h ext :
  0 < h -> 0 <= ext -> length zs = length xs -> xs <> [] ->
  exists n0 n1 n2 g,
    from_molecule eigh zs xs h ext false = Ok g /\
    length (cg_points g) = (n0 * n1 * n2)%nat /\
    cg_weights g = repeat (h ^ 3) (n0 * n1 * n2) /\
    (forall p, In p (cg_points g) <->
       exists i, (forall k, (k < 3)%nat -> (i k < sel n0 n1 n2 k)%nat) /\
                 forall k, (k < 3)%nat -> crd p k = crd (cg_origin g) k + INR (i k) * h) /\
    forall k lo hi, (k < 3)%nat -> is_range k xs lo hi ->
      hi - lo + 2 * ext <= INR (sel n0 n1 n2 k) * h < hi - lo + 2 * ext + h /\
      crd (cg_origin g) k = center_of_charge k zs xs - INR (sel n0 n1 n2 k) * h / 2.
Proof.
  intros Hh He Hlen Hne. destruct xs as [|x0 l]; [congruence|].
  unfold from_molecule.
  pose proof (amax_is_range 0 x0 l) as R0'. pose proof (amax_is_range 1 x0 l) as R1'.
  pose proof (amax_is_range 2 x0 l) as R2'.
  assert (Hc : forall k, crd (com zs (x0 :: l)) k = center_of_charge k zs (x0 :: l))
    by (intros k; apply com_crd; exact Hlen).
  assert (Hrng : forall k lo hi, is_range k (x0 :: l) lo hi ->
            crd (amax x0 l) k = hi /\ crd (amin x0 l) k = lo) by (intros; apply amax_range; assumption).
  destruct (amax x0 l) as [[m0 m1] m2] eqn:Emax. destruct (amin x0 l) as [[l0 l1] l2] eqn:Emin.
  cbn [crd] in R0', R1', R2'.
  assert (Hle : forall k a b, is_range k (x0 :: l) a b -> a <= b).
  { intros k a b [Hb _]. specialize (Hb x0 (or_introl eq_refl)). lra. }
  destruct (npoints_spec m0 l0 ext h Hh (Hle _ _ _ R0') He) as [n0 [E0 B0]].
  destruct (npoints_spec m1 l1 ext h Hh (Hle _ _ _ R1') He) as [n1 [E1 B1]].
  destruct (npoints_spec m2 l2 ext h Hh (Hle _ _ _ R2') He) as [n2 [E2 B2]].
  cbv zeta. rewrite E0, E1, E2.
  set (o := vsub (com zs (x0 :: l)) _). rewrite cubic_ok.
  exists n0, n1, n2. eexists. split; [reflexivity|]. cbn [cg_points cg_weights cg_origin].
  split; [rewrite map_length; apply coords_length|]. split.
  { rewrite weights_eq. f_equal. unfold det3, diag.
    replace (h * (h * h - 0 * 0) - 0 * (0 * h - 0 * 0) + 0 * (0 * 0 - h * 0)) with (h ^ 3) by ring.
    apply Rabs_right. apply Rle_ge. apply pow_le. lra. }
  split.
  { intros p. rewrite in_map_iff. split.
    - intros [[[i j] k] [<- Hi]]. apply in_coords in Hi.
      exists (sel i j k). split.
      + intros a Ha. destruct a as [|[|[|a]]]; simpl; lia.
      + intros a Ha. rewrite cubic_point_lattice. destruct o as [[o0 o1] o2].
        unfold lattice_point, diag. destruct a as [|[|[|a]]]; [| | |lia]; simpl; ring.
    - intros [i [Hi Hp]]. exists (i 0%nat, i 1%nat, i 2%nat). split.
      + rewrite cubic_point_lattice. destruct o as [[o0 o1] o2]. destruct p as [[p0 p1] p2].
        pose proof (Hp 0%nat ltac:(lia)) as P0. pose proof (Hp 1%nat ltac:(lia)) as P1.
        pose proof (Hp 2%nat ltac:(lia)) as P2. cbn [crd] in P0, P1, P2. subst p0 p1 p2.
        unfold lattice_point, diag, crd. f_equal; [f_equal|]; ring.
      + apply in_coords. repeat split; apply Hi; lia. }
  intros k lo hi Hk Hr. destruct (Hrng k lo hi Hr) as [Eh El]. rewrite <- Hc.
  assert (Ho : crd o k = crd (com zs (x0 :: l)) k - INR (sel n0 n1 n2 k) * h / 2).
  { unfold o. destruct (com zs (x0 :: l)) as [[c0 c1] c2].
    rewrite <- !INR_IZR_INZ. unfold vsub, vmul, vscal, vadd, row, diag.
    destruct k as [|[|[|k]]]; [| | |lia]; simpl; field. }
  split; [|exact Ho].
  destruct k as [|[|[|k]]]; [| | |lia]; simpl in *; subst; assumption.
Qed.

(** Coverage of the molecule by the box spanned by the grid cells. *)
Lemma from_mol_cover eigh zs xs h ext :
  0 < h -> 0 <= ext -> length zs = length xs -> xs <> [] ->
  exists n0 n1 n2 g,
    from_molecule eigh zs xs h ext false = Ok g /\
    length (cg_points g) = (n0 * n1 * n2)%nat /\
    (forall p, In p (cg_points g) <->
       exists i, (forall k, (k < 3)%nat -> (i k < sel n0 n1 n2 k)%nat) /\
                 forall k, (k < 3)%nat -> crd p k = crd (cg_origin g) k + INR (i k) * h) /\
    forall k lo hi, (k < 3)%nat -> is_range k xs lo hi ->
      let margin := ext - Rabs (center_of_charge k zs xs - (lo + hi) / 2) in
      forall x, In x xs ->
        crd (cg_origin g) k + margin <= crd x k <=
        crd (cg_origin g) k + INR (sel n0 n1 n2 k) * h - margin.
Proof.
  intros Hh He Hl Hne.
  destruct (from_mol_axes eigh zs xs h ext Hh He Hl Hne) as (n0 & n1 & n2 & g & E & Hn & _ & Hp & Hk).
  exists n0, n1, n2, g. split; [exact E|]. split; [exact Hn|]. split; [exact Hp|].
  intros k lo hi K Hr margin x Hx. destruct (Hk k lo hi K Hr) as [[H1 H2] H3].
  destruct Hr as [Hb _]. specialize (Hb x Hx). unfold margin.
  set (c := center_of_charge k zs xs) in *. rewrite H3.
  unfold Rabs. destruct (Rcase_abs (c - (lo + hi) / 2)); lra.
Qed.

(** ... but the last grid point always stays below the requested upper end when the center of
    charge is the midpoint. *)
Lemma from_mol_upper eigh zs xs h ext k lo hi :
  0 < h -> 0 <= ext -> length zs = length xs -> xs <> [] -> (k < 3)%nat ->
  is_range k xs lo hi -> center_of_charge k zs xs = (lo + hi) / 2 ->
  exists g, from_molecule eigh zs xs h ext false = Ok g /\
    forall p, In p (cg_points g) -> crd p k < hi + ext.
Proof.
  intros Hh He Hl Hne K Hr Hc.
  destruct (from_mol_axes eigh zs xs h ext Hh He Hl Hne) as (n0 & n1 & n2 & g & E & _ & _ & Hp & Hk).
  exists g. split; [exact E|]. intros p Hip. apply Hp in Hip. destruct Hip as [i [Hi Hcrd]].
  rewrite (Hcrd k K). destruct (Hk k lo hi K Hr) as [[H1 H2] H3]. rewrite H3, Hc.
  specialize (Hi k K). assert (INR (i k) <= INR (sel n0 n1 n2 k) - 1).
  { rewrite <- (minus_INR _ 1) by lia. apply le_INR. lia. }
  assert (INR (i k) * h <= (INR (sel n0 n1 n2 k) - 1) * h) by (apply Rmult_le_compat_r; lra).
  lra.
Qed.

(** Witness for an off-center molecule: charges 1 and 9 at distance 10. *)
Lemma from_mol_off eigh : exists g,
  from_molecule eigh [1; 9] [(0, 0, 0); (10, 0, 0)] 1 1 false = Ok g /\ cg_points g <> [] /\
  forall p, In p (cg_points g) -> 3 <= crd p 0.
Proof.
  destruct (from_mol_axes eigh [1; 9] [(0, 0, 0); (10, 0, 0)] 1 1) as
    (n0 & n1 & n2 & g & E & Hn & _ & Hp & Hk); [lra|lra|reflexivity|discriminate|].
  assert (R0 : is_range 0 [(0, 0, 0); (10, 0, 0)] 0 10).
  { repeat split.
    - destruct H as [<-|[<-|[]]]; simpl; lra.
    - destruct H as [<-|[<-|[]]]; simpl; lra.
    - exists (0, 0, 0). simpl. auto.
    - exists (10, 0, 0). simpl. auto. }
  assert (R1 : forall k, (0 < k < 3)%nat -> is_range k [(0, 0, 0); (10, 0, 0)] 0 0).
  { intros k Hk'. assert (K : k = 1%nat \/ k = 2%nat) by lia.
    split; [|split].
    - intros x [<-|[<-|[]]]; destruct K as [-> | ->]; simpl; lra.
    - exists (0, 0, 0). destruct K as [-> | ->]; simpl; auto.
    - exists (0, 0, 0). destruct K as [-> | ->]; simpl; auto. }
  exists g. split; [exact E|].
  destruct (Hk 0%nat 0 10 ltac:(lia) R0) as [[A1 A2] A3].
  destruct (Hk 1%nat 0 0 ltac:(lia) (R1 1%nat ltac:(lia))) as [[B1 _] _].
  destruct (Hk 2%nat 0 0 ltac:(lia) (R1 2%nat ltac:(lia))) as [[C1 _] _].
  cbn [sel] in *.
  assert (N : forall n m : nat, INR n * 1 >= INR m -> (m <= n)%nat)
    by (intros n m Hm; apply INR_le; lra).
  assert (n0 = 12%nat).
  { assert (12 <= n0)%nat by (apply N; simpl INR; lra).
    assert (n0 < 13)%nat by (apply INR_lt; simpl INR; lra). lia. }
  assert (1 <= n1)%nat by (apply N; simpl INR; lra).
  assert (1 <= n2)%nat by (apply N; simpl INR; lra).
  subst n0. split.
  - intros Hz. rewrite Hz in Hn. cbn [length] in Hn. nia.
  - intros p Hip. apply Hp in Hip. destruct Hip as [i [_ Hi]]. rewrite (Hi 0%nat) by lia.
    rewrite A3. unfold center_of_charge. cbn [moment charge crd]. simpl (INR 12).
    pose proof (pos_INR (i 0%nat)). lra.
Qed.

(** ** Rotated grids *)

Lemma det_orthogonal v : orthogonal v -> Rabs (det3 v) = 1.
Proof.
  intros H. destruct v as [[u v] w].
  destruct u as [[a b] c]. destruct v as [[d e] f]. destruct w as [[g h] i].
  pose proof (H 0%nat 0%nat ltac:(lia) ltac:(lia)) as H00.
  pose proof (H 0%nat 1%nat ltac:(lia) ltac:(lia)) as H01.
  pose proof (H 0%nat 2%nat ltac:(lia) ltac:(lia)) as H02.
  pose proof (H 1%nat 1%nat ltac:(lia) ltac:(lia)) as H11.
  pose proof (H 1%nat 2%nat ltac:(lia) ltac:(lia)) as H12.
  pose proof (H 2%nat 2%nat ltac:(lia) ltac:(lia)) as H22.
  unfold dot3, mcol, crd in *. cbn [Nat.eqb] in *.
  set (D := det3 _).
  assert (E : D ^ 2 = 1).
  { (* Gram determinant *)
    transitivity (
      (a*a+d*d+g*g) * ((b*b+e*e+h*h) * (c*c+f*f+i*i) - (b*c+e*f+h*i)^2)
      - (a*b+d*e+g*h) * ((a*b+d*e+g*h) * (c*c+f*f+i*i) - (b*c+e*f+h*i) * (a*c+d*f+g*i))
      + (a*c+d*f+g*i) * ((a*b+d*e+g*h) * (b*c+e*f+h*i) - (b*b+e*e+h*h) * (a*c+d*f+g*i))).
    - unfold D, det3. ring.
    - rewrite H00, H01, H02, H11, H12, H22. ring. }
  unfold Rabs. destruct (Rcase_abs D); nra.
Qed.

Lemma rotate_weights eigh zs xs h ext g : 0 < h ->
  orthogonal (eigh (itensor zs xs)) ->
  from_molecule eigh zs xs h ext true = Ok g ->
  forall w, In w (cg_weights g) -> w = h ^ 3.
Proof.
  intros Hh Ho. unfold from_molecule. cbv zeta. set (v := eigh (itensor zs xs)) in *.
  destruct (map _ xs) as [|y l]; [discriminate|].
  destruct (amax y l) as [[m0 m1] m2]. destruct (amin y l) as [[l0 l1] l2].
  set (n0 := npoints m0 l0 ext h). set (n1 := npoints m1 l1 ext h). set (n2 := npoints m2 l2 ext h).
  unfold cubic_init. cbv zeta. destruct (Z.ltb_spec (n0 * n1 * n2) 0); [discriminate|].
  intros E. injection E as <-. cbn [cg_weights]. intros w Hw.
  assert (Hpos : (0 < n0 * n1 * n2)%Z).
  { destruct (Z.eq_dec (n0 * n1 * n2) 0) as [Ez|]; [|lia]. rewrite Ez in Hw. destruct Hw. }
  apply repeat_spec in Hw. rewrite Hw, weight_det by exact Hpos.
  pose proof (det_orthogonal v Ho) as Hd.
  replace (det3 (mscal h v)) with (h ^ 3 * det3 v).
  - rewrite Rabs_mult, Hd, Rabs_right; [ring|]. apply Rle_ge, pow_le. lra.
  - destruct v as [[u v] w']. destruct u as [[a b] c]. destruct v as [[d e] f].
    destruct w' as [[g1 g2] g3]. unfold det3, mscal, vscal, row. ring.
Qed.

(** A molecule elongated along y whose rotated grid has its longest side along z. *)
Definition cross_mol : list vec :=
  [(0, 10, 0); (0, -10, 0); (0, 0, 5); (0, 0, -5); (1, 0, 0); (-1, 0, 0)].
Definition cross_z : list R := [1; 1; 1; 1; 1; 1].
Definition cross_vec : mat := ((0, 0, 1), (1, 0, 0), (0, 1, 0)).

Lemma cross_com : com cross_z cross_mol = (0, 0, 0).
Proof.
  unfold com, cross_z, cross_mol, wsum, totz. simpl. f_equal; [f_equal|]; field.
Qed.

Lemma cross_itensor : itensor cross_z cross_mol = ((250, 0, 0), (0, 52, 0), (0, 0, 202)).
Proof.
  unfold itensor. rewrite cross_com. unfold cross_z, cross_mol. cbn [combine fold_left fst snd].
  unfold atom_tensor. cbv zeta. rewrite !pow2_sqrt by (simpl; nra).
  unfold madd, mscal, vscal, vadd, diag, outer, vdot, vsub, row, vscal, vadd.
  f_equal; [f_equal|]; f_equal; try (f_equal); ring.
Qed.

Lemma cross_eigh : eigh_ok (itensor cross_z cross_mol) cross_vec.
Proof.
  rewrite cross_itensor. unfold eigh_ok, cross_vec. split.
  - intros i j Hi Hj.
    destruct i as [|[|[|i]]]; [| | |lia]; destruct j as [|[|[|j]]]; try lia;
      unfold dot3, mcol, crd; simpl; ring.
  - exists 52, 202, 250. split; [lra|].
    unfold mulv, mcol, dot3, crd.
    split; [|split]; (f_equal; [f_equal|]; ring).
Qed.

Lemma cross_refuted eigh : eigh (itensor cross_z cross_mol) = cross_vec -> exists g,
  from_molecule eigh cross_z cross_mol 1 1 true = Ok g /\ cg_points g <> [] /\
  forall p, In p (cg_points g) -> -2 <= crd p 1 <= 2.
Proof.
  intros He. unfold from_molecule. cbv zeta. rewrite He, cross_com.
  unfold cross_mol at 1. cbn [map].
  assert (V : forall a b c, vmul (vsub (a, b, c) (0, 0, 0)) cross_vec = (b, c, a)).
  { intros a b c. unfold vmul, vsub, vscal, vadd, cross_vec, row. f_equal; [f_equal|]; ring. }
  rewrite !V.
  assert (M : forall (k : nat) (lo hi : R) x0 l, is_range k (x0 :: l) lo hi -> (k < 3)%nat ->
      crd (amax x0 l) k = hi /\ crd (amin x0 l) k = lo) by (intros; apply amax_range; assumption).
  set (x0 := (10, 0, 0)). set (l := [_; _; _; _; _]).
  destruct (M 0%nat (-10) 10 x0 l) as [A1 A2]; [|lia|].
  { split; [|split].
    - intros x [<-|[<-|[<-|[<-|[<-|[<-|[]]]]]]]; simpl; lra.
    - eexists. split; [right; left; reflexivity|reflexivity].
    - eexists. split; [left; reflexivity|reflexivity]. }
  destruct (M 1%nat (-5) 5 x0 l) as [B1 B2]; [|lia|].
  { split; [|split].
    - intros x [<-|[<-|[<-|[<-|[<-|[<-|[]]]]]]]; simpl; lra.
    - eexists. split; [right; right; right; left; reflexivity|reflexivity].
    - eexists. split; [right; right; left; reflexivity|reflexivity]. }
  destruct (M 2%nat (-1) 1 x0 l) as [C1 C2]; [|lia|].
  { split; [|split].
    - intros x [<-|[<-|[<-|[<-|[<-|[<-|[]]]]]]]; simpl; lra.
    - eexists. split; [right; right; right; right; right; left; reflexivity|reflexivity].
    - eexists. split; [right; right; right; right; left; reflexivity|reflexivity]. }
  destruct (amax x0 l) as [[m0 m1] m2]. destruct (amin x0 l) as [[l0 l1] l2].
  cbn [crd] in *. subst.
  replace (npoints 10 (-10) 1 1) with 22%Z by (symmetry; apply rceil_eq; field).
  replace (npoints 5 (-5) 1 1) with 12%Z by (symmetry; apply rceil_eq; field).
  replace (npoints 1 (-1) 1 1) with 4%Z by (symmetry; apply rceil_eq; field).
  eexists. split.
  { change 22%Z with (Z.of_nat 22). change 12%Z with (Z.of_nat 12). change 4%Z with (Z.of_nat 4).
    apply cubic_ok. }
  cbn [cg_points]. split.
  - intros E. apply (f_equal (@length _)) in E. rewrite map_length, coords_length in E. discriminate.
  - intros p Hp. apply in_map_iff in Hp. destruct Hp as [[[i j] k] [<- Hc]].
    apply in_coords in Hc. destruct Hc as [_ [_ Hk]].
    rewrite cubic_point_lattice. unfold lattice_point, mscal, cross_vec, row, vscal, crd, vsub, vmul, vadd.
    assert (INR k <= 3) by (replace 3 with (INR 3) by (simpl; lra); apply le_INR; lia).
    pose proof (pos_INR k). simpl. lra.
Qed.

Lemma cover_rotate_refuted : exists zs xs v,
  eigh_ok (itensor zs xs) v /\
  forall eigh, eigh (itensor zs xs) = v -> exists g,
    from_molecule eigh zs xs 1 1 true = Ok g /\ cg_points g <> [] /\ In (0, 10, 0) xs /\
    forall p, In p (cg_points g) -> -2 <= crd p 1 <= 2.
Proof.
  exists cross_z, cross_mol, cross_vec. split; [exact cross_eigh|].
  intros eigh He. destruct (cross_refuted eigh He) as (g & E & Hn & Hp).
  exists g. repeat split; auto; try apply Hp; try assumption. left. reflexivity.
Qed.

Lemma cell_functional c (y z : list R) s : 0 <= c -> length y = length z ->
  c * rsum (repeat 1 (length y)) = c * INR (length y) /\
  c * rsum (lincomb s y z) = c * rsum y + s * (c * rsum z) /\
  (Forall2 Rle y z -> c * rsum y <= c * rsum z).
Proof.
  intros Hc Hl. split; [|split].
  - f_equal. clear. induction (length y) as [|n IH]; [reflexivity|].
    cbn [repeat]. rewrite rsum_cons, IH, S_INR. ring.
  - replace (rsum (lincomb s y z)) with (rsum y + s * rsum z); [ring|].
    revert z Hl. induction y as [|a y IH]; intros [|b z] Hl; try discriminate.
    + unfold rsum. simpl. ring.
    + injection Hl as Hl. unfold lincomb in *. cbn [map2]. rewrite !rsum_cons, <- (IH z Hl). ring.
  - intros F. apply Rmult_le_compat_l; [exact Hc|]. clear Hl. induction F; [apply Rle_refl|].
    rewrite !rsum_cons. lra.
Qed.
