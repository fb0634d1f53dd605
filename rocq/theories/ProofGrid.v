(** Proofs about the radial grids. *)
From Coquelicot Require Import Coquelicot.
From Coq Require Import Reals List ZArith Lia Lra Sorted Permutation Bool.
From Verif Require Import XR SpecDens Lists SpecMeas SpecGrid ModelGrid.
Import ListNotations.
Local Open Scope R_scope.

Lemma xtrapz_fin x : forall y, xtrapz (map Fin x) (map Fin y) = Fin (trap x y).
Proof.
  induction x as [|x0 x IH]; intros y; [reflexivity|].
  destruct x as [|x1 x]; [destruct y; reflexivity|].
  destruct y as [|y0 y]; [reflexivity|]. destruct y as [|y1 y]; [reflexivity|].
  change (xadd (xdiv (xmul (xsub (Fin x1) (Fin x0)) (xadd (Fin y1) (Fin y0))) (Fin 2))
               (xtrapz (map Fin (x1 :: x)) (map Fin (y1 :: y))) =
          Fin ((x1 - x0) * (y0 + y1) / 2 + trap (x1 :: x) (y1 :: y))).
  rewrite IH. cbn [xsub xneg xadd xmul xdiv]. rewrite reqb_false by lra.
  cbn [xadd]. f_equal. f_equal. field.
Qed.

Lemma integrate_ok x y :
  length y = length x ->
  radial_integrate (map Fin x) (A1 (map Fin y)) = Ok (Fin (trap x y)).
Proof.
  intros H. unfold radial_integrate. rewrite !map_length, H, Nat.eqb_refl, xtrapz_fin. reflexivity.
Qed.

Lemma integrate_err_iff pts arr :
  (exists v, radial_integrate pts arr = Ok v) <-> (exists y, arr = A1 y /\ length y = length pts).
Proof.
  unfold radial_integrate. split.
  - intros [v H]. destruct arr as [y|r y]; [|discriminate].
    destruct (Nat.eqb_spec (length y) (length pts)); [eauto|discriminate].
  - intros [y [-> H]]. rewrite H, Nat.eqb_refl. eauto.
Qed.

Lemma integrate_raises pts arr e : radial_integrate pts arr = Raise e -> e = ValueError.
Proof.
  unfold radial_integrate. destruct arr as [y|]; [destruct (Nat.eqb _ _)|]; congruence.
Qed.

Lemma trap_step x0 x1 x y0 y1 y :
  trap (x0 :: x1 :: x) (y0 :: y1 :: y) = (x1 - x0) * (y0 + y1) / 2 + trap (x1 :: x) (y1 :: y).
Proof. reflexivity. Qed.

Lemma trap_lin s x : forall u v, length u = length x -> length v = length x ->
  trap x (lincomb s u v) = trap x u + s * trap x v.
Proof.
  induction x as [|x0 x IH]; intros u v Hu Hv.
  { simpl. lra. }
  destruct u as [|u0 u]; [discriminate|]. destruct v as [|v0 v]; [discriminate|].
  destruct x as [|x1 x].
  { destruct u; [|discriminate]. destruct v; [|discriminate]. simpl. lra. }
  destruct u as [|u1 u]; [discriminate|]. destruct v as [|v1 v]; [discriminate|].
  change (lincomb s (u0 :: u1 :: u) (v0 :: v1 :: v)) with
    ((u0 + s * v0) :: (u1 + s * v1) :: lincomb s u v).
  rewrite !trap_step.
  change ((u1 + s * v1) :: lincomb s u v) with (lincomb s (u1 :: u) (v1 :: v)).
  rewrite IH by (simpl in *; lia). field.
Qed.

Lemma trap_nonneg x : forall y, ascending x -> Forall (fun v => 0 <= v) y -> 0 <= trap x y.
Proof.
  induction x as [|x0 x IH]; intros y Hx Hy; [simpl; lra|].
  destruct x as [|x1 x]; [destruct y; simpl; lra|].
  destruct y as [|y0 y]; [simpl; lra|]. destruct y as [|y1 y]; [simpl; lra|].
  rewrite trap_step. inversion_clear Hx as [|? ? Hs Hd]. inversion_clear Hd as [|? ? Hle].
  inversion_clear Hy as [|? ? H0 Hy']. pose proof Hy' as Hy''. inversion_clear Hy' as [|? ? H1 _].
  specialize (IH (y1 :: y) Hs Hy'').
  assert (0 <= (x1 - x0) * (y0 + y1)) by (apply Rmult_le_pos; lra). lra.
Qed.

Lemma trap_mono x u v : ascending x -> length u = length x -> length v = length x ->
  Forall2 Rle u v -> trap x u <= trap x v.
Proof.
  intros Hx Hu Hv F.
  assert (E : trap x (lincomb (-1) v u) = trap x v + -1 * trap x u) by (apply trap_lin; auto).
  assert (0 <= trap x (lincomb (-1) v u)).
  { apply trap_nonneg; [exact Hx|]. clear -F. unfold lincomb.
    induction F; [constructor|]. cbn [map2]. constructor; [lra|assumption]. }
  lra.
Qed.

Lemma trap_affine a b x0 x : trap (x0 :: x) (map (fun r => a * r + b) (x0 :: x)) =
  RInt (fun r : R => a * r + b) x0 (last (x0 :: x) 0).
Proof.
  transitivity (a * (last (x0 :: x) 0 ^ 2 - x0 ^ 2) / 2 + b * (last (x0 :: x) 0 - x0)).
  - revert x0. induction x as [|x1 x IH]; intros x0.
    + simpl. field.
    + rewrite !map_cons, trap_step. rewrite <- map_cons with (f := fun r => a * r + b), IH.
      change (last (x0 :: x1 :: x) 0) with (last (x1 :: x) 0). field.
  - symmetry. apply is_RInt_unique.
    pose (F := fun r : R => a * r ^ 2 / 2 + b * r).
    replace (a * (last (x0 :: x) 0 ^ 2 - x0 ^ 2) / 2 + b * (last (x0 :: x) 0 - x0))
      with (minus (F (last (x0 :: x) 0)) (F x0)) by (unfold F, minus, plus, opp; simpl; field).
    apply (is_RInt_derive F (fun r : R => a * r + b)).
    + intros r _. unfold F. auto_derive; [exact I|]. field.
    + intros r _. apply (ex_derive_continuous (fun r : R => a * r + b)). auto_derive. exact I.
Qed.

Lemma trap_split x1 m x2 y1 v y2 : length y1 = length x1 -> length y2 = length x2 ->
  trap (x1 ++ m :: x2) (y1 ++ v :: y2) = trap (x1 ++ [m]) (y1 ++ [v]) + trap (m :: x2) (v :: y2).
Proof.
  intros H _. revert y1 H. induction x1 as [|a x1 IH]; intros y1 H.
  - destruct y1; [|discriminate]. cbn [app]. replace (trap [m] [v]) with 0 by reflexivity. lra.
  - destruct y1 as [|b y1]; [discriminate|]. simpl in H. injection H as H. specialize (IH y1 H).
    destruct x1 as [|c x1].
    + destruct y1; [|discriminate]. cbn [app] in *. rewrite !trap_step in *.
      rewrite IH. lra.
    + destruct y1 as [|d y1]; [discriminate|]. cbn [app] in *. rewrite !trap_step, IH. lra.
Qed.

(** The trapezoid rule as a quadrature with weights. *)
Fixpoint trap_weights (x : list R) (left : R) : list R :=
  match x with
  | [] => []
  | x0 :: x' => match x' with
                | [] => [left / 2]
                | x1 :: _ => (left + (x1 - x0)) / 2 :: trap_weights x' (x1 - x0)
                end
  end.

Lemma trap_weights_length x : forall d, length (trap_weights x d) = length x.
Proof.
  induction x as [|x0 x IH]; intros d; [reflexivity|]. destruct x as [|x1 x]; [reflexivity|].
  change (S (length (trap_weights (x1 :: x) (x1 - x0))) = S (length (x1 :: x))).
  rewrite IH. reflexivity.
Qed.

Lemma trap_weights_nonneg x : forall d, 0 <= d -> ascending x ->
  Forall (fun w => 0 <= w) (trap_weights x d).
Proof.
  induction x as [|x0 x IH]; intros d Hd Hx; [constructor|].
  destruct x as [|x1 x]; [constructor; [simpl; lra|constructor]|].
  inversion_clear Hx as [|? ? Hs H1]. inversion_clear H1 as [|? ? Hle].
  change (Forall (fun w => 0 <= w) ((d + (x1 - x0)) / 2 :: trap_weights (x1 :: x) (x1 - x0))).
  constructor; [lra|]. apply IH; [lra|exact Hs].
Qed.

Lemma trap_weights_ok x : forall d y, length y = length x -> x <> [] ->
  rdot (trap_weights x d) y = d * hd 0 y / 2 + trap x y.
Proof.
  induction x as [|x0 x IH]; intros d y Hy Hne; [congruence|].
  destruct y as [|y0 y]; [discriminate|]. destruct x as [|x1 x].
  - destruct y; [|discriminate]. unfold rdot, rsum. simpl. lra.
  - destruct y as [|y1 y]; [discriminate|].
    change (rdot ((d + (x1 - x0)) / 2 :: trap_weights (x1 :: x) (x1 - x0)) (y0 :: y1 :: y) =
            d * hd 0 (y0 :: y1 :: y) / 2 + trap (x0 :: x1 :: x) (y0 :: y1 :: y)).
    rewrite trap_step.
    change (rdot ((d + (x1 - x0)) / 2 :: trap_weights (x1 :: x) (x1 - x0)) (y0 :: y1 :: y)) with
      ((d + (x1 - x0)) / 2 * y0 + rdot (trap_weights (x1 :: x) (x1 - x0)) (y1 :: y)).
    rewrite IH by (simpl in *; lia || discriminate). cbn [hd]. field.
Qed.

Lemma trap_quadrature x : exists w, length w = length x /\
  (ascending x -> Forall (fun v => 0 <= v) w) /\
  forall y, length y = length x -> trap x y = rdot w y.
Proof.
  exists (trap_weights x 0). split; [apply trap_weights_length|]. split.
  - intros H. apply trap_weights_nonneg; [lra|exact H].
  - intros y Hy. destruct x as [|x0 x].
    + destruct y; [reflexivity|discriminate].
    + rewrite trap_weights_ok by (assumption || discriminate). lra.
Qed.

(** ** Uniform grid *)

Lemma equispaced_length a b n : length (equispaced a b n) = n.
Proof. unfold equispaced. rewrite map_length, seq_length. reflexivity. Qed.

Lemma nth_equispaced a b n i : (i < n)%nat ->
  nth i (equispaced a b n) 0 = a + INR i * ((b - a) / INR (n - 1)).
Proof.
  intros H. unfold equispaced.
  rewrite nth_indep with (d' := (fun i => a + INR i * ((b - a) / INR (n - 1))) 0%nat)
    by (rewrite map_length, seq_length; exact H).
  rewrite (map_nth (fun i => a + INR i * ((b - a) / INR (n - 1)))), seq_nth by exact H.
  rewrite Nat.add_0_l. reflexivity.
Qed.

Lemma linspace_fin a b n : (0 < n)%nat ->
  linspace (Fin a) (Fin b) n = map Fin (equispaced a b n).
Proof.
  intros H. destruct n as [|[|d]]; [lia| |].
  - cbn. f_equal. f_equal. unfold Rdiv. ring.
  - unfold linspace, equispaced. rewrite map_map.
    set (m := S d). cbn [xsub xneg xadd xdiv].
    assert (Hm : INR m <> 0) by (apply not_0_INR; unfold m; lia).
    rewrite reqb_false by exact Hm. cbn [xmul xadd].
    replace (S m - 1)%nat with m by lia.
    rewrite seq_S, map_app. cbn [map]. f_equal.
    + apply map_ext. intros i. f_equal. unfold Rminus. lra.
    + f_equal. f_equal. rewrite Nat.add_0_l. field. exact Hm.
Qed.

Lemma uniform_ok n v w a b : (0 < n)%Z -> as_number v = Some (Fin a) -> as_number w = Some (Fin b) ->
  a < b -> uniform_init (VInt n) v w = Ok (map Fin (equispaced a b (Z.to_nat n))).
Proof.
  intros Hn Hv Hw Hab. unfold uniform_init. cbn [as_int].
  destruct (Z.leb_spec n 0); [lia|]. rewrite Hv, Hw.
  cbn [xleb]. rewrite rleb_false by lra. rewrite linspace_fin by lia. reflexivity.
Qed.

Lemma sorted_nth (R0 : R -> R -> Prop) l :
  (forall i, (S i < length l)%nat -> R0 (nth i l 0) (nth (S i) l 0)) -> Sorted R0 l.
Proof.
  induction l as [|a l IH]; intros H; [constructor|]. constructor.
  - apply IH. intros i Hi. apply (H (S i)). simpl. lia.
  - destruct l as [|b l]; [constructor|]. constructor. apply (H 0%nat). simpl. lia.
Qed.

Lemma equispaced_asc a b n : a < b -> strictly_ascending (equispaced a b n).
Proof.
  intros H. apply sorted_nth. intros i Hi. rewrite equispaced_length in Hi.
  rewrite !nth_equispaced by lia. rewrite S_INR.
  assert (0 < (b - a) / INR (n - 1)).
  { apply Rdiv_lt_0_compat; [lra|]. apply lt_0_INR. lia. }
  lra.
Qed.

Lemma equispaced_range a b n r : a < b -> In r (equispaced a b n) -> a <= r <= b.
Proof.
  intros H Hi. unfold equispaced in Hi. apply in_map_iff in Hi. destruct Hi as [i [<- Hi]].
  apply in_seq in Hi. destruct (Nat.eq_dec n 1) as [->|Hn].
  - assert (i = 0%nat) by lia. subst i. simpl INR. lra.
  - assert (Hp : 0 < INR (n - 1)) by (apply lt_0_INR; lia).
    assert (Hq : 0 <= INR i <= INR (n - 1)) by (split; [apply pos_INR|apply le_INR; lia]).
    assert (Eb : b = a + INR (n - 1) * ((b - a) / INR (n - 1))) by (field; lra).
    assert (0 < (b - a) / INR (n - 1)) by (apply Rdiv_lt_0_compat; lra).
    assert (INR i * ((b - a) / INR (n - 1)) <= INR (n - 1) * ((b - a) / INR (n - 1)))
      by (apply Rmult_le_compat_r; lra).
    assert (0 <= INR i * ((b - a) / INR (n - 1))) by (apply Rmult_le_pos; lra).
    lra.
Qed.

(** ** Convergence *)

Lemma lip_cont f a b L : a < b -> lipschitz f a b L -> ex_RInt f a b.
Proof.
  intros Hab HL.
  pose (c := fun x : R => Rmax a (Rmin b x)).
  assert (Hc : forall x, a <= c x <= b).
  { intros x. unfold c. split; [apply Rmax_l|]. apply Rmax_lub; [lra|apply Rmin_l]. }
  assert (Hcc : forall x y, Rabs (c x - c y) <= Rabs (x - y)).
  { intros x y. unfold c, Rmax, Rmin, Rabs.
    repeat (match goal with |- context [Rle_dec ?p ?q] => is_var p; is_var q; destruct (Rle_dec p q) end);
      repeat (match goal with |- context [Rcase_abs ?p] => destruct (Rcase_abs p) end); lra. }
  assert (HL0 : 0 <= L).
  { specialize (HL a b ltac:(lra) ltac:(lra)). rewrite (Rabs_left (a - b)) in HL by lra.
    pose proof (Rabs_pos (f a - f b)). destruct (Rle_lt_dec 0 L); [assumption|].
    assert (L * - (a - b) < 0) by nra. lra. }
  apply (ex_RInt_ext (fun x : R => f (c x))).
  - intros x Hx. rewrite Rmin_left, Rmax_right in Hx by lra. f_equal. unfold c.
    rewrite Rmin_right, Rmax_right by lra. reflexivity.
  - apply (ex_RInt_continuous (V := R_CompleteNormedModule) (fun x : R => f (c x))).
    intros z _. apply continuity_pt_filterlim. intros eps Heps.
    exists (eps / (L + 1)). split; [apply Rdiv_lt_0_compat; lra|].
    intros x [_ Hx]. simpl in *. unfold R_dist in *.
    eapply Rle_lt_trans; [apply HL; apply Hc|].
    apply Rle_lt_trans with (L * Rabs (x - z)); [apply Rmult_le_compat_l; [exact HL0|apply Hcc]|].
    apply Rle_lt_trans with (L * (eps / (L + 1))); [apply Rmult_le_compat_l; lra|].
    replace eps with ((L + 1) * (eps / (L + 1))) at 2 by (field; lra).
    apply Rmult_lt_compat_r; [apply Rdiv_lt_0_compat; lra|lra].
Qed.

Lemma cell_error f a b L : a < b -> lipschitz f a b L ->
  Rabs ((b - a) * (f a + f b) / 2 - RInt f a b) <= L * (b - a) ^ 2 / 2.
Proof.
  intros Hab HL. pose proof (lip_cont f a b L Hab HL) as Hex.
  pose (k := (f a + f b) / 2).
  assert (Ek : (b - a) * (f a + f b) / 2 = RInt (fun _ : R => k) a b).
  { rewrite RInt_const. unfold scal; simpl; unfold mult; simpl. unfold k. field. }
  rewrite Ek.
  assert (Hk : forall x, a < x < b -> k - L * (b - a) / 2 <= f x <= k + L * (b - a) / 2).
  { intros x Hx.
    pose proof (HL x a ltac:(lra) ltac:(lra)) as H1. pose proof (HL x b ltac:(lra) ltac:(lra)) as H2.
    rewrite (Rabs_right (x - a)) in H1 by lra. rewrite (Rabs_left (x - b)) in H2 by lra.
    apply Rabs_le_between in H1. apply Rabs_le_between in H2. unfold k. split; lra. }
  rewrite RInt_const. unfold scal; simpl; unfold mult; simpl.
  assert (Hlo : RInt (fun _ : R => k - L * (b - a) / 2) a b <= RInt f a b).
  { apply RInt_le; [lra|apply ex_RInt_const|exact Hex|intros x Hx; apply Hk; exact Hx]. }
  assert (Hhi : RInt f a b <= RInt (fun _ : R => k + L * (b - a) / 2) a b).
  { apply RInt_le; [lra|exact Hex|apply ex_RInt_const|intros x Hx; apply Hk; exact Hx]. }
  rewrite RInt_const in Hlo, Hhi. unfold scal in Hlo, Hhi; simpl in Hlo, Hhi.
  unfold mult in Hlo, Hhi; simpl in Hlo, Hhi.
  apply Rabs_le_between. split; nra.
Qed.

(** Trapezoid error on any strictly ascending list of nodes with spacing at most [h]. *)
Lemma trap_error f L h x : forall x0, 0 <= L ->
  strictly_ascending (x0 :: x) ->
  (forall i, (S i < length (x0 :: x))%nat -> nth (S i) (x0 :: x) 0 - nth i (x0 :: x) 0 <= h) ->
  lipschitz f x0 (last (x0 :: x) 0) L ->
  x0 <= last (x0 :: x) 0 /\
  ex_RInt f x0 (last (x0 :: x) 0) /\
  Rabs (trap (x0 :: x) (map f (x0 :: x)) - RInt f x0 (last (x0 :: x) 0))
    <= L * h * (last (x0 :: x) 0 - x0) / 2.
Proof.
  induction x as [|x1 x IH]; intros x0 HL0 Hs Hh HL.
  - cbn [last map trap]. split; [lra|]. split; [apply ex_RInt_point|].
    rewrite RInt_point. unfold zero; simpl. rewrite Rminus_0_r, Rabs_R0. lra.
  - inversion_clear Hs as [|? ? Hs' H1]. inversion_clear H1 as [|? ? H01].
    change (last (x0 :: x1 :: x) 0) with (last (x1 :: x) 0) in *.
    set (b := last (x1 :: x) 0) in *.
    assert (Hb : x1 <= b).
    { clear -Hs'. unfold b. clear b. revert x1 Hs'. induction x as [|x2 x IH]; intros x1 Hs.
      - simpl. lra.
      - inversion_clear Hs as [|? ? Hs' H1]. inversion_clear H1 as [|? ? H12].
        specialize (IH x2 Hs'). change (last (x1 :: x2 :: x) 0) with (last (x2 :: x) 0). lra. }
    destruct (IH x1 HL0 Hs') as [_ [Hex He]].
    + intros i Hi. apply (Hh (S i)). simpl in *. lia.
    + fold b. intros p q Hp Hq. apply HL; lra.
    + fold b in Hex, He. split; [lra|].
      assert (Hl0 : lipschitz f x0 x1 L) by (intros p q Hp Hq; apply HL; lra).
      pose proof (lip_cont f x0 x1 L H01 Hl0) as Hex0.
      pose proof (cell_error f x0 x1 L H01 Hl0) as Hc.
      split; [exact (ex_RInt_Chasles f x0 x1 b Hex0 Hex)|].
      assert (Hx : x1 - x0 <= h) by (apply (Hh 0%nat); simpl; lia).
      rewrite <- (RInt_Chasles f x0 x1 b Hex0 Hex).
      match goal with |- context [@plus ?G ?p ?q] => change (@plus G p q) with (p + q)%R end.
      cbn [map]. rewrite trap_step. cbn [map] in He.
      apply Rabs_le_between in Hc. apply Rabs_le_between in He.
      assert (Hq : L * (x1 - x0) ^ 2 / 2 <= L * h * (x1 - x0) / 2).
      { assert (L * (x1 - x0) * (x1 - x0) <= L * (x1 - x0) * h)
          by (apply Rmult_le_compat_l; [apply Rmult_le_pos; lra|lra]). lra. }
      apply Rabs_le_between. split; lra.
Qed.

Lemma equispaced_cons a b n : (2 <= n)%nat -> exists x, equispaced a b n = a :: x /\
  last (a :: x) 0 = b.
Proof.
  intros H. destruct n as [|[|d]]; [lia|lia|]. unfold equispaced.
  exists (map (fun i => a + INR i * ((b - a) / INR (S (S d) - 1))) (seq 1 (S d))).
  assert (E : equispaced a b (S (S d)) =
      a :: map (fun i => a + INR i * ((b - a) / INR (S (S d) - 1))) (seq 1 (S d))).
  { unfold equispaced. cbn [seq map]. f_equal. simpl INR. lra. }
  split; [exact E|]. rewrite <- E. unfold equispaced.
  rewrite (seq_S (S d) 0), map_app. cbn [map]. rewrite last_last.
  replace (S (S d) - 1)%nat with (S d) by lia. rewrite Nat.add_0_l. field.
  apply not_0_INR. lia.
Qed.

Lemma uniform_error f L a b n : (2 <= n)%nat -> a < b -> lipschitz f a b L ->
  ex_RInt f a b /\
  Rabs (trap (equispaced a b n) (map f (equispaced a b n)) - RInt f a b)
    <= L * (b - a) ^ 2 / (2 * INR (n - 1)).
Proof.
  intros Hn Hab HL. pose proof (lip_cont f a b L Hab HL) as Hex. split; [exact Hex|].
  assert (HL0 : 0 <= L).
  { specialize (HL a b ltac:(lra) ltac:(lra)). rewrite (Rabs_left (a - b)) in HL by lra.
    pose proof (Rabs_pos (f a - f b)). destruct (Rle_lt_dec 0 L); [assumption|].
    assert (L * - (a - b) < 0) by nra. lra. }
  destruct (equispaced_cons a b n Hn) as [x [E El]].
  assert (Hp : 0 < INR (n - 1)) by (apply lt_0_INR; lia).
  destruct (trap_error f L ((b - a) / INR (n - 1)) x a HL0) as [_ [_ He]].
  - rewrite <- E. apply equispaced_asc. exact Hab.
  - intros i Hi. rewrite <- E in *. rewrite equispaced_length in Hi.
    rewrite !nth_equispaced by lia. rewrite S_INR. lra.
  - rewrite El. exact HL.
  - rewrite El in He. rewrite <- E in He. eapply Rle_trans; [exact He|].
    right. field. lra.
Qed.

(** Insertion sort on reals; the model's sort of finite values is this one. *)
Fixpoint rinsert (x : R) (l : list R) : list R :=
  match l with [] => [x] | y :: t => if Rle_dec x y then x :: l else y :: rinsert x t end.
Definition rsort (l : list R) : list R := fold_right rinsert [] l.

Lemma xsort_fin l : xsort (map Fin l) = map Fin (rsort l).
Proof.
  induction l as [|x l IH]; [reflexivity|].
  change (insert (Fin x) (xsort (map Fin l)) = map Fin (rinsert x (rsort l))). rewrite IH.
  generalize (rsort l). clear. induction l as [|y l IH]; [reflexivity|].
  simpl. unfold sort_leb. cbn [xisnan xleb orb]. unfold rleb.
  destruct (Rle_dec x y); [reflexivity|]. simpl. rewrite IH. reflexivity.
Qed.

Lemma rinsert_sorted x l : Sorted Rle l -> Sorted Rle (rinsert x l).
Proof.
  induction l as [|y l IH]; intros H; [repeat constructor|]. simpl.
  destruct (Rle_dec x y).
  - constructor; [exact H|]. constructor. lra.
  - inversion_clear H as [|? ? Hs Hh]. constructor; [apply IH; exact Hs|].
    destruct l as [|z l]; simpl; [constructor; lra|].
    destruct (Rle_dec x z); constructor; [lra|]. inversion_clear Hh; lra.
Qed.

Lemma rsort_sorted l : Sorted Rle (rsort l).
Proof. induction l as [|x l IH]; [constructor|]. apply rinsert_sorted. exact IH. Qed.

Lemma rsort_perm l : Permutation (rsort l) l.
Proof.
  induction l as [|x l IH]; [constructor|]. simpl.
  assert (G : forall m, Permutation (rinsert x m) (x :: m)).
  { induction m as [|y m IHm]; [apply Permutation_refl|]. simpl. destruct (Rle_dec x y).
    - apply Permutation_refl.
    - eapply Permutation_trans; [apply perm_skip; exact IHm|apply perm_swap]. }
  eapply Permutation_trans; [apply G|]. constructor. exact IH.
Qed.

(** ** Clenshaw grid *)

Lemma core_range z n inc r : (0 < z)%Z -> In r (core_points z n inc) -> 0 <= r <= / (2 * IZR z).
Proof.
  intros Hz Hi. unfold core_points in Hi. apply in_map_iff in Hi. destruct Hi as [p [<- Hp]].
  apply in_seq in Hp.
  assert (Hn : 0 < INR n) by (apply lt_0_INR; destruct inc; lia).
  assert (Hzr : 0 < IZR z) by (apply IZR_lt; exact Hz).
  assert (Hpn : 0 <= INR p / INR n <= 1).
  { assert (0 <= INR p <= INR n) by (split; [apply pos_INR|apply le_INR; destruct inc; lia]).
    split; [apply Rdiv_le_0_compat; lra|]. apply Rmult_le_reg_r with (INR n); [lra|].
    unfold Rdiv. rewrite Rmult_assoc, Rinv_l by lra. lra. }
  pose proof PI_RGT_0.
  replace (5/10 * PI * INR p / INR n) with (PI / 2 * (INR p / INR n)) by (field; lra).
  assert (Hc : 0 <= cos (PI / 2 * (INR p / INR n)) <= 1).
  { split; [apply cos_ge_0; nra|apply COS_bound]. }
  unfold Rdiv. assert (0 < / (2 * IZR z)) by (apply Rinv_0_lt_compat; lra). split; nra.
Qed.

Lemma diffuse_range n r : In r (diffuse_points n) -> 0 < r <= 25.
Proof.
  intros Hi. unfold diffuse_points in Hi. apply in_map_iff in Hi. destruct Hi as [p [<- Hp]].
  apply in_seq in Hp.
  assert (Hn : 0 < INR n) by (apply lt_0_INR; lia).
  assert (Hp0 : 0 < INR p) by (apply lt_0_INR; lia).
  assert (Hpn : 0 < INR p / INR n <= 1).
  { assert (INR p <= INR n) by (apply le_INR; lia).
    split; [apply Rdiv_lt_0_compat; lra|]. apply Rmult_le_reg_r with (INR n); [lra|].
    unfold Rdiv. rewrite Rmult_assoc, Rinv_l by lra. lra. }
  pose proof PI_RGT_0.
  replace (5/10 * PI * INR p / INR n) with (PI / 2 * (INR p / INR n)) by (field; lra).
  assert (Hc : 0 <= cos (PI / 2 * (INR p / INR n)) < 1).
  { split; [apply cos_ge_0; nra|]. rewrite <- cos_0. apply cos_decreasing_1; nra. }
  split; nra.
Qed.

Lemma core_zero z n inc : (0 < z)%Z ->
  (In 0 (core_points z n inc) <-> inc = true /\ (0 < n)%nat).
Proof.
  intros Hz. assert (Hzr : 0 < IZR z) by (apply IZR_lt; exact Hz). split.
  - intros Hi. unfold core_points in Hi. apply in_map_iff in Hi. destruct Hi as [p [E Hp]].
    apply in_seq in Hp. destruct inc; [split; [reflexivity|lia]|]. exfalso.
    assert (Hn : 0 < INR n) by (apply lt_0_INR; lia).
    assert (Hp0 : 0 < INR p) by (apply lt_0_INR; lia).
    assert (Hpn : 0 < INR p / INR n <= 1).
    { assert (INR p <= INR n) by (apply le_INR; lia).
      split; [apply Rdiv_lt_0_compat; lra|]. apply Rmult_le_reg_r with (INR n); [lra|].
      unfold Rdiv. rewrite Rmult_assoc, Rinv_l by lra. lra. }
    pose proof PI_RGT_0.
    replace (5/10 * PI * INR p / INR n) with (PI / 2 * (INR p / INR n)) in E by (field; lra).
    assert (Hc : cos (PI / 2 * (INR p / INR n)) < 1)
      by (rewrite <- cos_0; apply cos_decreasing_1; nra).
    assert (0 < (1 - cos (PI / 2 * (INR p / INR n))) / (2 * IZR z)) by (apply Rdiv_lt_0_compat; lra).
    lra.
  - intros [-> Hn]. unfold core_points. apply in_map_iff. exists 0%nat. split.
    + simpl INR. rewrite Rmult_0_r. unfold Rdiv. rewrite Rmult_0_l, cos_0. lra.
    + apply in_seq. lia.
Qed.

Lemma clenshaw_ok z nc nd inc (extra : list R) : (0 < z)%Z -> (0 <= nc)%Z -> (0 <= nd)%Z ->
  clenshaw_init (VInt z) (VInt nc) (VInt nd) (EList (map Fin extra)) (VBool inc) =
  Ok (map Fin (rsort (core_points z (Z.to_nat nc) inc ++ diffuse_points (Z.to_nat nd) ++ extra))).
Proof.
  intros Hz Hc Hd. unfold clenshaw_init. cbn [as_int].
  destruct (Z.leb_spec z 0); [lia|]. destruct (Z.ltb_spec nc 0); [lia|].
  destruct (Z.ltb_spec nd 0); [lia|]. rewrite <- !map_app, xsort_fin. reflexivity.
Qed.

Lemma clenshaw_none z nc nd inc :
  clenshaw_init z nc nd ENone inc = clenshaw_init z nc nd (EList []) inc.
Proof.
  unfold clenshaw_init.
  destruct (as_int z) as [z'|]; [|reflexivity]. destruct (z' <=? 0)%Z; [reflexivity|].
  destruct (as_int nc) as [c'|]; [|reflexivity]. destruct (c' <? 0)%Z; [reflexivity|].
  destruct (as_int nd) as [d'|]; [|reflexivity]. destruct (d' <? 0)%Z; [reflexivity|].
  destruct inc; try reflexivity. cbv zeta. rewrite app_nil_r. reflexivity.
Qed.

Lemma core_length z n inc : length (core_points z n inc) = n.
Proof. unfold core_points. rewrite map_length, seq_length. reflexivity. Qed.
Lemma diffuse_length n : length (diffuse_points n) = n.
Proof. unfold diffuse_points. rewrite map_length, seq_length. reflexivity. Qed.

Lemma equispaced_spec a b n : a < b ->
  length (equispaced a b n) = n /\
  strictly_ascending (equispaced a b n) /\
  (forall r, In r (equispaced a b n) -> a <= r <= b) /\
  (forall i, (S i < n)%nat -> nth (S i) (equispaced a b n) 0 - nth i (equispaced a b n) 0
                              = (b - a) / INR (n - 1)) /\
  ((0 < n)%nat -> nth 0 (equispaced a b n) 0 = a) /\
  ((2 <= n)%nat -> nth (n - 1) (equispaced a b n) 0 = b).
Proof.
  intros H. split; [apply equispaced_length|]. split; [apply equispaced_asc; exact H|].
  split; [intros r; apply equispaced_range; exact H|]. split; [|split].
  - intros i Hi. rewrite !nth_equispaced by lia. rewrite S_INR. ring.
  - intros Hn. rewrite nth_equispaced by exact Hn. simpl INR. ring.
  - intros Hn. rewrite nth_equispaced by lia. field. apply not_0_INR. lia.
Qed.

Lemma as_int_iff v n : as_int v = Some n <-> int_arg v n.
Proof.
  unfold int_arg. split.
  - destruct v; simpl; intros H; try discriminate.
    + destruct b; injection H as <-; auto.
    + injection H as <-. auto.
  - intros [->|[[-> ->]|[-> ->]]]; reflexivity.
Qed.

Lemma uniform_accepts num v w :
  (exists pts, uniform_init num v w = Ok pts) <->
  exists n a b, int_arg num n /\ (0 < n)%Z /\ as_number v = Some a /\ as_number w = Some b /\
                xleb b a = false.
Proof.
  unfold uniform_init. split.
  - intros [pts H]. destruct (as_int num) as [n|] eqn:E; [|discriminate].
    destruct (Z.leb_spec n 0); [discriminate|].
    destruct (as_number v) as [a|]; [|discriminate]. destruct (as_number w) as [b|]; [|discriminate].
    destruct (xleb b a) eqn:El; [discriminate|].
    exists n, a, b. apply as_int_iff in E. auto.
  - intros (n & a & b & E & Hn & Ea & Eb & El). apply as_int_iff in E. rewrite E, Ea, Eb, El.
    destruct (Z.leb_spec n 0); [lia|]. simpl. eauto.
Qed.

Lemma clenshaw_points z nc nd inc extra : (0 < z)%Z -> (0 <= nc)%Z -> (0 <= nd)%Z ->
  exists pts,
    clenshaw_init (VInt z) (VInt nc) (VInt nd) (EList (map Fin extra)) (VBool inc) = Ok (map Fin pts) /\
    ascending pts /\
    exists core diff, Permutation pts (core ++ diff ++ extra) /\
      length core = Z.to_nat nc /\ length diff = Z.to_nat nd /\
      (forall r, In r core -> 0 <= r <= / (2 * IZR z)) /\
      (forall r, In r diff -> 0 < r <= 25) /\
      (In 0 core <-> inc = true /\ (0 < nc)%Z).
Proof.
  intros Hz Hc Hd. eexists. split; [apply clenshaw_ok; assumption|]. split; [apply rsort_sorted|].
  eexists; eexists. split; [apply rsort_perm|]. split; [apply core_length|].
  split; [apply diffuse_length|]. split; [intros r; apply core_range; exact Hz|].
  split; [intros r; apply diffuse_range|].
  rewrite core_zero by exact Hz. split; intros [H1 H2]; split; auto; lia.
Qed.

Lemma map_Fin_inj l : forall m, map Fin l = map Fin m -> l = m.
Proof.
  induction l as [|a l IH]; intros [|b m] H; try discriminate; [reflexivity|].
  injection H as -> H. f_equal. apply IH. exact H.
Qed.

Lemma clenshaw_origin z nc nd inc extra pts : (0 < z)%Z -> (0 <= nc)%Z -> (0 <= nd)%Z ->
  clenshaw_init (VInt z) (VInt nc) (VInt nd) (EList (map Fin extra)) (VBool inc) = Ok (map Fin pts) ->
  (In 0 pts <-> (inc = true /\ (0 < nc)%Z) \/ In 0 extra).
Proof.
  intros Hz Hc Hd H. destruct (clenshaw_points z nc nd inc extra Hz Hc Hd)
    as (p & E & _ & core & diff & P & _ & _ & _ & Hdf & H0).
  rewrite E in H. injection H as H. apply map_Fin_inj in H. subst p.
  rewrite <- H0. split.
  - intros Hi. apply (Permutation_in _ P) in Hi. apply in_app_or in Hi.
    destruct Hi as [Hi|Hi]; [left; exact Hi|]. apply in_app_or in Hi.
    destruct Hi as [Hi|Hi]; [apply Hdf in Hi; lra|right; exact Hi].
  - intros Hi. apply (Permutation_in _ (Permutation_sym P)). apply in_or_app.
    destruct Hi as [Hi|Hi]; [left; exact Hi|right; apply in_or_app; right; exact Hi].
Qed.

Lemma clenshaw_nonneg z nc nd inc extra pts : (0 < z)%Z -> (0 <= nc)%Z -> (0 <= nd)%Z ->
  clenshaw_init (VInt z) (VInt nc) (VInt nd) (EList (map Fin extra)) (VBool inc) = Ok (map Fin pts) ->
  Forall (fun r => 0 <= r) extra -> Forall (fun r => 0 <= r) pts.
Proof.
  intros Hz Hc Hd H F. destruct (clenshaw_points z nc nd inc extra Hz Hc Hd)
    as (p & E & _ & core & diff & P & _ & _ & Hcr & Hdf & H0).
  rewrite E in H. injection H as H. apply map_Fin_inj in H. subst p.
  apply Forall_forall. intros r Hi. apply (Permutation_in _ P) in Hi.
  apply in_app_or in Hi. destruct Hi as [Hi|Hi]; [apply Hcr in Hi; lra|].
  apply in_app_or in Hi. destruct Hi as [Hi|Hi]; [apply Hdf in Hi; lra|].
  rewrite Forall_forall in F. apply F. exact Hi.
Qed.

Lemma clenshaw_negative : exists pts,
  clenshaw_init (VInt 6) (VInt 3) (VInt 2) (EList [Fin (-1)]) (VBool true) = Ok (map Fin pts) /\
  In (-1) pts.
Proof.
  destruct (clenshaw_points 6 3 2 true [-1]) as (p & E & _ & core & diff & P & _); try lia.
  exists p. split; [exact E|]. apply (Permutation_in _ (Permutation_sym P)).
  apply in_or_app. right. apply in_or_app. right. left. reflexivity.
Qed.

Lemma clenshaw_accepts z nc nd extra inc :
  (exists pts, clenshaw_init z nc nd extra inc = Ok pts) <->
  (exists z' c d b, int_arg z z' /\ (0 < z')%Z /\ int_arg nc c /\ (0 <= c)%Z /\
                    int_arg nd d /\ (0 <= d)%Z /\ inc = VBool b) /\
  extra <> EStr /\ extra <> ENotIter /\ (forall l, extra = EArr l -> (length l <= 1)%nat).
Proof.
  unfold clenshaw_init. split.
  - intros [pts H]. destruct (as_int z) as [z'|] eqn:Ez; [|discriminate].
    destruct (Z.leb_spec z' 0); [discriminate|].
    destruct (as_int nc) as [c|] eqn:Ec; [|discriminate]. destruct (Z.ltb_spec c 0); [discriminate|].
    destruct (as_int nd) as [d|] eqn:Ed; [|discriminate]. destruct (Z.ltb_spec d 0); [discriminate|].
    destruct inc as [|b| | | | | |]; try discriminate.
    apply as_int_iff in Ez. apply as_int_iff in Ec. apply as_int_iff in Ed.
    split.
    + exists z', c, d, b. repeat split; auto.
    + cbv zeta in H. destruct extra as [| | | |[|x [|y l]]]; try discriminate; (split; [discriminate|]); (split; [discriminate|]);
        intros l' E; try discriminate; injection E as <-; cbn; lia.
  - intros [(z' & c & d & b & Ez & Hz & Ec & Hc & Ed & Hd & ->) (H1 & H2 & H3)].
    apply as_int_iff in Ez. apply as_int_iff in Ec. apply as_int_iff in Ed. rewrite Ez, Ec, Ed.
    destruct (Z.leb_spec z' 0); [lia|]. destruct (Z.ltb_spec c 0); [lia|].
    destruct (Z.ltb_spec d 0); [lia|]. cbv zeta. destruct extra as [| | | |[|x [|y l]]]; try congruence; simpl; eauto.
    specialize (H3 _ eq_refl). cbn in H3. lia.
Qed.

Lemma uniform_converges f L a b : a < b -> lipschitz f a b L ->
  exists I, is_RInt f a b I /\
  forall eps, 0 < eps -> exists N : Z, forall n, (N <= n)%Z ->
    exists pts v, uniform_init (VInt n) (VFloat (Fin a)) (VFloat (Fin b)) = Ok (map Fin pts) /\
      radial_integrate (map Fin pts) (A1 (map Fin (map f pts))) = Ok (Fin v) /\
      Rabs (v - I) < eps.
Proof.
  intros Hab HL. exists (RInt f a b). split.
  { apply (RInt_correct (V := R_CompleteNormedModule)). exact (lip_cont f a b L Hab HL). }
  intros eps He.
  assert (HL0 : 0 <= L).
  { pose proof (HL a b ltac:(lra) ltac:(lra)) as H. rewrite (Rabs_left (a - b)) in H by lra.
    pose proof (Rabs_pos (f a - f b)). destruct (Rle_lt_dec 0 L); [assumption|].
    assert (L * - (a - b) < 0) by nra. lra. }
  set (K := L * (b - a) ^ 2 / 2).
  destruct (archimed (K / eps)) as [Har _].
  exists (up (K / eps) + 2)%Z. intros n Hn.
  assert (HK : 0 <= K) by (unfold K; apply Rdiv_le_0_compat; [apply Rmult_le_pos; [lra|apply pow2_ge_0]|lra]).
  assert (Hup : (0 < up (K / eps))%Z).
  { apply lt_IZR. eapply Rle_lt_trans; [|exact Har]. apply Rdiv_le_0_compat; lra. }
  exists (equispaced a b (Z.to_nat n)). eexists. split; [apply uniform_ok; [lia|reflexivity|reflexivity|exact Hab]|].
  split; [apply integrate_ok; rewrite map_length; reflexivity|].
  destruct (uniform_error f L a b (Z.to_nat n) ltac:(lia) Hab HL) as [_ Hb].
  eapply Rle_lt_trans; [exact Hb|].
  set (m := INR (Z.to_nat n - 1)).
  assert (Hm : K / eps < m).
  { eapply Rlt_le_trans; [exact Har|]. unfold m. rewrite INR_IZR_INZ. apply IZR_le. lia. }
  assert (0 <= K / eps) by (apply Rdiv_le_0_compat; lra).
  replace (L * (b - a) ^ 2 / (2 * m)) with (K / m) by (unfold K; field; lra).
  apply Rmult_lt_reg_r with m; [lra|]. unfold Rdiv at 1. rewrite Rmult_assoc, Rinv_l by lra.
  rewrite Rmult_1_r. apply (Rmult_lt_compat_l eps) in Hm; [|exact He].
  replace (eps * (K / eps)) with K in Hm by (field; lra). exact Hm.
Qed.
