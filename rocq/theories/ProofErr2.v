(** Rejections of the grids and fits, and special values in the measures. *)
From Coq Require Import Reals List ZArith Lia Lra Bool.
From Verif Require Import XR SpecDens SpecMeas SpecGrid ModelDens ModelMeas ModelGrid ModelFit Lists ProofMeas ProofGrid SpecFit ProofFit ProofScipy3.
Import ListNotations.
Local Open Scope R_scope.

Lemma clenshaw_rejects z nc nd extra inc x : clenshaw_init z nc nd extra inc = Raise x ->
  x = TypeError \/ (x = ValueError /\ exists l, extra = EArr l /\ (2 <= length l)%nat).
Proof.
  unfold clenshaw_init. destruct (as_int z) as [z'|]; [|left; congruence]. destruct (z' <=? 0)%Z; [left; congruence|].
  destruct (as_int nc) as [c|]; [|left; congruence]. destruct (c <? 0)%Z; [left; congruence|].
  destruct (as_int nd) as [d|]; [|left; congruence]. destruct (d <? 0)%Z; [left; congruence|].
  destruct inc; try (left; congruence). cbv zeta. destruct extra as [| | | |[|y [|y' l]]]; cbn; try discriminate; try (left; congruence).
  intros H. right. split; [congruence|]. eexists. split; [reflexivity|]. cbn. lia.
Qed.

Lemma clenshaw_array z nc nd inc : (0 < z)%Z -> (0 <= nc)%Z -> (0 <= nd)%Z ->
  (forall x y l, clenshaw_init (VInt z) (VInt nc) (VInt nd) (EArr (x :: y :: l)) (VBool inc) = Raise ValueError) /\
  (forall x, x <> Fin 0 -> clenshaw_init (VInt z) (VInt nc) (VInt nd) (EArr [x]) (VBool inc) =
                           clenshaw_init (VInt z) (VInt nc) (VInt nd) (EList [x]) (VBool inc)) /\
  clenshaw_init (VInt z) (VInt nc) (VInt nd) (EArr [Fin 0]) (VBool inc) =
  clenshaw_init (VInt z) (VInt nc) (VInt nd) (EList []) (VBool inc).
Proof.
  intros Hz Hc Hd. unfold clenshaw_init. cbn [as_int]. destruct (Z.leb_spec z 0); [lia|].
  destruct (Z.ltb_spec nc 0); [lia|]. destruct (Z.ltb_spec nd 0); [lia|]. cbv zeta. split; [|split].
  - reflexivity.
  - intros x N. cbn [arr_true bind]. destruct (xeqb x (Fin 0)) eqn:E; [|reflexivity].
    exfalso. apply N. destruct x; try discriminate. cbn in E. unfold reqb in E. destruct (Req_EM_T r 0); [congruence|discriminate].
  - cbn [arr_true bind xeqb]. rewrite reqb_true by reflexivity. reflexivity.
Qed.

(** ** Points in three dimensions *)
Lemma any_false {A} (p : A -> bool) l : existsb p l = false <-> forall x, In x l -> p x = false.
Proof.
  induction l as [|a l IH]; cbn; [split; [intros _ x []|auto]|]. rewrite orb_false_iff, IH. split.
  - intros [H1 H2] x [<-|Hx]; auto.
  - intros H. split; auto.
Qed.
Lemma in_map2 {A B C} (h : A -> B -> C) u v x : In x (map2 h u v) <-> exists i a b, nth_error u i = Some a /\ nth_error v i = Some b /\ x = h a b.
Proof.
  revert v. induction u as [|a u IH]; intros [|b v]; cbn; split; try tauto.
  - intros (i & a & b & H & _). destruct i; discriminate.
  - intros (i & a & b' & H & _). destruct i; discriminate.
  - intros (i & a' & b & _ & H & _). destruct i; discriminate.
  - intros [<-|H]; [exists 0%nat, a, b; auto|]. apply IH in H. destruct H as (i & a' & b' & H). exists (S i), a', b'. exact H.
  - intros (i & a' & b' & H1 & H2 & ->). destruct i as [|i]; cbn in H1, H2; [left; congruence|]. right. apply IH. eauto 6.
Qed.
Lemma far_false a b : far (Fin a) (Fin b) = false <-> Rabs (a - b) <= 1 / 10 ^ 12.
Proof.
  unfold far. cbn [xsub xneg xadd xabs xltb]. unfold rltb, Rminus. destruct (Rlt_dec _ _) as [H|H]; split; intros K; try lra; try discriminate; auto.
Qed.

Lemma fits_iff m n : fits m n = true <-> agree m n.
Proof.
  unfold fits, agree. rewrite !orb_true_iff, !Nat.eqb_eq. tauto.
Qed.
Lemma any_stretch {A B} (h : A -> B -> bool) u v da db : agree (length u) (length v) ->
  (existsb (fun b => b) (stretch h u v) = false <->
   forall i, (i < extent (length u) (length v))%nat -> h (nth (slot (length u) i) u da) (nth (slot (length v) i) v db) = false).
Proof.
  intros G. rewrite any_false. unfold stretch. destruct (Nat.eqb_spec (length u) (length v)) as [E|E].
  - split.
    + intros H i Hi. apply H. apply in_map2. rewrite <- E. unfold extent in Hi. rewrite <- E in Hi. unfold slot.
      assert (K : (i < length u)%nat) by (destruct (Nat.eqb (length u) 1); lia).
      destruct (Nat.eqb_spec (length u) 1) as [O|O].
      * exists 0%nat. do 2 eexists. split; [apply nth_error_nth'; lia|]. split; [apply nth_error_nth'; lia|]. reflexivity.
      * exists i. do 2 eexists. split; [apply nth_error_nth'; lia|]. split; [apply nth_error_nth'; lia|]. reflexivity.
    + intros H x Hx. apply in_map2 in Hx. destruct Hx as (i & a & b & Ha & Hb & ->).
      assert (K : (i < length u)%nat) by (apply nth_error_Some; congruence).
      assert (P : slot (length u) i = i) by (unfold slot; destruct (Nat.eqb_spec (length u) 1); lia).
      specialize (H i). rewrite <- E, P in H. rewrite (nth_error_nth _ _ da Ha), (nth_error_nth _ _ db Hb) in H.
      apply H. unfold extent. destruct (Nat.eqb (length u) 1); lia.
  - destruct G as [G|[G|G]]; [congruence| |].
    + destruct u as [|x [|? ?]]; cbn in G; try discriminate. cbn [length] in *. unfold extent, slot at 1. cbn [Nat.eqb nth].
      assert (P : forall i, (i < length v)%nat -> slot (length v) i = i) by (intros i Hi; unfold slot; destruct (Nat.eqb_spec (length v) 1); lia).
      split.
      * intros H i Hi. rewrite P by auto. apply H. apply in_map. now apply nth_In.
      * intros H y Hy. apply in_map_iff in Hy. destruct Hy as (b & <- & Hb). apply (In_nth _ _ db) in Hb. destruct Hb as (i & Hi & <-).
        specialize (H i Hi). rewrite P in H by auto. exact H.
    + destruct v as [|y [|? ?]]; cbn in G; try discriminate. cbn [length] in *. unfold extent, slot at 2. cbn [Nat.eqb nth].
      assert (Q : forall i, slot (length u) i = i) by (intros i; unfold slot; destruct (Nat.eqb_spec (length u) 1); [lia|reflexivity]).
      rewrite (proj2 (Nat.eqb_neq _ _) E).
      assert (R : (match u with [x] => map (h x) [y] | _ => map (fun x => h x y) u end) = map (fun x => h x y) u) by (destruct u as [|? [|? ?]]; reflexivity).
      rewrite R. split.
      * intros H i Hi. rewrite Q. apply H. now apply (in_map (fun x => h x y)), nth_In.
      * intros H z Hz. apply in_map_iff in Hz. destruct Hz as (a & <- & Ha). apply (In_nth _ _ da) in Ha. destruct Ha as (i & Hi & <-).
        specialize (H i Hi). rewrite Q in H. exact H.
Qed.

Lemma as_rows_shape p : length (snd (as_rows p)) = fst (shape2 p) /\ fst (as_rows p) = snd (shape2 p).
Proof. destruct p; auto. Qed.
Lemma points_raise p q x : points_differ p q = Raise x <->
  x = ValueError /\ ~ (agree (fst (shape2 p)) (fst (shape2 q)) /\ agree (snd (shape2 p)) (snd (shape2 q))).
Proof.
  unfold points_differ. destruct (as_rows_shape p) as [<- <-], (as_rows_shape q) as [<- <-].
  destruct (as_rows p) as [d u], (as_rows q) as [d' v]. cbn [fst snd].
  rewrite <- !fits_iff. destruct (fits d d'), (fits (length u) (length v)); cbn [andb];
    (split; [intros H; split; [congruence|intros [? ?]; congruence]|intros [-> H]; try reflexivity; exfalso; apply H; auto]).
Qed.
Lemma points_same p q : rectangular p -> rectangular q ->
  (points_differ p q = Ok false <->
   agree (fst (shape2 p)) (fst (shape2 q)) /\ agree (snd (shape2 p)) (snd (shape2 q)) /\
   forall i j, (i < extent (fst (shape2 p)) (fst (shape2 q)))%nat -> (j < extent (snd (shape2 p)) (snd (shape2 q)))%nat ->
     xltb (Fin (1 / 10 ^ 12)) (xabs (xsub (entry p i j) (entry q i j))) = false).
Proof.
  intros Rp Rq.
  assert (V : forall p, rectangular p -> Forall (fun r => length r = fst (as_rows p)) (snd (as_rows p)) /\
                forall i j, (i < fst (shape2 p))%nat \/ fst (shape2 p) = 1%nat ->
                  entry p i j = nth (slot (fst (as_rows p)) j) (nth (slot (length (snd (as_rows p))) i) (snd (as_rows p)) []) NaN).
  { clear. intros [u|d rows] H; cbn [as_rows fst snd entry shape2]; split; auto. }
  destruct (V p Rp) as [Fp Ep], (V q Rq) as [Fq Eq]. clear V Rp Rq.
  unfold points_differ. destruct (as_rows_shape p) as [Sp Dp], (as_rows_shape q) as [Sq Dq]. rewrite <- Sp in *. rewrite <- Sq in *. rewrite <- Dp, <- Dq in *.
  destruct (as_rows p) as [d u], (as_rows q) as [d' v]. cbn [fst snd] in *.
  destruct (fits d d') eqn:F1; cbn [andb].
  2:{ split; [discriminate|]. intros (_ & A & _). apply fits_iff in A. congruence. }
  destruct (fits (length u) (length v)) eqn:F2.
  2:{ split; [discriminate|]. intros (A & _). apply fits_iff in A. congruence. }
  apply fits_iff in F1, F2.
  assert (X : forall b, @Ok bool b = Ok false <-> b = false) by (split; congruence). rewrite X.
  rewrite (any_stretch _ _ _ [] [] F2).
  assert (Y : forall i, (i < extent (length u) (length v))%nat ->
     ((slot (length u) i < length u)%nat /\ (slot (length v) i < length v)%nat)).
  { intros i. unfold extent, slot. destruct F2 as [H|[H|H]]; destruct (Nat.eqb_spec (length u) 1), (Nat.eqb_spec (length v) 1); lia. }
  assert (Z : forall i, (i < extent (length u) (length v))%nat ->
     ((i < length u)%nat \/ length u = 1%nat) /\ ((i < length v)%nat \/ length v = 1%nat)).
  { intros i. unfold extent. destruct F2 as [H|[H|H]]; destruct (Nat.eqb_spec (length u) 1); lia. }
  assert (W : forall i, (i < extent (length u) (length v))%nat ->
     length (nth (slot (length u) i) u []) = d /\ length (nth (slot (length v) i) v []) = d').
  { intros i Hi. apply Y in Hi. rewrite Forall_forall in Fp, Fq. split; [apply Fp|apply Fq]; now apply nth_In. }
  split.
  - intros H. split; [exact F2|]. split; [exact F1|]. intros i j Hi Hj. specialize (H i Hi). destruct (W i Hi) as [L1 L2].
    rewrite (any_stretch far _ _ NaN NaN) in H by (rewrite L1, L2; exact F1). rewrite L1, L2 in H. specialize (H j Hj).
    destruct (Z i Hi) as [Z1 Z2]. rewrite (Ep i j Z1), (Eq i j Z2). exact H.
  - intros (_ & _ & H) i Hi. destruct (W i Hi) as [L1 L2].
    rewrite (any_stretch far _ _ NaN NaN) by (rewrite L1, L2; exact F1). rewrite L1, L2. intros j Hj.
    destruct (Z i Hi) as [Z1 Z2]. specialize (H i j Hi Hj). rewrite (Ep i j Z1), (Eq i j Z2) in H. exact H.
Qed.

Lemma single_point (a : R) n :
  points_differ (A1 [Fin a]) (A1 (repeat (Fin a) n)) = Ok false /\
  points_differ (A1 (repeat (Fin a) n)) (A1 [Fin a]) = Ok false.
Proof.
  assert (F : xltb (Fin (1 / 10 ^ 12)) (xabs (xsub (Fin a) (Fin a))) = false).
  { apply far_false. rewrite Rminus_eq_0, Rabs_R0. lra. }
  assert (P : forall j, (j < n)%nat -> nth (slot n j) (repeat (Fin a) n) NaN = Fin a).
  { intros j Hj. assert (K : (slot n j < n)%nat) by (unfold slot; destruct (Nat.eqb_spec n 1); lia).
    rewrite (nth_indep _ _ (Fin a)) by now rewrite repeat_length. apply nth_repeat. }
  split; (apply points_same; [exact I|exact I|]); cbn [shape2 fst snd length]; rewrite ?repeat_length;
    (split; [left; reflexivity|]); (split; [unfold agree; lia|]); intros i j Hi Hj; cbn [entry length]; rewrite repeat_length.
  - rewrite P by (unfold extent in Hj; cbn in Hj; exact Hj). exact F.
  - unfold extent in Hj. rewrite P by (destruct (Nat.eqb_spec n 1); lia). exact F.
Qed.

(** ** Densities, models and weights of different sizes *)
Lemma bcast_error {A B C} (op : A -> B -> C) u v x : bcast op u v = Raise x <-> x = ValueError /\ ~ agree (length u) (length v).
Proof.
  unfold bcast. rewrite <- fits_iff. destruct (fits _ _); split; try intros [-> H]; try congruence; try tauto.
  - intros H. split; congruence.
Qed.
Lemma goodness_mismatch ft c e out : g_evaluate (ft_model ft) (A1 c) (A1 e) false = Ok out ->
  length (fst out) <> length (ft_density ft) ->
  (length (fst out) <> 1%nat -> length (ft_density ft) <> 1%nat -> goodness ft c e = Raise ValueError) /\
  ((forall y x, fit_integrate ft y = Raise x -> x = ValueError) -> goodness ft c e = Raise ValueError).
Proof.
  intros E L. unfold goodness. rewrite E. cbn [bind]. split.
  - intros L1 L2. unfold abs_diff. destruct (bcast _ _ _) as [d|x] eqn:B.
    + exfalso. unfold bcast in B. destruct (fits _ _) eqn:F; [|discriminate]. apply fits_iff in F. unfold agree in F. lia.
    + cbn [bind]. apply bcast_error in B. destruct B as [-> _]. reflexivity.
  - intros I. unfold abs_diff. destruct (bcast _ _ _) as [d|x] eqn:B; cbn [bind].
    2:{ apply bcast_error in B. destruct B as [-> _]. reflexivity. }
    destruct (fit_integrate ft (fst out)) as [i0|x] eqn:I0; cbn [bind]; [|apply I in I0; congruence].
    destruct (fit_integrate ft d) as [i1|x] eqn:I1; cbn [bind]; [|apply I in I1; congruence].
    unfold np_max. destruct (xmaxl d); cbn [bind]; [|reflexivity].
    unfold measure_evaluate. rewrite (proj2 (Nat.eqb_neq _ _) L). reflexivity.
Qed.
Lemma measure_sizes me f g b out : measure_evaluate me (VArr (A1 f)) (VArr (A1 g)) (VBool b) = Ok out ->
  length (fst out) = length f /\ forall d, snd out = Some d -> length d = length f.
Proof.
  unfold measure_evaluate. destruct (Nat.eqb_spec (length g) (length f)) as [L|]; [|discriminate]. cbn [negb].
  intros H. injection H as <-. destruct me as [|mask neg|alpha mask]; cbn [measure_values].
  - unfold sq_values. cbn [fst snd]. rewrite map_length, map2_length, L, Nat.min_id. split; auto.
    destruct b; intros d H; [injection H as <-|discriminate]. now rewrite map_length, map2_length, L, Nat.min_id.
  - unfold kl_values. destruct (existsb _ _); cbn [fst snd].
    + rewrite repeat_length. split; auto. destruct b; intros d H; [injection H as <-|discriminate]. now rewrite repeat_length.
    + rewrite !map2_length, L, !Nat.min_id. split; auto. destruct b; intros d H; [injection H as <-|discriminate].
      now rewrite map_length, map2_length, L, Nat.min_id.
  - unfold ts_values. cbn [fst snd]. rewrite map_length, !map2_length, L, !Nat.min_id. split; auto.
    destruct b; intros d H; [injection H as <-|discriminate]. now rewrite map_length, map2_length, L, Nat.min_id.
Qed.
Lemma emul_one w n l : length l = n -> emul [w] l = emul (repeat w n) l.
Proof.
  intros L. unfold emul, bcast. rewrite repeat_length, L, fits_refl.
  replace (fits (length [w]) n) with true by (symmetry; apply fits_iff; right; left; reflexivity). f_equal.
  unfold stretch. rewrite repeat_length, L, Nat.eqb_refl. cbn [length].
  assert (R : map2 xmul (repeat w n) l = map (xmul w) l) by (subst n; induction l; cbn; congruence). rewrite R.
  destruct (Nat.eqb_spec 1 n) as [O|]; [|reflexivity]. subst n. destruct l as [|? [|? ?]]; try discriminate. reflexivity.
Qed.
Lemma one_weight s w x a : sc_weights s = [w] ->
  scipy_func s x a = scipy_func (mkScipy (sc_fit s) (sc_slsqp s) (repeat w (length (ft_density (sc_fit s))))) x a.
Proof.
  intros W. unfold scipy_func. rewrite W. cbn [sc_fit sc_weights].
  change (evaluate_model (mkScipy (sc_fit s) (sc_slsqp s) (repeat w (length (ft_density (sc_fit s))))) x a) with (evaluate_model s x a).
  destruct (evaluate_model s x a) as [[m dm]|]; cbn [bind]; [|reflexivity].
  destruct (measure_evaluate _ _ _ _) as [kd|] eqn:K; cbn [bind]; [|reflexivity].
  apply measure_sizes in K. destruct K as [K1 K2]. destruct (snd kd) as [dk|]; [|reflexivity].
  rewrite (emul_one w _ _ K1), (emul_one w _ _ (K2 _ eq_refl)). reflexivity.
Qed.
Lemma other_weights s x a m dm kd : evaluate_model s x a = Ok (m, dm) ->
  measure_evaluate (ft_measure (sc_fit s)) (VArr (A1 (ft_density (sc_fit s)))) (VArr (A1 m)) (VBool true) = Ok kd ->
  snd kd <> None -> ~ agree (length (sc_weights s)) (length (ft_density (sc_fit s))) -> scipy_func s x a = Raise ValueError.
Proof.
  intros E K N A. unfold scipy_func. rewrite E. cbn [bind]. rewrite K. cbn [bind]. destruct (snd kd) as [dk|]; [|congruence].
  destruct (emul _ _) as [z|y] eqn:B; cbn [bind].
  - exfalso. unfold emul, bcast in B. rewrite (proj1 (measure_sizes _ _ _ _ _ K)) in B.
    destruct (fits _ _) eqn:F; [|discriminate]. apply fits_iff in F. contradiction.
  - apply bcast_error in B. destruct B as [-> _]. reflexivity.
Qed.

(** ** Special values *)
Lemma nth_error_map2 {A B C} (h : A -> B -> C) u v i a b : nth_error u i = Some a -> nth_error v i = Some b -> nth_error (map2 h u v) i = Some (h a b).
Proof.
  revert u v. induction i as [|i IH]; intros [|x u] [|y v]; cbn; try discriminate; [congruence|auto].
Qed.
Lemma not_negative g : Forall (fun x => x <> NInf /\ forall y, x = Fin y -> 0 <= y) g -> existsb (fun x => xltb x (Fin 0)) g = false.
Proof.
  intros H. apply any_false. rewrite Forall_forall in H. intros x Hx. destruct (H x Hx) as [N P]. destruct x as [y| | |]; cbn; auto; [|congruence].
  specialize (P y eq_refl). apply rltb_false. lra.
Qed.
Lemma div_inf mask d : ma_div (Fin mask) (Fin d) PInf = Some (Fin 0).
Proof. reflexivity. Qed.
Lemma div_nan mask d : ma_div mask (Fin d) NaN = None.
Proof. unfold ma_div. cbn. destruct mask; cbn; now rewrite ?orb_true_r. Qed.

Lemma kl_special mask neg f g b : length f = length g -> Forall (fun x => x <> NInf /\ forall y, x = Fin y -> 0 <= y) g ->
  exists v q, measure_evaluate (MKL (Fin mask) neg) (VArr (A1 f)) (VArr (A1 g)) (VBool b) = Ok (v, if b then Some q else None) /\
    forall i d, nth_error f i = Some (Fin d) -> 0 < d ->
      (nth_error g i = Some PInf -> nth_error v i = Some NInf /\ nth_error q i = Some (Fin 0)) /\
      (nth_error g i = Some NaN -> nth_error v i = Some (Fin 0) /\ nth_error q i = Some (Fin (-1))).
Proof.
  intros L G. unfold measure_evaluate. rewrite L, Nat.eqb_refl. cbn [negb measure_values]. unfold kl_values. rewrite not_negative by auto. cbv zeta.
  set (ratio := map2 (fun d m => filled (Fin 1) (ma_div (Fin mask) d m)) f g).
  exists (map2 (fun d q => xmul d (xln q)) f ratio), (map xneg ratio). split; [reflexivity|]. intros i d Hf Hd. split; intros Hg.
  - assert (R : nth_error ratio i = Some (Fin 0)) by (unfold ratio; rewrite (nth_error_map2 _ _ _ _ _ _ Hf Hg), div_inf; reflexivity).
    rewrite (nth_error_map2 _ _ _ _ _ _ Hf R), nth_error_map, R. cbn. rewrite rltb_false, reqb_true by lra. cbn. rewrite reqb_false, rltb_true by lra.
    split; auto. do 2 f_equal. lra.
  - assert (R : nth_error ratio i = Some (Fin 1)) by (unfold ratio; rewrite (nth_error_map2 _ _ _ _ _ _ Hf Hg), div_nan; reflexivity).
    rewrite (nth_error_map2 _ _ _ _ _ _ Hf R), nth_error_map, R. cbn. rewrite rltb_true, ln_1 by lra. cbn. split; auto. do 2 f_equal. lra.
Qed.

Lemma ts_special alpha mask f g b : length f = length g -> alpha <> 1 -> 0 < alpha ->
  exists v q, measure_evaluate (MTs alpha (Fin mask)) (VArr (A1 f)) (VArr (A1 g)) (VBool b) = Ok (v, if b then Some q else None) /\
    forall i d, nth_error f i = Some (Fin d) -> 0 < d -> nth_error g i = Some PInf \/ nth_error g i = Some NaN ->
      nth_error v i = Some (if rltb 1 alpha then Fin (- d / (alpha - 1)) else NInf) /\ nth_error q i = Some (Fin 0).
Proof.
  intros L N A. unfold measure_evaluate. rewrite L, Nat.eqb_refl. cbn [negb measure_values]. unfold ts_values. cbv zeta.
  set (ratio := map2 (fun d m => filled (Fin 0) (ma_div (Fin mask) d m)) f g).
  eexists _, (map (fun q => xneg (xpow q alpha)) ratio). split; [reflexivity|]. intros i d Hf Hd Hg.
  assert (R : nth_error ratio i = Some (Fin 0)).
  { unfold ratio. destruct Hg as [Hg|Hg]; rewrite (nth_error_map2 _ _ _ _ _ _ Hf Hg); [rewrite div_inf|rewrite div_nan]; reflexivity. }
  rewrite !nth_error_map, (nth_error_map2 _ _ _ _ _ _ Hf R), R. cbn [option_map]. unfold xpow. rewrite (reqb_false (alpha - 1)), (reqb_false alpha) by lra. rewrite !(rltb_false 0 0), !(reqb_true 0 0), (rltb_true 0 alpha) by lra.
  split; [|cbn; do 2 f_equal; lra]. destruct (Rlt_dec 1 alpha) as [H|H].
  - rewrite (rltb_true 1 alpha), (rltb_true 0 (alpha - 1)) by lra. cbn. rewrite reqb_false by lra. do 2 f_equal. field. lra.
  - rewrite (rltb_false 1 alpha), (rltb_false 0 (alpha - 1)) by lra. cbn. rewrite reqb_false, rltb_true by lra. cbn. rewrite rltb_true by lra. reflexivity.
Qed.

(** Refusals of UniformRadialGrid. *)
Lemma uniform_rejects num v w x : uniform_init num v w = Raise x ->
  ((exists n a b, int_arg num n /\ (0 < n)%Z /\ as_number v = Some a /\ as_number w = Some b /\ xleb b a = true) /\ x = ValueError) \/
  (~ (exists n a b, int_arg num n /\ (0 < n)%Z /\ as_number v = Some a /\ as_number w = Some b) /\ x = TypeError).
Proof.
  unfold uniform_init. intros H.
  destruct (as_int num) as [n|] eqn:E.
  2:{ right. injection H as <-. split; auto. intros (n & a & b & I & _). apply as_int_iff in I. congruence. }
  destruct (Z.leb_spec n 0).
  { right. injection H as <-. split; auto. intros (m & a & b & I & L & _). apply as_int_iff in I. rewrite I in E. injection E as <-. lia. }
  destruct (as_number v) as [a|]; [|right; injection H as <-; split; auto; intros (? & ? & ? & _ & _ & ? & _); discriminate].
  destruct (as_number w) as [b|]; [|right; injection H as <-; split; auto; intros (? & ? & ? & _ & _ & _ & ?); discriminate].
  destruct (xleb b a) eqn:El; [|discriminate]. left. injection H as <-. split; auto.
  exists n, a, b. apply as_int_iff in E. auto.
Qed.
