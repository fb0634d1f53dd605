(** The one-function start of GreedyLeastSquares on points with several coordinates. *)
From Coq Require Import Reals List ZArith Bool Lia Lra.
From Verif Require Import XR SpecDens SpecMeas SpecGrid SpecFit SpecGreedy SpecLs ModelDens ModelMeas ModelGrid ModelFit ModelGreedy Lists
  ProofDens ProofMeas ProofSlater ProofFPI ProofFit ProofGreedy4 ProofErr5.
Import ListNotations.
Local Open Scope R_scope.

Lemma entry_nth l j : (j < length l)%nat -> entry l j = nth j l 0.
Proof. destruct l as [|x [|y l]]; cbn [length]; intros H; try reflexivity. replace j with 0%nat by lia. reflexivity. Qed.
Lemma entry_one l j : length l = 1%nat -> entry l j = nth 0 l 0.
Proof. destruct l as [|x [|y l]]; intros H; [discriminate|reflexivity|discriminate]. Qed.

Definition prod_row (w : list R) (m : nat) (r : list R) : list R := map (fun j => entry w j * entry r j) (seq 0 m).

Lemma seq_nth_id {A} (l : list A) d : map (fun j => nth j l d) (seq 0 (length l)) = l.
Proof.
  induction l as [|x l IH]; [reflexivity|]. cbn [length seq map nth]. f_equal. rewrite <- seq_shift, map_map. exact IH.
Qed.

Lemma bmul_fin w d M : Forall (fun r => length r = d) M -> length w = d \/ length w = 1%nat \/ d = 1%nat ->
  bmul (map Fin w) d (map (map Fin) M) = Ok (map (map Fin) (map (prod_row w (if Nat.eqb d 1 then length w else d)) M)).
Proof.
  intros HM HW. unfold bmul. rewrite map_length. rewrite Forall_forall in HM.
  destruct (Nat.eqb_spec (length w) d) as [E|E]; [|destruct (Nat.eqb_spec (length w) 1) as [E1|E1]; [|destruct (Nat.eqb_spec d 1) as [E2|E2]]].
  - f_equal. rewrite !map_map. apply map_ext_in. intros r Hr. specialize (HM r Hr).
    replace (if Nat.eqb d 1 then length w else d) with (length w) by (destruct (Nat.eqb d 1); congruence).
    rewrite map2_map, <- (map_map2 Fin Rmult). f_equal. unfold prod_row. rewrite (map2_seq_nth Rmult w r 0 0) by congruence.
    apply map_ext_in. intros j Hj. apply in_seq in Hj. rewrite !entry_nth by lia. reflexivity.
  - f_equal. rewrite !map_map. apply map_ext_in. intros r Hr. specialize (HM r Hr).
    destruct (Nat.eqb_spec d 1) as [E2|E2]; [congruence|]. rewrite map_map. unfold prod_row. rewrite map_map.
    rewrite <- (seq_nth_id r 0) at 1. rewrite map_map, HM. apply map_ext_in. intros j Hj. apply in_seq in Hj.
    rewrite (entry_one w), (entry_nth r) by lia. destruct w as [|x w]; [discriminate|]. reflexivity.
  - f_equal. rewrite !map_map. apply map_ext_in. intros r Hr. specialize (HM r Hr). unfold prod_row. rewrite !map_map.
    rewrite <- (seq_nth_id w 0) at 1. rewrite map_map. apply map_ext_in. intros j Hj. apply in_seq in Hj.
    rewrite (entry_nth w), (entry_one r) by lia. destruct r as [|x r]; [rewrite E2 in HM; discriminate|]. reflexivity.
  - exfalso. tauto.
Qed.

Lemma entry_map (F : R -> R) l j : (j < length l)%nat \/ length l = 1%nat -> entry (map F l) j = F (entry l j).
Proof.
  intros [H|H].
  - rewrite !entry_nth by (rewrite ?map_length; lia). rewrite (nth_indep _ 0 (F 0)) by (now rewrite map_length). apply map_nth.
  - destruct l as [|x [|y l]]; try discriminate. reflexivity.
Qed.

Lemma rsum_app (u v : list R) : rsum (u ++ v) = rsum u + rsum v.
Proof. induction u as [|x u IH]; cbn [app]; unfold rsum in *; cbn [fold_right]; [|rewrite IH]; lra. Qed.
Lemma total_fin M : xsum (concat (map (map Fin) M)) = Fin (rsum (map rsum M)).
Proof.
  rewrite <- concat_map, xsum_fin. f_equal. induction M as [|r M IH]; [reflexivity|]. cbn [concat map]. rewrite rsum_app, IH. reflexivity.
Qed.
Lemma rows_sum {A} (G : A -> R) (M : list A) d : rsum (map G M) = rsum (map (fun i => G (nth i M d)) (seq 0 (length M))).
Proof. rewrite <- (seq_nth_id M d) at 1. now rewrite map_map. Qed.

Lemma solve_nd_fin n d m rows f w : places n d m -> length rows = n -> Forall (fun r => length r = d) rows ->
  length f = n -> length w = n -> positive f ->
  let a := sum_w w in let b := sum_wx2 n m rows w in let c := sum_wl w f in let e := sum_wx4 n m rows w in
  let g := sum_wx2l n m rows w f in
  b * b <> a * e ->
  solve_one_nd d (map (map Fin) rows) (map Fin f) (map Fin w) = Ok (map Fin (start_of a b c e g)).
Proof.
  intros P Ln Ld Lf Lw Pf a b c e g Hd. rewrite Forall_forall in Ld.
  assert (Esq : map (map xsq) (map (map Fin) rows) = map (map Fin) (map (map (fun r => r ^ 2)) rows)).
  { rewrite !map_map. apply map_ext. intros r. rewrite !map_map. apply map_ext. intros x. unfold xsq. cbn [xmul]. f_equal. ring. }
  assert (E4 : map (map (fun r => xpow r 4)) (map (map Fin) rows) = map (map Fin) (map (map (fun r => r ^ 4)) rows)).
  { rewrite !map_map. apply map_ext. intros r. rewrite !map_map. apply map_ext. intros x. replace 4 with (INR 4) by (simpl; lra). apply ProofSlater.xpow_nat. }
  assert (El : map xln (map Fin f) = map Fin (map ln f)).
  { rewrite !map_map. apply map_ext_in. intros x Hx. unfold positive in Pf. rewrite Forall_forall in Pf.
    cbn [xln]. rewrite rltb_true; auto. }
  assert (LP : forall F : R -> R, Forall (fun r => length r = d) (map (map F) rows)).
  { intros F. apply Forall_forall. intros r Hr. apply in_map_iff in Hr. destruct Hr as (q & <- & Hq). rewrite map_length. auto. }
  assert (HW : length w = d \/ length w = 1%nat \/ d = 1%nat) by (destruct P as [[]|[[]|[]]]; subst; auto).
  assert (Em : (if Nat.eqb d 1 then length w else d) = m).
  { destruct (Nat.eqb_spec d 1) as [E|E]; destruct P as [[]|[[]|[]]]; lia. }
  unfold solve_one_nd. rewrite Esq, E4, El, !bmul_fin by auto. cbn [bind].
  rewrite map_length, Em.
  rewrite bmul_fin; cycle 1.
  { apply Forall_forall. intros r Hr. apply in_map_iff in Hr. destruct Hr as (q & <- & Hq). unfold prod_row. now rewrite map_length, seq_length. }
  { rewrite map_length. destruct P as [[]|[[]|[]]]; subst; auto; lia. }
  cbn [bind]. rewrite map_length.
  assert (Em' : (if Nat.eqb m 1 then length f else m) = m).
  { destruct (Nat.eqb_spec m 1) as [E|E]; destruct P as [[]|[[]|[]]]; lia. }
  rewrite Em', !total_fin.
  assert (Xb : forall k, rsum (map rsum (map (prod_row w m) (map (map (fun r => r ^ k)) rows))) =
               double_sum n m (fun i j => entry w j * entry (nth i rows []) j ^ k)).
  { intros k. rewrite !map_map, (rows_sum _ rows []), Ln. unfold double_sum, prod_row. f_equal. apply map_ext_in. intros i Hi. apply in_seq in Hi.
    f_equal. apply map_ext_in. intros j Hj. apply in_seq in Hj. rewrite entry_map; [reflexivity|].
    assert (LR : length (nth i rows []) = d) by (apply Ld, nth_In; lia). rewrite LR. destruct P as [[]|[[]|[]]]; lia. }
  assert (Xg : rsum (map rsum (map (prod_row (map ln f) m) (map (prod_row w m) (map (map (fun r => r ^ 2)) rows)))) =
               double_sum n m (fun i j => ln (entry f j) * (entry w j * entry (nth i rows []) j ^ 2))).
  { rewrite !map_map, (rows_sum _ rows []), Ln. unfold double_sum. f_equal. apply map_ext_in. intros i Hi. apply in_seq in Hi.
    f_equal. unfold prod_row at 1. apply map_ext_in. intros j Hj. apply in_seq in Hj.
    rewrite entry_map; [|destruct P as [[]|[[]|[]]]; lia]. f_equal.
    rewrite entry_nth by (unfold prod_row; rewrite map_length, seq_length; lia). unfold prod_row. rewrite nth_map_seq by lia.
    rewrite entry_map; [reflexivity|].
    assert (LR : length (nth i rows []) = d) by (apply Ld, nth_In; lia). rewrite LR. destruct P as [[]|[[]|[]]]; lia. }
  rewrite Xg, !Xb.
  assert (Xc : xsum (map2 xmul (map Fin w) (map Fin (map ln f))) = Fin (rsum (map (fun p => fst p * ln (snd p)) (combine w f)))).
  { rewrite map2_map, <- (map_map2 Fin Rmult), xsum_fin. f_equal. f_equal. assert (L : length w = length f) by congruence. clear - L.
    revert f L. induction w as [|x w IH]; intros [|y f] L; try discriminate; [reflexivity|]. cbn [map map2 combine fst snd]. f_equal. apply IH. cbn in L. lia. }
  rewrite Xc, xsum_fin. cbn [xmul]. fold (sum_w w) (sum_wx2 n m rows w) (sum_wl w f) (sum_wx4 n m rows w) (sum_wx2l n m rows w f).
  fold a b c e g. unfold xsub. cbn [xneg xadd].
  rewrite !xdiv_fin by lra. cbn [xexp xneg]. unfold start_of. cbn [map]. unfold Rminus. reflexivity.
Qed.

(** The chosen start. *)
Lemma ls_start_space gl k d rows f p :
  let ft := sc_fit (ls_scipy gl) in
  gr_points (ft_grid ft) = A2 d rows -> ft_density ft = map Fin f -> length f = length rows ->
  ls_start gl k = Ok p ->
  exists w v, In w [repeat 1 (length f); f; map (fun x => x ^ 2) f] /\
    solve_one_nd d rows (map Fin f) (map Fin w) = Ok p /\ obj_at ft k p = Ok v /\
    forall w', In w' [repeat 1 (length f); f; map (fun x => x ^ 2) f] ->
      exists p' v', solve_one_nd d rows (map Fin f) (map Fin w') = Ok p' /\ obj_at ft k p' = Ok v' /\ xltb v' v = false.
Proof.
  intros ft Hp Hd Hl H. unfold ls_start in H. fold ft in H. rewrite Hp, Hd in H.
  assert (E1 : map (fun _ => Fin 1) rows = map Fin (repeat 1 (length f))).
  { rewrite Hl. clear. induction rows as [|x l IH]; cbn [map length repeat]; [|rewrite IH]; reflexivity. }
  assert (E3 : map (fun x => xpow x 2) (map Fin f) = map Fin (map (fun x => x ^ 2) f)).
  { rewrite !map_map. apply map_ext. intros x. apply xpow2_fin. }
  rewrite E1, E3 in H.
  destruct (solve_one_nd _ _ _ (map Fin (repeat 1 (length f)))) as [p1|] eqn:S1; cbn [bind] in H; [|discriminate].
  destruct (obj_at ft k p1) as [c1|] eqn:C1; cbn [bind] in H; [|discriminate].
  destruct (solve_one_nd _ _ _ (map Fin f)) as [p2|] eqn:S2; cbn [bind] in H; [|discriminate].
  destruct (obj_at ft k p2) as [c2|] eqn:C2; cbn [bind] in H; [|discriminate].
  destruct (solve_one_nd _ _ _ (map Fin (map (fun x => x ^ 2) f))) as [p3|] eqn:S3; cbn [bind] in H; [|discriminate].
  destruct (obj_at ft k p3) as [c3|] eqn:C3; cbn [bind] in H; [|discriminate].
  destruct (min_key_spec [(c2, p2); (c3, p3)] (c1, p1)) as [I M].
  set (b := min_key (c1, p1) [(c2, p2); (c3, p3)]) in *. inversion H; subst p.
  assert (M' : forall w', In w' [repeat 1 (length f); f; map (fun x => x ^ 2) f] ->
      exists p' v', solve_one_nd d rows (map Fin f) (map Fin w') = Ok p' /\ obj_at ft k p' = Ok v' /\ xltb v' (fst b) = false).
  { intros w' Hw'. cbn [In] in Hw'. destruct Hw' as [<-|[<-|[<-|[]]]].
    - exists p1, c1. repeat split; auto. apply (M (c1, p1)). now left.
    - exists p2, c2. repeat split; auto. apply (M (c2, p2)). right; now left.
    - exists p3, c3. repeat split; auto. apply (M (c3, p3)). right; right; now left. }
  destruct I as [I|[I|[I|[]]]]; rewrite <- I in *; cbn [snd fst] in *.
  - exists (repeat 1 (length f)), c1. split; [now left|]. split; auto.
  - exists f, c2. split; [right; now left|]. split; auto.
  - exists (map (fun x => x ^ 2) f), c3. split; [right; right; now left|]. split; auto.
Qed.

(** Three points whose density is exactly [exp (- r ^ 2)], [r] the distance from the origin. *)
Definition three_points : list (list R) := [[0; 0; 1]; [0; 1; 0]; [2; 0; 0]].
Definition three_dens : list R := [exp (-1); exp (-1); exp (-4)].
Lemma three_solution : solve_one_nd 3 (map (map Fin) three_points) (map Fin three_dens) (map Fin [1; 1; 1]) =
  Ok (map Fin [exp (-3); -1/2]).
Proof.
  rewrite (solve_nd_fin 3 3 3); try reflexivity.
  - unfold start_of, sum_w, sum_wx2, sum_wl, sum_wx4, sum_wx2l, double_sum, three_points, three_dens, rsum, entry.
    cbn [seq map nth combine fst snd fold_right]. rewrite !ln_exp. cbn [map]. do 3 f_equal; [|f_equal]; f_equal; [f_equal|]; field.
  - left; auto.
  - repeat constructor.
  - repeat constructor; apply exp_pos.
  - unfold sum_w, sum_wx2, sum_wx4, double_sum, three_points, rsum, entry. cbn [seq map nth fold_right]. lra.
Qed.
