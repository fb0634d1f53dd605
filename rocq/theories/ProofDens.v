(** Proofs about the model of model.py: values on finite inputs. *)
From Coquelicot Require Import Coquelicot.
From Coq Require Import Reals List ZArith Lia Lra Bool.
From Verif Require Import XR ModelDens SpecDens Lists.
Import ListNotations.
Local Open Scope R_scope.

(** Partial derivative of a basis function with respect to its exponent. *)
Definition dbasis (norm p : bool) (a r : R) : R :=
  - r ^ 2 * basis_fn norm p a r +
  (if norm then
     (if p then 5 * (r ^ 2 * exp (- a * r ^ 2)) * Rpower a (3/2) / (3 * Rpower PI (3/2))
      else 3 / 2 * exp (- a * r ^ 2) * Rpower a (1/2) / Rpower PI (3/2))
   else 0).

Fixpoint bcol (norm : bool) (lay : list (bool * R)) (es : list R) : list R :=
  match lay, es with
  | (p, r) :: l, a :: es' => basis_fn norm p a r :: bcol norm l es'
  | _, _ => []
  end.
Fixpoint ecol (norm : bool) (lay : list (bool * R)) (cs es : list R) : list R :=
  match lay, cs, es with
  | (p, r) :: l, c :: cs', a :: es' => c * dbasis norm p a r :: ecol norm l cs' es'
  | _, _, _ => []
  end.

Definition lay_one (p : bool) (n : nat) (r : R) : list (bool * R) := repeat (p, r) n.

Lemma lay_atom_split ns np r : lay_atom ns np r = lay_one false ns r ++ lay_one true np r.
Proof.
  unfold lay_atom, types, lay_one. rewrite map_app. f_equal.
  - induction ns; simpl; congruence.
  - induction np; simpl; congruence.
Qed.

Lemma lay_atom_length ns np r : length (lay_atom ns np r) = (ns + np)%nat.
Proof. rewrite lay_atom_split, app_length. unfold lay_one. now rewrite !repeat_length. Qed.

Lemma gsum_app norm l1 l2 c1 c2 e1 e2 :
  length l1 = length c1 -> length l1 = length e1 ->
  gsum norm (l1 ++ l2) (c1 ++ c2) (e1 ++ e2) = gsum norm l1 c1 e1 + gsum norm l2 c2 e2.
Proof.
  revert c1 e1; induction l1 as [|[p r] l IH]; intros [|c c1] [|a e1] H1 H2; simpl in *;
    try discriminate; [lra|].
  rewrite IH; auto; lra.
Qed.

Lemma bcol_app norm l1 l2 e1 e2 :
  length l1 = length e1 ->
  bcol norm (l1 ++ l2) (e1 ++ e2) = bcol norm l1 e1 ++ bcol norm l2 e2.
Proof.
  revert e1; induction l1 as [|[p r] l IH]; intros [|a e1] H1; simpl in *; try discriminate; auto.
  rewrite IH; auto.
Qed.

Lemma ecol_app norm l1 l2 c1 c2 e1 e2 :
  length l1 = length c1 -> length l1 = length e1 ->
  ecol norm (l1 ++ l2) (c1 ++ c2) (e1 ++ e2) = ecol norm l1 c1 e1 ++ ecol norm l2 c2 e2.
Proof.
  revert c1 e1; induction l1 as [|[p r] l IH]; intros [|c c1] [|a e1] H1 H2; simpl in *;
    try discriminate; auto.
  rewrite IH; auto.
Qed.

Lemma bcol_length norm lay es :
  length lay = length es -> length (bcol norm lay es) = length es.
Proof.
  revert es; induction lay as [|[p r] l IH]; intros [|a es] H; simpl in *; try discriminate; auto.
Qed.
Lemma ecol_length norm lay cs es :
  length lay = length cs -> length lay = length es -> length (ecol norm lay cs es) = length es.
Proof.
  revert cs es; induction lay as [|[p r] l IH]; intros [|c cs] [|a es] H H'; simpl in *;
    try discriminate; auto.
Qed.

Lemma bcol_one norm p r es : bcol norm (lay_one p (length es) r) es =
  map (fun a => basis_fn norm p a r) es.
Proof. unfold lay_one. induction es as [|a es IH]; simpl; congruence. Qed.
Lemma gsum_one norm p r cs es : length cs = length es ->
  gsum norm (lay_one p (length es) r) cs es =
  rdot (map (fun a => basis_fn norm p a r) es) cs.
Proof.
  unfold lay_one, rdot. revert cs; induction es as [|a es IH]; intros [|c cs] H; simpl in *;
    try discriminate; auto.
  rewrite IH by congruence. unfold rsum; simpl. lra.
Qed.
Lemma ecol_one norm p r cs es : length cs = length es ->
  ecol norm (lay_one p (length es) r) cs es =
  map2 (fun c a => c * dbasis norm p a r) cs es.
Proof.
  unfold lay_one. revert cs; induction es as [|a es IH]; intros [|c cs] H; simpl in *;
    try discriminate; auto.
  rewrite IH by congruence. reflexivity.
Qed.

(** *** Finite evaluation of the array primitives. *)
Lemma gauss_row_fin e r :
  gauss_row (map Fin e) (Fin r) = map Fin (map (fun a => exp (- a * r ^ 2)) e).
Proof.
  unfold gauss_row. rewrite !map_map. apply map_ext. intros a. simpl.
  do 2 f_equal. ring.
Qed.

Lemma gauss_mat_fin e rs :
  map (gauss_row (map Fin e)) (map Fin rs) =
  map (fun r => map Fin (map (fun a => exp (- a * r ^ 2)) e)) rs.
Proof. rewrite map_map. apply map_ext. intros; apply gauss_row_fin. Qed.

Lemma xsqrt_fin_pos x : 0 < x -> xsqrt (Fin x) = Fin (Rpower x (1/2)).
Proof. intros H. unfold xsqrt, rltb. destruct (Rlt_dec x 0); [lra|]. replace (1/2) with (/2) by lra. now rewrite Rpower_sqrt. Qed.

Lemma xpow_fin_pos x p : 0 < x -> p <> 0 -> xpow (Fin x) p = Fin (Rpower x p).
Proof.
  intros Hx Hp. unfold xpow. rewrite reqb_false by auto. rewrite rltb_true by auto. reflexivity.
Qed.

Lemma pi15_fin : pi15 = Fin (Rpower PI (3/2)).
Proof. unfold pi15. rewrite xpow_fin_pos; [|apply PI_RGT_0|lra]. do 2 f_equal; lra. Qed.

Lemma xdiv_fin x y : y <> 0 -> xdiv (Fin x) (Fin y) = Fin (x / y).
Proof. intros. simpl. now rewrite reqb_false. Qed.

Lemma Rpower_pos x p : 0 < Rpower x p.
Proof. apply exp_pos. Qed.

Definition all_pos (l : list R) : Prop := Forall (fun x => 0 < x) l.

Lemma norm_s_row_fin e u :
  all_pos e ->
  norm_s_row (map Fin e) (map Fin u) =
  map Fin (map2 (fun x a => x * Rpower (a / PI) (3/2)) u e).
Proof.
  intros He. unfold norm_s_row. rewrite map_map, map2_map, map_map2.
  apply map2_ext_len. intros x a _ Ha.
  assert (0 < a) by (eapply Forall_forall in He; eauto).
  pose proof PI_RGT_0.
  rewrite xdiv_fin by lra.
  rewrite xpow_fin_pos; [|apply Rdiv_lt_0_compat; lra|lra].
  simpl. do 3 f_equal. lra.
Qed.

Lemma norm_p_row_fin e u :
  all_pos e ->
  norm_p_row (map Fin e) (map Fin u) =
  map Fin (map2 (fun x a => x * norm_const true a) u e).
Proof.
  intros He. unfold norm_p_row. rewrite map2_map, map_map2.
  apply map2_ext_len. intros x a _ Ha.
  assert (0 < a) by (eapply Forall_forall in He; eauto).
  rewrite pi15_fin. rewrite xpow_fin_pos by lra.
  pose proof (Rpower_pos PI (3/2)).
  rewrite xdiv_fin by lra. cbn [xmul]. rewrite xdiv_fin by lra.
  f_equal. unfold norm_const. replace (25/10) with (5/2) by lra. field. lra.
Qed.

Lemma dexp_row_fin c r u :
  dexp_row (map Fin c) (Fin r) (map Fin u) = map Fin (map2 (fun x c => - r ^ 2 * x * c) u c).
Proof.
  unfold dexp_row. rewrite map_map, map2_map, map_map2.
  apply map2_ext_len. intros. simpl. f_equal. ring.
Qed.

(** _eval_s without normalization for an arbitrary finite matrix. *)
Lemma eval_s_unnorm m rs (M : R -> list R) c e deriv :
  a_norm m = false -> a_radii m = map Fin rs ->
  eval_s m (map (fun r => map Fin (M r)) rs) (map Fin c) e deriv =
  (map (fun r => Fin (rdot (M r) c)) rs,
   if deriv then Some (map (fun r => map Fin (M r ++ map2 (fun x c => - r ^ 2 * x * c) (M r) c)) rs)
   else None).
Proof.
  intros Hn Hr. unfold eval_s. rewrite Hn, Hr.
  rewrite map_map. erewrite map_ext by (intros; apply xdot_fin).
  destruct deriv; auto. f_equal. f_equal.
  rewrite map2_map_same. rewrite map2_map_same. apply map_ext. intros r.
  rewrite dexp_row_fin, map_app. reflexivity.
Qed.

(** _eval_s on the exponential matrix. *)
Lemma eval_s_fin m rs c e deriv :
  a_radii m = map Fin rs -> length c = length e ->
  (a_norm m = true -> all_pos e) ->
  eval_s m (map (fun r => map Fin (map (fun a => exp (- a * r ^ 2)) e)) rs)
         (map Fin c) (map Fin e) deriv =
  (map (fun r => Fin (gsum (a_norm m) (lay_one false (length e) r) c e)) rs,
   if deriv then
     Some (map (fun r => map Fin (bcol (a_norm m) (lay_one false (length e) r) e ++
                                  ecol (a_norm m) (lay_one false (length e) r) c e)) rs)
   else None).
Proof.
  intros Hr Hl Hp. destruct (a_norm m) eqn:Hn.
  - specialize (Hp eq_refl).
    unfold eval_s. rewrite Hn, Hr.
    set (B := fun r => map (fun a => basis_fn true false a r) e).
    assert (HM : map (norm_s_row (map Fin e))
        (map (fun r => map Fin (map (fun a => exp (- a * r ^ 2)) e)) rs) =
        map (fun r => map Fin (B r)) rs).
    { rewrite map_map. apply map_ext. intros r. rewrite norm_s_row_fin by auto. f_equal.
      unfold B. clear. induction e as [|a e IH]; cbn [map map2]; auto. rewrite IH. f_equal.
      unfold basis_fn, norm_const. ring. }
    rewrite HM. rewrite map_map.
    assert (HG : map (fun r => xdot (map Fin (B r)) (map Fin c)) rs =
                 map (fun r => Fin (gsum true (lay_one false (length e) r) c e)) rs).
    { apply map_ext. intros r. rewrite xdot_fin. rewrite gsum_one by auto. reflexivity. }
    rewrite HG. destruct deriv; auto. f_equal. f_equal.
    rewrite map_map. rewrite !map2_map_same. apply map_ext. intros r.
    rewrite map_app. f_equal.
    { rewrite bcol_one. reflexivity. }
    rewrite dexp_row_fin, gauss_row_fin, ecol_one by auto.
    rewrite !map_map. rewrite map2_map.
    unfold B. clear HM HG B Hr rs Hn m. rewrite pi15_fin.
    revert c Hl; induction Hp as [|a e Ha He IH]; intros [|x c] Hl; cbn [map map2 length] in *; try discriminate; auto.
    rewrite <- (IH c) by congruence. clear IH.
    f_equal. 
    rewrite xsqrt_fin_pos by lra. cbn [xmul xsq].
    rewrite xdiv_fin by (pose proof (Rpower_pos PI (3/2)); lra). cbn [xadd]. f_equal.
    unfold dbasis. field.
    pose proof (Rpower_pos PI (3/2)); lra.
  - rewrite (eval_s_unnorm m rs (fun r => map (fun a => exp (- a * r ^ 2)) e)) by auto.
    f_equal.
    + apply map_ext. intros r. rewrite gsum_one by auto. do 2 f_equal.
      apply map_ext. intros a. unfold basis_fn. ring.
    + destruct deriv; auto. f_equal. apply map_ext. intros r. f_equal. f_equal.
      * rewrite bcol_one. apply map_ext. intros a. unfold basis_fn. ring.
      * rewrite ecol_one by auto. clear -Hl.
        revert c Hl; induction e as [|a e IH]; intros [|x c] Hl; cbn [map map2 length] in *; try discriminate; auto.
        rewrite IH by congruence. f_equal. unfold dbasis, basis_fn. ring.
Qed.

(** _eval_p on the exponential matrix. *)
Lemma eval_p_fin m rs c e deriv :
  a_radii m = map Fin rs -> length c = length e ->
  (a_norm m = true -> all_pos e) ->
  eval_p m (map (fun r => map Fin (map (fun a => exp (- a * r ^ 2)) e)) rs)
         (map Fin c) (map Fin e) deriv =
  (map (fun r => Fin (gsum (a_norm m) (lay_one true (length e) r) c e)) rs,
   if deriv then
     Some (map (fun r => map Fin (bcol (a_norm m) (lay_one true (length e) r) e ++
                                  ecol (a_norm m) (lay_one true (length e) r) c e)) rs)
   else None).
Proof.
  intros Hr Hl Hp. unfold eval_p.
  assert (HT : times_r2 (a_radii m)
     (map (fun r => map Fin (map (fun a => exp (- a * r ^ 2)) e)) rs) =
     map (fun r => map Fin (map (fun a => r ^ 2 * exp (- a * r ^ 2)) e)) rs).
  { unfold times_r2. rewrite Hr, map2_map_same. apply map_ext. intros r.
    rewrite !map_map. apply map_ext. intros a. simpl. f_equal. ring. }
  rewrite HT. destruct (a_norm m) eqn:Hn; cbn [negb].
  - specialize (Hp eq_refl). rewrite Hr.
    set (B := fun r => map (fun a => basis_fn true true a r) e).
    assert (HM : map (norm_p_row (map Fin e))
        (map (fun r => map Fin (map (fun a => r ^ 2 * exp (- a * r ^ 2)) e)) rs) =
        map (fun r => map Fin (B r)) rs).
    { rewrite map_map. apply map_ext. intros r. rewrite norm_p_row_fin by auto. f_equal.
      unfold B. clear. induction e as [|a e IH]; cbn [map map2]; auto. rewrite IH. f_equal.
      unfold basis_fn. ring. }
    rewrite HM. rewrite map_map.
    assert (HG : map (fun r => xdot (map Fin (B r)) (map Fin c)) rs =
                 map (fun r => Fin (gsum true (lay_one true (length e) r) c e)) rs).
    { apply map_ext. intros r. rewrite xdot_fin. rewrite gsum_one by auto. reflexivity. }
    rewrite HG. destruct deriv; auto. f_equal. f_equal.
    rewrite map_map. rewrite !map2_map_same. apply map_ext. intros r.
    rewrite map_app. f_equal.
    { rewrite bcol_one. reflexivity. }
    rewrite dexp_row_fin, gauss_row_fin, ecol_one by auto.
    rewrite !map_map. rewrite map2_map.
    unfold B. clear HM HG B Hr HT rs Hn m. rewrite pi15_fin.
    revert c Hl; induction Hp as [|a e Ha He IH]; intros [|x c] Hl; cbn [map map2 length] in *; try discriminate; auto.
    rewrite <- (IH c) by congruence. clear IH.
    f_equal.
    rewrite xpow_fin_pos by lra. cbn [xmul xsq].
    rewrite xdiv_fin by (pose proof (Rpower_pos PI (3/2)); lra). cbn [xadd]. f_equal.
    unfold dbasis. replace (15/10) with (3/2) by lra. field.
    pose proof (Rpower_pos PI (3/2)); lra.
  - rewrite (eval_s_unnorm m rs (fun r => map (fun a => r ^ 2 * exp (- a * r ^ 2)) e)) by auto.
    f_equal.
    + apply map_ext. intros r. rewrite gsum_one by auto. do 2 f_equal.
      apply map_ext. intros a. unfold basis_fn. ring.
    + destruct deriv; auto. f_equal. apply map_ext. intros r. f_equal. f_equal.
      * rewrite bcol_one. apply map_ext. intros a. unfold basis_fn. ring.
      * rewrite ecol_one by auto. clear -Hl.
        revert c Hl; induction e as [|a e IH]; intros [|x c] Hl; cbn [map map2 length] in *; try discriminate; auto.
        rewrite IH by congruence. f_equal. unfold dbasis, basis_fn. ring.
Qed.

Lemma all_pos_firstn n l : all_pos l -> all_pos (firstn n l).
Proof. intros H. rewrite <- (firstn_skipn n l) in H. apply Forall_app in H. tauto. Qed.
Lemma all_pos_skipn n l : all_pos l -> all_pos (skipn n l).
Proof. intros H. rewrite <- (firstn_skipn n l) in H. apply Forall_app in H. tauto. Qed.

Lemma firstn_app_exact {A} n (l m : list A) : length l = n -> firstn n (l ++ m) = l.
Proof. intros <-. rewrite firstn_app, Nat.sub_diag, firstn_all. simpl. apply app_nil_r. Qed.
Lemma skipn_app_exact {A} n (l m : list A) : length l = n -> skipn n (l ++ m) = m.
Proof. intros <-. rewrite skipn_app, skipn_all, Nat.sub_diag. reflexivity. Qed.

(** evaluate of an atomic model on finite inputs. *)
Theorem atomic_evaluate_fin m rs ns np c e deriv :
  a_radii m = map Fin rs -> a_ns m = Z.of_nat ns -> a_np m = Z.of_nat np ->
  length c = (ns + np)%nat -> length e = (ns + np)%nat ->
  (a_norm m = true -> all_pos e) ->
  atomic_evaluate m (A1 (map Fin c)) (A1 (map Fin e)) deriv =
  Ok (map (fun r => Fin (gsum (a_norm m) (lay_atom ns np r) c e)) rs,
      if deriv then
        Some (map (fun r => map Fin (bcol (a_norm m) (lay_atom ns np r) e ++
                                     ecol (a_norm m) (lay_atom ns np r) c e)) rs)
      else None).
Proof.
  intros Hr Hs Hp Hc He Hpos. unfold atomic_evaluate, a_nbasis.
  rewrite !map_length, Hc, He, Nat.eqb_refl, Hs, Hp. cbn [negb].
  rewrite <- Nat2Z.inj_add, Z.eqb_refl. cbn [negb].
  rewrite Hr, gauss_mat_fin.
  destruct (Z.eqb_spec (Z.of_nat np) 0) as [E0|E0].
  { assert (np = 0)%nat by lia. subst np. rewrite Nat.add_0_r in *.
    rewrite eval_s_fin; auto; try congruence. f_equal.
    assert (L : forall r, lay_atom ns 0 r = lay_one false (length e) r).
    { intros. rewrite lay_atom_split, He. simpl. apply app_nil_r. }
    f_equal.
    - apply map_ext. intros r. now rewrite L.
    - destruct deriv; auto. f_equal. apply map_ext. intros r. now rewrite L. }
  destruct (Z.eqb_spec (Z.of_nat ns) 0) as [E1|E1].
  { assert (ns = 0)%nat by lia. subst ns. simpl in Hc, He.
    rewrite eval_p_fin; auto; try congruence. f_equal.
    assert (L : forall r, lay_atom 0 np r = lay_one true (length e) r).
    { intros. rewrite lay_atom_split, He. reflexivity. }
    f_equal.
    - apply map_ext. intros r. now rewrite L.
    - destruct deriv; auto. f_equal. apply map_ext. intros r. now rewrite L. }
  unfold eval_mixed. rewrite Hs, Hp.
  set (c1 := firstn ns c). set (c2 := skipn ns c).
  set (e1 := firstn ns e). set (e2 := skipn ns e).
  assert (Lc1 : length c1 = ns) by (unfold c1; rewrite firstn_length; lia).
  assert (Le1 : length e1 = ns) by (unfold e1; rewrite firstn_length; lia).
  assert (Lc2 : length c2 = np) by (unfold c2; rewrite skipn_length; lia).
  assert (Le2 : length e2 = np) by (unfold e2; rewrite skipn_length; lia).
  assert (Ec : c = c1 ++ c2) by (unfold c1, c2; now rewrite firstn_skipn).
  assert (Ee : e = e1 ++ e2) by (unfold e1, e2; now rewrite firstn_skipn).
  assert (S1 : map (py_slice None (Some (Z.of_nat ns)))
      (map (fun r => map Fin (map (fun a => exp (- a * r ^ 2)) e)) rs) =
      map (fun r => map Fin (map (fun a => exp (- a * r ^ 2)) e1)) rs).
  { rewrite map_map. apply map_ext. intros r. rewrite py_slice_to, !firstn_map. reflexivity. }
  assert (S2 : map (py_slice (Some (Z.of_nat ns)) None)
      (map (fun r => map Fin (map (fun a => exp (- a * r ^ 2)) e)) rs) =
      map (fun r => map Fin (map (fun a => exp (- a * r ^ 2)) e2)) rs).
  { rewrite map_map. apply map_ext. intros r. rewrite py_slice_from, !skipn_map. reflexivity. }
  rewrite S1, S2, !py_slice_to, !py_slice_from, !firstn_map, !skipn_map.
  fold c1 c2 e1 e2.
  rewrite eval_s_fin; auto; try congruence.
  2:{ intros; apply all_pos_firstn; auto. }
  rewrite eval_p_fin; auto; try congruence.
  2:{ intros; apply all_pos_skipn; auto. }
  rewrite Le1, Le2.
  assert (G : forall r, gsum (a_norm m) (lay_atom ns np r) c e =
     gsum (a_norm m) (lay_one false ns r) c1 e1 + gsum (a_norm m) (lay_one true np r) c2 e2).
  { intros r. rewrite Ec, Ee, lay_atom_split. rewrite gsum_app; auto;
    unfold lay_one; rewrite repeat_length; auto. }
  assert (Gb : forall r, bcol (a_norm m) (lay_atom ns np r) e =
     bcol (a_norm m) (lay_one false ns r) e1 ++ bcol (a_norm m) (lay_one true np r) e2).
  { intros r. rewrite Ee, lay_atom_split. rewrite bcol_app; auto;
    unfold lay_one; rewrite repeat_length; auto. }
  assert (Ge : forall r, ecol (a_norm m) (lay_atom ns np r) c e =
     ecol (a_norm m) (lay_one false ns r) c1 e1 ++ ecol (a_norm m) (lay_one true np r) c2 e2).
  { intros r. rewrite Ec, Ee, lay_atom_split. rewrite ecol_app; auto;
    unfold lay_one; rewrite repeat_length; auto. }
  assert (Lb1 : forall r, length (bcol (a_norm m) (lay_one false ns r) e1) = ns).
  { intros. rewrite bcol_length; auto. unfold lay_one; rewrite repeat_length; auto. }
  assert (Lb2 : forall r, length (bcol (a_norm m) (lay_one true np r) e2) = np).
  { intros. rewrite bcol_length; auto. unfold lay_one; rewrite repeat_length; auto. }
  cbn [fst snd].
  assert (HG : map2 xadd (map (fun r => Fin (gsum (a_norm m) (lay_one false ns r) c1 e1)) rs)
                    (map (fun r => Fin (gsum (a_norm m) (lay_one true np r) c2 e2)) rs) =
               map (fun r => Fin (gsum (a_norm m) (lay_atom ns np r) c e)) rs).
  { rewrite map2_map_same. apply map_ext. intros r. simpl. now rewrite G. }
  destruct deriv; rewrite HG; auto.
  f_equal. f_equal. f_equal.
  rewrite !map_map. rewrite !map2_map_same. apply map_ext. intros r.
  rewrite !py_slice_to, !py_slice_from, Gb, Ge, !map_app.
  rewrite !firstn_app_exact, !skipn_app_exact by (rewrite map_length; auto).
  rewrite <- !app_assoc. reflexivity.
Qed.
