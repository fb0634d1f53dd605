(** MolecularGaussianDensity.evaluate on finite inputs. *)
From Coquelicot Require Import Coquelicot.
From Coq Require Import Reals List ZArith Lia Lra Bool.
From Verif Require Import XR ModelDens SpecDens Lists ProofDens.
Import ListNotations.
Local Open Scope R_scope.

(** Real-valued description of one center: s-count, p-count, distances of the points. *)
Definition ctr := (nat * nat * list R)%type.
Definition c_ns (x : ctr) : nat := fst (fst x).
Definition c_np (x : ctr) : nat := snd (fst x).
Definition c_rs (x : ctr) : list R := snd x.
Definition c_nb (x : ctr) : nat := (c_ns x + c_np x)%nat.

Definition ctr_ok (norm : bool) (N : nat) (a : atomic) (x : ctr) : Prop :=
  a_ns a = Z.of_nat (c_ns x) /\ a_np a = Z.of_nat (c_np x) /\
  a_radii a = map Fin (c_rs x) /\ a_norm a = norm /\ length (c_rs x) = N.

Definition lay_at (info : list ctr) (i : nat) : list (bool * R) :=
  lay_mol (map (fun x => (c_ns x, c_np x, nth i (c_rs x) 0)) info).
Definition tot (info : list ctr) : nat := list_sum (map c_nb info).

Lemma lay_at_app a b i : lay_at (a ++ b) i = lay_at a i ++ lay_at b i.
Proof. unfold lay_at, lay_mol. now rewrite !map_app, concat_app. Qed.
Lemma lay_at_one x i : lay_at [x] i = lay_atom (c_ns x) (c_np x) (nth i (c_rs x) 0).
Proof. unfold lay_at, lay_mol. simpl. now rewrite app_nil_r. Qed.
Lemma tot_app a b : tot (a ++ b) = (tot a + tot b)%nat.
Proof. unfold tot. now rewrite map_app, list_sum_app. Qed.
Lemma tot_one x : tot [x] = c_nb x.
Proof. unfold tot. simpl. lia. Qed.
Lemma lay_at_length info i : length (lay_at info i) = tot info.
Proof.
  induction info as [|x l IH]; auto. change (x :: l) with ([x] ++ l).
  rewrite lay_at_app, tot_app, app_length, IH, lay_at_one, lay_atom_length, tot_one. reflexivity.
Qed.

Lemma map_nth_seq {A B} (f : A -> B) (l : list A) d :
  map f l = map (fun i => f (nth i l d)) (seq 0 (length l)).
Proof.
  induction l as [|x l IH]; auto. simpl. f_equal. rewrite <- seq_shift, map_map. apply IH.
Qed.

Lemma set_block_mid {A} (a b : nat) (p z new rest : list A) :
  length p = a -> length z = (b - a)%nat -> (a <= b)%nat ->
  set_block a b new (p ++ z ++ rest) = p ++ new ++ rest.
Proof.
  intros Hp Hz Hab. unfold set_block. rewrite firstn_app_exact by auto.
  f_equal. f_equal. rewrite app_assoc. apply skipn_app_exact. rewrite app_length. lia.
Qed.

Definition zeros (k : nat) : list R := repeat 0 k.

Lemma zeros_split a b : zeros (a + b) = zeros a ++ zeros b.
Proof. unfold zeros. apply repeat_app. Qed.

Definition partial_row norm info1 (c e : list R) (n i : nat) : list R :=
  bcol norm (lay_at info1 i) (firstn (tot info1) e) ++ zeros (n - tot info1) ++
  ecol norm (lay_at info1 i) (firstn (tot info1) c) (firstn (tot info1) e) ++
  zeros (n - tot info1).

Lemma firstn_plus_split {A} a b (l : list A) : firstn (a + b) l = firstn a l ++ firstn b (skipn a l).
Proof.
  revert l; induction a as [|a IH]; intros l; auto.
  destruct l as [|x l]; simpl; [now rewrite firstn_nil|]. now rewrite IH.
Qed.

Lemma mol_fold m norm N c e deriv :
  forall l2 info1 info2,
  Forall2 (ctr_ok norm N) l2 info2 ->
  (norm = true -> all_pos e) ->
  let n := (tot info1 + tot info2)%nat in
  m_nbasis m = Z.of_nat n -> length c = n -> length e = n ->
  fold_left (mol_step m (map Fin c) (map Fin e) deriv) l2
    (Ok (Z.of_nat (tot info1),
         map (fun i => Fin (gsum norm (lay_at info1 i) (firstn (tot info1) c) (firstn (tot info1) e)))
             (seq 0 N),
         if deriv then map (fun i => map Fin (partial_row norm info1 c e n i)) (seq 0 N) else []))
  = Ok (Z.of_nat n,
        map (fun i => Fin (gsum norm (lay_at (info1 ++ info2) i) c e)) (seq 0 N),
        if deriv then map (fun i => map Fin (bcol norm (lay_at (info1 ++ info2) i) e ++
                                  ecol norm (lay_at (info1 ++ info2) i) c e)) (seq 0 N) else []).
Proof.
  induction l2 as [|a l2 IH]; intros info1 info2 HF Hpos n Hn Hc He.
  - inversion HF; subst. cbn [fold_left].
    assert (En : n = tot info1) by (unfold n; change (tot []) with 0%nat; lia).
    clearbody n. rewrite En in *. clear n En. rewrite app_nil_r. rewrite !firstn_all2 by lia.
    f_equal. f_equal.
    destruct deriv; auto. apply map_ext. intros i. unfold partial_row.
    rewrite !firstn_all2 by lia. rewrite Nat.sub_diag.
    change (zeros 0) with (@nil R). simpl. now rewrite app_nil_r.
  - inversion HF as [|? x ? info2' Hx HF' E1 E2]; subst. clear HF.
    destruct Hx as (Hs & Hp & Hr & Hnm & HN).
    cbn [fold_left]. 
    assert (Htot : tot (x :: info2') = (c_nb x + tot info2')%nat) by reflexivity.
    assert (Hnb : a_nbasis a = Z.of_nat (c_nb x)).
    { unfold a_nbasis, c_nb. rewrite Hs, Hp. lia. }
    set (n1 := tot info1) in *.
    set (cs := firstn (c_nb x) (skipn n1 c)). set (es := firstn (c_nb x) (skipn n1 e)).
    assert (Lcs : length cs = c_nb x).
    { unfold cs. rewrite firstn_length, skipn_length. unfold n in Hc. lia. }
    assert (Les : length es = c_nb x).
    { unfold es. rewrite firstn_length, skipn_length. unfold n in He. lia. }
    match goal with |- fold_left _ _ (mol_step _ _ _ _ ?st _) = _ =>
      assert (Hstep : mol_step m (map Fin c) (map Fin e) deriv st a =
        Ok (Z.of_nat (tot (info1 ++ [x])),
         map (fun i => Fin (gsum norm (lay_at (info1 ++ [x]) i) (firstn (tot (info1 ++ [x])) c)
                                 (firstn (tot (info1 ++ [x])) e)))
             (seq 0 N),
         if deriv then map (fun i => map Fin (partial_row norm (info1 ++ [x]) c e n i)) (seq 0 N)
         else [])) end.
    { unfold mol_step. cbn [bind]. rewrite Hnb.
      rewrite <- Nat2Z.inj_add.
      rewrite !py_slice_mid by (rewrite ?map_length; unfold n in *; lia).
      replace (n1 + c_nb x - n1)%nat with (c_nb x) by lia.
      rewrite !skipn_map, !firstn_map. fold cs es.
      rewrite (atomic_evaluate_fin a (c_rs x) (c_ns x) (c_np x)); auto.
      2:{ intros Hn'. unfold es. apply all_pos_firstn, all_pos_skipn. apply Hpos. congruence. }
      cbn [bind fst snd].
      rewrite !map_length, seq_length, HN, Nat.eqb_refl. cbn [negb].
      rewrite !(map_nth_seq _ (c_rs x) 0), HN, Hnm.
      assert (Hg : map2 xadd (map (fun i => Fin (gsum norm (lay_at info1 i) (firstn n1 c) (firstn n1 e)))
                 (seq 0 N))
              (map (fun i => Fin (gsum norm (lay_atom (c_ns x) (c_np x) (nth i (c_rs x) 0)) cs es))
                 (seq 0 N)) =
        map (fun i => Fin (gsum norm (lay_at (info1 ++ [x]) i) (firstn (tot (info1 ++ [x])) c)
                                 (firstn (tot (info1 ++ [x])) e))) (seq 0 N)).
      { rewrite map2_map_same. apply map_ext. intros i. cbn [xadd]. f_equal.
        rewrite tot_app, tot_one, !firstn_plus_split. fold n1. fold cs es.
        rewrite lay_at_app, lay_at_one. rewrite gsum_app; auto;
        rewrite lay_at_length, firstn_length; fold n1; unfold n in *; lia. }
      rewrite Hg. 
      replace (Z.of_nat (n1 + c_nb x)) with (Z.of_nat (tot (info1 ++ [x]))).
      2:{ rewrite tot_app, tot_one. reflexivity. }
      destruct deriv; auto. f_equal. f_equal.
      rewrite Hn. fold n. rewrite tot_app, tot_one. fold n1.
      rewrite <- !Nat2Z.inj_add, !Nat2Z.id.
      rewrite !map_map, !map2_map_same. apply map_ext. intros i.
      rewrite py_slice_to, py_slice_from.
      set (L := lay_atom (c_ns x) (c_np x) (nth i (c_rs x) 0)).
      assert (LL : length L = c_nb x) by (unfold L; apply lay_atom_length).
      rewrite map_app.
      rewrite firstn_app_exact, skipn_app_exact by (rewrite map_length, bcol_length; lia).
      unfold partial_row. fold n1. rewrite tot_app, tot_one. fold n1.
      rewrite lay_at_app, lay_at_one. fold L.
      rewrite !firstn_plus_split. fold cs es.
      rewrite bcol_app by (rewrite lay_at_length, firstn_length; fold n1; unfold n in *; lia).
      rewrite ecol_app by (rewrite lay_at_length, firstn_length; fold n1; unfold n in *; lia).
      replace (zeros (n - n1)) with (zeros (c_nb x) ++ zeros (n - (n1 + c_nb x))).
      2:{ rewrite <- zeros_split. f_equal. unfold n. lia. }
      assert (LB : length (bcol norm (lay_at info1 i) (firstn n1 e)) = n1).
      { rewrite bcol_length; rewrite ?lay_at_length, firstn_length; fold n1; unfold n in *; lia. }
      assert (LE : length (ecol norm (lay_at info1 i) (firstn n1 c) (firstn n1 e)) = n1).
      { rewrite ecol_length; rewrite ?lay_at_length, firstn_length; fold n1; unfold n in *; lia. }
      assert (LB2 : length (bcol norm L es) = c_nb x) by (rewrite bcol_length; lia).
      set (B1 := bcol norm (lay_at info1 i) (firstn n1 e)) in *.
      set (E1 := ecol norm (lay_at info1 i) (firstn n1 c) (firstn n1 e)) in *.
      set (Zr := zeros (n - (n1 + c_nb x))) in *.
      rewrite !map_app.
      rewrite <- !app_assoc.
      rewrite (set_block_mid n1 (n1 + c_nb x) (map Fin B1) (map Fin (zeros (c_nb x)))).
      2: now rewrite map_length. 2:{ rewrite map_length. unfold zeros; rewrite repeat_length; lia. }
      2: lia.
      match goal with |- set_block _ _ ?new (?b ++ ?b2 ++ ?z ++ ?e1 ++ ?zz ++ ?z2) = _ =>
        replace (b ++ b2 ++ z ++ e1 ++ zz ++ z2) with ((b ++ b2 ++ z ++ e1) ++ zz ++ z2)
          by (rewrite <- !app_assoc; reflexivity) end.
      rewrite set_block_mid.
      2:{ rewrite !app_length, !map_length, LB, LE, LB2. unfold Zr, zeros.
          rewrite repeat_length. unfold n. lia. }
      2:{ rewrite map_length. unfold zeros. rewrite repeat_length. lia. }
      2: lia.
      rewrite <- !app_assoc. reflexivity. }
    rewrite Hstep.
    specialize (IH (info1 ++ [x]) info2' HF' Hpos).
    cbv zeta in IH.
    assert (En : (tot (info1 ++ [x]) + tot info2')%nat = n).
    { unfold n. rewrite tot_app, tot_one. rewrite Htot. unfold n1. lia. }
    rewrite En in IH. rewrite <- app_assoc in IH. simpl app in IH.
    apply IH; auto.
Qed.

Theorem mol_evaluate_fin m norm N info c e deriv :
  Forall2 (ctr_ok norm N) (m_center m) info ->
  m_nbasis m = Z.of_nat (tot info) -> nlen (m_points m) = N ->
  length c = tot info -> length e = tot info ->
  (norm = true -> all_pos e) ->
  mol_evaluate m (A1 (map Fin c)) (A1 (map Fin e)) deriv =
  Ok (map (fun i => Fin (gsum norm (lay_at info i) c e)) (seq 0 N),
      if deriv then Some (map (fun i => map Fin (bcol norm (lay_at info i) e ++
                                                 ecol norm (lay_at info i) c e)) (seq 0 N))
      else None).
Proof.
  intros HF Hn HN Hc He Hpos. unfold mol_evaluate.
  rewrite !map_length, Hn, Hc, He, Z.eqb_refl, HN. cbn [negb orb].
  pose proof (mol_fold m norm N c e deriv (m_center m) [] info HF Hpos Hn Hc He) as H.
  cbv zeta in H. change (tot []) with 0%nat in H.
  rewrite Nat.add_0_l in H.
  match type of H with fold_left _ _ (Ok ?s0) = _ =>
    match goal with |- bind (fold_left _ _ (Ok ?s1)) _ = _ => replace s1 with s0 end end.
  - rewrite H. cbn [bind app]. destruct deriv; reflexivity.
  - f_equal; [f_equal|].
    + simpl. clear. induction N as [|N IH]; auto.
      rewrite seq_S, map_app, IH. simpl. clear. induction N; simpl; congruence.
    + destruct deriv; auto. rewrite Nat2Z.inj_mul || idtac.
      assert (E : repeat (Fin 0) (Z.to_nat (2 * Z.of_nat (tot info))) =
         map Fin (zeros (tot info) ++ zeros (tot info))).
      { unfold zeros. rewrite <- repeat_app. 
        replace (Z.to_nat (2 * Z.of_nat (tot info))) with (tot info + tot info)%nat by lia.
        generalize (tot info + tot info)%nat. clear. induction n; simpl; congruence. }
      rewrite E. unfold partial_row. simpl. rewrite Nat.sub_0_r.
      generalize (map Fin (zeros (tot info) ++ zeros (tot info))). clear.
      intros w. induction N as [|N IH]; auto.
      rewrite seq_S, map_app, IH. simpl. clear. induction N; simpl; congruence.
Qed.
