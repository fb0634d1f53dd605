(** One-function starts and the NNLS matrix (C66-C68). *)
From Coquelicot Require Import Coquelicot.
From Coq Require Import String Reals List ZArith Lia Lra Bool.
From Verif Require Import XR SpecDens SpecMeas SpecFit ModelDens ModelMeas ModelGrid ModelFit ModelGreedy SpecGreedy Lists
  ProofDens ProofDeriv ProofMeas ProofSlater ProofFitView ProofFit ProofEM ProofFPI ProofFPI2 ProofFPI3 ProofGreedy1 ProofGreedy2 ProofGreedy3.
Import ListNotations.
Local Open Scope R_scope.

(** ** C66 *)
Section Log.
Context (w f rs : list R).
Let n := length w.
Hypothesis Hf : length f = n.
Hypothesis Hr : length rs = n.
Hypothesis Hw : nonneg w.
Let S0 := sumn n (fun i => nth i w 0).
Let S1 := sumn n (fun i => nth i w 0 * nth i rs 0 ^ 2).
Let S2 := sumn n (fun i => nth i w 0 * nth i rs 0 ^ 4).
Let T0 := sumn n (fun i => nth i w 0 * ln (nth i f 0)).
Let T1 := sumn n (fun i => nth i w 0 * nth i rs 0 ^ 2 * ln (nth i f 0)).

Lemma log_det : two_distances w rs -> 0 < S0 * S2 - S1 * S1.
Proof.
  intros (i & j & Hi & Hj & Wi & Wj & D). fold n in Hi, Hj.
  assert (P0 : 0 < S0).
  { unfold S0. apply sumn_pos; [intros; now apply nonneg_nth|]. exists i. split; auto. }
  set (mu := S1 / S0).
  assert (V : 0 < sumn n (fun i => nth i w 0 * (nth i rs 0 ^ 2 - mu) ^ 2)).
  { apply sumn_pos.
    - intros k Hk. apply Rmult_le_pos; [now apply nonneg_nth|apply pow2_ge_0].
    - destruct (Req_dec (nth i rs 0 ^ 2) mu) as [E|E].
      + exists j. split; auto. apply Rmult_lt_0_compat; auto.
        assert (nth j rs 0 ^ 2 - mu <> 0) by (rewrite <- E; lra). nra.
      + exists i. split; auto. apply Rmult_lt_0_compat; auto. assert (nth i rs 0 ^ 2 - mu <> 0) by lra. nra. }
  assert (E : sumn n (fun i => nth i w 0 * (nth i rs 0 ^ 2 - mu) ^ 2) = S2 - 2 * mu * S1 + mu ^ 2 * S0).
  { unfold S2, S1, S0. rewrite <- !sumn_scal, <- sumn_minus, <- sumn_plus. apply sumn_ext. intros k _. ring. }
  rewrite E in V. unfold mu in V.
  assert (Q : S2 - 2 * (S1 / S0) * S1 + (S1 / S0) ^ 2 * S0 = (S0 * S2 - S1 * S1) / S0) by (field; lra).
  rewrite Q in V. apply (Rmult_lt_compat_r S0) in V; auto.
  replace ((S0 * S2 - S1 * S1) / S0 * S0) with (S0 * S2 - S1 * S1) in V by (field; lra). lra.
Qed.

Lemma solve_fin : positive f -> S0 * S2 - S1 * S1 <> 0 ->
  solve_one (map Fin rs) (map Fin f) (map Fin w) =
  [Fin (exp ((T0 * S2 - S1 * T1) / (S0 * S2 - S1 * S1))); Fin (- ((S0 * T1 - T0 * S1) / (S0 * S2 - S1 * S1)))].
Proof.
  intros Pf Hd.
  assert (E0 : xsum (map Fin w) = Fin S0) by (rewrite xsum_fin, rsum_sumn; reflexivity).
  assert (Esq : map xsq (map Fin rs) = map Fin (map (fun r => r ^ 2) rs)).
  { rewrite !map_map. apply map_ext. intros r. unfold xsq. cbn [xmul]. f_equal. ring. }
  assert (E4 : map (fun r => xpow r 4) (map Fin rs) = map Fin (map (fun r => r ^ 4) rs)).
  { rewrite !map_map. apply map_ext. intros r. replace 4 with (INR 4) by (simpl; lra). apply xpow_nat. }
  assert (El : map xln (map Fin f) = map Fin (map ln f)).
  { rewrite !map_map. apply map_ext_in. intros x Hx. unfold positive in Pf. rewrite Forall_forall in Pf.
    cbn [xln]. rewrite rltb_true; auto. }
  assert (M : forall u v : list R, map2 xmul (map Fin u) (map Fin v) = map Fin (map2 Rmult u v)).
  { intros u v. rewrite map2_map, map_map2. reflexivity. }
  assert (SM : forall u v, length u = n -> length v = n -> xsum (map Fin (map2 Rmult u v)) = Fin (sumn n (fun i => nth i u 0 * nth i v 0))).
  { intros u v Hu Hv. rewrite xsum_fin. f_equal. fold (rdot u v). rewrite rdot_sumn by lia. now rewrite Hu. }
  assert (NM : forall (F : R -> R) l i, (i < length l)%nat -> nth i (map F l) 0 = F (nth i l 0)).
  { intros F l i Hi. rewrite (nth_indep _ 0 (F 0)) by (now rewrite map_length). apply map_nth. }
  unfold solve_one. rewrite Esq, E4, El, E0, !M, !SM by (rewrite ?map2_length, ?map_length; fold n; lia).
  assert (X1 : sumn n (fun i => nth i w 0 * nth i (map (fun r => r ^ 2) rs) 0) = S1)
    by (apply sumn_ext; intros i Hi; rewrite NM by lia; reflexivity).
  assert (X2 : sumn n (fun i => nth i w 0 * nth i (map (fun r => r ^ 4) rs) 0) = S2)
    by (apply sumn_ext; intros i Hi; rewrite NM by lia; reflexivity).
  assert (X3 : sumn n (fun i => nth i w 0 * nth i (map ln f) 0) = T0)
    by (apply sumn_ext; intros i Hi; rewrite NM by lia; reflexivity).
  assert (X4 : sumn n (fun i => nth i (map2 Rmult w (map (fun r => r ^ 2) rs)) 0 * nth i (map ln f) 0) = T1).
  { apply sumn_ext; intros i Hi. rewrite (nth_map2 _ _ _ _ 0 0) by (rewrite ?map_length; fold n; lia).
    rewrite !NM by lia. reflexivity. }
  rewrite X1, X2, X3, X4. cbn [xmul]. unfold xsub. cbn [xneg xadd].
  assert (D1 : 2 * S1 * (2 * S1) + - (2 * S0 * (2 * S2)) <> 0) by (intros C; apply Hd; lra).
  assert (D2 : 2 * S0 * (2 * S2) + - (2 * S1 * (2 * S1)) <> 0) by (intros C; apply Hd; lra).
  rewrite !xdiv_fin by auto. cbn [xexp xneg].
  assert (D3 : S1 * S1 - S0 * S2 <> 0) by (intros C; apply Hd; lra).
  f_equal; [|f_equal]; do 2 f_equal; field; auto.
Qed.

Lemma log_opt A B A' B' : S0 * A + S1 * B = T0 -> S1 * A + S2 * B = T1 ->
  log_error w f rs A' B' = log_error w f rs A B + sumn n (fun i => nth i w 0 * ((A - A') + (B - B') * nth i rs 0 ^ 2) ^ 2).
Proof.
  intros N1 N2. unfold log_error. fold n.
  assert (Z : sumn n (fun i => nth i w 0 * (ln (nth i f 0) - A - B * nth i rs 0 ^ 2)) = 0).
  { transitivity (T0 - (A * S0 + B * S1)); [|lra]. unfold T0, S0, S1. rewrite <- !sumn_scal, <- sumn_plus, <- sumn_minus.
    apply sumn_ext. intros i _. ring. }
  assert (Z2 : sumn n (fun i => nth i w 0 * (ln (nth i f 0) - A - B * nth i rs 0 ^ 2) * nth i rs 0 ^ 2) = 0).
  { transitivity (T1 - (A * S1 + B * S2)); [|lra]. unfold T1, S1, S2. rewrite <- !sumn_scal, <- sumn_plus, <- sumn_minus.
    apply sumn_ext. intros i _. ring. }
  transitivity (sumn n (fun i => nth i w 0 * (ln (nth i f 0) - A - B * nth i rs 0 ^ 2) ^ 2) +
    2 * (A - A') * sumn n (fun i => nth i w 0 * (ln (nth i f 0) - A - B * nth i rs 0 ^ 2)) +
    2 * (B - B') * sumn n (fun i => nth i w 0 * (ln (nth i f 0) - A - B * nth i rs 0 ^ 2) * nth i rs 0 ^ 2) +
    sumn n (fun i => nth i w 0 * ((A - A') + (B - B') * nth i rs 0 ^ 2) ^ 2)).
  - rewrite <- !sumn_scal, <- !sumn_plus. apply sumn_ext. intros i _. ring.
  - rewrite Z, Z2. ring.
Qed.

Lemma solve_one_optimal : positive f -> two_distances w rs ->
  exists A B, solve_one (map Fin rs) (map Fin f) (map Fin w) = [Fin (exp A); Fin (- B)] /\
    forall A' B', log_error w f rs A B <= log_error w f rs A' B' /\
      (log_error w f rs A' B' = log_error w f rs A B -> A' = A /\ B' = B).
Proof.
  intros Pf Td. pose proof (log_det Td) as D.
  rewrite solve_fin by (auto; lra).
  set (A := (T0 * S2 - S1 * T1) / (S0 * S2 - S1 * S1)). set (B := (S0 * T1 - T0 * S1) / (S0 * S2 - S1 * S1)).
  exists A, B. split; [reflexivity|]. intros A' B'.
  assert (N1 : S0 * A + S1 * B = T0) by (unfold A, B; field; lra).
  assert (N2 : S1 * A + S2 * B = T1) by (unfold A, B; field; lra).
  rewrite (log_opt A B A' B' N1 N2).
  assert (P : forall i, (i < n)%nat -> 0 <= nth i w 0 * (A - A' + (B - B') * nth i rs 0 ^ 2) ^ 2).
  { intros i Hi. apply Rmult_le_pos; [now apply nonneg_nth|apply pow2_ge_0]. }
  split; [pose proof (sumn_nonneg n _ P); lra|]. intros E.
  destruct Td as (i & j & Hi & Hj & Wi & Wj & Dij). fold n in Hi, Hj.
  assert (Z : forall k, (k < n)%nat -> 0 < nth k w 0 -> A - A' + (B - B') * nth k rs 0 ^ 2 = 0).
  { intros k Hk Wk. destruct (Req_dec (A - A' + (B - B') * nth k rs 0 ^ 2) 0) as [?|C]; auto. exfalso.
    assert (0 < sumn n (fun i => nth i w 0 * (A - A' + (B - B') * nth i rs 0 ^ 2) ^ 2)); [|lra].
    apply sumn_pos; auto. exists k. split; auto. apply Rmult_lt_0_compat; auto. nra. }
  pose proof (Z i Hi Wi) as Zi. pose proof (Z j Hj Wj) as Zj.
  assert (Q : (B - B') * (nth i rs 0 ^ 2 - nth j rs 0 ^ 2) = 0) by lra.
  apply Rmult_integral in Q. destruct Q as [Q|Q]; [|exfalso; apply Dij; lra].
  assert (B' = B) by lra. subst B'. split; auto. lra.
Qed.
End Log.

(** The best of three. *)
Lemma min_key_spec {A} (l : list (xr * A)) p0 :
  (In (min_key p0 l) (p0 :: l)) /\ forall p, In p (p0 :: l) -> xltb (fst p) (fst (min_key p0 l)) = false.
Proof.
  unfold min_key. revert p0. induction l as [|q l IH]; intros p0; cbn [fold_left].
  - split; [now left|]. intros p [->|[]]. destruct (xltb (fst p) (fst p)) eqn:E; auto. pose proof (xltb_asym _ _ E). congruence.
  - destruct (xltb (fst q) (fst p0)) eqn:E.
    + destruct (IH q) as [A1 A2]. split; [right; exact A1|]. intros p [->|Hp]; [|now apply A2].
      apply not_true_iff_false. intros C. pose proof (xltb_trans _ _ _ E C) as C2. rewrite (A2 q) in C2 by (now left). discriminate.
    + destruct (IH p0) as [A1 A2]. split.
      * destruct A1 as [<-|A1]; [now left|right; now right].
      * intros p [->|[->|Hp]]; [apply A2; now left| |apply A2; now right].
        apply not_true_iff_false. intros C.
        (* fst p < best, and best <= fst p0 unless one of them is NaN *)
        set (m := fst (fold_left _ l p0)) in *. specialize (A2 p0 (or_introl eq_refl)).
        destruct (xleb m (fst p0)) eqn:Lm.
        -- assert (xltb (fst p) (fst p0) = true); [|congruence].
           clear - C Lm. destruct (fst p), m, (fst p0); cbn [xltb xleb] in *; try discriminate; auto.
           apply rltb_iff in C. apply rleb_iff in Lm. apply rltb_iff. lra.
        -- destruct (xorder _ _ A2 Lm) as [N|N].
           ++ assert (Nm : forall (l : list (xr * A)) b, fst b = NaN -> fst (fold_left (fun b p => if xltb (fst p) (fst b) then p else b) l b) = NaN).
              { clear. induction l as [|x l IH]; intros b Hb; cbn [fold_left]; auto. rewrite Hb.
                replace (xltb (fst x) NaN) with false by (destruct (fst x); reflexivity). now apply IH. }
              unfold m in C. rewrite (Nm l p0 N) in C. destruct (fst p); discriminate.
           ++ rewrite N in C. destruct (fst p); discriminate.
Qed.

Lemma ls_start_best gl k rs f p :
  let ft := sc_fit (ls_scipy gl) in
  gr_points (ft_grid ft) = A1 (map Fin rs) -> ft_density ft = map Fin f -> length f = length rs ->
  ls_start gl k = Ok p ->
  exists w v, In w [repeat 1 (length f); f; map (fun x => x ^ 2) f] /\
    p = solve_one (map Fin rs) (map Fin f) (map Fin w) /\ obj_at ft k p = Ok v /\
    forall w' v', In w' [repeat 1 (length f); f; map (fun x => x ^ 2) f] ->
      obj_at ft k (solve_one (map Fin rs) (map Fin f) (map Fin w')) = Ok v' -> xltb v' v = false.
Proof.
  intros ft Hp Hd Hl H. unfold ls_start in H. fold ft in H. rewrite Hp, Hd in H.
  assert (E1 : map (fun _ => Fin 1) (map Fin rs) = map Fin (repeat 1 (length f))).
  { rewrite Hl, map_map. clear. induction rs as [|x l IH]; cbn [map length repeat]; [|rewrite IH]; reflexivity. }
  assert (E3 : map (fun x => xpow x 2) (map Fin f) = map Fin (map (fun x => x ^ 2) f)).
  { rewrite !map_map. apply map_ext. intros x. apply xpow2_fin. }
  rewrite E1, E3 in H.
  set (p1 := solve_one _ _ (map Fin (repeat 1 (length f)))) in *. set (p2 := solve_one _ _ (map Fin f)) in *.
  set (p3 := solve_one _ _ (map Fin (map (fun x => x ^ 2) f))) in *.
  destruct (obj_at ft k p1) as [c1|] eqn:C1; cbn [bind] in H; [|discriminate].
  destruct (obj_at ft k p2) as [c2|] eqn:C2; cbn [bind] in H; [|discriminate].
  destruct (obj_at ft k p3) as [c3|] eqn:C3; cbn [bind] in H; [|discriminate].
  destruct (min_key_spec [(c2, p2); (c3, p3)] (c1, p1)) as [I M].
  set (b := min_key (c1, p1) [(c2, p2); (c3, p3)]) in *. inversion H; subst p.
  assert (M' : forall w' v', In w' [repeat 1 (length f); f; map (fun x => x ^ 2) f] ->
      obj_at ft k (solve_one (map Fin rs) (map Fin f) (map Fin w')) = Ok v' -> xltb v' (fst b) = false).
  { intros w' v' Hw' Ev. cbn [In] in Hw'. destruct Hw' as [<-|[<-|[<-|[]]]].
    - fold p1 in Ev. rewrite C1 in Ev. inversion Ev; subst v'. apply (M (c1, p1)). now left.
    - fold p2 in Ev. rewrite C2 in Ev. inversion Ev; subst v'. apply (M (c2, p2)). right; now left.
    - fold p3 in Ev. rewrite C3 in Ev. inversion Ev; subst v'. apply (M (c3, p3)). right; right; now left. }
  destruct I as [I|[I|[I|[]]]]; rewrite <- I in *; cbn [snd fst] in *.
  - exists (repeat 1 (length f)), c1. split; [now left|]. split; auto.
  - exists f, c2. split; [right; now left|]. split; auto.
  - exists (map (fun x => x ^ 2) f), c3. split; [right; right; now left|]. split; auto.
Qed.
