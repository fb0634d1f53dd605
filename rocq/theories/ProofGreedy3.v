(** Local search and runs of the greedy strategy, for any optimizer (C58-C65, C69). *)
From Coq Require Import String Reals List ZArith Lia Lra Bool.
From Verif Require Import XR SpecDens SpecFit ModelDens ModelFit ModelGreedy SpecGreedy Lists ProofDens ProofFitView ProofGreedy1 ProofGreedy2.
Import ListNotations.
Local Open Scope R_scope.

(** ** Order *)
Ltac xcases := repeat match goal with x : xr |- _ => destruct x end; cbn [xltb xleb] in *; try discriminate; try reflexivity.
Lemma xltb_trans a b c : xltb a b = true -> xltb b c = true -> xltb a c = true.
Proof. intros. xcases. apply rltb_iff in H, H0. apply rltb_iff. lra. Qed.
Lemma xleb_xltb_trans a b c : xleb a b = true -> xltb b c = true -> xltb a c = true.
Proof. intros. xcases. apply rleb_iff in H. apply rltb_iff in H0. apply rltb_iff. lra. Qed.
Lemma xleb_trans a b c : xleb a b = true -> xleb b c = true -> xleb a c = true.
Proof. intros. xcases. apply rleb_iff in H, H0. apply rleb_iff. lra. Qed.
Lemma xltb_not_xleb a b : xltb a b = true -> xleb b a = false.
Proof. intros. xcases. apply rltb_iff in H. apply rleb_false. lra. Qed.
Lemma xltb_asym a b : xltb a b = true -> xltb b a = false.
Proof. intros. xcases. apply rltb_iff in H. apply rltb_false. lra. Qed.
Lemma xleb_refl a : a <> NaN -> xleb a a = true.
Proof. intros. xcases; [|congruence]. apply rleb_true. lra. Qed.
Lemma xorder a b : xltb a b = false -> xleb b a = false -> a = NaN \/ b = NaN.
Proof.
  intros. xcases; auto. exfalso.
  assert (~ r0 < r) by (intros C; apply rltb_iff in C; congruence) || assert (~ r < r0) by (intros C; apply rltb_iff in C; congruence).
  destruct (Rle_dec r0 r) as [L|L]; [|].
  - destruct (Rle_dec r r0) as [M|M].
    + apply rleb_iff in L. apply rleb_iff in M. congruence.
    + apply Rnot_le_lt in M. apply rltb_iff in M. apply rleb_iff in L. congruence.
  - apply Rnot_le_lt in L. apply rltb_iff in L. assert (M : r <= r0) by (apply rltb_iff in L; lra). apply rleb_iff in M. congruence.
Qed.

(** ** Local search *)
Section Search.
Context (sy : strategy) (t : nat) (k : cfg) (inc nsc : nat).

Definition ev (i : nat) (p lp : list xr) (v : xr) : Prop :=
  sy_opt sy (t + i) (meant_for k inc nsc i) p true = Ok lp /\ sy_obj sy (meant_for k inc nsc i) lp = Ok v.

Lemma find_best_gen : forall cands i bv bp bb v bp' b,
  find_best sy t k inc nsc i cands (bv, bp, bb) = Ok (v, bp', b) ->
  (forall j, (j < length cands)%nat -> exists lp w, ev (i + j) (nth j cands []) lp w) /\
  ((v = bv /\ bp' = bp /\ b = bb /\
    forall j lp w, (j < length cands)%nat -> ev (i + j) (nth j cands []) lp w -> xltb w bv = false) \/
   exists j lp, (j < length cands)%nat /\ bp' = Some lp /\ b = Nat.ltb (i + j) nsc /\
     ev (i + j) (nth j cands []) lp v /\ xltb v bv = true /\
     forall j' lp' w, (j' < length cands)%nat -> ev (i + j') (nth j' cands []) lp' w ->
       xltb w v = false /\ ((j' < j)%nat -> xleb w v = false)).
Proof.
  induction cands as [|p cands IH]; intros i bv bp bb v bp' b H.
  - cbn in H. inversion H; subst. split; [intros j Hj; cbn in Hj; lia|]. left. repeat (split; auto). intros j lp w Hj. cbn in Hj. lia.
  - cbn [find_best] in H. change (if Nat.ltb i nsc then _ else _) with (meant_for k inc nsc i) in H.
    destruct (sy_opt sy (t + i) (meant_for k inc nsc i) p true) as [lp|] eqn:E1; cbn [bind] in H; [|discriminate].
    destruct (sy_obj sy (meant_for k inc nsc i) lp) as [c|] eqn:E2; cbn [bind] in H; [|discriminate].
    cbn [fst] in H.
    assert (EV : ev (i + 0) p lp c) by (unfold ev; rewrite Nat.add_0_r; auto).
    assert (UN : forall lp' w, ev (i + 0) p lp' w -> lp' = lp /\ w = c).
    { intros lp' w [A B]. rewrite Nat.add_0_r in *. rewrite E1 in A. inversion A; subst. rewrite E2 in B. inversion B; auto. }
    assert (SH : forall j, (i + S j = S i + j)%nat) by (intros; lia).
    destruct (xltb c bv) eqn:L; cbn [bind] in H.
    + apply IH in H. destruct H as [A B]. split.
      * intros [|j] Hj; cbn [nth]; [eauto|]. rewrite SH. apply A. cbn in Hj. lia.
      * right. destruct B as [(-> & -> & -> & B)|(j & lp' & Hj & -> & -> & B1 & B2 & B3)].
        -- exists 0%nat, lp. split; [cbn; lia|]. split; auto. split; [now rewrite Nat.add_0_r|]. cbn [nth]. split; auto. split; auto.
           intros [|j'] lp' w Hj' E; cbn [nth] in E.
           ++ apply UN in E. destruct E as [-> ->]. split; [|lia]. apply not_true_iff_false. intros C.
              pose proof (xltb_asym _ _ C). congruence.
           ++ rewrite SH in E. split; [|lia]. eapply B; eauto. cbn in Hj'. lia.
        -- exists (S j), lp'. split; [cbn; lia|]. split; auto. split; [now rewrite SH|]. cbn [nth]. rewrite SH. split; auto.
           split; [eapply xltb_trans; eauto|].
           intros [|j'] lp'' w Hj' E; cbn [nth] in E.
           ++ apply UN in E. destruct E as [-> ->]. split; [now apply xltb_asym|intros _; now apply xltb_not_xleb].
           ++ rewrite SH in E. destruct (B3 j' lp'' w ltac:(cbn in Hj'; lia) E) as [Q1 Q2]. split; auto. intros Q. apply Q2. lia.
    + apply IH in H. destruct H as [A B]. split.
      * intros [|j] Hj; cbn [nth]; [eauto|]. rewrite SH. apply A. cbn in Hj. lia.
      * destruct B as [(-> & -> & -> & B)|(j & lp' & Hj & -> & -> & B1 & B2 & B3)].
        -- left. repeat (split; auto). intros [|j] lp' w Hj E; cbn [nth] in E.
           ++ apply UN in E. destruct E as [-> ->]. auto.
           ++ rewrite SH in E. eapply B; eauto. cbn in Hj. lia.
        -- right. exists (S j), lp'. split; [cbn; lia|]. split; auto. split; [now rewrite SH|]. cbn [nth]. rewrite SH. split; auto.
           split; auto. intros [|j'] lp'' w Hj' E; cbn [nth] in E.
           ++ apply UN in E. destruct E as [-> ->]. split.
              ** apply not_true_iff_false. intros C. pose proof (xltb_trans _ _ _ C B2). congruence.
              ** intros _. apply not_true_iff_false. intros C. pose proof (xleb_xltb_trans _ _ _ C B2). congruence.
           ++ rewrite SH in E. destruct (B3 j' lp'' w ltac:(cbn in Hj'; lia) E) as [Q1 Q2]. split; auto. intros Q. apply Q2. lia.
Qed.

Lemma find_best_total : forall cands i best,
  (forall j, (j < length cands)%nat -> exists lp w, ev (i + j) (nth j cands []) lp w) ->
  exists r, find_best sy t k inc nsc i cands best = Ok r.
Proof.
  induction cands as [|p cands IH]; intros i best H; [eexists; reflexivity|]. cbn [find_best].
  change (if Nat.ltb i nsc then _ else _) with (meant_for k inc nsc i).
  destruct (H 0%nat ltac:(cbn; lia)) as (lp & w & A & B). cbn [nth] in A. rewrite Nat.add_0_r in *. rewrite A. cbn [bind]. rewrite B. cbn [bind].
  destruct (xltb w (fst (fst best))); cbn [bind]; apply IH; intros j Hj; specialize (H (S j) ltac:(cbn; lia)); cbn [nth] in H;
    replace (S i + j)%nat with (i + S j)%nat by lia; auto.
Qed.
End Search.

(** C58. *)
Lemma search_best sy t k inc nsc cands v bp b :
  find_best sy t k inc nsc 0 cands (Fin (10 ^ 10), None, false) = Ok (v, bp, b) ->
  (bp = None /\ forall i lp w, evaluated sy t k inc nsc cands i lp w -> xltb w (Fin (10 ^ 10)) = false) \/
  exists i lp, bp = Some lp /\ evaluated sy t k inc nsc cands i lp v /\ b = Nat.ltb i nsc /\
    (forall j lp' w, evaluated sy t k inc nsc cands j lp' w -> xltb w v = false) /\
    (forall j lp' w, (j < i)%nat -> evaluated sy t k inc nsc cands j lp' w -> xleb w v = false).
Proof.
  intros H. apply find_best_gen in H. destruct H as [_ [(-> & -> & -> & B)|(j & lp & Hj & -> & -> & B1 & B2 & B3)]].
  - left. split; auto. intros i lp w (A1 & A2 & A3). eapply B; eauto. split; eauto.
  - right. exists j, lp. split; auto. destruct B1 as [B1 B1']. split; [split; auto|]. split; auto. split.
    + intros j' lp' w (A1 & A2 & A3). eapply B3; eauto. split; eauto.
    + intros j' lp' w Hlt (A1 & A2 & A3). eapply B3; eauto. split; eauto.
Qed.
Lemma search_total sy t k inc nsc cands :
  (forall i, (i < length cands)%nat -> exists lp w, evaluated sy t k inc nsc cands i lp w) ->
  exists r, find_best sy t k inc nsc 0 cands (Fin (10 ^ 10), None, false) = Ok r.
Proof.
  intros H. apply find_best_total. intros j Hj. destruct (H j Hj) as (lp & w & _ & A & B). exists lp, w. split; auto.
Qed.

(** ** The body *)
Definition cands_of (sy : strategy) (ch : choice) (s : gstate) : list (list xr) := s_choices sy ch s ++ p_choices sy ch s.

Lemma firstn_total {A} (cs cp x : list A) : firstn (length cs + length cp) (cs ++ cp ++ x) = cs ++ cp.
Proof.
  rewrite app_assoc, <- app_length, firstn_app, Nat.sub_diag, firstn_all, firstn_O. apply app_nil_r.
Qed.

Lemma body_cases sy ch extra f0 s s' : greedy_body sy ch extra f0 s = Ok s' ->
  exists i t t' v0 lp op v,
    evaluated sy (gs_t s) (gs_cfg s) (increase ch) (length (s_choices sy ch s)) (cands_of sy ch s) i lp v0 /\
    let k' := meant_for (gs_cfg s) (increase ch) (length (s_choices sy ch s)) i in
    sy_opt sy t k' lp false = Ok op /\ sy_obj sy k' op = Ok v /\
    ((s' = mkG (gs_cfg s) (gs_err s) t' (gs_params s) (gs_n s) (gs_prev s) (gs_best s) (gs_iter s)
             (S (gs_redum s)) (xmul (gs_factor s) (Fin 2))) \/
     (xleb v (gs_best s) = true /\ exists g, sy_good sy k' op = Ok g /\
        s' = mkG k' (gs_err s ++ [g]) t' op (gs_n s + Z.of_nat (increase ch)) (gs_best s) v (gs_iter s ++ [op]) 0 f0) \/
     (xltb (gs_best s) v = false /\ xleb v (gs_best s) = false /\
        s' = mkG k' (gs_err s) t' (gs_params s) (gs_n s + Z.of_nat (increase ch)) (gs_prev s) (gs_best s) (gs_iter s)
               (gs_redum s) (gs_factor s))).
Proof.
  intros H. unfold greedy_body in H.
  set (cs := s_choices sy ch s) in *. set (cp := p_choices sy ch s) in *.
  assert (X : exists tot, match extra with None => Ok (cs ++ cp) | Some f => do x <- f (gs_params s); Ok (cs ++ cp ++ [x]) end = Ok tot /\
     firstn (length cs + length cp) tot = cs ++ cp).
  { destruct extra as [f|].
    - destruct (f (gs_params s)) as [x|]; cbn [bind] in *; [|discriminate]. eexists. split; [reflexivity|apply firstn_total].
    - eexists. split; [reflexivity|]. rewrite <- (app_nil_r (cs ++ cp)) at 1. rewrite <- app_assoc. apply firstn_total. }
  destruct X as (tot & X1 & X2). rewrite X1 in H. cbn [bind] in H. rewrite X2 in H.
  destruct (find_best sy (gs_t s) (gs_cfg s) (increase ch) (length cs) 0 (cs ++ cp) (Fin (10 ^ 10), None, false)) as [[[v0 bp] b]|] eqn:F;
    cbn [bind] in H; [|discriminate].
  destruct (search_best _ _ _ _ _ _ _ _ _ F) as [(-> & _)|(i & lp & -> & EV & -> & _)]; [discriminate|].
  change (if Nat.ltb i (length cs) then _ else _) with (meant_for (gs_cfg s) (increase ch) (length cs) i) in H.
  set (k' := meant_for (gs_cfg s) (increase ch) (length cs) i) in *.
  set (t := (gs_t s + 3 + (length cs + length cp))%nat) in *.
  destruct (sy_opt sy t k' lp false) as [op|] eqn:E1; cbn [bind] in H; [|discriminate].
  destruct (sy_obj sy k' op) as [v|] eqn:E2; cbn [bind] in H; [|discriminate].
  exists i, t, (S t), v0, lp, op, v. split; [exact EV|]. fold cs. fold k'. split; auto. split; auto.
  destruct (negb (Nat.eqb (fst k') _) || negb (Nat.eqb (snd k') _)) eqn:R; cbn [orb] in H.
  - left. now inversion H.
  - destruct (xltb (gs_best s) v) eqn:L1; [left; now inversion H|].
    destruct (xleb v (gs_best s)) eqn:L2.
    + right; left. split; auto. destruct (sy_good sy k' op) as [g|]; cbn [bind] in H; [|discriminate]. exists g. split; auto. now inversion H.
    + right; right. split; auto. split; auto. now inversion H.
Qed.

(** C59 *)
Lemma extra_ignored sy ch ob factor d mx f fuel : (forall p, exists x, f p = Ok x) ->
  greedy_run sy ch ob factor d mx (Some f) fuel = greedy_run sy ch ob factor d mx None fuel.
Proof.
  intros Hf.
  assert (B : forall f0 s, greedy_body sy ch (Some f) f0 s = greedy_body sy ch None f0 s).
  { intros f0 s. unfold greedy_body. destruct (Hf (gs_params s)) as [x ->]. cbn [bind].
    rewrite firstn_total. rewrite <- (app_nil_r (p_choices sy ch s)) at 3. rewrite firstn_total. reflexivity. }
  assert (L : forall f0 n s, greedy_loop sy ch (Some f) f0 d mx n s = greedy_loop sy ch None f0 d mx n s).
  { intros f0. induction n as [|n IH]; intros s; cbn [greedy_loop]; [reflexivity|]. rewrite B.
    destruct (greedy_go d mx s); [|reflexivity]. destruct (greedy_body sy ch None f0 s); [apply IH|reflexivity]. }
  unfold greedy_run. destruct factor; auto. destruct (xleb _ _); auto. destruct (greedy_start sy ob x); auto. now rewrite L.
Qed.

(** ** Loops *)
Lemma loop_inv sy ch extra f0 d mx (P : gstate -> Prop) :
  (forall s s', P s -> greedy_go d mx s = true -> greedy_body sy ch extra f0 s = Ok s' -> P s') ->
  forall fuel s s', P s -> greedy_loop sy ch extra f0 d mx fuel s = Some (Ok s') -> P s' /\ greedy_go d mx s' = false.
Proof.
  intros Hs. induction fuel as [|fuel IH]; intros s s' Hp H; cbn [greedy_loop] in H; destruct (greedy_go d mx s) eqn:G.
  - discriminate.
  - inversion H; subst. auto.
  - destruct (greedy_body sy ch extra f0 s) as [s1|] eqn:B; [|discriminate]. eapply IH; [|exact H]. eapply Hs; eauto.
  - inversion H; subst. auto.
Qed.

Lemma run_inv sy ch ob factor d mx extra fuel r ob' :
  greedy_run sy ch ob factor d mx extra fuel = Some (Ok (r, ob')) ->
  exists f s0 s, factor = VFloat f /\ xleb f (Fin 0) = false /\ greedy_start sy ob f = Ok s0 /\
    greedy_loop sy ch extra f d mx fuel s0 = Some (Ok s) /\ greedy_end sy d mx s = Ok (r, ob').
Proof.
  unfold greedy_run. intros H. destruct factor; try discriminate. destruct (xleb x (Fin 0)) eqn:L; [discriminate|].
  destruct (greedy_start sy ob x) as [s0|] eqn:S; [|discriminate].
  destruct (greedy_loop sy ch extra x d mx fuel s0) as [[s|]|] eqn:G; try discriminate.
  exists x, s0, s. inversion H. auto.
Qed.

Lemma end_inv sy d mx s r ob' : greedy_end sy d mx s = Ok (r, ob') ->
  exists ex v, (if Nat.eqb (gs_redum s) 5 then Ok (ExNoChoice (gs_cfg s)) else final_exit (gs_n s) mx (gs_best s) (gs_prev s) d) = Ok ex /\
    sy_obj sy (gs_cfg s) (last (gs_iter s) []) = Ok v /\
    r = mkGRes (fst (split_s (gs_cfg s) (last (gs_iter s) [])) ++ fst (split_p (gs_cfg s) (last (gs_iter s) [])))
               (snd (split_s (gs_cfg s) (last (gs_iter s) [])) ++ snd (split_p (gs_cfg s) (last (gs_iter s) [])))
               (gs_cfg s) v (negb ((gs_n s =? mx - 1)%Z || Nat.eqb (gs_redum s) 5)) (gs_iter s) (gs_err s) ex /\
    ob' = mkObject (gs_cfg s) (gs_err s).
Proof.
  unfold greedy_end. intros H.
  destruct (if Nat.eqb (gs_redum s) 5 then _ else _) as [ex|] eqn:E; cbn [bind] in H; [|discriminate].
  destruct (sy_obj sy (gs_cfg s) (last (gs_iter s) [])) as [v|] eqn:V; cbn [bind] in H; [|discriminate].
  exists ex, v. inversion H. auto.
Qed.

Lemma start_inv sy ob f s : greedy_start sy ob f = Ok s ->
  exists p g v, sy_start sy (ob_cfg ob) = Ok p /\ sy_good sy (ob_cfg ob) p = Ok g /\ sy_obj sy (ob_cfg ob) p = Ok v /\
    s = mkG (ob_cfg ob) (ob_err ob ++ [g]) 0 p 1 PInf v [p] 0 f.
Proof.
  unfold greedy_start. intros H. destruct (sy_start sy (ob_cfg ob)) as [p|]; cbn [bind] in H; [|discriminate].
  destruct (sy_good sy (ob_cfg ob) p) as [g|] eqn:G; cbn [bind] in H; [|discriminate].
  destruct (sy_obj sy (ob_cfg ob) p) as [v|] eqn:V; cbn [bind] in H; [|discriminate].
  exists p, g, v. inversion H. auto.
Qed.

(** The counters. *)
Definition counters (sy : strategy) (ch : choice) (ob : object) (mx : Z) (s : gstate) : Prop :=
  (gs_n s <= Z.max 1 (mx - 1 + Z.of_nat (increase ch)))%Z /\
  (Z.of_nat (total (gs_cfg s)) = gs_n s - 1 + Z.of_nat (total (ob_cfg ob)))%Z /\ (gs_redum s <= 5)%nat /\ (1 <= gs_n s)%Z.
Lemma meant_total k inc nsc i : total (meant_for k inc nsc i) = (total k + inc)%nat.
Proof. unfold meant_for, total. destruct (Nat.ltb i nsc); cbn [fst snd]; lia. Qed.
Lemma go_facts d mx s : greedy_go d mx s = true ->
  (gs_n s <= mx - 1)%Z /\ (gs_redum s < 5)%nat /\ xleb d (xabs (xsub (gs_best s) (gs_prev s))) = true.
Proof.
  unfold greedy_go. intros H. apply andb_prop in H. destruct H as [H H3]. apply andb_prop in H. destruct H as [H1 H2].
  apply Z.leb_le in H1. apply Nat.ltb_lt in H2. auto.
Qed.
Lemma counters_step sy ch ob d mx extra f0 s s' : counters sy ch ob mx s -> greedy_go d mx s = true ->
  greedy_body sy ch extra f0 s = Ok s' -> counters sy ch ob mx s'.
Proof.
  intros (A & B & C & D) G H. apply go_facts in G. destruct G as (G1 & G2 & G3). apply body_cases in H.
  destruct H as (i & t & t' & v0 & lp & op & v & _ & _ & _ & [->|[(_ & g & _ & ->)|(_ & _ & ->)]]);
    unfold counters; cbn [gs_n gs_cfg gs_redum]; rewrite ?meant_total; repeat split; try lia.
Qed.
Lemma counters_start sy ch ob mx f s : greedy_start sy ob f = Ok s -> counters sy ch ob mx s.
Proof. intros H. apply start_inv in H. destruct H as (p & g & v & _ & _ & _ & ->). unfold counters. cbn [gs_n gs_cfg gs_redum]. repeat split; lia. Qed.

(** C61: number of functions. *)
Lemma run_size sy ch ob factor d mx extra fuel r ob' :
  greedy_run sy ch ob factor d mx extra fuel = Some (Ok (r, ob')) ->
  (Z.of_nat (total (gr_cfg r)) + 1 <= Z.max 1 (mx - 1 + Z.of_nat (increase ch)) + Z.of_nat (total (ob_cfg ob)))%Z.
Proof.
  intros H. apply run_inv in H. destruct H as (f & s0 & s & -> & _ & S & L & E).
  destruct (loop_inv sy ch extra f d mx (counters sy ch ob mx) (fun a b X Y Z => counters_step _ _ _ _ _ _ _ _ _ X Y Z) fuel s0 s) as [(A & B & _) _]; auto.
  { eapply counters_start; eauto. }
  apply end_inv in E. destruct E as (ex & v & _ & _ & -> & _). cbn [gr_cfg]. lia.
Qed.

(** C62: termination. *)
Definition left_over (mx : Z) (s : gstate) : Z := (5 * (mx - gs_n s) - Z.of_nat (gs_redum s))%Z.
Lemma loop_fuel sy ch extra f0 d mx : forall fuel s, (left_over mx s <= Z.of_nat fuel)%Z ->
  greedy_loop sy ch extra f0 d mx fuel s <> None.
Proof.
  unfold left_over. induction fuel as [|fuel IH]; intros s H; cbn [greedy_loop]; destruct (greedy_go d mx s) eqn:G; try discriminate.
  - apply go_facts in G. lia.
  - destruct (greedy_body sy ch extra f0 s) as [s'|] eqn:B; [|discriminate]. apply IH. apply go_facts in G. destruct G as (G1 & G2 & _).
    apply body_cases in B.
    assert (I : (1 <= increase ch)%nat) by (destruct ch; cbn; lia).
    destruct B as (i & t & t' & v0 & lp & op & v & _ & _ & _ & [->|[(_ & g & _ & ->)|(_ & _ & ->)]]); cbn [gs_n gs_redum]; lia.
Qed.
Lemma loop_more sy ch extra f0 d mx : forall fuel s x, greedy_loop sy ch extra f0 d mx fuel s = Some x ->
  forall m, (fuel <= m)%nat -> greedy_loop sy ch extra f0 d mx m s = Some x.
Proof.
  induction fuel as [|fuel IH]; intros s x H m Hm; destruct m as [|m]; try lia; cbn [greedy_loop] in *; destruct (greedy_go d mx s); auto; try discriminate.
  destruct (greedy_body sy ch extra f0 s); auto. apply IH; auto. lia.
Qed.
Lemma run_terminates sy ch ob factor d mx extra :
  exists out, forall fuel, (5 * (mx - 1) <= Z.of_nat fuel)%Z -> greedy_run sy ch ob factor d mx extra fuel = Some out.
Proof.
  unfold greedy_run. destruct factor as [ | | |f| | | | ]; try (eexists; intros; reflexivity).
  destruct (xleb f (Fin 0)); [eexists; intros; reflexivity|].
  destruct (greedy_start sy ob f) as [s0|] eqn:S; [|eexists; intros; reflexivity].
  assert (N : (left_over mx s0 = 5 * (mx - 1))%Z).
  { apply start_inv in S. destruct S as (p & g & v & _ & _ & _ & ->). unfold left_over. cbn [gs_n gs_redum]. lia. }
  destruct (greedy_loop sy ch extra f d mx (Z.to_nat (5 * (mx - 1))) s0) as [x|] eqn:L.
  - exists (match x with Raise e => Raise e | Ok s => greedy_end sy d mx s end). intros fuel Hf.
    rewrite (loop_more _ _ _ _ _ _ _ _ _ L fuel) by lia. destruct x; reflexivity.
  - exfalso. eapply loop_fuel; [|exact L]. lia.
Qed.

(** C60: what is accepted. *)
Definition hist (sy : strategy) (ob : object) (s : gstate) : Prop :=
  exists h en, gs_iter s = map en_par (h ++ [en]) /\ gs_err s = ob_err ob ++ map en_err (h ++ [en]) /\
    Forall (entry_ok sy) (h ++ [en]) /\ non_increasing (h ++ [en]) /\
    gs_best s = en_val en /\ gs_params s = en_par en /\ (never_nan sy -> gs_cfg s = en_cfg en) /\
    (exists e0 h', h ++ [en] = e0 :: h' /\ en_cfg e0 = ob_cfg ob /\ sy_start sy (ob_cfg ob) = Ok (en_par e0)).

Lemma non_increasing_snoc h a b : non_increasing (h ++ [a]) -> xleb (en_val b) (en_val a) = true -> non_increasing ((h ++ [a]) ++ [b]).
Proof.
  intros H L h1 x y h2 E. destruct h2 as [|z h2] using rev_ind.
  - replace (h1 ++ [x; y]) with ((h1 ++ [x]) ++ [y]) in E by (rewrite <- app_assoc; reflexivity).
    apply app_inj_tail in E. destruct E as [E ->]. apply app_inj_tail in E. destruct E as [_ ->]. auto.
  - replace (h1 ++ x :: y :: h2 ++ [z]) with ((h1 ++ x :: y :: h2) ++ [z]) in E by (rewrite <- app_assoc; reflexivity).
    apply app_inj_tail in E. destruct E as [E _]. apply (H h1 x y h2 E).
Qed.

Lemma hist_step sy ob ch extra f0 s s' : hist sy ob s -> greedy_body sy ch extra f0 s = Ok s' -> hist sy ob s'.
Proof.
  intros (h & en & H1 & H2 & H3 & H4 & H5 & H6 & H7 & H8) B. apply body_cases in B.
  destruct B as (i & t & t' & v0 & lp & op & v & _ & O1 & O2 & [->|[(L & g & G & ->)|(L1 & L2 & ->)]]).
  - exists h, en. cbn [gs_iter gs_err gs_best gs_params gs_cfg]. auto 10.
  - set (k' := meant_for _ _ _ _) in *. exists (h ++ [en]), (mkEntry k' op v g). cbn [gs_iter gs_err gs_best gs_params gs_cfg en_val en_par en_cfg].
    rewrite !map_app. cbn [map en_par en_err]. rewrite H1, H2, !map_app. cbn [map].
    split; [reflexivity|]. split; [now rewrite !app_assoc|].
    split; [apply Forall_app; split; auto; constructor; [split; auto|constructor]|].
    split; [apply non_increasing_snoc; auto; cbn [en_val]; now rewrite <- H5|].
    split; auto. split; auto. split; auto.
    destruct H8 as (e0 & h' & Q1 & Q2 & Q3). exists e0, (h' ++ [mkEntry k' op v g]). rewrite Q1. auto.
  - exists h, en. cbn [gs_iter gs_err gs_best gs_params gs_cfg]. repeat (split; [now auto|]). split; [|now auto].
    intros NN. exfalso. destruct (xorder _ _ L1 L2) as [E|E].
    + apply Forall_app in H3. destruct H3 as [_ H3]. apply Forall_inv in H3. destruct H3 as [Q _]. rewrite <- H5, E in Q. exact (NN _ _ Q).
    + subst v. exact (NN _ _ O2).
Qed.

Lemma hist_start sy ob f s : greedy_start sy ob f = Ok s -> hist sy ob s.
Proof.
  intros H. apply start_inv in H. destruct H as (p & g & v & S & G & V & ->).
  exists [], (mkEntry (ob_cfg ob) p v g). cbn. split; [reflexivity|]. split; [reflexivity|].
  split; [constructor; [split; auto|constructor]|]. split.
  - intros h1 a b h2 E. destruct h1 as [|x h1]; [discriminate|]. destruct h1; discriminate.
  - split; [reflexivity|]. split; [reflexivity|]. split; [reflexivity|]. exists (mkEntry (ob_cfg ob) p v g), []. auto.
Qed.

Lemma non_increasing_last h en : non_increasing (h ++ [en]) -> Forall (fun x => en_val x <> NaN) (h ++ [en]) ->
  forall x, In x (h ++ [en]) -> xleb (en_val en) (en_val x) = true.
Proof.
  revert en. induction h as [|a h IH] using rev_ind; intros en H N x Hx.
  - cbn in Hx. destruct Hx as [->|[]]. inversion N; subst. now apply xleb_refl.
  - apply in_app_or in Hx. destruct Hx as [Hx|[->|[]]].
    + assert (L : xleb (en_val en) (en_val a) = true) by (apply (H h a en []); rewrite <- app_assoc; reflexivity).
      eapply xleb_trans; [exact L|]. apply IH; auto.
      * intros h1 u w h2 E. apply (H h1 u w (h2 ++ [en])). rewrite E, <- app_assoc. reflexivity.
      * apply Forall_app in N. apply N.
    + apply Forall_app in N. destruct N as [_ N]. inversion N; subst. now apply xleb_refl.
Qed.

Lemma last_map_snoc h en : last (map en_par (h ++ [en])) [] = en_par en.
Proof. rewrite map_app. apply last_last. Qed.

Lemma run_history sy ch ob factor d mx extra fuel r ob' :
  greedy_run sy ch ob factor d mx extra fuel = Some (Ok (r, ob')) ->
  exists h en, Forall (entry_ok sy) (h ++ [en]) /\ non_increasing (h ++ [en]) /\
    gr_params r = map en_par (h ++ [en]) /\ gr_perf r = ob_err ob ++ map en_err (h ++ [en]) /\
    sy_obj sy (gr_cfg r) (en_par en) = Ok (gr_fun r) /\
    (never_nan sy -> gr_cfg r = en_cfg en /\ gr_fun r = en_val en /\
       forall x, In x (h ++ [en]) -> xleb (gr_fun r) (en_val x) = true).
Proof.
  intros H. apply run_inv in H. destruct H as (f & s0 & s & -> & _ & S & L & E).
  destruct (loop_inv sy ch extra f d mx (hist sy ob) (fun a b X _ Z => hist_step _ _ _ _ _ _ _ X Z) fuel s0 s) as [(h & en & H1 & H2 & H3 & H4 & H5 & H6 & H7 & H8) _]; auto.
  { eapply hist_start; eauto. }
  apply end_inv in E. destruct E as (ex & v & _ & V & -> & _). cbn [gr_params gr_perf gr_cfg gr_fun].
  rewrite H1, last_map_snoc in V. exists h, en. do 5 (split; [now auto|]). intros NN. specialize (H7 NN). split; auto.
  assert (EV : v = en_val en).
  { apply Forall_app in H3. destruct H3 as [_ H3]. apply Forall_inv in H3. destruct H3 as [Q _]. rewrite H7 in V. congruence. }
  split; auto. rewrite EV. apply non_increasing_last; auto.
  apply Forall_forall. intros x Hx C. rewrite Forall_forall in H3. destruct (H3 x Hx) as [Q _]. rewrite C in Q. exact (NN _ _ Q).
Qed.

(** C61, C65: sizes of the parameters; also positivity.  [Q k p] says that [p] is right for [k]. *)
Section Kept.
Context (sy : strategy) (ch : choice) (ob : object) (d : xr) (mx : Z) (extra : option (list xr -> res (list xr)))
        (f0 : xr) (Q : cfg -> list xr -> Prop) (Fok : xr -> Prop).
Hypothesis Q_start : forall p, sy_start sy (ob_cfg ob) = Ok p -> Q (ob_cfg ob) p.
Hypothesis Q_guess : forall s, Q (gs_cfg s) (gs_params s) -> Fok (gs_factor s) ->
  (forall p, In p (s_choices sy ch s) -> Q (fst (gs_cfg s) + increase ch, snd (gs_cfg s))%nat p) /\
  (forall p, In p (p_choices sy ch s) -> Q (fst (gs_cfg s), snd (gs_cfg s) + increase ch)%nat p).
Hypothesis Q_opt : forall t k p b q, Q k p -> sy_opt sy t k p b = Ok q -> Q k q.
Hypothesis Q_nan : forall k p, Q k p -> sy_obj sy k p <> Ok NaN.
Hypothesis F_ok : Fok f0.
Hypothesis F_double : forall f, Fok f -> Fok (xmul f (Fin 2)).

Definition kept_ok (s : gstate) : Prop :=
  Q (gs_cfg s) (gs_params s) /\ Fok (gs_factor s) /\ gs_best s <> NaN /\ last (gs_iter s) [] = gs_params s.

Lemma cand_ok s i : Q (gs_cfg s) (gs_params s) -> Fok (gs_factor s) -> (i < length (cands_of sy ch s))%nat ->
  Q (meant_for (gs_cfg s) (increase ch) (length (s_choices sy ch s)) i) (nth i (cands_of sy ch s) []).
Proof.
  intros H F Hi. destruct (Q_guess s H F) as [A B]. unfold cands_of, meant_for in *. rewrite app_length in Hi.
  destruct (Nat.ltb_spec i (length (s_choices sy ch s))).
  - rewrite app_nth1 by auto. apply A. now apply nth_In.
  - rewrite app_nth2 by auto. apply B. apply nth_In. lia.
Qed.

Lemma kept_step s s' : kept_ok s -> greedy_body sy ch extra f0 s = Ok s' -> kept_ok s'.
Proof.
  intros (A & F & N & L) B. apply body_cases in B.
  destruct B as (i & t & t' & v0 & lp & op & v & (I & E1 & E2) & O1 & O2 & [->|[(L' & g & G & ->)|(L1 & L2 & ->)]]).
  - split; [exact A|]. split; [apply F_double; exact F|]. split; auto.
  - pose proof (Q_opt _ _ _ _ _ (cand_ok s i A F I) E1) as Q1. pose proof (Q_opt _ _ _ _ _ Q1 O1) as Q2.
    split; [exact Q2|]. split; [exact F_ok|]. cbn [gs_best gs_iter gs_params]. split; [|apply last_last].
    intros ->. exact (Q_nan _ _ Q2 O2).
  - exfalso. pose proof (Q_opt _ _ _ _ _ (cand_ok s i A F I) E1) as Q1. pose proof (Q_opt _ _ _ _ _ Q1 O1) as Q2.
    destruct (xorder _ _ L1 L2) as [E|E]; [congruence|]. subst v. exact (Q_nan _ _ Q2 O2).
Qed.

Lemma kept_run fuel r ob' : greedy_run sy ch ob (VFloat f0) d mx extra fuel = Some (Ok (r, ob')) ->
  Q (gr_cfg r) (last (gr_params r) []) /\
  gr_coeffs r = fst (split_s (gr_cfg r) (last (gr_params r) [])) ++ fst (split_p (gr_cfg r) (last (gr_params r) [])) /\
  gr_exps r = snd (split_s (gr_cfg r) (last (gr_params r) [])) ++ snd (split_p (gr_cfg r) (last (gr_params r) [])).
Proof.
  intros H. apply run_inv in H. destruct H as (f & s0 & s & Ef & _ & S & L & E). inversion Ef; subst f.
  destruct (loop_inv sy ch extra f0 d mx kept_ok (fun a b X _ Z => kept_step a b X Z) fuel s0 s) as [(A & _ & _ & L2) _]; auto.
  { apply start_inv in S. destruct S as (p & g & v & S & _ & V & ->). specialize (Q_start _ S).
    split; [exact Q_start|]. split; auto. split; [|reflexivity]. cbn [gs_best]. intros ->. exact (Q_nan _ _ Q_start V). }
  apply end_inv in E. destruct E as (ex & v & _ & _ & -> & _). cbn [gr_cfg gr_params gr_coeffs gr_exps]. rewrite L2. auto.
Qed.
End Kept.

Lemma skipn_skipn {A} x y (l : list A) : skipn x (skipn y l) = skipn (x + y) l.
Proof. revert y. induction l as [|z l IH]; intros y; [now rewrite !skipn_nil|]. destruct y; [now rewrite Nat.add_0_r|]. rewrite Nat.add_succ_r. cbn [skipn]. apply IH. Qed.

(** Parameters split in four. *)
Lemma four k p : fits k p -> exists cs cp es ep, p = (cs ++ cp) ++ es ++ ep /\ length cs = fst k /\ length cp = snd k /\
  length es = fst k /\ length ep = snd k /\ split_s k p = (cs, es) /\ split_p k p = (cp, ep).
Proof.
  unfold fits, total. intros H.
  assert (X : exists cs cp es ep, p = (cs ++ cp) ++ es ++ ep /\ length cs = fst k /\ length cp = snd k /\ length es = fst k /\ length ep = snd k).
  { exists (firstn (fst k) p), (firstn (snd k) (skipn (fst k) p)), (firstn (fst k) (skipn (fst k + snd k) p)), (skipn (2 * fst k + snd k) p).
    rewrite !firstn_length, !skipn_length. split; [|lia].
    rewrite <- (firstn_skipn (fst k) p) at 1. rewrite <- app_assoc. f_equal.
    rewrite <- (firstn_skipn (snd k) (skipn (fst k) p)) at 1. f_equal. rewrite skipn_skipn.
    replace (snd k + fst k)%nat with (fst k + snd k)%nat by lia.
    rewrite <- (firstn_skipn (fst k) (skipn (fst k + snd k) p)) at 1. f_equal. rewrite skipn_skipn. f_equal. lia. }
  destruct X as (cs & cp & es & ep & -> & L1 & L2 & L3 & L4). exists cs, cp, es, ep. do 5 (split; [now auto|]).
  unfold split_s, split_p. rewrite <- L1, <- L2.
  assert (F : forall {A} (a b : list A), firstn (length a) (a ++ b) = a).
  { intros A a b. rewrite firstn_app, Nat.sub_diag, firstn_all, firstn_O. apply app_nil_r. }
  assert (K : forall {A} (a b : list A), skipn (length a) (a ++ b) = b).
  { intros A a b. rewrite skipn_app, Nat.sub_diag, skipn_all, skipn_O. reflexivity. }
  split.
  - f_equal; [rewrite <- app_assoc; apply F|]. rewrite <- app_length, K. rewrite L1, <- L3. apply F.
  - f_equal; [rewrite <- app_assoc, K; apply F|].
    replace (2 * length cs + length cp)%nat with (length ((cs ++ cp) ++ es)) by (rewrite !app_length; lia).
    rewrite app_assoc. apply K.
Qed.

Lemma firstn_exact {A} (a b : list A) n : length a = n -> firstn n (a ++ b) = a /\ skipn n (a ++ b) = b.
Proof.
  intros <-. rewrite firstn_app, Nat.sub_diag, firstn_all, firstn_O, app_nil_r, skipn_app, Nat.sub_diag, skipn_all, skipn_O. auto.
Qed.

Lemma guesses_fit sy ch s : rand_sized sy -> fits (gs_cfg s) (gs_params s) ->
  (forall p, In p (s_choices sy ch s) -> fits (fst (gs_cfg s) + increase ch, snd (gs_cfg s))%nat p) /\
  (forall p, In p (p_choices sy ch s) -> fits (fst (gs_cfg s), snd (gs_cfg s) + increase ch)%nat p).
Proof.
  intros R H. destruct (four _ _ H) as (cs & cp & es & ep & E & L1 & L2 & L3 & L4 & S1 & S2). split; intros p Hp.
  - unfold s_choices in Hp. rewrite S1, S2 in Hp. cbn [fst snd] in Hp. apply in_map_iff in Hp. destruct Hp as (x & <- & Hx).
    apply guess_shape in Hx; [|lia]. destruct Hx as (c' & e' & -> & M1 & M2).
    destruct (firstn_exact c' e' (fst (gs_cfg s) + increase ch)%nat) as [-> ->]; [lia|].
    unfold fits, total. cbn [fst snd]. rewrite !app_length. lia.
  - unfold p_choices in Hp. rewrite S1, S2 in Hp. cbn [fst snd] in Hp. apply in_map_iff in Hp. destruct Hp as (x & <- & Hx).
    assert (Lx : length x = (2 * (snd (gs_cfg s) + increase ch))%nat).
    { destruct (Nat.eqb_spec (snd (gs_cfg s)) 0) as [Z|Z].
      - rewrite Z. cbn [In] in Hx. destruct Hx as [Hx|[Hx|[Hx|[]]]]; subst x; rewrite ?map_length, R; lia.
      - apply guess_shape in Hx; [|lia]. destruct Hx as (c' & e' & -> & M1 & M2). rewrite app_length. lia. }
    unfold fits, total. cbn [fst snd]. rewrite !app_length, firstn_length, skipn_length. lia.
Qed.

(** C61/C65: the returned numbers of functions are those of the returned parameters. *)
Lemma run_sizes sy ch ob factor d mx extra fuel r ob' : never_nan sy -> rand_sized sy ->
  (forall p, sy_start sy (ob_cfg ob) = Ok p -> fits (ob_cfg ob) p) ->
  (forall t k p b q, fits k p -> sy_opt sy t k p b = Ok q -> fits k q) ->
  greedy_run sy ch ob factor d mx extra fuel = Some (Ok (r, ob')) ->
  length (gr_coeffs r) = total (gr_cfg r) /\ length (gr_exps r) = total (gr_cfg r) /\
  last (gr_params r) [] = gr_coeffs r ++ gr_exps r /\ ob_cfg ob' = gr_cfg r.
Proof.
  intros NN R S O H. assert (Hf : exists f, factor = VFloat f).
  { apply run_inv in H. destruct H as (f & _ & _ & -> & _). eauto. }
  destruct Hf as [f ->].
  assert (OB : ob_cfg ob' = gr_cfg r).
  { apply run_inv in H. destruct H as (f' & s0 & s & _ & _ & _ & _ & E). apply end_inv in E.
    destruct E as (ex & v & _ & _ & -> & ->). reflexivity. }
  pose proof (kept_run sy ch ob d mx extra f fits (fun _ => True) S
                (fun s Hs _ => guesses_fit sy ch s R Hs) O (fun k p _ => NN k p) I (fun _ _ => I) fuel r ob' H) as (A & B & C).
  destruct (four _ _ A) as (cs & cp & es & ep & E & L1 & L2 & L3 & L4 & S1 & S2). rewrite S1, S2 in B, C. cbn [fst snd] in B, C.
  rewrite B, C, E. unfold total. rewrite !app_length. repeat split; try lia. auto.
Qed.

(** C63: what the success flag says. *)
Lemma run_success sy ch ob factor d mx extra fuel r ob' :
  greedy_run sy ch ob factor d mx extra fuel = Some (Ok (r, ob')) ->
  let n := (Z.of_nat (total (gr_cfg r)) - Z.of_nat (total (ob_cfg ob)) + 1)%Z in
  (gr_success r = false <-> n = (mx - 1)%Z \/ gr_exit r = ExNoChoice (gr_cfg r)) /\
  (forall m, gr_exit r = ExMax m -> m = n /\ (mx - 1 <= n)%Z) /\
  (forall a b, gr_exit r = ExEps a b -> (n < mx - 1)%Z /\ b = d /\ xltb (xabs a) d = true).
Proof.
  intros H. apply run_inv in H. destruct H as (f & s0 & s & -> & _ & S & L & E).
  destruct (loop_inv sy ch extra f d mx (counters sy ch ob mx) (fun a b X Y Z => counters_step _ _ _ _ _ _ _ _ _ X Y Z) fuel s0 s) as [(A & B & _) _]; auto.
  { eapply counters_start; eauto. }
  apply end_inv in E. destruct E as (ex & v & X & _ & -> & _). cbn [gr_cfg gr_success gr_exit]. cbv zeta.
  replace (Z.of_nat (total (gs_cfg s)) - Z.of_nat (total (ob_cfg ob)) + 1)%Z with (gs_n s) by lia.
  destruct (Nat.eqb (gs_redum s) 5) eqn:Rd.
  - inversion X; subst ex. rewrite orb_true_r. split; [split; auto|]. split; intros; discriminate.
  - rewrite orb_false_r. unfold final_exit in X. destruct (Z.ltb_spec (gs_n s) (mx - 1)) as [C|C]; cbn [negb] in X.
    + destruct (xltb _ d) eqn:Y; inversion X; subst ex. split.
      * rewrite negb_false_iff, Z.eqb_eq. split; [auto|]. intros [Q|Q]; [auto|discriminate].
      * split; [intros; discriminate|]. intros a b Q. inversion Q; subst. auto.
    + inversion X; subst ex. split.
      * rewrite negb_false_iff, Z.eqb_eq. split; [auto|]. intros [Q|Q]; [auto|discriminate].
      * split; [|intros; discriminate]. intros m Q. inversion Q; subst. auto.
Qed.
(** C63 refuted: a run with max_numb_funcs=1, which the limit stops at once, is a success; a run stopped
    by convergence with one function less than the limit is a failure, and its exit string names the limit. *)
Lemma run_limit_success sy ch ob factor d extra fuel r ob' :
  greedy_run sy ch ob factor d 1 extra fuel = Some (Ok (r, ob')) -> gr_success r = true /\ gr_exit r = ExMax 1.
Proof.
  intros H. apply run_inv in H. destruct H as (f & s0 & s & -> & _ & S & L & E).
  apply start_inv in S. destruct S as (p & g & v & S & _ & V & ->).
  assert (L' : s = mkG (ob_cfg ob) (ob_err ob ++ [g]) 0 p 1 PInf v [p] 0 f) by (destruct fuel; cbn in L; now inversion L).
  subst s. apply end_inv in E. destruct E as (ex & w & X & _ & -> & _). cbn in X. inversion X; subst ex. cbn. auto.
Qed.
Lemma run_converged_failure sy ch ob factor d mx extra fuel r ob' :
  greedy_run sy ch ob factor d mx extra fuel = Some (Ok (r, ob')) ->
  (Z.of_nat (total (gr_cfg r)) - Z.of_nat (total (ob_cfg ob)) + 1 = mx - 1)%Z ->
  gr_success r = false /\
  (gr_exit r <> ExNoChoice (gr_cfg r) -> gr_exit r = ExMax (mx - 1)).
Proof.
  intros H Hn. destruct (run_success _ _ _ _ _ _ _ _ _ _ H) as (A & B & C). split; [apply A; auto|].
  intros Hx. apply run_inv in H. destruct H as (f & s0 & s & -> & _ & S & L & E).
  apply end_inv in E. destruct E as (ex & v & X & _ & -> & _). cbn [gr_cfg gr_exit] in *.
  destruct (Nat.eqb (gs_redum s) 5); [inversion X; subst; congruence|]. unfold final_exit in X.
  destruct (negb (gs_n s <? mx - 1)%Z) eqn:Q.
  - inversion X; subst ex. destruct (B _ eq_refl) as [-> _]. f_equal. lia.
  - destruct (xltb _ d); inversion X; subst ex. destruct (C _ _ eq_refl) as [? _]. lia.
Qed.

(** C69. *)
Definition diff_ok (s : gstate) : Prop := xsub (gs_best s) (gs_prev s) <> NaN.
Lemma start_nan sy ch ob f d mx extra fuel p g v : (2 < mx)%Z -> xleb f (Fin 0) = false ->
  sy_start sy (ob_cfg ob) = Ok p -> sy_good sy (ob_cfg ob) p = Ok g -> sy_obj sy (ob_cfg ob) p = Ok v ->
  v = NaN \/ v = PInf ->
  greedy_run sy ch ob (VFloat f) d mx extra fuel = Some (Raise RuntimeError).
Proof.
  intros Hm Hf S G V Hv. unfold greedy_run. rewrite Hf. unfold greedy_start. rewrite S. cbn [bind]. rewrite G. cbn [bind]. rewrite V. cbn [bind].
  assert (D : xabs (xsub v PInf) = NaN) by (destruct Hv; subst; reflexivity).
  set (s0 := mkG _ _ _ _ _ _ _ _ _ _).
  assert (L : greedy_loop sy ch extra f d mx fuel s0 = Some (Ok s0)).
  { assert (Go : greedy_go d mx s0 = false).
    { unfold greedy_go. cbn [gs_best gs_prev s0]. rewrite D. destruct d; cbn [xleb]; apply andb_false_r. }
    destruct fuel; cbn [greedy_loop]; rewrite Go; reflexivity. }
  rewrite L. unfold greedy_end. cbn [gs_redum s0 Nat.eqb]. unfold final_exit. cbn [gs_n gs_best gs_prev s0].
  destruct (Z.ltb_spec 1 (mx - 1)); [|lia]. cbn [negb]. rewrite D. destruct d; reflexivity.
Qed.

(** The objective is finite, so are the differences: no RuntimeError from the loop's end. *)
Definition finite_best (s : gstate) : Prop :=
  (exists b, gs_best s = Fin b) /\ (gs_prev s = PInf \/ exists p, gs_prev s = Fin p).
Lemma final_ok n mx best prev d : (exists b, best = Fin b) -> (prev = PInf \/ exists p, prev = Fin p) -> d <> NaN ->
  ((n <=? mx - 1)%Z && xleb d (xabs (xsub best prev)) = false) -> exists ex, final_exit n mx best prev d = Ok ex.
Proof.
  intros (b & ->) Hp Hd Hg. unfold final_exit. destruct (Z.ltb_spec n (mx - 1)); cbn [negb]; [|eauto].
  destruct (Z.leb_spec n (mx - 1)); [|lia]. cbn [andb] in Hg.
  destruct (xltb (xabs (xsub (Fin b) prev)) d) eqn:L; [eauto|]. exfalso.
  destruct (xorder _ _ L Hg) as [E|E]; [|contradiction]. destruct Hp as [->|(p & ->)]; discriminate.
Qed.

Lemma run_no_runtime sy ch ob factor d mx extra fuel :
  d <> NaN ->
  (forall k p v, sy_obj sy k p = Ok v -> exists x, v = Fin x) ->
  (forall k, sy_start sy k <> Raise RuntimeError) ->
  (forall k p, sy_good sy k p <> Raise RuntimeError) ->
  (forall k p, sy_obj sy k p <> Raise RuntimeError) ->
  (forall t k p b, sy_opt sy t k p b <> Raise RuntimeError) ->
  (forall f p, extra = Some f -> f p <> Raise RuntimeError) ->
  greedy_run sy ch ob factor d mx extra fuel <> Some (Raise RuntimeError).
Proof.
  intros Hd Fi H1 H2 H3 H4 H5 H. unfold greedy_run in H. destruct factor as [ | | |f| | | | ]; try discriminate.
  destruct (xleb f (Fin 0)); [discriminate|].
  destruct (greedy_start sy ob f) as [s0|e0] eqn:S.
  2:{ unfold greedy_start in S. destruct (sy_start sy (ob_cfg ob)) as [p|] eqn:A; cbn [bind] in S; [|inversion S; subst; inversion H; subst; eapply H1; eauto].
      destruct (sy_good sy (ob_cfg ob) p) as [g|] eqn:G; cbn [bind] in S; [|inversion S; subst; inversion H; subst; eapply H2; eauto].
      destruct (sy_obj sy (ob_cfg ob) p) as [v|] eqn:V; cbn [bind] in S; [discriminate|inversion S; subst; inversion H; subst; eapply H3; eauto]. }
  assert (FB0 : finite_best s0).
  { apply start_inv in S. destruct S as (p & g & v & _ & _ & V & ->). split; [eapply Fi; eauto|left; reflexivity]. }
  assert (ST : forall s s', finite_best s -> greedy_body sy ch extra f s = Ok s' -> finite_best s').
  { intros s s' [A B] Y. apply body_cases in Y.
    destruct Y as (i & t & t' & v0 & lp & op & v & _ & _ & O2 & [->|[(_ & g & _ & ->)|(_ & _ & ->)]]); split; cbn [gs_best gs_prev]; auto.
    eapply Fi; eauto. }
  assert (FBr : forall cands t k inc nsc i best, find_best sy t k inc nsc i cands best <> Raise RuntimeError).
  { induction cands as [|c cands IH]; intros t k inc nsc i best Y; [discriminate|]. cbn [find_best] in Y.
    destruct (sy_opt sy (t + i) _ c true) as [lp|] eqn:A; cbn [bind] in Y; [|inversion Y; subst; eapply H4; eauto].
    destruct (sy_obj sy _ lp) as [w|] eqn:Bq; cbn [bind] in Y; [|inversion Y; subst; eapply H3; eauto].
    destruct (xltb w (fst (fst best))); cbn [bind] in Y; eapply IH; eauto. }
  assert (NB : forall s, greedy_body sy ch extra f s <> Raise RuntimeError).
  { intros s Y. unfold greedy_body in Y.
    set (tot := match extra with None => _ | Some f => _ end) in Y.
    destruct tot as [l|e] eqn:T; cbn [bind] in Y.
    2:{ unfold tot in T. destruct extra as [g|]; [|discriminate]. destruct (g (gs_params s)) eqn:Eg; cbn [bind] in T; [discriminate|].
        inversion T; subst. inversion Y; subst. eapply H5; eauto. }
    destruct (find_best sy _ _ _ _ _ _ _) as [[[v0 bp] b]|] eqn:F; cbn [bind] in Y; [|inversion Y; subst; eapply FBr; eauto].
    destruct bp as [lp|]; [|discriminate].
    match type of Y with context [sy_opt sy ?t ?k lp false] => set (k' := k) in *; set (t' := t) in * end.
    destruct (sy_opt sy t' k' lp false) as [op|] eqn:A; cbn [bind] in Y; [|inversion Y; subst; eapply H4; eauto].
    destruct (sy_obj sy k' op) as [w|] eqn:Bq; cbn [bind] in Y; [|inversion Y; subst; eapply H3; eauto].
    destruct (_ || _); [discriminate|]. destruct (xleb w _); [|discriminate].
    destruct (sy_good sy k' op) as [g|] eqn:G; cbn [bind] in Y; [discriminate|inversion Y; subst; eapply H2; eauto]. }
  assert (NL : forall n s, greedy_loop sy ch extra f d mx n s <> Some (Raise RuntimeError)).
  { induction n as [|n IH]; intros s Y; cbn [greedy_loop] in Y; destruct (greedy_go d mx s); try discriminate.
    destruct (greedy_body sy ch extra f s) eqn:Bq; [eapply IH; eauto|]. inversion Y; subst. eapply NB; eauto. }
  destruct (greedy_loop sy ch extra f d mx fuel s0) as [[s|e]|] eqn:L; [|inversion H; subst; eapply NL; eauto|discriminate].
  destruct (loop_inv sy ch extra f d mx (fun s => finite_best s /\ counters sy ch ob mx s)
     (fun a b X Y Z => conj (ST a b (proj1 X) Z) (counters_step _ _ _ _ _ _ _ _ _ (proj2 X) Y Z)) fuel s0 s) as [[[FA FB] (_ & _ & CR & _)] G]; auto.
  { split; auto. eapply counters_start; eauto. }
  inversion H as [E]. clear H. unfold greedy_end in E.
  destruct (Nat.eqb_spec (gs_redum s) 5) as [R|R].
  - cbn [bind] in E. destruct (sy_obj sy (gs_cfg s) _) eqn:V; cbn [bind] in E; [discriminate|]. inversion E; subst. eapply H3; eauto.
  - destruct (final_ok (gs_n s) mx (gs_best s) (gs_prev s) d FA FB Hd) as [ex Ex].
    { unfold greedy_go in G. destruct (Nat.ltb_spec (gs_redum s) 5); [|lia]. rewrite andb_true_r in G. exact G. }
    rewrite Ex in E. cbn [bind] in E. destruct (sy_obj sy (gs_cfg s) _) eqn:V; cbn [bind] in E; [discriminate|]. inversion E; subst. eapply H3; eauto.
Qed.

(** C58 refuted: when no candidate costs less than 1e10 the run raises TypeError. *)
Lemma search_empty_raises sy ch ob f d mx extra fuel p g v : (1 < mx)%Z -> xleb f (Fin 0) = false ->
  sy_start sy (ob_cfg ob) = Ok p -> sy_good sy (ob_cfg ob) p = Ok g -> sy_obj sy (ob_cfg ob) p = Ok (Fin v) ->
  xleb d PInf = true -> (forall f, extra = Some f -> exists x, f p = Ok x) ->
  (forall t k q, exists q', sy_opt sy t k q true = Ok q') ->
  (forall k q, (total (ob_cfg ob) < total k)%nat -> exists c, sy_obj sy k q = Ok c /\ xltb c (Fin (10 ^ 10)) = false) ->
  greedy_run sy ch ob (VFloat f) d mx extra (S fuel) = Some (Raise TypeError).
Proof.
  intros Hm Hf S G V Hd Hex Ho Hc. unfold greedy_run. rewrite Hf. unfold greedy_start. rewrite S. cbn [bind]. rewrite G. cbn [bind]. rewrite V. cbn [bind].
  set (s0 := mkG _ _ _ _ _ _ _ _ _ _).
  assert (Go : greedy_go d mx s0 = true).
  { unfold greedy_go. cbn [gs_best gs_prev gs_n gs_redum s0]. cbn [xneg xsub xadd xabs]. rewrite Hd.
    destruct (Z.leb_spec 1 (mx - 1)); [reflexivity|lia]. }
  cbn [greedy_loop]. rewrite Go.
  assert (B : greedy_body sy ch extra f s0 = Raise TypeError); [|now rewrite B].
  unfold greedy_body. set (cs := s_choices sy ch s0). set (cp := p_choices sy ch s0).
  assert (X : exists tot, match extra with None => Ok (cs ++ cp) | Some f => do x <- f (gs_params s0); Ok (cs ++ cp ++ [x]) end = Ok tot).
  { destruct extra as [h|]; [|eauto]. destruct (Hex h eq_refl) as [x Hx]. cbn [gs_params s0]. rewrite Hx. cbn [bind]. eauto. }
  destruct X as [tot ->]. cbn [bind]. set (cands := firstn _ tot).
  assert (I : (1 <= increase ch)%nat) by (destruct ch; cbn; lia).
  destruct (search_total sy (gs_t s0) (gs_cfg s0) (increase ch) (length cs) cands) as [[[v0 bp] b] F].
  { intros i Hi. destruct (Ho (gs_t s0 + i)%nat (meant_for (gs_cfg s0) (increase ch) (length cs) i) (nth i cands [])) as [q Hq].
    destruct (Hc (meant_for (gs_cfg s0) (increase ch) (length cs) i) q) as (c & Hc1 & _).
    { rewrite meant_total. cbn [gs_cfg s0]. lia. }
    exists q, c. split; auto. }
  rewrite F. cbn [bind]. destruct (search_best _ _ _ _ _ _ _ _ _ F) as [(-> & _)|(i & lp & -> & (_ & E1 & E2) & _ & _ & _)]; [reflexivity|].
  exfalso. destruct (Hc (meant_for (gs_cfg s0) (increase ch) (length cs) i) lp) as (c & Hc1 & Hc2).
  { rewrite meant_total. cbn [gs_cfg s0]. lia. }
  rewrite E2 in Hc1. inversion Hc1; subst c.
  apply find_best_gen in F. destruct F as [_ [(-> & Q & _)|(j & lp' & _ & _ & _ & _ & B2 & _)]]; [discriminate|congruence].
Qed.
