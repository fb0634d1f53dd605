(** The divergence with masked points (C102). *)
From Coquelicot Require Import Coquelicot.
From Coq Require Import String.
From Coq Require Import Reals List ZArith Lia Lra Bool.
From Verif Require Import XR SpecDens SpecMeas SpecGrid ModelDens ModelMeas ModelGrid ModelFit Lists ProofDens
  ProofDeriv ProofMeas SpecFit ProofFitView ProofFit ProofEM ProofFPI ProofFPI2 ProofFPI3 ProofScipy ProofScipy2 SpecMask.
Import ListNotations.
Local Open Scope R_scope.

Definition slope (mask f g : R) : R := if Rlt_dec mask g then - (f / g) else -1.
Definition veil (mask g : R) : R := if Rlt_dec mask g then 0 else 1.

Lemma settled_pos mask f g : 0 <= mask -> settled mask f g -> 0 < g.
Proof. intros Hm [[H _]|H]; lra. Qed.
Lemma settled_value mask neg f g : 0 <= mask -> length f = length g -> positive f -> all_settled mask f g ->
  measure_evaluate (MKL (Fin mask) neg) (VArr (A1 (map Fin f))) (VArr (A1 (map Fin g))) (VBool true) =
    Ok (map Fin (map2 (kl_masked mask) f g), Some (map Fin (map2 (slope mask) f g))).
Proof.
  intros Hm L Pf S.
  assert (Pg : Forall (fun x => 0 <= x) g).
  { apply Forall_forall. intros x Hx. destruct (In_nth _ _ 0 Hx) as (i & Hi & <-). left. eapply settled_pos; eauto. apply S. lia. }
  destruct (kl_value mask neg f g true Hm L Pf Pg) as (v & q & E & L1 & L2 & HI). rewrite E. do 3 f_equal; [|f_equal].
  - apply nth_ext with (d := 0) (d' := 0); [rewrite map2_length; lia|]. intros i Hi. rewrite (nth_map2 _ f g i 0 0 0) by lia.
    destruct (HI i ltac:(lia)) as [A B]. unfold kl_masked. destruct (S i ltac:(lia)) as [K|K].
    + destruct (Rlt_dec mask (nth i g 0)) as [|Q]; [apply A; auto|destruct K; contradiction].
    + destruct (Rlt_dec mask (nth i g 0)); [lra|]. apply B. intros [Q _]. lra.
  - f_equal. apply nth_ext with (d := 0) (d' := 0); [rewrite map2_length; lia|]. intros i Hi. rewrite (nth_map2 _ f g i 0 0 0) by lia.
    destruct (HI i ltac:(lia)) as [A B]. unfold slope. destruct (S i ltac:(lia)) as [K|K].
    + destruct (Rlt_dec mask (nth i g 0)) as [|Q]; [apply A; auto|destruct K; contradiction].
    + destruct (Rlt_dec mask (nth i g 0)); [lra|]. apply B. intros [Q _]. lra.
Qed.
Lemma settled_open mask f g : 0 <= mask -> settled mask f g -> locally g (fun t : R => settled mask f t).
Proof.
  intros Hm [K|K].
  - apply (filter_imp (fun t => kept mask f t)); [intros t H; now left|]. now apply kept_open.
  - apply (locally_interval _ g (Finite 0) (Finite mask)); cbn; try lra. intros y A B. right. lra.
Qed.
Lemma masked_derive mask f g : 0 <= mask -> 0 < f -> settled mask f g ->
  is_derive (fun t : R => kl_masked mask f t) g (slope mask f g + veil mask g).
Proof.
  intros Hm Hf [K|K]; unfold slope, veil.
  - destruct K as [K1 K2]. destruct (Rlt_dec mask g); [|contradiction]. rewrite Rplus_0_r.
    apply (is_derive_ext_loc (fun t : R => kl_fn f t)); [|apply kl_fn_derive; lra].
    apply (locally_interval _ g (Finite mask) p_infty); cbn; auto. intros y A _. unfold kl_masked. destruct (Rlt_dec mask y); [auto|contradiction].
  - destruct (Rlt_dec mask g); [lra|]. replace (-1 + 1) with 0 by ring.
    apply (is_derive_ext_loc (fun _ : R => 0)); [|apply @is_derive_const].
    apply (locally_interval _ g (Finite 0) (Finite mask)); cbn; try lra. intros y A B. unfold kl_masked. destruct (Rlt_dec mask y); [lra|auto].
Qed.

Definition masked_obj (mask : R) (W w f g : list R) : R := quad W (map2 Rmult w (map2 (kl_masked mask) f g)).

Lemma weighted_sumn (F : R -> R -> R) W w f g : length w = length W -> length f = length W -> length g = length W ->
  quad W (map2 Rmult w (map2 F f g)) = sumn (length W) (fun i => nth i W 0 * (nth i w 0 * F (nth i f 0) (nth i g 0))).
Proof.
  intros H1 H2 H3. unfold quad. rewrite rdot_sumn by (rewrite !map2_length; lia). apply sumn_ext. intros i Hi.
  rewrite (nth_map2 Rmult w _ i 0 0 0) by (rewrite ?map2_length; lia). now rewrite (nth_map2 F f g i 0 0 0) by lia.
Qed.
Lemma weighted_derive (F : R -> R -> R) (W w h : list R) norm lays (C E : R -> list R) (x : R) (dG q : nat -> R) :
  length w = length W -> length h = length W -> length lays = length W ->
  (forall i, (i < length W)%nat ->
     is_derive (fun t : R => gsum norm (nth i lays []) (C t) (E t)) x (dG i) /\
     is_derive (fun t : R => F (nth i h 0) t) (gsum norm (nth i lays []) (C x) (E x)) (q i)) ->
  is_derive (fun t : R => quad W (map2 Rmult w (map2 F h (values norm lays (C t) (E t))))) x
    (sumn (length W) (fun i => nth i W 0 * (nth i w 0 * q i * dG i))).
Proof.
  intros Hw Hf Hl H.
  apply (is_derive_ext (fun t : R => sumn (length W) (fun i => nth i W 0 *
     (nth i w 0 * F (nth i h 0) (gsum norm (nth i lays []) (C t) (E t)))))).
  { intros t. rewrite weighted_sumn by (unfold values; rewrite ?map_length; auto).
    apply sumn_ext. intros i Hi. now rewrite nth_values by lia. }
  apply (is_derive_sumn (length W) (fun i t => nth i W 0 *
     (nth i w 0 * F (nth i h 0) (gsum norm (nth i lays []) (C t) (E t))))).
  intros i Hi. destruct (H i Hi) as [H1 H2].
  apply (is_derive_scal (fun t : R => nth i w 0 * F (nth i h 0) (gsum norm (nth i lays []) (C t) (E t))) x (nth i W 0)).
  replace (nth i w 0 * q i * dG i) with (nth i w 0 * (dG i * q i)) by ring.
  apply (is_derive_scal (fun t : R => F (nth i h 0) (gsum norm (nth i lays []) (C t) (E t))) x (nth i w 0)).
  apply (is_derive_comp (F (nth i h 0)) (fun t : R => gsum norm (nth i lays []) (C t) (E t))); auto.
Qed.

Definition grad (mask : R) (W w f : list R) norm lays a (c e : list R) (j : nat) : R :=
  sumn (length W) (fun i => nth i W 0 * (nth i w 0 * slope mask (nth i f 0) (gsum norm (nth i lays []) c e) * nth j (cut a norm c e (nth i lays [])) 0)).

Lemma func_masked s mask neg W w f norm lays N a x c e :
  scipy_setting s (MKL (Fin mask) neg) W w f norm lays N -> mode a x c e -> sized lays c e -> (norm = true -> positive e) ->
  0 <= mask -> positive f -> all_settled mask f (values norm lays c e) ->
  scipy_func s (map Fin x) a = Ok (Fin (masked_obj mask W w f (values norm lays c e)),
    map Fin (map (grad mask W w f norm lays a c e) (seq 0 (length x)))).
Proof.
  intros Hs Hm [Hc He] Hpe H0 Pf Hsm. destruct (scipy_facts _ _ _ _ _ _ _ _ Hs) as (m & mk & Hft & Hme & Hv & Hne & Hw & _).
  pose proof (ss_lenf _ _ _ _ _ _ _ _ Hs) as Hf. pose proof (ss_lenw _ _ _ _ _ _ _ _ Hs) as Hlw.
  pose proof (ss_lenl _ _ _ _ _ _ _ _ Hs) as Hl.
  assert (HL : length (values norm lays c e) = length W) by (unfold values; rewrite map_length; auto).
  unfold scipy_func. rewrite (emodel_fin s m norm lays (nfun lays) a x c e (fo_model _ _ _ _ _ Hft) Hv Hm Hc He Hpe).
  cbn [bind]. rewrite Hme, (fo_dens _ _ _ _ _ Hft), settled_value by (auto; lia). cbn [bind snd fst]. rewrite Hw.
  rewrite emul_fin by (rewrite map2_length; lia). cbn [bind].
  rewrite (fo_int _ _ _ _ _ Hft) by (rewrite !map2_length; lia). cbn [bind].
  rewrite emul_fin by (rewrite map2_length; lia). cbn [bind]. rewrite map_length.
  assert (LC : forall lay, In lay lays -> length (cut a norm c e lay) = length x).
  { intros lay Hi. apply (cut_length a norm c e lay x (nfun lays)); auto. apply (vf_len _ _ _ _ Hv); auto. }
  rewrite (mapM_ok _ (fun j => Fin (grad mask W w f norm lays a c e j))).
  - cbn [bind]. rewrite map_map. reflexivity.
  - intros j Hj. apply in_seq in Hj.
    replace (forallb _ _) with true.
    2:{ symmetry. apply forallb_forall. intros r Hr. apply in_map_iff in Hr. destruct Hr as (lay & <- & Hi).
        rewrite map_length, LC by auto. apply Nat.ltb_lt. lia. }
    rewrite (column_fin _ lays j (length x)) by (auto; lia).
    rewrite emul_fin by (rewrite !map2_length, map_length; lia). cbn [bind].
    rewrite (fo_int _ _ _ _ _ Hft) by (rewrite !map2_length, map_length; lia).
    do 2 f_equal. rewrite rdot_sumn by (rewrite !map2_length, map_length; lia). unfold grad. apply sumn_ext. intros i Hi.
    rewrite (nth_map2 Rmult _ _ i 0 0 0) by (rewrite ?map2_length, ?map_length; lia).
    rewrite (nth_map2 Rmult w _ i 0 0 0) by (rewrite ?map2_length; lia).
    rewrite (nth_map2 (slope mask) f _ i 0 0 0) by lia. rewrite nth_values by lia.
    rewrite (nth_indep (map _ lays) 0 ((fun lay => nth j (cut a norm c e lay) 0) [])) by (rewrite map_length; lia).
    now rewrite (map_nth (fun lay => nth j (cut a norm c e lay) 0)).
Qed.

Lemma settled_near mask (W f : list R) norm lays (C E : R -> list R) (x : R) (dG : nat -> R) : 0 <= mask ->
  length f = length W -> length lays = length W ->
  (forall i, (i < length W)%nat -> is_derive (fun t : R => gsum norm (nth i lays []) (C t) (E t)) x (dG i)) ->
  all_settled mask f (values norm lays (C x) (E x)) ->
  locally x (fun t : R => all_settled mask f (values norm lays (C t) (E t))).
Proof.
  intros Hm Hf Hl Hd Hs. unfold all_settled. apply locally_all. intros i Hi.
  pose proof (Hs i Hi) as H. rewrite nth_values in H by lia.
  apply (filter_imp (fun t : R => settled mask (nth i f 0) (gsum norm (nth i lays []) (C t) (E t)))).
  - intros t Ht. rewrite nth_values by lia. exact Ht.
  - assert (Hcont : continuous (fun t : R => gsum norm (nth i lays []) (C t) (E t)) x).
    { apply (ex_derive_continuous (V := R_NormedModule)). exists (dG i). apply Hd. lia. }
    apply Hcont. now apply settled_open.
Qed.

Definition hslope (mask : R) (W w : list R) norm lays a (c e : list R) (j : nat) : R :=
  sumn (length W) (fun i => nth i W 0 * (nth i w 0 * veil mask (gsum norm (nth i lays []) c e) * nth j (cut a norm c e (nth i lays [])) 0)).

(** One moved parameter. *)
Lemma masked_curve s mask neg W w f norm lays N a (X C E : R -> list R) (x0 : R) (j : nat) :
  scipy_setting s (MKL (Fin mask) neg) W w f norm lays N ->
  (forall t, mode a (X t) (C t) (E t) /\ sized lays (C t) (E t)) ->
  locally x0 (fun t => norm = true -> positive (E t)) ->
  (forall i, (i < length W)%nat -> is_derive (fun t : R => gsum norm (nth i lays []) (C t) (E t)) x0
     (nth j (cut a norm (C x0) (E x0) (nth i lays [])) 0)) ->
  0 <= mask -> positive f -> all_settled mask f (values norm lays (C x0) (E x0)) ->
  locally x0 (fun t => exists d', scipy_func s (map Fin (X t)) a =
      Ok (Fin (masked_obj mask W w f (values norm lays (C t) (E t))), d')) /\
  is_derive (fun t : R => masked_obj mask W w f (values norm lays (C t) (E t))) x0
    (grad mask W w f norm lays a (C x0) (E x0) j + hslope mask W w norm lays a (C x0) (E x0) j) /\
  is_derive (fun t : R => hidden mask W w (values norm lays (C x0) (E x0)) (values norm lays (C t) (E t))) x0
    (hslope mask W w norm lays a (C x0) (E x0) j).
Proof.
  intros Hs HX Hp Hd Hm Pf Hsm.
  pose proof (ss_lenf _ _ _ _ _ _ _ _ Hs) as Hf. pose proof (ss_lenw _ _ _ _ _ _ _ _ Hs) as Hlw.
  pose proof (ss_lenl _ _ _ _ _ _ _ _ Hs) as Hl.
  split; [|split].
  - apply (filter_imp (fun t => (norm = true -> positive (E t)) /\ all_settled mask f (values norm lays (C t) (E t)))).
    + intros t [H1 H2]. destruct (HX t) as [Hmo Hz].
      rewrite (func_masked s mask neg W w f norm lays N a (X t) (C t) (E t) Hs Hmo Hz H1 Hm Pf H2). eauto.
    + apply filter_and; auto.
      apply (settled_near mask W f norm lays C E x0 (fun i => nth j (cut a norm (C x0) (E x0) (nth i lays [])) 0)); auto.
  - unfold grad, hslope. rewrite <- sumn_plus.
    eapply is_derive_ext; [intros t; reflexivity|].
    erewrite sumn_ext; [apply (weighted_derive (kl_masked mask) W w f norm lays C E x0 (fun i => nth j (cut a norm (C x0) (E x0) (nth i lays [])) 0)
      (fun i => slope mask (nth i f 0) (gsum norm (nth i lays []) (C x0) (E x0)) + veil mask (gsum norm (nth i lays []) (C x0) (E x0)))); auto|].
    + intros i Hi. split; [auto|]. apply masked_derive; [exact Hm|apply positive_nth; auto; lia|].
      specialize (Hsm i ltac:(lia)). rewrite nth_values in Hsm by lia. exact Hsm.
    + intros i Hi. cbv beta. ring.
  - unfold hidden, hslope.
    apply (weighted_derive (fun a0 b => if Rlt_dec mask a0 then 0 else b) W w (values norm lays (C x0) (E x0)) norm lays C E x0
      (fun i => nth j (cut a norm (C x0) (E x0) (nth i lays [])) 0) (fun i => veil mask (gsum norm (nth i lays []) (C x0) (E x0)))); auto.
    + unfold values. rewrite map_length. lia.
    + intros i Hi. split; [auto|]. rewrite nth_values by lia. unfold veil.
      destruct (Rlt_dec mask (gsum norm (nth i lays []) (C x0) (E x0))); [apply @is_derive_const|apply @is_derive_id].
Qed.

Lemma masked_gradient s mask neg W w f norm lays N a x c e :
  scipy_setting s (MKL (Fin mask) neg) W w f norm lays N -> mode a x c e -> sized lays c e -> (norm = true -> positive e) ->
  0 <= mask -> positive f -> all_settled mask f (values norm lays c e) ->
  exists d, scipy_func s (map Fin x) a = Ok (Fin (quad W (map2 Rmult w (map2 (kl_masked mask) f (values norm lays c e)))), map Fin d) /\
    length d = length x /\
    forall k, (k < length x)%nat -> exists (O : R -> R) (C E : R -> list R) h,
      locally (nth k x 0) (fun t => exists d', scipy_func s (map Fin (upd x k t)) a = Ok (Fin (O t), d')) /\
      (forall t, mode a (upd x k t) (C t) (E t) /\ sized lays (C t) (E t)) /\
      is_derive (fun t : R => hidden mask W w (values norm lays c e) (values norm lays (C t) (E t))) (nth k x 0) h /\
      is_derive O (nth k x 0) (nth k d 0 + h).
Proof.
  intros Hs Hm Hz Hpe H0 Pf Hsm.
  pose proof (func_masked s mask neg W w f norm lays N a x c e Hs Hm Hz Hpe H0 Pf Hsm) as HF.
  eexists. split; [exact HF|]. split; [now rewrite map_length, seq_length|].
  destruct (scipy_facts _ _ _ _ _ _ _ _ Hs) as (m & mk & Hft & Hme & Hv & Hne & _).
  pose proof (ss_lenl _ _ _ _ _ _ _ _ Hs) as Hl.
  assert (Hll : forall i, (i < length W)%nat -> length (nth i lays []) = nfun lays).
  { intros i Hi. eapply vf_len; eauto. apply nth_In. lia. }
  destruct Hz as [Hc He]. intros k Hk.
  assert (Dk : nth k (map (grad mask W w f norm lays a c e) (seq 0 (length x))) 0 = grad mask W w f norm lays a c e k).
  { rewrite (nth_indep _ 0 (grad mask W w f norm lays a c e 0)) by (rewrite map_length, seq_length; auto). rewrite map_nth, seq_nth; auto. }
  rewrite Dk.
  (* moving a coefficient or an exponent *)
  assert (MC : forall kc, (kc < nfun lays)%nat -> nth k x 0 = nth kc c 0 ->
    (forall t, mode a (upd x k t) (upd c kc t) e) ->
    (forall i, (i < length W)%nat -> nth k (cut a norm c e (nth i lays [])) 0 = nth kc (bcol norm (nth i lays []) e) 0) ->
    exists (O : R -> R) (C E : R -> list R) h,
      locally (nth k x 0) (fun t => exists d', scipy_func s (map Fin (upd x k t)) a = Ok (Fin (O t), d')) /\
      (forall t, mode a (upd x k t) (C t) (E t) /\ sized lays (C t) (E t)) /\
      is_derive (fun t : R => hidden mask W w (values norm lays c e) (values norm lays (C t) (E t))) (nth k x 0) h /\
      is_derive O (nth k x 0) (grad mask W w f norm lays a c e k + h)).
  { intros kc Hkc E0 HX Hcut. assert (U : upd c kc (nth k x 0) = c) by (rewrite E0; apply upd_same; lia).
    destruct (masked_curve s mask neg W w f norm lays N a (fun t => upd x k t) (fun t => upd c kc t) (fun _ => e) (nth k x 0) k Hs) as (A & B & D); cbv beta in *; rewrite ?U in *; auto.
    - intros t. split; auto. split; rewrite ?upd_length; auto.
    - apply filter_forall. auto.
    - intros i Hi. rewrite Hcut, E0 by auto. apply is_derive_gsum_c; rewrite ?Hll; auto; lia.
    - eexists _, (fun t => upd c kc t), (fun _ => e), _. split; [exact A|]. split; [|split; [exact D|exact B]].
      intros t. split; auto. split; rewrite ?upd_length; auto. }
  assert (ME : forall ke, (ke < nfun lays)%nat -> nth k x 0 = nth ke e 0 ->
    (forall t, mode a (upd x k t) c (upd e ke t)) ->
    (forall i, (i < length W)%nat -> nth k (cut a norm c e (nth i lays [])) 0 = nth ke (ecol norm (nth i lays []) c e) 0) ->
    exists (O : R -> R) (C E : R -> list R) h,
      locally (nth k x 0) (fun t => exists d', scipy_func s (map Fin (upd x k t)) a = Ok (Fin (O t), d')) /\
      (forall t, mode a (upd x k t) (C t) (E t) /\ sized lays (C t) (E t)) /\
      is_derive (fun t : R => hidden mask W w (values norm lays c e) (values norm lays (C t) (E t))) (nth k x 0) h /\
      is_derive O (nth k x 0) (grad mask W w f norm lays a c e k + h)).
  { intros ke Hke E0 HX Hcut. assert (U : upd e ke (nth k x 0) = e) by (rewrite E0; apply upd_same; lia).
    destruct (masked_curve s mask neg W w f norm lays N a (fun t => upd x k t) (fun _ => c) (fun t => upd e ke t) (nth k x 0) k Hs) as (A & B & D); cbv beta in *; rewrite ?U in *; auto.
    - intros t. split; auto. split; rewrite ?upd_length; auto.
    - destruct norm; [|apply filter_forall; discriminate].
      rewrite E0. apply (filter_imp (fun t => positive (upd e ke t))); [auto|]. apply positive_near; auto. lia.
    - intros i Hi. rewrite Hcut, E0 by auto. apply is_derive_gsum_e; rewrite ?Hll; auto; try lia.
      intros En. apply positive_nth; auto. lia.
    - eexists _, (fun _ => c), (fun t => upd e ke t), _. split; [exact A|]. split; [|split; [exact D|exact B]].
      intros t. split; auto. split; rewrite ?upd_length; auto. }
  destruct Hm as [c e|c e|c e].
  - rewrite app_length in Hk. destruct (Nat.lt_ge_cases k (length c)) as [H1|H1].
    + apply (MC k); try lia.
      * now rewrite app_nth1 by auto.
      * intros t. rewrite upd_app_l by auto. constructor.
      * intros i Hi. cbn [cut]. rewrite app_nth1; auto. rewrite bcol_length; rewrite ?Hll; auto; lia.
    + apply (ME (k - length c)%nat); try lia.
      * now rewrite app_nth2 by auto.
      * intros t. rewrite upd_app_r by auto. constructor.
      * intros i Hi. cbn [cut]. rewrite app_nth2; rewrite bcol_length; rewrite ?Hll; auto; try lia. do 2 f_equal. lia.
  - apply (MC k); auto; try lia; try (intros; constructor).
  - apply (ME k); auto; try lia; try (intros; constructor).
Qed.

(** The size of the difference for a coefficient. *)
Lemma hidden_coefficient mask W w f norm lays c e k h : 0 <= mask -> length f = length W -> length w = length W -> length lays = length W ->
  (forall lay, In lay lays -> length lay = nfun lays) -> nonneg W -> nonneg w ->
  sized lays c e -> positive c -> all_settled mask f (values norm lays c e) -> (k < nfun lays)%nat ->
  is_derive (fun t : R => hidden mask W w (values norm lays c e) (values norm lays (upd c k t) e)) (nth k c 0) h ->
  0 <= h <= mask / nth k c 0 * hidden mask W w (values norm lays c e) (repeat 1 (length W)) /\
  forall i, (i < length W)%nat -> 0 < nth i W 0 -> 0 < nth i w 0 -> nth i (values norm lays c e) 0 <= mask ->
    0 < nth k (bcol norm (nth i lays []) e) 0 -> 0 < h.
Proof.
  intros Hm Lf Lw Ll Hll NW Nw [Lc Le] Pc S Hk D.
  set (T := fun i => nth i W 0 * (nth i w 0 * veil mask (gsum norm (nth i lays []) c e) * nth k (bcol norm (nth i lays []) e) 0)).
  assert (L2 : forall i, (i < length W)%nat -> length (nth i lays []) = nfun lays) by (intros i Hi; apply Hll, nth_In; lia).
  assert (U : upd c k (nth k c 0) = c) by (apply upd_same; lia).
  assert (Eh : h = sumn (length W) T).
  { rewrite <- (is_derive_unique _ _ _ D). symmetry. symmetry. apply is_derive_unique. unfold hidden, T.
    apply (weighted_derive (fun a0 b => if Rlt_dec mask a0 then 0 else b) W w (values norm lays c e) norm lays (fun t => upd c k t) (fun _ => e) (nth k c 0)
      (fun i => nth k (bcol norm (nth i lays []) e) 0) (fun i => veil mask (gsum norm (nth i lays []) c e))); auto.
    - unfold values. rewrite map_length. lia.
    - intros i Hi. split; [apply is_derive_gsum_c; rewrite ?L2; auto; lia|]. rewrite nth_values by lia. cbv beta. rewrite U. unfold veil.
      destruct (Rlt_dec mask (gsum norm (nth i lays []) c e)); [apply @is_derive_const|apply @is_derive_id]. }
  assert (Pk : 0 < nth k c 0) by (apply positive_nth; auto; lia).
  assert (B0 : forall i, (i < length W)%nat -> 0 <= nth k (bcol norm (nth i lays []) e) 0 /\ nth k c 0 * nth k (bcol norm (nth i lays []) e) 0 <= gsum norm (nth i lays []) c e).
  { intros i Hi. specialize (L2 i Hi). clear -Pc L2 Lc Le Hk. rewrite <- Lc in Hk. assert (L3 : length (nth i lays []) = length c) by lia. assert (L4 : length e = length c) by lia. clear L2 Lc Le.
    revert e k Hk L4. generalize dependent (nth i lays []). clear lays. induction Pc as [|c0 c P0 Pc IH]; intros [|[p r] l] L3 [|a e] k Hk L4; try discriminate; [cbn in Hk; lia|].
    cbn [bcol gsum]. assert (G0 : 0 <= basis_fn norm p a r) by apply basis_fn_nonneg.
    assert (GS : 0 <= gsum norm l c e) by (apply gsum_nonneg; [cbn in *; lia|cbn in *; lia|apply positive_nonneg, Pc]).
    destruct k as [|k]; cbn [nth].
    - split; [exact G0|]. lra.
    - destruct (IH l ltac:(cbn in L3; lia) e k ltac:(cbn in Hk; lia) ltac:(cbn in L4; lia)) as [A B]. split; [exact A|]. assert (0 <= c0 * basis_fn norm p a r) by (apply Rmult_le_pos; lra). lra. }
  assert (T0 : forall i, (i < length W)%nat -> 0 <= T i).
  { intros i Hi. unfold T. apply Rmult_le_pos; [apply nonneg_nth; auto|]. apply Rmult_le_pos; [|apply B0; auto]. apply Rmult_le_pos; [apply nonneg_nth; auto|].
    unfold veil. destruct (Rlt_dec _ _); lra. }
  split; [split|].
  - rewrite Eh. apply sumn_nonneg. exact T0.
  - rewrite Eh. unfold hidden. rewrite weighted_sumn by (rewrite ?repeat_length; unfold values; rewrite ?map_length; auto). rewrite <- sumn_scal.
    apply sumn_le. intros i Hi. rewrite nth_values by lia. rewrite (nth_indep (repeat 1 (length W)) 0 1) by (rewrite repeat_length; exact Hi). rewrite nth_repeat. unfold T, veil.
    destruct (B0 i Hi) as [B1 B2]. destruct (Rlt_dec mask (gsum norm (nth i lays []) c e)) as [Q|Q]; [lra|].
    assert (Bb : nth k (bcol norm (nth i lays []) e) 0 <= mask / nth k c 0).
    { apply Rmult_le_reg_l with (nth k c 0); [exact Pk|]. replace (nth k c 0 * (mask / nth k c 0)) with mask by (field; lra). lra. }
    assert (Ww : 0 <= nth i W 0 * nth i w 0) by (apply Rmult_le_pos; apply nonneg_nth; auto).
    rewrite !Rmult_1_r. replace (nth i W 0 * (nth i w 0 * nth k (bcol norm (nth i lays []) e) 0)) with (nth i W 0 * nth i w 0 * nth k (bcol norm (nth i lays []) e) 0) by ring.
    replace (mask / nth k c 0 * (nth i W 0 * nth i w 0)) with (nth i W 0 * nth i w 0 * (mask / nth k c 0)) by ring. apply Rmult_le_compat_l; auto.
  - intros i Hi P1 P2 P3 P4. rewrite Eh. apply sumn_pos; [exact T0|]. exists i. split; [exact Hi|]. unfold T, veil. rewrite nth_values in P3 by lia.
    destruct (Rlt_dec mask _); [lra|]. rewrite Rmult_1_r. apply Rmult_lt_0_compat; [exact P1|]. now apply Rmult_lt_0_compat.
Qed.

Lemma both_split x c e lays n k t C E : x = c ++ e -> length c = n -> length e = n -> (k < n)%nat ->
  mode SBoth (upd x k t) C E -> sized lays C E -> nfun lays = n -> C = upd c k t /\ E = e.
Proof.
  intros -> Lc Le Hk Hm [L1 L2] Hn. rewrite upd_app_l in Hm by lia. inversion Hm as [c1 e1 H1| |]; subst.
  assert (Q : forall (a b a' b' : list R), a ++ b = a' ++ b' -> length a = length a' -> a = a' /\ b = b').
  { clear. induction a as [|y a IH]; intros b [|z a'] b' H L; try discriminate; [auto|]. cbn in H, L. injection H as -> H. destruct (IH b a' b' H ltac:(lia)) as [-> ->]. auto. }
  apply Q; [assumption|]. rewrite upd_length. lia.
Qed.

Lemma masked_coefficients s mask neg W w f norm lays N c e :
  scipy_setting s (MKL (Fin mask) neg) W w f norm lays N -> sized lays c e -> (norm = true -> positive e) ->
  0 <= mask -> positive f -> positive c -> nonneg W -> nonneg w -> all_settled mask f (values norm lays c e) ->
  exists o d, scipy_func s (map Fin (c ++ e)) SBoth = Ok (o, map Fin d) /\
    forall k, (k < nfun lays)%nat -> exists (O : R -> R) h,
      locally (nth k c 0) (fun t => exists d', scipy_func s (map Fin (upd c k t ++ e)) SBoth = Ok (Fin (O t), d')) /\
      is_derive O (nth k c 0) (nth k d 0 + h) /\
      0 <= h <= mask / nth k c 0 * hidden mask W w (values norm lays c e) (repeat 1 (length W)) /\
      forall i, (i < length W)%nat -> 0 < nth i W 0 -> 0 < nth i w 0 -> nth i (values norm lays c e) 0 <= mask ->
        0 < basis_fn norm (kind (nth i lays []) k) (nth k e 0) (away (nth i lays []) k) -> 0 < h.
Proof.
  intros Hs Hz Hpe H0 Pf Pc NW Nw Hsm.
  destruct (masked_gradient s mask neg W w f norm lays N SBoth (c ++ e) c e Hs (mode_both c e) Hz Hpe H0 Pf Hsm) as (d & E & Ld & G).
  eexists _, d. split; [exact E|]. intros k Hk. pose proof Hz as [Lc Le].
  destruct (G k ltac:(rewrite app_length; lia)) as (O & C & E' & h & A & M & D & B).
  assert (CE : forall t, C t = upd c k t /\ E' t = e).
  { intros t. destruct (M t) as [M1 M2]. apply (both_split (c ++ e) c e lays (nfun lays) k t); auto. }
  rewrite app_nth1 in A, D, B by lia. exists O, h. split; [|split; [exact B|]].
  - eapply filter_imp; [|exact A]. intros t. cbv beta. rewrite upd_app_l by lia. auto.
  - destruct (scipy_facts _ _ _ _ _ _ _ _ Hs) as (m & mk & Hft & Hme & Hv & Hne & _).
    destruct (hidden_coefficient mask W w f norm lays c e k h H0 (ss_lenf _ _ _ _ _ _ _ _ Hs) (ss_lenw _ _ _ _ _ _ _ _ Hs) (ss_lenl _ _ _ _ _ _ _ _ Hs)) as [Q1 Q2]; auto.
    + intros lay Hi. apply (vf_len _ _ _ _ Hv); auto.
    + eapply is_derive_ext; [|exact D]. intros t. cbv beta. destruct (CE t) as [-> ->]. reflexivity.
    + split; [exact Q1|]. intros i Hi P1 P2 P3 P4. apply (Q2 i Hi P1 P2 P3). pose proof (ss_lenl _ _ _ _ _ _ _ _ Hs) as Ll.
      rewrite nth_bcol; [exact P4| |lia]. rewrite (vf_len _ _ _ _ Hv); [lia|]. apply nth_In. lia.
Qed.
