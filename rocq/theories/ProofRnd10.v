(** Rounded arithmetic: formats without underflow, and exact arithmetic. *)
From Coq Require Import Reals List ZArith Lia Lra Permutation.
From Flocq Require Import Core Relative.
From Verif Require Import XR SpecDens SpecRnd SpecRnd2 SpecBin ModelRnd ModelRnd2 ProofRnd ProofRnd2 ProofRnd3 ProofRnd4 ProofRnd5 ProofRnd6 ProofRnd7 ProofRnd8 ProofRnd9.
Import ListNotations.
Local Open Scope R_scope.

Lemma bin_normal : forall emin prec, (1 < prec)%Z -> normal (bpow radix2 (- prec)) (bpow radix2 (emin + prec - 1)) (bin_rnd emin prec).
Proof.
  intros emin prec P x L. assert (P0 : Prec_gt_0 prec) by (unfold Prec_gt_0; lia).
  assert (E := relative_error_N_FLT radix2 emin prec P0 (fun x => negb (Z.even x)) x L).
  replace (bpow radix2 (- prec)) with (/ 2 * bpow radix2 (- prec + 1)) by apply half_pow.
  exact E.
Qed.

Lemma free_normal : forall prec lo, (1 < prec)%Z -> normal (bpow radix2 (- prec)) lo (free_rnd prec).
Proof.
  intros prec lo P x _. assert (E := rd_err _ _ _ _ (free_rounding prec P) x). lra.
Qed.

(** The power function rounded correctly. *)
Lemma round_pow : forall u lo eta fmt rnd, rounding u eta fmt rnd -> u <= 1 / 8 -> normal u lo rnd ->
  pow_error u lo 1 (fun x y => rnd (Rpower x y)).
Proof.
  intros u lo eta fmt rnd H U N. split.
  - intros x y _. apply (rnd_pos u eta fmt rnd H). left. apply exp_pos.
  - intros x y _ L. assert (P : 0 < Rpower x y) by apply exp_pos.
    apply (within_normal u eta fmt rnd H U); [lra|]. apply N. rewrite Rabs_pos_eq; lra.
Qed.

Lemma model_exact : forall fused t norm lay c e, length lay = length c -> length e = length c -> orders (length c) t ->
  (norm = true -> Forall (Rlt 0) e) ->
  fl_model (fun x => x) exp Rpower PI fused t norm lay c e = gsum norm lay c e.
Proof.
  intros fused t norm lay c e Ll Le O Pe. unfold fl_model, fl_dot.
  assert (Lb := basis_length (fun x => x) Rpower PI exp norm lay e ltac:(lia)).
  rewrite fl_sum_exact, tsum_all by (rewrite fl_prods_length; [exact O | congruence]).
  clear O Lb. generalize 0%nat. revert c e Ll Le Pe.
  induction lay as [|[p r] lay IH]; intros [|b c] [|a e] Ll Le Pe n; try discriminate; [reflexivity|].
  cbn [fl_basis fl_prods gsum]. unfold rsum in *. cbn [fold_right].
  rewrite IH by (try (simpl in *; lia); intro N; specialize (Pe N); inversion Pe; assumption).
  f_equal. assert (El : fl_elem (fun x => x) exp Rpower PI norm p r a = basis_fn norm p a r).
  { unfold fl_elem, basis_fn, fl_norm, norm_const. replace (r ^ 2) with (r * r) by (simpl; ring).
    assert (0 < Rpower PI (3 / 2)) by apply exp_pos. destruct p, norm; try ring. field. lra. }
  rewrite El. destruct (fused n); ring.
Qed.

(** Without underflow positive parameters stay positive and every pass succeeds. *)
Section Positive.
Context (rnd fexp : R -> R) (fpow : R -> R -> R) (pi : R).
Context (u : R) (fmt : R -> Prop) (H : rounding u 0 fmt rnd) (Hu8 : u <= 1 / 8).
Context (kp : nat) (Pw : pow_error u 0 kp fpow) (Hpi : Rabs (pi - PI) <= u * PI).
Context (v : R) (X : exp_error v 0 fexp) (Hv : v < 1).
Notation rows := (fl_rows rnd fexp fpow pi).
Notation params := (fl_params rnd fexp fpow pi).
Notation fit := (fl_fit rnd fexp fpow pi).

Lemma rnd_gt : forall x, 0 < x -> 0 < rnd x.
Proof.
  intros x P. eapply (within_pos u fmt rnd H) with (k := 1%nat); [exact P|].
  apply (within_rnd u fmt rnd H); [lra | apply within_refl].
Qed.

Lemma elem_gt : forall norm p r a, 0 < a -> (p = true -> r <> 0) -> 0 < fl_elem rnd fexp fpow pi norm p r a.
Proof.
  intros norm p r a Ha Hr. unfold fl_elem. set (g' := fexp (rnd (- a * rnd (r * r)))).
  destruct (pi_within u 0 fmt rnd H Hu8 pi Hpi) as [P1 _].
  assert (Hg : 0 < g').
  { destruct X as (Hv0 & _ & HX). destruct (HX (rnd (- a * rnd (r * r)))) as [_ E]; [apply (arg_neg u 0 fmt rnd H); lra|].
    fold g' in E. assert (P : 0 < exp (rnd (- a * rnd (r * r)))) by apply exp_pos. set (x := exp _) in *.
    assert (E' := Rle_abs (- (g' - x))). rewrite Rabs_Ropp in E'. assert (v * x < 1 * x) by (apply Rmult_lt_compat_r; lra). lra. }
  assert (Pow : forall x y, 0 < x -> 0 < fpow x y).
  { intros x y P. assert (Q : 0 < Rpower x y) by apply exp_pos. eapply within_pos; [exact H | exact Q|].
    apply Pw; [exact P | lra]. }
  assert (Pn : forall p, 0 < fl_norm rnd fpow pi p a).
  { intros [|]; unfold fl_norm.
    - apply rnd_gt. apply Rdiv_lt_0_compat; apply Pow; lra.
    - apply Pow, rnd_gt, Rdiv_lt_0_compat; lra. }
  destruct p.
  - assert (R1 : 0 < rnd (r * r)) by (apply rnd_gt; assert (r <> 0) by auto; assert (0 < Rsqr r) by (apply Rsqr_pos_lt; assumption); assumption).
    assert (Pg : 0 < rnd (g' * rnd (r * r))) by (apply rnd_gt, Rmult_lt_0_compat; assumption).
    destruct norm; [|exact Pg]. apply rnd_gt.
    assert (0 < rnd (rnd (g' * rnd (r * r)) * fl_norm rnd fpow pi true a)); [|lra].
    apply rnd_gt, Rmult_lt_0_compat; auto.
  - destruct norm; [|exact Hg]. apply rnd_gt, Rmult_lt_0_compat; auto.
Qed.

(** A rule sees a positive value at a point of positive weight. *)
Lemma wsum_gt : forall W y i, Forall (Rle 0) W -> Forall (Rle 0) y -> length y = length W -> 0 < nth i W 0 -> 0 < nth i y 0 -> 0 < wsum W y.
Proof.
  intros W y i PW. revert y i. induction PW as [|w W Pw0 PW IH]; intros y i Py L Gw Gy; [destruct i; simpl in Gw; lra|].
  destruct Py as [|y0 y P0 Py]; [discriminate|]. cbn [wsum].
  assert (0 <= wsum W y) by (apply wsum_pos; assumption). assert (0 <= w * y0) by (apply Rmult_le_pos; assumption).
  destruct i as [|i]; cbn [nth] in *.
  - assert (0 < w * y0) by (apply Rmult_lt_0_compat; assumption). lra.
  - assert (0 < wsum W y) by (apply (IH y i); auto). lra.
Qed.
Lemma rule_gt : forall kI W quadr y i, rule u fmt kI W quadr -> length y = length W -> Forall fmt y -> Forall (Rle 0) y ->
  0 < nth i W 0 -> 0 < nth i y 0 -> 0 < quadr y.
Proof.
  intros kI W quadr y i (PW & Q & A) L F P Gw Gy. eapply (within_pos u fmt rnd H); [|apply A; assumption].
  apply (wsum_gt W y i); assumption.
Qed.

Lemma nth_mul : forall x y i, length x = length y -> (i < length x)%nat -> nth i (fl_mul rnd x y) 0 = rnd (nth i x 0 * nth i y 0).
Proof.
  induction x as [|a x IH]; intros [|b y] i L I; try discriminate; [simpl in I; lia|].
  destruct i as [|i]; [reflexivity|]. cbn [fl_mul nth]. apply IH; simpl in *; lia.
Qed.

Lemma integrand_gt : forall mask f g b i, 0 <= mask -> length g = length f -> length b = length f -> (i < length f)%nat ->
  0 < nth i f 0 -> 0 < nth i b 0 -> 0 < nth i (fl_integrand rnd mask f g b) 0.
Proof.
  intros mask f g b i Hm Lg Lb I Gf Gb. unfold fl_integrand.
  assert (Lc : length (combine f g) = length f) by (rewrite combine_length; lia).
  rewrite nth_mul by (rewrite map_length, Lc; lia).
  apply rnd_gt, Rmult_lt_0_compat; [|exact Gb].
  rewrite (nth_indep _ 0 ((fun q => fl_ratio rnd mask (fst q) (snd q)) (0, 0))) by (rewrite map_length, Lc; exact I).
  rewrite (map_nth (fun q => fl_ratio rnd mask (fst q) (snd q))). rewrite combine_nth by auto. cbn [fst snd].
  unfold fl_ratio. destruct (Rle_dec _ mask) as [_|N]; [lra|]. apply rnd_gt, Rdiv_lt_0_compat; [exact Gf | lra].
Qed.

Lemma nth_rows : forall norm ty D e i k, length ty = length e -> Forall (fun ds => length ds = length e) D ->
  (i < length D)%nat -> (k < length e)%nat ->
  nth i (map (fun row => nth k row 0) (rows norm ty D e)) 0 =
  fl_elem rnd fexp fpow pi norm (nth k ty false) (nth k (nth i D []) 0) (nth k e 0).
Proof.
  intros norm ty D e i k Lt LD I K. unfold fl_rows. rewrite map_map.
  rewrite (nth_indep _ 0 ((fun ds => nth k (fl_basis rnd fexp fpow pi norm (combine ty ds) e) 0) [])) by (rewrite map_length; exact I).
  rewrite (map_nth (fun ds => nth k (fl_basis rnd fexp fpow pi norm (combine ty ds) e) 0)).
  assert (Ld : length (nth i D []) = length e).
  { rewrite Forall_forall in LD. apply LD, nth_In, I. }
  rewrite nth_basis; [| rewrite combine_length; lia | exact K].
  rewrite combine_nth by lia. reflexivity.
Qed.

Lemma nth_dist : forall D k i, (i < length D)%nat -> nth i (map (fun ds => nth k ds 0) D) 0 = nth k (nth i D []) 0.
Proof.
  intros D k i I. rewrite (nth_indep _ 0 ((fun ds => nth k ds 0) [])) by (rewrite map_length; exact I).
  apply (map_nth (fun ds => nth k ds 0)).
Qed.

Lemma gt_ge : forall l, Forall (Rlt 0) l -> Forall (Rle 0) l.
Proof. intros l P. eapply Forall_impl; [|exact P]. intros a Ha. cbn beta in *. lra. Qed.

Lemma params_runs : forall kI W quadr fused t norm mask N f ty D oc oe c e i,
  rule u fmt kI W quadr -> 0 < N -> 0 <= mask ->
  length f = length W -> length D = length f -> Forall fmt f -> Forall (Rle 0) f ->
  length e = length c -> length ty = length c -> Forall (fun ds => length ds = length c) D ->
  Forall (Rlt 0) c -> Forall (Rlt 0) e ->
  (i < length f)%nat -> 0 < nth i W 0 -> 0 < nth i f 0 -> Forall (fun d => d <> 0) (nth i D []) ->
  exists c' e', params quadr fused t norm mask N f ty D oc oe c e = Some (c', e') /\ Forall (Rlt 0) c' /\ Forall (Rlt 0) e'.
Proof.
  intros kI W quadr fused t norm mask N f ty D oc oe c e i Ru HN Hm Lf LD Ff Pf Le Lt Ld Pc Pe I GW Gf Gd.
  set (M := rows norm ty D e). set (g := map (fun row => fl_dot rnd fused t row c) M).
  assert (LM : length M = length f) by (unfold M, fl_rows; rewrite map_length; exact LD).
  assert (Lg : length g = length f) by (unfold g; rewrite map_length; exact LM).
  assert (PM : Forall (Forall (Rle 0)) M).
  { apply (rows_pos rnd fexp fpow pi u 0 fmt H Hu8 0 kp Pw Hpi v 0 X), gt_ge, Pe. }
  assert (Col : forall k, (k < length c)%nat -> let b := map (fun row => nth k row 0) M in let r := map (fun ds => nth k ds 0) D in
     0 < fl_avrg1 rnd quadr mask f g b /\ 0 < fl_avrg2 rnd quadr mask f g b r).
  { intros k K b r.
    assert (Lb : length b = length f) by (unfold b; rewrite map_length; exact LM).
    assert (Lr : length r = length f) by (unfold r; rewrite map_length; exact LD).
    assert (Pb : Forall (Rle 0) b) by (apply col_pos, PM).
    assert (Dk : nth k (nth i D []) 0 <> 0).
    { rewrite Forall_forall in Gd. apply Gd, nth_In. rewrite Forall_forall in Ld. rewrite (Ld (nth i D [])); [exact K|]. apply nth_In. lia. }
    assert (Gb : 0 < nth i b 0).
    { unfold b, M. rewrite nth_rows; [| congruence | rewrite Le; exact Ld | lia | lia].
      apply elem_gt; [|intros _; exact Dk]. rewrite Forall_forall in Pe. apply Pe, nth_In. lia. }
    set (y := fl_integrand rnd mask f g b).
    assert (Gy : 0 < nth i y 0) by (apply integrand_gt; auto).
    assert (Py : Forall (Rle 0) y) by (apply (integrand_pos u 0 fmt rnd H); assumption).
    assert (Ly : length y = length f) by (unfold y; rewrite integrand_length; auto).
    split.
    - apply (rule_gt kI W quadr y i Ru); auto; [lia | apply (integrand_fmt u fmt rnd H)].
    - apply (rule_gt kI W quadr _ i Ru); auto.
      + rewrite fl_mul_length, mul_terms_length; rewrite ?map_length; fold y; lia.
      + apply (fl_mul_fmt u 0 fmt rnd H).
      + apply (fl_mul_Forall_pos u 0 fmt rnd H); [exact Py | apply (squares_pos rnd u 0 fmt H)].
      + rewrite nth_mul by (rewrite ?map_length; fold y; lia). apply rnd_gt, Rmult_lt_0_compat; [exact Gy|].
        rewrite (nth_indep _ 0 ((fun x => rnd (x * x)) 0)) by (rewrite map_length; lia).
        rewrite (map_nth (fun x => rnd (x * x))). unfold r. rewrite nth_dist by lia.
        apply rnd_gt. assert (S : 0 < Rsqr (nth k (nth i D []) 0)) by (apply Rsqr_pos_lt, Dk). exact S. }
  assert (A := rule_accurate u fmt _ _ _ Ru).
  assert (If : 0 < wsum W f) by (apply (wsum_gt W f i); auto; apply Ru).
  assert (Pl : 0 < rnd (quadr f / N)) by (eapply (lm_pos u fmt rnd H); eauto).
  unfold fl_params. fold M. fold g.
  destruct (existsb _ (seq 0 (length c))) eqn:Z.
  { apply existsb_exists in Z. destruct Z as (k & K & Z). apply in_seq in K.
    destruct (Col k ltac:(lia)) as [_ G2]. destruct (Req_EM_T _ 0) as [E|_]; [cbn beta in *; lra | discriminate]. }
  rewrite Bool.andb_false_r. eexists. eexists. split; [reflexivity|]. split.
  - destruct oc; [|exact Pc]. apply Forall_map, Forall_forall. intros k K. apply in_seq in K.
    destruct (Col k ltac:(lia)) as [G1 _]. apply rnd_gt, Rdiv_lt_0_compat; [|exact Pl]. apply rnd_gt, Rmult_lt_0_compat; [|exact G1].
    rewrite Forall_forall in Pc. apply Pc, nth_In. lia.
  - destruct oe; [|exact Pe]. apply Forall_map, Forall_forall. intros k K. apply in_seq in K.
    destruct (Col k ltac:(lia)) as [G1 G2]. unfold fl_expon. apply rnd_gt, Rdiv_lt_0_compat; [|exact G2].
    apply rnd_gt, Rmult_lt_0_compat; [destruct (nth k ty false); lra | exact G1].
Qed.

Lemma fit_runs : forall kI W quadr fused t norm mask N f ty D oc oe n c e i,
  rule u fmt kI W quadr -> 0 < N -> 0 <= mask ->
  length f = length W -> length D = length f -> Forall fmt f -> Forall (Rle 0) f ->
  length e = length c -> length ty = length c -> Forall (fun ds => length ds = length c) D ->
  Forall (Rlt 0) c -> Forall (Rlt 0) e ->
  (i < length f)%nat -> 0 < nth i W 0 -> 0 < nth i f 0 -> Forall (fun d => d <> 0) (nth i D []) ->
  exists c' e', fit quadr fused t norm mask N f ty D oc oe n c e = Some (c', e') /\ Forall (Rlt 0) c' /\ Forall (Rlt 0) e'.
Proof.
  intros kI W quadr fused t norm mask N f ty D oc oe n c e i Ru HN Hm Lf LD Ff Pf Le Lt Ld Pc Pe I GW Gf Gd.
  revert c e Le Lt Ld Pc Pe. induction n as [|n IH]; intros c e Le Lt Ld Pc Pe.
  - exists c, e. cbn [fl_fit]. auto.
  - destruct (params_runs kI W quadr fused t norm mask N f ty D oc oe c e i Ru HN Hm Lf LD Ff Pf Le Lt Ld Pc Pe I GW Gf Gd)
      as (c1 & e1 & E1 & P1 & P2).
    assert (L1 := params_length rnd fexp fpow pi _ _ _ _ _ _ _ _ _ _ _ _ _ _ _ Le E1). destruct L1 as [L1 L2].
    cbn [fl_fit]. rewrite E1. apply IH; try congruence.
    eapply Forall_impl; [|exact Ld]. intros ds L. cbn beta in *. congruence.
Qed.

(** Values of the model are positive where one function is. *)
Lemma basis_nth_gt : forall norm ty ds e k, length ty = length e -> length ds = length e -> Forall (Rlt 0) e -> (k < length e)%nat ->
  (nth k ty false = false \/ nth k ds 0 <> 0) -> 0 < nth k (fl_basis rnd fexp fpow pi norm (combine ty ds) e) 0.
Proof.
  intros norm ty ds e k Lt Ld Pe K G. rewrite nth_basis; [| rewrite combine_length; lia | exact K].
  rewrite combine_nth by lia. cbn [fst snd]. apply elem_gt.
  - rewrite Forall_forall in Pe. apply Pe, nth_In, K.
  - intros T. destruct G as [G|G]; [congruence | exact G].
Qed.

Lemma model_gt : forall fused t norm ty ds c e k, length ty = length c -> length ds = length c -> length e = length c ->
  orders (length c) t -> Forall (Rlt 0) c -> Forall (Rlt 0) e -> (k < length c)%nat ->
  (nth k ty false = false \/ nth k ds 0 <> 0) -> 0 < fl_model rnd fexp fpow pi fused t norm (combine ty ds) c e.
Proof.
  intros fused t norm ty ds c e k Lt Ld Le O Pc Pe K G. unfold fl_model.
  assert (Pb := basis_pos u 0 fmt rnd H Hu8 0 kp fpow pi Pw Hpi v 0 fexp X norm (combine ty ds) e (gt_ge _ Pe)).
  assert (Lb := basis_length rnd fpow pi fexp norm (combine ty ds) e ltac:(rewrite combine_length; lia)).
  assert (Gk := basis_nth_gt norm ty ds e k ltac:(lia) ltac:(lia) Pe ltac:(lia) G).
  set (b := fl_basis _ _ _ _ _ _ _) in *.
  destruct (dot_within u fmt rnd H fused t b c ltac:(lia) O Pb (gt_ge _ Pc)) as [_ D].
  eapply (within_pos u fmt rnd H); [|exact D]. apply (wsum_gt b c k); auto; [apply gt_ge, Pc | lia |].
  rewrite Forall_forall in Pc. apply Pc, nth_In, K.
Qed.

Lemma fit_always : forall kI W quadr fused t norm N f ty D oe n c e i,
  rule u fmt kI W quadr -> 0 < N ->
  length f = length W -> length D = length f -> Forall fmt f -> Forall (Rle 0) f ->
  length e = length c -> length ty = length c -> Forall (fun ds => length ds = length c) D ->
  Forall (Rlt 0) c -> Forall (Rlt 0) e -> orders (length c) t ->
  (i < length f)%nat -> 0 < nth i W 0 -> 0 < nth i f 0 -> Forall (fun d => d <> 0) (nth i D []) ->
  Forall (fun ds => exists k, (k < length c)%nat /\ (nth k ty false = false \/ nth k ds 0 <> 0)) D ->
  exists c' e', fit quadr fused t norm 0 N f ty D true oe (S n) c e = Some (c', e') /\
    Forall (Rlt 0) c' /\ Forall (Rlt 0) e' /\ within u (height t + 2 * kI + 6) (rsum c') N.
Proof.
  intros kI W quadr fused t norm N f ty D oe n c e i Ru HN Lf LD Ff Pf Le Lt Ld Pc Pe O I GW Gf Gd Gk.
  destruct (fit_runs kI W quadr fused t norm 0 N f ty D true oe n c e i Ru HN (Rle_refl 0) Lf LD Ff Pf Le Lt Ld Pc Pe I GW Gf Gd)
    as (c1 & e1 & E1 & P1 & P2).
  destruct (fit_runs kI W quadr fused t norm 0 N f ty D true oe (S n) c e i Ru HN (Rle_refl 0) Lf LD Ff Pf Le Lt Ld Pc Pe I GW Gf Gd)
    as (c2 & e2 & E2 & P3 & P4).
  destruct (fit_length rnd fexp fpow pi _ _ _ _ _ _ _ _ _ _ _ _ _ _ _ _ Le E1) as [L1 L2].
  exists c2, e2. split; [exact E2|]. split; [exact P3|]. split; [exact P4|].
  assert (If : 0 < wsum W f) by (apply (wsum_gt W f i); auto; apply Ru).
  apply (fit_sum rnd fexp fpow pi u fmt H Hu8 0 kp Pw Hpi v 0 X kI W quadr fused t norm 0 N f ty D oe n c e c1 e1 c2 e2); auto; try apply gt_ge; auto; try lra.
  rewrite Forall_forall in *. intros ds Id. destruct (Gk ds Id) as (k & K & G).
  apply model_gt with (k := k); auto; try lia; try (rewrite (Ld ds Id); lia); try (rewrite L1; exact O); apply Forall_forall; assumption.
Qed.
End Positive.
