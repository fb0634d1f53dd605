(** Theorems about the fixed point iteration (C43-C48). *)
From Coquelicot Require Import Coquelicot.
From Coq Require Import Reals List ZArith Lia Lra Bool.
From Verif Require Import XR SpecDens SpecMeas SpecGrid ModelDens ModelMeas ModelGrid ModelFit Lists ProofDens
  ProofDeriv ProofMeas SpecFit ProofFitView ProofFit ProofEM ProofFPI.
Import ListNotations.
Local Open Scope R_scope.

Record sfacts (fp : fpi) (W f : list R) norm lays mask N m : Prop := {
  sf_fit : fitok (fp_fit fp) W f m mask;
  sf_me : ft_measure (fp_fit fp) = MKL (Fin mask) (Fin 100000);
  sf_lm : fp_lm fp = Fin (rdot W f / N);
  sf_nz : rdot W f <> 0;
  sf_ne : lays <> [];
  sf_v : vfacts m norm lays (nfun lays) }.

Lemma setting_facts fp W f norm lays mask N :
  fpi_setting fp W f norm lays mask N -> exists m, sfacts fp W f norm lays mask N m.
Proof.
  intros [(ga & sph & n0 & m & Hi & Hv & Hfp & Ht) Hf Hl Hm HN]. exists m.
  destruct (fpi_init_ok _ _ _ _ _ _ _ _ Hi Hf Hfp) as (H1 & H2 & _).
  destruct (lm_finite _ _ _ _ _ _ _ _ N Hi Hf Hfp Ht HN) as (H3 & H4).
  assert (Hne : lays <> []).
  { intros ->. destruct W; [|discriminate]. apply H4. reflexivity. }
  destruct (views_facts _ _ _ Hv) as [nb Hb].
  assert (E : nfun lays = nb).
  { unfold nfun. apply (vf_len _ _ _ _ Hb). destruct lays; [congruence|now left]. }
  constructor; auto. now rewrite E.
Qed.

(** ** C43 *)
Lemma coeffs_sum fp W f norm lays mask N c e ue c1 e1 :
  fpi_setting fp W f norm lays mask N -> sized lays c e -> nonneg c ->
  (norm = true -> positive e) -> all_above mask f (values norm lays c e) ->
  update_params fp (map Fin c) (map Fin e) true ue = Ok (c1, e1) ->
  exists c', c1 = map Fin c' /\ length c' = nfun lays /\ rsum c' = N.
Proof.
  intros Hs [Hc He] Hnc Hpe Hk H. destruct (setting_facts _ _ _ _ _ _ _ Hs) as [m [Hft Hme Hlm Hnz Hne Hv]].
  destruct Hs as [_ Hf Hl Hm HN].
  assert (Hlam : rdot W f / N <> 0).
  { unfold Rdiv. apply Rmult_integral_contrapositive_currified; auto. now apply Rinv_neq_0_compat. }
  rewrite (update_gen fp W f m mask norm lays (nfun lays) (rdot W f / N) c e true ue) in H by auto.
  injection H as <- <-. eexists. split; [reflexivity|]. split; [now rewrite upd_c_length|].
  rewrite (upd_c_sum m norm lays (nfun lays)) by auto. field. auto.
Qed.

(** ** C76: the update is the documented self-consistent equation *)
Lemma update_formula fp W f norm lays mask N c e uc ue :
  fpi_setting fp W f norm lays mask N -> sized lays c e -> nonneg c ->
  (norm = true -> positive e) -> uc || ue = true ->
  (ue = true -> forall k, (k < nfun lays)%nat -> avg2 mask W f norm lays c e k <> 0) ->
  exists c' e',
    update_params fp (map Fin c) (map Fin e) uc ue = Ok (map Fin c', map Fin e') /\
    sized lays c' e' /\
    (forall k, (k < nfun lays)%nat ->
       nth k c' 0 = if uc then nth k c 0 * avg1 mask W f norm lays c e k / (quad W f / N) else nth k c 0) /\
    (forall k, (k < nfun lays)%nat ->
       nth k e' 0 = if ue then half_power (kind (hd [] lays) k) * avg1 mask W f norm lays c e k /
                               avg2 mask W f norm lays c e k
                    else nth k e 0).
Proof.
  intros Hs [Hc He] Hnc Hpe Hu Hb. destruct (setting_facts _ _ _ _ _ _ _ Hs) as [m [Hft Hme Hlm Hnz Hne Hv]].
  destruct Hs as [_ Hf Hl Hm HN].
  assert (Hlam : rdot W f / N <> 0).
  { unfold Rdiv. apply Rmult_integral_contrapositive_currified; auto. now apply Rinv_neq_0_compat. }
  eexists _, _. split; [apply (update_fin fp W f m mask norm lays (nfun lays) (rdot W f / N)); auto|].
  split; [|split].
  - split; [destruct uc|destruct ue]; rewrite ?upd_c_length, ?upd_e_length; auto.
  - intros k Hk. destruct uc; auto. rewrite nth_upd_c by lia. reflexivity.
  - intros k Hk. destruct ue; auto. rewrite nth_upd_e by lia.
    destruct lays; [congruence|]. reflexivity.
Qed.

(** ** C44 *)
Lemma supported_dot W f lays nb : length f = length W -> nonneg W -> nonneg f -> (0 < nb)%nat ->
  supported W f lays nb -> 0 < rdot W f.
Proof.
  intros Hf HW Hnf Hnb Hs. destruct (Hs 0%nat Hnb) as (i & Hi & H1 & H2 & _).
  rewrite rdot_sumn by auto. apply sumn_pos.
  - intros j Hj. apply Rmult_le_pos; now apply nonneg_nth.
  - exists i. split; auto. now apply Rmult_lt_0_compat.
Qed.

Lemma step_positive fp W f norm lays mask N c e uc ue :
  fpi_setting fp W f norm lays mask N -> 0 < N -> nonneg W -> supported W f lays (nfun lays) ->
  sized lays c e -> positive c -> positive e -> uc || ue = true ->
  exists c' e', update_params fp (map Fin c) (map Fin e) uc ue = Ok (map Fin c', map Fin e') /\
    sized lays c' e' /\ positive c' /\ positive e' /\
    c' = (if uc then upd_c mask W f norm lays (rdot W f / N) c e else c) /\
    e' = (if ue then upd_e mask W f norm lays c e else e).
Proof.
  intros Hs HN0 HW Hsup [Hc He] Hpc Hpe Hu.
  destruct (setting_facts _ _ _ _ _ _ _ Hs) as [m [Hft Hme Hlm Hnz Hne Hv]].
  destruct Hs as [_ Hf Hl Hm HN].
  assert (Hnf : nonneg f) by (eapply fo_nonneg; eauto).
  assert (Hd : 0 < rdot W f) by (apply (supported_dot W f lays (nfun lays)); auto; eapply vf_pos; eauto).
  assert (Hlam : 0 < rdot W f / N) by now apply Rdiv_lt_0_compat.
  eexists _, _. split; [apply (update_fin fp W f m mask norm lays (nfun lays) (rdot W f / N)); auto; try lra|].
  - now apply positive_nonneg.
  - intros _ k Hk. apply Rgt_not_eq. eapply avg2_pos; eauto.
  - split; [split; [destruct uc|destruct ue]; rewrite ?upd_c_length, ?upd_e_length; auto|].
    split; [destruct uc; auto; eapply upd_c_pos; eauto|].
    split; [destruct ue; auto; eapply upd_e_pos; eauto|]. auto.
Qed.

Lemma iterate_positive fp W f norm lays mask N c e uc ue n :
  fpi_setting fp W f norm lays mask N -> 0 < N -> nonneg W -> supported W f lays (nfun lays) ->
  sized lays c e -> positive c -> positive e -> uc || ue = true ->
  exists c' e', iterate fp uc ue n (map Fin c) (map Fin e) = Ok (map Fin c', map Fin e') /\
    sized lays c' e' /\ positive c' /\ positive e'.
Proof.
  intros Hs HN0 HW Hsup Hsz Hpc Hpe Hu. induction n as [|n IH].
  - exists c, e. repeat split; auto; apply Hsz.
  - destruct IH as (c1 & e1 & E & H1 & H2 & H3). cbn [iterate]. rewrite E. cbn [bind fst snd].
    destruct (step_positive _ _ _ _ _ _ _ c1 e1 uc ue Hs HN0 HW Hsup H1 H2 H3 Hu)
      as (c2 & e2 & E2 & H4 & H5 & H6 & _).
    exists c2, e2. auto.
Qed.

(** ** C45 *)
Lemma step_decreases fp W f lays mask N c e uc ue :
  fpi_setting fp W f true lays mask N -> 0 < N -> nonneg W -> positive f ->
  supported W f lays (nfun lays) ->
  sized lays c e -> positive c -> positive e -> uc || ue = true ->
  all_above mask f (values true lays c e) ->
  (uc = true -> rsum c <= N) ->
  exists c' e', update_params fp (map Fin c) (map Fin e) uc ue = Ok (map Fin c', map Fin e') /\
    (all_above mask f (values true lays c' e') ->
     kl_sum W f (values true lays c' e') <= kl_sum W f (values true lays c e) /\
     (kl_sum W f (values true lays c' e') = kl_sum W f (values true lays c e) -> c' = c /\ e' = e)).
Proof.
  intros Hs HN0 HW Hpf Hsup Hsz Hpc Hpe Hu Hk Hsum.
  destruct (step_positive _ _ _ _ _ _ _ c e uc ue Hs HN0 HW Hsup Hsz Hpc Hpe Hu)
    as (c' & e' & E & Hsz' & Hpc' & Hpe' & Ec & Ee).
  exists c', e'. split; auto. intros Hk'.
  destruct (setting_facts _ _ _ _ _ _ _ Hs) as [m [Hft Hme Hlm Hnz Hne Hv]].
  destruct Hs as [_ Hf Hl Hm HN]. destruct Hsz as [Hc He], Hsz' as [Hc' He'].
  assert (Hd : 0 < rdot W f) by (apply (supported_dot W f lays (nfun lays)); auto; [now apply positive_nonneg|eapply vf_pos; eauto]).
  assert (Hlam : 0 < rdot W f / N) by now apply Rdiv_lt_0_compat.
  apply em_step with (lam := rdot W f / N) (m := m) (nb := nfun lays) (mask := mask) (uc := uc) (ue := ue); auto.
  intros Hut. rewrite Ec, Hut. rewrite (upd_c_sum m true lays (nfun lays)) by auto.
  replace (rdot W f / (rdot W f / N)) with N by (field; lra). auto.
Qed.

(** Along a run: the divergence after [n+2] updates does not exceed that after [n+1]. *)
Lemma iterate_decreases fp W f lays mask N c e uc ue n :
  fpi_setting fp W f true lays mask N -> 0 < N -> nonneg W -> positive f ->
  supported W f lays (nfun lays) ->
  sized lays c e -> positive c -> positive e -> uc || ue = true ->
  (forall j cj ej, (j <= n)%nat ->
     iterate fp uc ue j (map Fin c) (map Fin e) = Ok (map Fin cj, map Fin ej) ->
     all_above mask f (values true lays cj ej)) ->
  (uc = true -> (n = 1)%nat -> rsum c <= N) ->
  (0 < n)%nat ->
  exists c1 e1 c2 e2,
    iterate fp uc ue (n - 1) (map Fin c) (map Fin e) = Ok (map Fin c1, map Fin e1) /\
    iterate fp uc ue n (map Fin c) (map Fin e) = Ok (map Fin c2, map Fin e2) /\
    sized lays c1 e1 /\ sized lays c2 e2 /\ positive c2 /\ positive e2 /\
    kl_sum W f (values true lays c2 e2) <= kl_sum W f (values true lays c1 e1).
Proof.
  intros Hs HN0 HW Hpf Hsup Hsz Hpc Hpe Hu Hk Hsum Hn. destruct n as [|n]; [lia|].
  replace (S n - 1)%nat with n by lia.
  destruct (iterate_positive _ _ _ _ _ _ _ c e uc ue n Hs HN0 HW Hsup Hsz Hpc Hpe Hu)
    as (c1 & e1 & E1 & Hsz1 & Hp1 & Hp2).
  destruct (iterate_positive _ _ _ _ _ _ _ c e uc ue (S n) Hs HN0 HW Hsup Hsz Hpc Hpe Hu)
    as (c2 & e2 & E2 & Hsz2 & Hp3 & Hp4).
  assert (K1 : all_above mask f (values true lays c1 e1)) by (apply (Hk n); auto; lia).
  assert (K2 : all_above mask f (values true lays c2 e2)) by (apply (Hk (S n)); auto).
  assert (HS : uc = true -> rsum c1 <= N).
  { intros Hut. destruct n as [|n].
    - cbn [iterate] in E1. injection E1 as E1 _.
      assert (c = c1). { clear - E1. revert c1 E1. induction c as [|x c IH]; intros [|y c1] E; try discriminate; auto.
        cbn [map] in E. injection E as -> E. f_equal. auto. }
      subst. auto.
    - destruct (iterate_positive _ _ _ _ _ _ _ c e uc ue n Hs HN0 HW Hsup Hsz Hpc Hpe Hu)
        as (c0 & e0 & E0 & Hsz0 & Hp01 & Hp02).
      assert (E1' := E1). cbn [iterate] in E1'. rewrite E0 in E1'. cbn [bind fst snd] in E1'. rewrite Hut in E1'.
      destruct (coeffs_sum fp W f true lays mask N c0 e0 ue _ _ Hs Hsz0 (positive_nonneg _ Hp01)
                  (fun _ => Hp02) (Hk n _ _ ltac:(lia) E0) E1') as (c' & Ec' & _ & Hsum').
      assert (c' = c1). { clear - Ec'. revert c' Ec'. induction c1 as [|x c1 IH]; intros [|y c'] E; try discriminate; auto.
        cbn [map] in E. injection E as -> E. f_equal. auto. }
      subst. lra. }
  destruct (step_decreases _ _ _ _ _ _ c1 e1 uc ue Hs HN0 HW Hpf Hsup Hsz1 Hp1 Hp2 Hu K1 HS)
    as (c3 & e3 & E3 & Hle).
  assert (E : Ok (map Fin c2, map Fin e2) = Ok (map Fin c3, map Fin e3)).
  { rewrite <- E2, <- E3. cbn [iterate]. rewrite E1. reflexivity. }
  injection E as Ec Ee.
  assert (INJ : forall a b, map Fin a = map Fin b -> a = b).
  { clear. induction a as [|x a IH]; intros [|y b] E; try discriminate; auto.
    cbn [map] in E. injection E as -> E. f_equal. auto. }
  apply INJ in Ec, Ee. subst c3 e3.
  exists c1, e1, c2, e2. repeat split; auto; try apply Hsz1; try apply Hsz2. now apply Hle.
Qed.

(** ** The loop (C47, C48) *)

Record trace_ok (f : fpi) (oc oe : bool) (c e : list xr) (s : fstate) (n : nat) : Prop := {
  to_iter : st_niter s = Z.of_nat n;
  to_fun : length (st_fun s) = n;
  to_perf : length (st_perf s) = n;
  to_par : iterate f oc oe n c e = Ok (st_cs s, st_es s);
  to_rows : forall j, (j < n)%nat -> exists cj ej,
    iterate f oc oe (S j) c e = Ok (cj, ej) /\
    goodness (fp_fit f) cj ej = Ok (nth j (st_perf s) []) /\
    nth j (st_fun s) NaN = last (nth j (st_perf s) []) NaN;
  to_change : (0 < n)%nat -> exists cp ep,
    iterate f oc oe (n - 1) c e = Ok (cp, ep) /\
    change (st_cs s) cp (st_dc s) /\ change (st_es s) ep (st_de s);
  to_zero : n = 0%nat -> st_dc s = PInf /\ st_de s = PInf;
  to_dd : if (n <=? 1)%nat then st_dd s = PInf
          else st_dd s = xabs (xsub (nth (n - 1) (st_fun s) NaN) (nth (n - 2) (st_fun s) NaN)) }.

Lemma last_nth {A} (l : list A) d : last l d = nth (length l - 1) l d.
Proof.
  induction l as [|x l IH]; auto. destruct l as [|y l]; auto.
  change (last (x :: y :: l) d) with (last (y :: l) d). rewrite IH.
  cbn [length]. replace (S (S (length l)) - 1)%nat with (S (length l)) by lia.
  cbn [length]. replace (S (length l) - 1)%nat with (length l) by lia. reflexivity.
Qed.

Lemma step_trace f oc oe c e s n s' :
  trace_ok f oc oe c e s n -> fpi_step f oc oe s = Ok s' -> trace_ok f oc oe c e s' (S n).
Proof.
  intros [H1 H2 H3 H4 H5 H6 Hz H7] H. unfold fpi_step in H.
  assert (HU : (if oc && oe then update_params f (st_cs s) (st_es s) true true
     else if oc then update_params f (st_cs s) (st_es s) true false
     else if oe then update_params f (st_cs s) (st_es s) false true else Raise ValueError) =
     update_params f (st_cs s) (st_es s) oc oe) by (destruct oc, oe; reflexivity).
  rewrite HU in H. destruct (update_params f (st_cs s) (st_es s) oc oe) as [[cs es]|] eqn:EU; [|discriminate].
  cbn [bind] in H.
  destruct (abs_diff cs (st_cs s)) as [d1|] eqn:E1; [|discriminate]. cbn [bind] in H.
  destruct (np_max d1) as [dc|] eqn:E2; [|discriminate]. cbn [bind] in H.
  destruct (abs_diff es (st_es s)) as [d2|] eqn:E3; [|discriminate]. cbn [bind] in H.
  destruct (np_max d2) as [de|] eqn:E4; [|discriminate]. cbn [bind] in H.
  destruct (goodness (fp_fit f) cs es) as [g|] eqn:E5; [|discriminate]. cbn [bind] in H.
  injection H as <-.
  assert (EI : iterate f oc oe (S n) c e = Ok (cs, es)).
  { cbn [iterate]. rewrite H4. exact EU. }
  constructor; cbn [st_niter st_fun st_perf st_cs st_es st_dc st_de st_dd].
  - lia.
  - rewrite app_length. simpl. lia.
  - rewrite app_length. simpl. lia.
  - exact EI.
  - intros j Hj. destruct (Nat.eq_dec j n) as [->|Hn].
    + exists cs, es. rewrite !app_nth2 by lia. rewrite H2, H3, Nat.sub_diag. auto.
    + destruct (H5 j ltac:(lia)) as (cj & ej & Q1 & Q2 & Q3). exists cj, ej.
      rewrite !app_nth1 by lia. auto.
  - intros _. exists (st_cs s), (st_es s). replace (S n - 1)%nat with n by lia. split; auto.
    split; [exists d1|exists d2]; auto.
  - discriminate.
  - rewrite H1. destruct n as [|n].
    + simpl in *. exact H7.
    + replace (S (S n) <=? 1)%nat with false by reflexivity.
      replace (Z.of_nat (S n) + 1 =? 1)%Z with false by (symmetry; apply Z.eqb_neq; lia).
      replace (S (S n) - 1)%nat with (S n) by lia. replace (S (S n) - 2)%nat with n by lia.
      rewrite app_nth2 by lia. rewrite H2, Nat.sub_diag. cbn [nth].
      rewrite app_nth1 by lia. rewrite (last_nth (st_fun s)), H2. replace (S n - 1)%nat with n by lia. reflexivity.
Qed.

Lemma loop_trace f oc oe th maxiter c e fuel : forall s n s',
  trace_ok f oc oe c e s n -> (Z.of_nat n + Z.of_nat fuel = Z.max maxiter 0)%Z ->
  fpi_loop f oc oe th maxiter fuel s = Ok s' ->
  exists n', trace_ok f oc oe c e s' n' /\ (Z.of_nat n' <= Z.max maxiter 0)%Z /\
    go_on th maxiter s' = false.
Proof.
  induction fuel as [|k IH]; intros s n s' Ht Hn H.
  - injection H as <-. exists n. split; auto. split; [lia|].
    unfold go_on. rewrite (to_iter _ _ _ _ _ _ _ Ht).
    replace (Z.of_nat n <? maxiter)%Z with false by (symmetry; apply Z.ltb_ge; lia).
    apply andb_false_r.
  - cbn [fpi_loop] in H. destruct (go_on th maxiter s) eqn:Eg.
    + destruct (fpi_step f oc oe s) as [s1|] eqn:Es; [|discriminate]. cbn [bind] in H.
      apply (IH s1 (S n) s'); auto; [eapply step_trace; eauto|lia].
    + injection H as <-. exists n. split; auto. split; auto. lia.
Qed.

Lemma init_trace f oc oe c e : trace_ok f oc oe c e (mkState c e PInf PInf PInf [] [] 0) 0.
Proof. constructor; auto; simpl; intros; try lia; auto. Qed.

Definition failed_flag (maxiter : Z) (th : thresholds) (s : fstate) : bool :=
  ((maxiter =? st_niter s)%Z && xltb (th_d th) (st_dd s)) || xisnan (st_dd s).

Lemma run_inv f c0 e0 oc oe maxiter th r :
  fpi_run f c0 e0 oc oe maxiter th = Ok r ->
  exists c e s n, c0 = VArr (A1 c) /\ e0 = VArr (A1 e) /\
    Z.of_nat (length c) = g_nbasis (ft_model (fp_fit f)) /\
    Z.of_nat (length e) = g_nbasis (ft_model (fp_fit f)) /\
    trace_ok f oc oe c e s n /\ (Z.of_nat n <= Z.max maxiter 0)%Z /\ go_on th maxiter s = false /\
    r = mkFpiRes (st_cs s) (st_es s) (st_fun s) (negb (failed_flag maxiter th s)) (st_perf s).
Proof.
  unfold fpi_run. destruct c0 as [| | | | |ca| |]; try discriminate; destruct e0 as [| | | | |ea| |]; try discriminate;
    try (destruct ca; discriminate).
  destruct ca as [c|]; [|discriminate].
  destruct (Z.eqb_spec (Z.of_nat (length c)) (g_nbasis (ft_model (fp_fit f)))) as [H1|H1]; [|discriminate].
  cbn [negb]. destruct ea as [e|]; [|discriminate].
  destruct (Z.eqb_spec (Z.of_nat (length e)) (g_nbasis (ft_model (fp_fit f)))) as [H2|H2]; [|discriminate].
  cbn [negb]. destruct (fpi_loop _ _ _ _ _ _ _) as [s|] eqn:E; [|discriminate]. cbn [bind]. intros H.
  injection H as <-.
  destruct (loop_trace f oc oe th maxiter c e (Z.to_nat maxiter) _ 0%nat s (init_trace f oc oe c e) ltac:(lia) E)
    as (n & Ht & Hn & Hg).
  exists c, e, s, n. auto 10.
Qed.

(** C47 *)
Lemma run_consistent f c0 e0 oc oe maxiter th r :
  fpi_run f c0 e0 oc oe maxiter th = Ok r ->
  exists c e, c0 = VArr (A1 c) /\ e0 = VArr (A1 e) /\
    let n := length (r_fun r) in
    (Z.of_nat n <= Z.max maxiter 0)%Z /\ length (r_perf r) = n /\
    iterate f oc oe n c e = Ok (r_coeffs r, r_exps r) /\
    (forall j, (j < n)%nat -> exists cj ej,
       iterate f oc oe (S j) c e = Ok (cj, ej) /\
       goodness (fp_fit f) cj ej = Ok (nth j (r_perf r) []) /\
       nth j (r_fun r) NaN = last (nth j (r_perf r) []) NaN).
Proof.
  intros H. destruct (run_inv _ _ _ _ _ _ _ _ H) as (c & e & s & n & Hc & He & H1 & H2 & Ht & Hn & Hg & ->).
  exists c, e. cbn [r_fun r_perf r_coeffs r_exps]. destruct Ht as [T1 T2 T3 T4 T5 T6 Tz T7].
  rewrite T2. repeat split; auto.
Qed.

Lemma update_fixed f c e uc ue p : update_params f c e uc ue = Ok p ->
  (uc = false -> fst p = c) /\ (ue = false -> snd p = e).
Proof.
  unfold update_params. destruct (negb uc && negb ue); [discriminate|].
  destruct (g_evaluate _ _ _ _) as [out|]; [|discriminate]. cbn [bind].
  destruct (snd out); [|discriminate]. destruct (measure_evaluate _ _ _ _) as [k|]; [|discriminate]. cbn [bind].
  destruct (snd k); [|discriminate]. destruct (mapM _ _) as [avs|]; [|discriminate]. cbn [bind].
  intros H. split; intros ->.
  - cbn [bind] in H. destruct (if ue then _ else _); [|discriminate]. cbn [bind] in H. now injection H as <-.
  - destruct (if uc then _ else _); [|discriminate]. cbn [bind] in H. now injection H as <-.
Qed.
Lemma iterate_fixed f oc oe n c e p : iterate f oc oe n c e = Ok p ->
  (oc = false -> fst p = c) /\ (oe = false -> snd p = e).
Proof.
  revert p; induction n as [|n IH]; intros p H.
  - injection H as <-. auto.
  - cbn [iterate] in H. destruct (iterate f oc oe n c e) as [q|] eqn:E; [|discriminate]. cbn [bind] in H.
    destruct (update_fixed _ _ _ _ _ _ H) as [H1 H2]. destruct (IH q eq_refl) as [H3 H4].
    split; intros; [rewrite H1 by auto|rewrite H2 by auto]; auto.
Qed.
(** Parameters that are not optimized are returned unchanged. *)
Lemma run_fixed f c0 e0 oc oe maxiter th r :
  fpi_run f c0 e0 oc oe maxiter th = Ok r ->
  (oc = false -> c0 = VArr (A1 (r_coeffs r))) /\ (oe = false -> e0 = VArr (A1 (r_exps r))).
Proof.
  intros H. destruct (run_consistent _ _ _ _ _ _ _ _ H) as (c & e & -> & -> & _ & _ & Hi & _).
  destruct (iterate_fixed _ _ _ _ _ _ _ Hi) as [H1 H2]. cbn [fst snd] in *.
  split; intros Ho; [rewrite H1 by auto|rewrite H2 by auto]; auto.
Qed.
(** Both flags False raises as soon as an iteration is allowed. *)
Lemma run_nothing f c e maxiter th :
  Z.of_nat (length c) = g_nbasis (ft_model (fp_fit f)) ->
  Z.of_nat (length e) = g_nbasis (ft_model (fp_fit f)) ->
  (th_c th <> PInf /\ th_c th <> NaN \/ th_e th <> PInf /\ th_e th <> NaN) ->
  th_d th <> PInf -> th_d th <> NaN -> (0 < maxiter)%Z ->
  fpi_run f (VArr (A1 c)) (VArr (A1 e)) false false maxiter th = Raise ValueError.
Proof.
  intros Hc He Ht Hd1 Hd2 Hm. unfold fpi_run. rewrite Hc, He, Z.eqb_refl. cbn [negb].
  replace (Z.to_nat maxiter) with (S (Z.to_nat (maxiter - 1))) by lia. cbn [fpi_loop].
  assert (L : forall x, x <> PInf -> x <> NaN -> xltb x PInf = true) by (intros [] ?; simpl; congruence).
  assert (G : go_on th maxiter (mkState c e PInf PInf PInf [] [] 0) = true).
  { unfold go_on. cbn [st_de st_dc st_dd st_niter]. rewrite (L (th_d th)) by auto.
    replace (0 <? maxiter)%Z with true by (symmetry; apply Z.ltb_lt; lia).
    destruct Ht as [[A B]|[A B]]; rewrite (L _ A B); rewrite ?orb_true_r; reflexivity. }
  rewrite G. reflexivity.
Qed.

(** C48: what success means when the loop was entered and no change is NaN. *)
Lemma xltb_false_le a b : xltb a b = false -> a <> NaN -> b <> NaN -> xleb b a = true.
Proof.
  destruct a as [x| | |], b as [y| | |]; simpl; try congruence. unfold rltb, rleb.
  destruct (Rlt_dec x y), (Rle_dec y x); try congruence; lra.
Qed.
Lemma success_means f c0 e0 oc oe maxiter th r c e :
  fpi_run f c0 e0 oc oe maxiter th = Ok r -> r_success r = true -> (0 <= maxiter)%Z ->
  c0 = VArr (A1 c) -> e0 = VArr (A1 e) ->
  th_c th <> NaN -> th_e th <> NaN -> th_d th <> NaN -> th_d th <> PInf ->
  let n := length (r_fun r) in
  (n = 0%nat -> th_c th = PInf /\ th_e th = PInf /\ (0 < maxiter)%Z) /\
  ((0 < n)%nat -> exists cp ep dc de,
     iterate f oc oe (n - 1) c e = Ok (cp, ep) /\
     change (r_coeffs r) cp dc /\ change (r_exps r) ep de /\
     ((dc <> NaN -> de <> NaN -> xleb dc (th_c th) = true /\ xleb de (th_e th) = true) \/
      ((2 <= n)%nat /\
       xleb (xabs (xsub (nth (n - 1) (r_fun r) NaN) (nth (n - 2) (r_fun r) NaN))) (th_d th) = true))).
Proof.
  intros H Hs Hm Hc0 He0 N1 N2 N3 N4.
  destruct (run_inv _ _ _ _ _ _ _ _ H) as (c' & e' & s & n & Hc & He & H1 & H2 & Ht & Hn & Hg & ->).
  rewrite Hc0 in Hc. injection Hc as <-. rewrite He0 in He. injection He as <-.
  cbn [r_fun r_success r_coeffs r_exps] in *. destruct Ht as [T1 T2 T3 T4 T5 T6 Tz T7].
  apply negb_true_iff in Hs. unfold failed_flag in Hs. apply orb_false_iff in Hs. destruct Hs as [Hs1 Hs2].
  cbv zeta. rewrite T2.
  assert (L : forall x, x <> PInf -> x <> NaN -> xltb x PInf = true) by (intros [] ?; simpl; congruence).
  unfold go_on in Hg. rewrite T1 in Hg, Hs1.
  assert (Hnm : xltb (th_d th) (st_dd s) = true -> (Z.of_nat n < maxiter)%Z).
  { intros Q. rewrite Q, andb_true_r in Hs1. apply Z.eqb_neq in Hs1. lia. }
  split.
  - intros ->. destruct (Tz eq_refl) as [Z1 Z2]. simpl in T7. rewrite Z1, Z2, T7 in Hg. rewrite T7 in Hnm.
    rewrite (L (th_d th)) in Hg, Hnm by auto. specialize (Hnm eq_refl). cbn [Z.of_nat] in *.
    replace (0 <? maxiter)%Z with true in Hg by (symmetry; apply Z.ltb_lt; auto).
    rewrite !andb_true_r in Hg. apply orb_false_iff in Hg. destruct Hg as [G1 G2].
    split; [|split]; auto.
    + destruct (th_c th); try discriminate; congruence.
    + destruct (th_e th); try discriminate; congruence.
  - intros Hn0. destruct (T6 Hn0) as (cp & ep & Q1 & Q2 & Q3). exists cp, ep, (st_dc s), (st_de s).
    split; auto. split; auto. split; auto.
    destruct (xltb (th_d th) (st_dd s)) eqn:Ed.
    + left. intros D1 D2. specialize (Hnm eq_refl).
      replace (Z.of_nat n <? maxiter)%Z with true in Hg by (symmetry; apply Z.ltb_lt; auto).
      rewrite !andb_true_r in Hg. apply orb_false_iff in Hg. destruct Hg as [G1 G2].
      split; apply xltb_false_le; auto.
    + right. destruct (Nat.leb_spec n 1) as [Hl|Hl].
      * rewrite T7, L in Ed by auto. discriminate.
      * split; [lia|]. rewrite <- T7. apply xltb_false_le; auto.
        intros Q. rewrite Q in Hs2. discriminate.
Qed.
