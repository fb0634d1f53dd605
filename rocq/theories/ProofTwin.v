(** Functions that start alike stay alike; the notebook molecular_density.ipynb (C110). *)
From Coquelicot Require Import Coquelicot.
From Coq Require Import Reals List ZArith Lia Lra Bool.
From Verif Require Import XR SpecDens SpecMeas SpecGrid ModelDens ModelMeas ModelGrid ModelFit Lists ProofDens ProofDeriv ProofMeas SpecFit SpecZero SpecScript SpecScript3 SpecScript5
  ProofInit ProofFitView ProofFit ProofEM ProofFPI ProofFPI2 ProofScipy ProofZero ProofScript ProofTable4.
Import ListNotations.
Local Open Scope R_scope.

Definition alike (c0 c e : list R) (k l : nat) : Prop := nth k e 0 = nth l e 0 /\ nth k c 0 * nth l c0 0 = nth l c 0 * nth k c0 0.

Lemma sumn_ext' n F G : (forall i, (i < n)%nat -> F i = G i) -> sumn n F = sumn n G.
Proof. intros H. unfold sumn. f_equal. apply map_ext_in. intros i Hi. apply in_seq in Hi. apply H. lia. Qed.

Lemma avg_twin mask W f norm lays c e k l : length lays = length W -> twins lays k l -> nth k e 0 = nth l e 0 ->
  avg1 mask W f norm lays c e k = avg1 mask W f norm lays c e l /\ avg2 mask W f norm lays c e k = avg2 mask W f norm lays c e l.
Proof.
  intros L T E. split; [unfold avg1|unfold avg2]; apply sumn_ext'; intros i Hi; cbv zeta;
  destruct (T (nth i lays []) ltac:(apply nth_In; lia)) as [-> ->]; now rewrite E.
Qed.

Lemma step_twin fp W f norm lays mask N c0 c e uc ue k l :
  fpi_setting fp W f norm lays mask N -> 0 < N -> nonneg W -> supported W f lays (nfun lays) ->
  sized lays c e -> positive c -> positive e -> uc || ue = true ->
  twins lays k l -> (k < nfun lays)%nat -> (l < nfun lays)%nat -> alike c0 c e k l ->
  exists c' e', update_params fp (map Fin c) (map Fin e) uc ue = Ok (map Fin c', map Fin e') /\ alike c0 c' e' k l.
Proof.
  intros Hs HN0 HW Hsup Hsz Pc Pe Hu T Hk Hl [A1 A2].
  destruct (setting_facts _ _ _ _ _ _ _ Hs) as [m [Hft Hme Hlm Hnz Hne Hv]].
  assert (Hnf : nonneg f) by (eapply fo_nonneg; eauto).
  destruct (update_formula fp W f norm lays mask N c e uc ue Hs Hsz (positive_nonneg _ Pc) (fun _ => Pe) Hu) as (c' & e' & E & _ & Fc & Fe).
  { intros _ j Hj. apply Rgt_not_eq. destruct Hs as [_ Hf Hll Hm _]. eapply avg2_pos; eauto. }
  exists c', e'. split; [exact E|].
  destruct (avg_twin mask W f norm lays c e k l (fs_lenl _ _ _ _ _ _ _ Hs) T A1) as [E1 E2].
  assert (K : kind (hd [] lays) k = kind (hd [] lays) l). { destruct lays as [|x q]; [congruence|]. apply T. now left. }
  split.
  - rewrite (Fe k Hk), (Fe l Hl). destruct ue; [now rewrite E1, E2, K|exact A1].
  - rewrite (Fc k Hk), (Fc l Hl). destruct uc; [|exact A2]. rewrite E1. unfold Rdiv.
    rewrite (Rmult_comm (nth k c 0)), (Rmult_comm (nth l c 0)). set (q := avg1 _ _ _ _ _ _ _ _). set (p := quad W f * / N).
    replace (q * nth k c 0 * / p * nth l c0 0) with (nth k c 0 * nth l c0 0 * (q * / p)) by ring. rewrite A2. ring.
Qed.

Lemma iterate_twin fp W f norm lays mask N c e uc ue k l n :
  fpi_setting fp W f norm lays mask N -> 0 < N -> nonneg W -> supported W f lays (nfun lays) ->
  sized lays c e -> positive c -> positive e -> uc || ue = true ->
  twins lays k l -> (k < nfun lays)%nat -> (l < nfun lays)%nat -> nth k e 0 = nth l e 0 ->
  exists c' e', iterate fp uc ue n (map Fin c) (map Fin e) = Ok (map Fin c', map Fin e') /\
    sized lays c' e' /\ positive c' /\ positive e' /\ alike c c' e' k l.
Proof.
  intros Hs HN0 HW Hsup Hsz Pc Pe Hu T Hk Hl E. induction n as [|n IH].
  - exists c, e. split; [reflexivity|]. do 3 (split; [assumption|]). split; [exact E|apply Rmult_comm].
  - destruct IH as (c1 & e1 & I & H1 & H2 & H3 & H4).
    destruct (iterate_positive _ _ _ _ _ _ _ c e uc ue (S n) Hs HN0 HW Hsup Hsz Pc Pe Hu) as (c2 & e2 & I2 & S2 & P2 & Q2).
    destruct (step_twin _ _ _ _ _ _ _ c c1 e1 uc ue k l Hs HN0 HW Hsup H1 H2 H3 Hu T Hk Hl H4) as (c3 & e3 & U & A).
    exists c2, e2. split; [exact I2|]. split; [exact S2|]. split; [exact P2|]. split; [exact Q2|].
    cbn [iterate] in I2. rewrite I in I2. cbn [bind fst snd] in I2. rewrite U in I2. injection I2 as X Y. apply ProofGrid.map_Fin_inj in X, Y. now subst.
Qed.

Lemma run_twin fp W f norm lays mask N c e uc ue maxiter th k l :
  fpi_setting fp W f norm lays mask N -> 0 < N -> nonneg W -> nan_passes (fp_fit fp) (length W) -> supported W f lays (nfun lays) -> uc || ue = true ->
  sized lays c e -> positive c -> positive e ->
  twins lays k l -> (k < nfun lays)%nat -> (l < nfun lays)%nat -> nth k e 0 = nth l e 0 ->
  exists r c' e', fpi_run fp (VArr (A1 (map Fin c))) (VArr (A1 (map Fin e))) uc ue maxiter th = Ok r /\
    r_coeffs r = map Fin c' /\ r_exps r = map Fin e' /\ sized lays c' e' /\ positive c' /\ positive e' /\
    nth k e' 0 = nth l e' 0 /\ nth k c' 0 / nth l c' 0 = nth k c 0 / nth l c 0.
Proof.
  intros Hs HN0 HW HP Hsup Hu Hsz Pc Pe T Hk Hl E.
  destruct (run_zero fp W f norm lays mask N c e uc ue maxiter th Hs HN0 HW HP Hsup Hu Hsz Pc Pe) as (r & c' & e' & Hr & A & B & S & P & Q & _).
  exists r, c', e'. do 6 (split; [assumption|]).
  destruct (run_consistent _ _ _ _ _ _ _ _ Hr) as (c1 & e1 & X & Y & Z). injection X as <-. injection Y as <-. destruct Z as (_ & _ & It & _).
  destruct (iterate_twin fp W f norm lays mask N c e uc ue k l (length (r_fun r)) Hs HN0 HW Hsup Hsz Pc Pe Hu T Hk Hl E) as (c2 & e2 & I & _ & _ & _ & A1 & A2).
  rewrite I, A, B in It. injection It as X Y. apply ProofGrid.map_Fin_inj in X, Y. subst c2 e2. split; [exact A1|].
  assert (0 < nth l c' 0) by (apply (proj1 (Forall_nth _ _) P); destruct S; lia).
  assert (0 < nth l c 0) by (apply (proj1 (Forall_nth _ _) Pc); destruct Hsz; lia).
  apply Rmult_eq_reg_r with (nth l c' 0 * nth l c 0); [|apply Rgt_not_eq; now apply Rmult_lt_0_compat].
  replace (nth k c' 0 / nth l c' 0 * (nth l c' 0 * nth l c 0)) with (nth k c' 0 * nth l c 0) by (field; lra). rewrite A2. field. lra.
Qed.

(** ** Merging twins *)
Definition sk (l j : nat) : nat := if Nat.ltb j l then j else S j.
Lemma nth_without {A} l (x : list A) j d : nth j (without l x) d = nth (if Nat.ltb l (length x) then sk l j else j) x d.
Proof.
  unfold without, sk. destruct (Nat.ltb_spec l (length x)) as [H|H].
  - destruct (Nat.ltb_spec j l) as [J|J].
    + rewrite app_nth1 by (rewrite firstn_length; lia). rewrite <- (firstn_skipn l x) at 2. rewrite app_nth1 by (rewrite firstn_length; lia). reflexivity.
    + rewrite app_nth2 by (rewrite firstn_length; lia). rewrite firstn_length, Nat.min_l by lia. rewrite <- (firstn_skipn (S l) x) at 2. rewrite app_nth2 by (rewrite firstn_length; lia).
      rewrite firstn_length, Nat.min_l by lia. reflexivity.
  - rewrite firstn_all2, skipn_all2 by lia. now rewrite app_nil_r.
Qed.
Lemma without_length {A} l (x : list A) : (l < length x)%nat -> length (without l x) = (length x - 1)%nat.
Proof. intros H. unfold without. rewrite app_length, firstn_length, skipn_length. lia. Qed.

Lemma gsum_without norm : forall lay c e l, length c = length lay -> length e = length lay -> (l < length lay)%nat ->
  gsum norm lay c e = gsum norm (without l lay) (without l c) (without l e) + nth l c 0 * basis_fn norm (kind lay l) (nth l e 0) (away lay l).
Proof.
  induction lay as [|[p r] lay IH]; intros [|a c] [|b e] l Lc Le Hl; try discriminate; [cbn in Hl; lia|].
  destruct l as [|l]; [unfold without, kind, away; cbn [firstn skipn app nth gsum fst snd]; ring|].
  cbn in Lc, Le, Hl. specialize (IH c e l ltac:(lia) ltac:(lia) ltac:(lia)).
  unfold without, kind, away in *. cbn [firstn skipn app nth gsum fst snd] in *. rewrite IH. ring.
Qed.
Lemma gsum_upd norm : forall lay c e k x, length c = length lay -> length e = length lay -> (k < length lay)%nat ->
  gsum norm lay (upd c k x) e = gsum norm lay c e + (x - nth k c 0) * basis_fn norm (kind lay k) (nth k e 0) (away lay k).
Proof.
  induction lay as [|[p r] lay IH]; intros [|a c] [|b e] k x Lc Le Hl; try discriminate; [cbn in Hl; lia|].
  destruct k as [|k]; [unfold kind, away; cbn [upd nth gsum fst snd]; ring|].
  cbn in Lc, Le, Hl. specialize (IH c e k x ltac:(lia) ltac:(lia) ltac:(lia)).
  unfold kind, away in *. cbn [upd nth gsum fst snd] in *. rewrite IH. ring.
Qed.
Lemma gsum_merge norm lay c e k l : length c = length lay -> length e = length lay -> (k < length lay)%nat -> (l < length lay)%nat -> k <> l ->
  kind lay k = kind lay l -> away lay k = away lay l -> nth k e 0 = nth l e 0 ->
  gsum norm (without l lay) (merge k l c) (without l e) = gsum norm lay c e.
Proof.
  intros Lc Le Hk Hl Hn E1 E2 E3. pose proof (gsum_upd norm lay c e k (nth k c 0 + nth l c 0) Lc Le Hk) as U.
  pose proof (gsum_without norm lay (upd c k (nth k c 0 + nth l c 0)) e l ltac:(rewrite upd_length; exact Lc) Le Hl) as V.
  rewrite nth_upd in V by lia. destruct (Nat.eqb_spec l k); [congruence|]. rewrite E1, E2, E3 in U. unfold merge. lra.
Qed.

Lemma avg_merge mask W f norm lays c e k l n j : length lays = length W -> (forall lay, In lay lays -> length lay = n) -> length c = n -> length e = n -> (k < n)%nat -> (l < n)%nat -> k <> l ->
  twins lays k l -> nth k e 0 = nth l e 0 ->
  avg1 mask W f norm (map (without l) lays) (merge k l c) (without l e) j = avg1 mask W f norm lays c e (sk l j) /\
  avg2 mask W f norm (map (without l) lays) (merge k l c) (without l e) j = avg2 mask W f norm lays c e (sk l j).
Proof.
  intros L Hn Lc Le Hk Hl Hkl T E.
  assert (A : forall i, (i < length W)%nat -> nth i (map (without l) lays) [] = without l (nth i lays []) /\ length (nth i lays []) = n /\
    gsum norm (without l (nth i lays [])) (merge k l c) (without l e) = gsum norm (nth i lays []) c e /\
    kind (without l (nth i lays [])) j = kind (nth i lays []) (sk l j) /\ away (without l (nth i lays [])) j = away (nth i lays []) (sk l j)).
  { intros i Hi. assert (I : In (nth i lays []) lays) by (apply nth_In; lia). pose proof (Hn _ I) as Ln. destruct (T _ I) as [T1 T2].
    split. { rewrite (nth_indep _ [] (without l [])) by (rewrite map_length; lia). apply map_nth. }
    split; [exact Ln|]. split; [apply gsum_merge; auto; congruence|].
    unfold kind, away. rewrite nth_without. destruct (Nat.ltb_spec l (length (nth i lays []))); [auto|lia]. }
  assert (Ee : nth j (without l e) 0 = nth (sk l j) e 0) by (rewrite nth_without; destruct (Nat.ltb_spec l (length e)); [reflexivity|lia]).
  split; [unfold avg1|unfold avg2]; apply sumn_ext'; intros i Hi; cbv zeta; destruct (A i Hi) as (-> & _ & -> & -> & ->); now rewrite Ee.
Qed.

Lemma lays_length fp W f norm lays mask N : fpi_setting fp W f norm lays mask N -> forall lay, In lay lays -> length lay = nfun lays.
Proof. intros Hs. destruct (setting_facts _ _ _ _ _ _ _ Hs) as [m [_ _ _ _ _ Hv]]. intros lay I. exact (vf_len _ _ _ _ Hv lay I). Qed.

Lemma nth_merge k l c j : (k < length c)%nat -> (l < length c)%nat -> nth j (merge k l c) 0 = if Nat.eqb (sk l j) k then nth k c 0 + nth l c 0 else nth (sk l j) c 0.
Proof.
  intros Hk Hl. unfold merge. rewrite nth_without, upd_length. destruct (Nat.ltb_spec l (length c)); [|lia]. rewrite nth_upd by lia. reflexivity.
Qed.
Lemma merge_length k l c : (l < length c)%nat -> length (merge k l c) = (length c - 1)%nat.
Proof. intros H. unfold merge. rewrite without_length, upd_length; [reflexivity|now rewrite upd_length]. Qed.

Lemma iterate_merge fp fp' W f norm lays mask N c e uc ue k l n :
  fpi_setting fp W f norm lays mask N -> fpi_setting fp' W f norm (map (without l) lays) mask N -> 0 < N -> nonneg W -> supported W f lays (nfun lays) ->
  sized lays c e -> positive c -> positive e -> uc || ue = true ->
  twins lays k l -> (k < nfun lays)%nat -> (l < nfun lays)%nat -> k <> l -> nth k e 0 = nth l e 0 ->
  exists c' e', iterate fp uc ue n (map Fin c) (map Fin e) = Ok (map Fin c', map Fin e') /\
    iterate fp' uc ue n (map Fin (merge k l c)) (map Fin (without l e)) = Ok (map Fin (merge k l c'), map Fin (without l e')) /\
    values norm (map (without l) lays) (merge k l c') (without l e') = values norm lays c' e' /\ rsum (merge k l c') = rsum c'.
Proof.
  intros Hs Hs' HN0 HW Hsup Hsz Pc Pe Hu T Hk Hl Hkl E.
  pose proof (lays_length _ _ _ _ _ _ _ Hs) as Len.
  destruct (setting_facts _ _ _ _ _ _ _ Hs) as [m [Hft Hme Hlm Hnz Hne Hv]].
  assert (Hnf : nonneg f) by (eapply fo_nonneg; eauto).
  assert (Nf' : nfun (map (without l) lays) = (nfun lays - 1)%nat).
  { destruct lays as [|x q]; [congruence|]. unfold nfun in *. cbn [map hd] in *. apply without_length. exact Hl. }
  assert (Ex : exists c' e', iterate fp uc ue n (map Fin c) (map Fin e) = Ok (map Fin c', map Fin e') /\ sized lays c' e' /\ positive c' /\ positive e' /\ nth k e' 0 = nth l e' 0 /\
    iterate fp' uc ue n (map Fin (merge k l c)) (map Fin (without l e)) = Ok (map Fin (merge k l c'), map Fin (without l e'))).
  { induction n as [|n IH]; [exists c, e; split; [reflexivity|]; do 4 (split; [assumption|]); reflexivity|].
    destruct IH as (c1 & e1 & I1 & S1 & P1 & Q1 & E1 & I2).
    destruct (iterate_twin fp W f norm lays mask N c e uc ue k l (S n) Hs HN0 HW Hsup Hsz Pc Pe Hu T Hk Hl E) as (c2 & e2 & J & S2 & P2 & Q2 & A2 & _).
    exists c2, e2. do 5 (split; [assumption|]). cbn [iterate] in J |- *. rewrite I1 in J. rewrite I2. cbn [bind fst snd] in J |- *.
    assert (Av : forall j, (j < nfun lays - 1)%nat -> avg2 mask W f norm (map (without l) lays) (merge k l c1) (without l e1) j <> 0).
    { intros j Hj. rewrite (proj2 (avg_merge mask W f norm lays c1 e1 k l (nfun lays) j (fs_lenl _ _ _ _ _ _ _ Hs) Len (proj1 S1) (proj2 S1) Hk Hl Hkl T E1)).
      apply Rgt_not_eq. destruct Hs as [_ Hf Hll Hm _]. eapply avg2_pos; eauto. unfold sk. destruct (Nat.ltb_spec j l); lia. }
    destruct S1 as [Lc1 Le1]. destruct S2 as [Lc2 Le2].
    destruct (update_formula fp W f norm lays mask N c1 e1 uc ue Hs (conj Lc1 Le1) (positive_nonneg _ P1) (fun _ => Q1) Hu) as (c3 & e3 & U & _ & Fc & Fe).
    { intros _ j Hj. apply Rgt_not_eq. destruct Hs as [_ Hf Hll Hm _]. eapply avg2_pos; eauto. }
    rewrite U in J. injection J as X Y. apply ProofGrid.map_Fin_inj in X, Y. subst c3 e3.
    assert (Pm : positive (merge k l c1)).
    { apply Forall_nth. intros j d Hj. rewrite merge_length in Hj by lia. rewrite (nth_indep _ d 0) by (rewrite merge_length; lia). rewrite nth_merge by lia.
      assert (forall i, (i < nfun lays)%nat -> 0 < nth i c1 0) by (intros i Hi; apply (proj1 (Forall_nth _ _) P1); lia).
      destruct (Nat.eqb _ _); [apply Rplus_lt_0_compat; auto|]. apply H. unfold sk. destruct (Nat.ltb_spec j l); lia. }
    assert (Pw : positive (without l e1)).
    { apply Forall_nth. intros j d Hj. rewrite without_length in Hj by lia. rewrite (nth_indep _ d 0) by (rewrite without_length; lia). rewrite nth_without. destruct (Nat.ltb_spec l (length e1)); [|lia].
      apply (proj1 (Forall_nth _ _) Q1). unfold sk. destruct (Nat.ltb_spec j l); lia. }
    destruct (update_formula fp' W f norm (map (without l) lays) mask N (merge k l c1) (without l e1) uc ue Hs') as (c4 & e4 & U4 & [L4 L4'] & Fc4 & Fe4).
    { split; [rewrite merge_length; lia|rewrite without_length; lia]. }
    { now apply positive_nonneg. } { intros _; exact Pw. } { exact Hu. } { intros _ j Hj. apply Av. lia. }
    rewrite U4. do 2 f_equal; f_equal.
    - apply nth_ext with (d := 0) (d' := 0); [rewrite merge_length; lia|]. intros j Hj. rewrite (Fc4 j ltac:(lia)), !nth_merge by lia.
      assert (Hsj : (sk l j < nfun lays)%nat) by (unfold sk; destruct (Nat.ltb_spec j l); lia).
      rewrite (proj1 (avg_merge mask W f norm lays c1 e1 k l (nfun lays) j (fs_lenl _ _ _ _ _ _ _ Hs) Len Lc1 Le1 Hk Hl Hkl T E1)).
      destruct (avg_twin mask W f norm lays c1 e1 k l (fs_lenl _ _ _ _ _ _ _ Hs) T E1) as [K1 _].
      destruct (Nat.eqb_spec (sk l j) k) as [Q|Q]; [rewrite Q, (Fc k Hk), (Fc l Hl); destruct uc; [rewrite K1; unfold Rdiv; ring|reflexivity]|].
      rewrite (Fc _ Hsj). reflexivity.
    - apply nth_ext with (d := 0) (d' := 0); [rewrite without_length; lia|]. intros j Hj. rewrite (Fe4 j ltac:(lia)).
      assert (Hsj : (sk l j < nfun lays)%nat) by (unfold sk; destruct (Nat.ltb_spec j l); lia).
      destruct (avg_merge mask W f norm lays c1 e1 k l (nfun lays) j (fs_lenl _ _ _ _ _ _ _ Hs) Len Lc1 Le1 Hk Hl Hkl T E1) as [K1 K2]. rewrite K1, K2.
      rewrite !nth_without. destruct (Nat.ltb_spec l (length e1)); [|lia]. destruct (Nat.ltb_spec l (length e2)); [|lia]. rewrite (Fe _ Hsj). destruct ue; [|reflexivity].
      replace (kind (hd [] (map (without l) lays)) j) with (kind (hd [] lays) (sk l j)); [reflexivity|].
      destruct lays as [|x q]; [congruence|]. cbn [map hd]. unfold kind. rewrite nth_without. pose proof (Len x (or_introl eq_refl)). destruct (Nat.ltb_spec l (length x)); [reflexivity|lia]. }
  destruct Ex as (c' & e' & I1 & [S1 S2] & P1 & Q1 & E1 & I2). exists c', e'. split; [exact I1|]. split; [exact I2|]. split.
  - unfold values. rewrite map_map. apply map_ext_in. intros lay I. destruct (T lay I). pose proof (Len lay I). apply gsum_merge; auto; congruence.
  - unfold merge. clear -Hk Hl Hkl S1. rewrite <- S1 in Hk, Hl. clear S1.
    assert (W1 : forall (x : list R) i, (i < length x)%nat -> rsum x = rsum (without i x) + nth i x 0).
    { induction x as [|a x IH]; intros i Hi; [cbn in Hi; lia|]. destruct i as [|i]; [unfold without, rsum; cbn; ring|]. cbn in Hi. specialize (IH i ltac:(lia)). unfold without, rsum in *. cbn [firstn skipn app fold_right nth] in *. rewrite IH. ring. }
    assert (W2 : forall (x : list R) i v, (i < length x)%nat -> rsum (upd x i v) = rsum x + (v - nth i x 0)).
    { induction x as [|a x IH]; intros i v Hi; [cbn in Hi; lia|]. destruct i as [|i]; [unfold rsum; cbn; ring|]. cbn in Hi. specialize (IH i v ltac:(lia)). unfold rsum in *. cbn [upd fold_right nth] in *. rewrite IH. ring. }
    pose proof (W1 (upd c' k (nth k c' 0 + nth l c' 0)) l ltac:(rewrite upd_length; lia)) as A. rewrite (W2 _ _ _ Hk), nth_upd in A by lia. destruct (Nat.eqb_spec l k); [congruence|]. lra.
Qed.

(** ** The notebook *)
Lemma water_sup W f rows A B C : length rows = length W ->
  (forall P, In P [A; B; C] -> exists i, (i < length W)%nat /\ 0 < nth i W 0 /\ 0 < nth i f 0 /\ dist (nth i rows []) P <> 0) ->
  supported W f (three_lays water_basis rows A B C) 16.
Proof.
  intros L H k Hk.
  assert (G : forall P, (forall x, away (lay_mol (combine water_basis [dist x A; dist x B; dist x C])) k = dist x P) -> In P [A; B; C] ->
    exists i, (i < length W)%nat /\ 0 < nth i W 0 /\ 0 < nth i f 0 /\ away (nth i (three_lays water_basis rows A B C) []) k <> 0).
  { intros P Q I. destruct (H P I) as (i & Hi & X & Y & Z). exists i. do 3 (split; [assumption|]). unfold three_lays.
    rewrite (nth_indep _ [] (lay_mol (combine water_basis [dist [] A; dist [] B; dist [] C]))) by (rewrite map_length; lia).
    rewrite (map_nth (fun x => lay_mol (combine water_basis [dist x A; dist x B; dist x C]))). now rewrite Q. }
  assert (D : (k < 10 \/ 10 <= k < 13 \/ 13 <= k < 16)%nat) by lia. destruct D as [D|[D|D]].
  - apply (G A); [|cbn; auto]. intros x. do 10 (destruct k as [|k]; [reflexivity|]). lia.
  - apply (G B); [|cbn; auto]. intros x. do 13 (destruct k as [|k]; [first [reflexivity|lia]|]). lia.
  - apply (G C); [|cbn; auto]. intros x. do 16 (destruct k as [|k]; [first [reflexivity|lia]|]). lia.
Qed.

Lemma water_twins rows A B C k l : (10 <= k < 13 /\ 10 <= l < 13 \/ 13 <= k < 16 /\ 13 <= l < 16)%nat -> twins (three_lays water_basis rows A B C) k l.
Proof.
  intros D lay I. unfold three_lays in I. apply in_map_iff in I. destruct I as (x & <- & _).
  assert (V : forall j, (10 <= j < 13)%nat -> kind (lay_mol (combine water_basis [dist x A; dist x B; dist x C])) j = false /\ away (lay_mol (combine water_basis [dist x A; dist x B; dist x C])) j = dist x B)
    by (intros j Hj; do 13 (destruct j as [|j]; [first [split; reflexivity|lia]|]); lia).
  assert (V2 : forall j, (13 <= j < 16)%nat -> kind (lay_mol (combine water_basis [dist x A; dist x B; dist x C])) j = false /\ away (lay_mol (combine water_basis [dist x A; dist x B; dist x C])) j = dist x C)
    by (intros j Hj; do 16 (destruct j as [|j]; [first [split; reflexivity|lia]|]); lia).
  destruct D as [[D1 D2]|[D1 D2]]; [destruct (V k D1) as [-> ->], (V l D2) as [-> ->]|destruct (V2 k D1) as [-> ->], (V2 l D2) as [-> ->]]; auto.
Qed.

Lemma seq_lays b rows A B C : map (fun i => lay_mol (combine b (dists_at (map (fun c => map (fun x => dist x c) rows) [A; B; C]) i))) (seq 0 (length rows)) = three_lays b rows A B C.
Proof.
  unfold three_lays. apply nth_ext with (d := lay_mol []) (d' := lay_mol []); [rewrite !map_length; apply seq_length|].
  intros n Hn. rewrite map_length, seq_length in Hn.
  rewrite (nth_indep _ _ ((fun i => lay_mol (combine b (dists_at (map (fun c => map (fun x => dist x c) rows) [A; B; C]) i))) 0%nat)) by (rewrite map_length, seq_length; lia).
  rewrite (map_nth (fun i => lay_mol (combine b (dists_at (map (fun c => map (fun x => dist x c) rows) [A; B; C]) i)))), seq_nth by lia.
  rewrite (nth_indep _ (lay_mol []) ((fun x => lay_mol (combine b [dist x A; dist x B; dist x C])) [])) by (rewrite map_length; lia).
  rewrite (map_nth (fun x => lay_mol (combine b [dist x A; dist x B; dist x C]))). cbn [Nat.add dists_at map].
  assert (N : forall P, nth n (map (fun x => dist x P) rows) 0 = dist (nth n rows []) P).
  { intros P. rewrite (nth_indep _ 0 ((fun x => dist x P) [])) by (rewrite map_length; lia). apply (map_nth (fun x => dist x P)). }
  unfold dists_at. cbn [map]. now rewrite !N.
Qed.

Lemma merged_values rows A B C c e : length c = 16%nat -> length e = 16%nat ->
  (forall k l, (10 <= k < 13 /\ 10 <= l < 13 \/ 13 <= k < 16 /\ 13 <= l < 16)%nat -> nth k e 0 = nth l e 0 /\ nth k c 0 = nth l c 0) ->
  values true (three_lays water_basis rows A B C) c e = values true (three_lays [(7, 3); (1, 0); (1, 0)]%nat rows A B C) (merged_coeffs c) (merged_exps e).
Proof.
  intros Lc Le T. unfold values, three_lays. rewrite !map_map. apply map_ext. intros x.
  destruct (T 11%nat 10%nat ltac:(lia)) as [X1 Y1]. destruct (T 12%nat 10%nat ltac:(lia)) as [X2 Y2]. destruct (T 14%nat 13%nat ltac:(lia)) as [X3 Y3]. destruct (T 15%nat 13%nat ltac:(lia)) as [X4 Y4]. clear T.
  do 16 (destruct c as [|? c]; [discriminate|]). destruct c; [|discriminate]. do 16 (destruct e as [|? e]; [discriminate|]). destruct e; [|discriminate].
  cbn [nth] in *. subst. unfold merged_coeffs, merged_exps. cbn [firstn nth app].
  unfold water_basis, lay_mol, lay_atom, types. cbn [combine map repeat app concat fst snd gsum]. ring.
Qed.

Lemma water_positive : positive water_coeffs /\ positive water_exps /\ length water_coeffs = 16%nat /\ length water_exps = 16%nat.
Proof. split; [|split; [|split; reflexivity]]; unfold water_coeffs, water_exps; cbn [repeat app]; repeat (apply Forall_cons; [lra|]); apply Forall_nil. Qed.

Lemma water_runs rows A B C I W f :
  Forall (fun x => length x = 3%nat) (rows ++ [A; B; C]) -> length W = length rows -> length f = length rows -> quadrature I W -> nonneg W -> nonneg f ->
  (forall P, In P [A; B; C] -> exists i, (i < length W)%nat /\ 0 < nth i W 0 /\ 0 < nth i f 0 /\ dist (nth i rows []) P <> 0) ->
  let lays := three_lays water_basis rows A B C in
  exists fp r c e, fpi_setting fp W f true lays 0 (rdot W f) /\ 0 < rdot W f /\
    mol_notebook (A2 3 (map (map Fin) rows)) I (map Fin f) (A2 3 (map (map Fin) [A; B; C])) = Ok r /\
    r_coeffs r = map Fin c /\ r_exps r = map Fin e /\ length c = 16%nat /\ length e = 16%nat /\ positive c /\ positive e /\
    (forall k l, (10 <= k < 13 /\ 10 <= l < 13 \/ 13 <= k < 16 /\ 13 <= l < 16)%nat -> nth k e 0 = nth l e 0 /\ nth k c 0 = nth l c 0) /\
    (0 < length (r_perf r) <= 15)%nat /\
    row_of 0 W f (values true (three_lays [(7, 3); (1, 0); (1, 0)]%nat rows A B C) (merged_coeffs c) (merged_exps e)) (last (r_perf r) []) /\
    rsum c <= rdot W f + rdot W f / 2 ^ 1022.
Proof.
  intros H3 LW Lf [HI HN] NW Nf Sup lays.
  rewrite Forall_app in H3. destruct H3 as [Hr Hc].
  pose proof (mgeom_nd 3 rows [A; B; C] Hr Hc) as G.
  assert (Fb : Forall (fun b => (0 < fst b + snd b)%nat) water_basis) by (unfold water_basis; repeat constructor; cbn; lia).
  destruct (mol_init_ok _ _ _ _ water_basis true G eq_refl Fb) as (m & Em & _).
  assert (V : views (GMol m) true lays).
  { unfold lays. rewrite <- seq_lays. pose proof (views_mol _ _ _ _ water_basis true m G eq_refl ltac:(discriminate) Fb Em) as Q. cbn [nlen] in Q. rewrite map_length in Q. exact Q. }
  assert (Ll : length lays = length W) by (unfold lays, three_lays; rewrite map_length; lia).
  pose proof (water_sup W f rows A B C ltac:(lia) Sup) as S. fold lays in S.
  assert (Q0 : 0 < rdot W f). { apply (supported_dot W f lays 16); auto; lia. }
  set (ga := mkGridArg (Some (A2 3 (map (map Fin) rows))) (Some I)).
  destruct (proj2 (base_accepts ga (map Fin f) (GMol m) (MKL (Fin 0) (Fin 100000)) None false (Fin 0))) as [ft Eft].
  { split; [rewrite Forall_map; eapply Forall_impl; [|exact Nf]; intros a Ha; cbn; unfold rltb; destruct (Rlt_dec a 0); [lra|reflexivity]|].
    exists (A2 3 (map (map Fin) rows)), I. split; [reflexivity|]. split; [reflexivity|]. split; [discriminate|]. intros _. exists (Fin (rdot W f)). cbn. apply HI. lia. }
  pose proof (int_plain (A2 3 (map (map Fin) rows)) I W HI) as Ig. fold ga in Ig.
  destruct (base_fitok ga false W f _ _ _ _ _ Ig ltac:(lia) Eft) as (FO & Mi & Gr).
  assert (Ei : fit_integrate ft (map Fin f) = Ok (Fin (rdot W f))) by (apply (fo_int _ _ _ _ _ FO); lia).
  assert (Lm : xdiv (Fin (rdot W f)) (ft_integral ft) = Fin 1).
  { rewrite Gr. cbn [xdiv]. rewrite reqb_false by lra. f_equal. field. lra. }
  destruct (fpi_accepts _ _ _ _ _ _ _ _ Eft Ei) as [_ Acc]. cbv zeta in Acc. rewrite Lm in Acc.
  specialize (Acc ltac:(intros Q; injection Q; lra) ltac:(discriminate)).
  set (fp := mkFpi ft (Fin 1)) in *.
  assert (Hs : fpi_setting fp W f true lays 0 (rdot W f)).
  { constructor; [|lia|exact Ll|lra|lra]. exists ga, false, None, (GMol m). split; [exact Ig|]. split; [exact V|]. split; [exact Acc|reflexivity]. }
  assert (Nf16 : nfun lays = 16%nat).
  { unfold nfun. unfold lays, three_lays. destruct rows as [|x q]; [|reflexivity]. destruct W; [|discriminate LW]. unfold rdot, rsum in Q0. cbn in Q0. lra. }
  assert (Nan : nan_passes (fp_fit fp) (length W)).
  { intros y Hy. destruct (base_init_inv _ _ _ _ _ _ _ _ Eft) as (p & I' & n & Eg & -> & _). injection Eg as <- <-. cbn. apply HN. exact Hy. }
  destruct water_positive as (Pc & Pe & L1 & L2).
  assert (Sz : sized lays water_coeffs water_exps) by (split; congruence).
  set (th := mkThr (Fin (/ 10 ^ 3)) (Fin (/ 10 ^ 4)) (Fin (/ 10 ^ 6))).
  assert (S' : supported W f lays (nfun lays)) by (rewrite Nf16; exact S).
  destruct (run_zero fp W f true lays 0 (rdot W f) _ _ true true 15 th Hs Q0 NW Nan S' eq_refl Sz Pc Pe) as (r & c & e & Hr' & E1 & E2 & [Z1 Z2] & Z3 & Z4 & _).
  exists fp, r, c, e. split; [exact Hs|]. split; [exact Q0|]. split.
  { unfold mol_notebook. rewrite Em. cbn [bind]. fold ga. rewrite Acc. cbn [bind]. exact Hr'. }
  split; [exact E1|]. split; [exact E2|]. split; [congruence|]. split; [congruence|]. split; [exact Z3|]. split; [exact Z4|].
  assert (T : forall k l, (10 <= k < 13 /\ 10 <= l < 13 \/ 13 <= k < 16 /\ 13 <= l < 16)%nat -> nth k e 0 = nth l e 0 /\ nth k c 0 = nth l c 0).
  { intros k l D. pose proof (water_twins rows A B C k l D) as Tw. fold lays in Tw.
    assert (One : forall j, (10 <= j < 16)%nat -> nth j water_exps 0 = 1 /\ nth j water_coeffs 0 = 1) by (intros j Hj; do 16 (destruct j as [|j]; [first [split; reflexivity|lia]|]); lia).
    destruct (One k ltac:(lia)) as [K1 K2]. destruct (One l ltac:(lia)) as [K3 K4].
    destruct (run_twin fp W f true lays 0 (rdot W f) _ _ true true 15 th k l Hs Q0 NW Nan S' eq_refl Sz Pc Pe Tw ltac:(lia) ltac:(lia) ltac:(congruence)) as (r2 & c2 & e2 & R & X & Y & Sz2 & P2 & _ & U & D2).
    rewrite Hr' in R. injection R as <-. rewrite E1 in X. rewrite E2 in Y. apply ProofGrid.map_Fin_inj in X, Y. subst c2 e2. split; [exact U|].
    assert (0 < nth l c 0) by (apply (proj1 (Forall_nth _ _) P2); destruct Sz2; lia).
    rewrite K2, K4 in D2. apply Rmult_eq_reg_r with (/ nth l c 0); [|apply Rinv_neq_0_compat; lra]. unfold Rdiv in D2. rewrite D2. field. lra. }
  split; [exact T|].
  destruct (run_nonempty _ _ _ _ _ 15 _ _ _ _ eq_refl Hr') as [R1 R2].
  destruct (run_consistent _ _ _ _ _ _ _ _ Hr') as (c1 & e1 & X & Y & Z). destruct Z as (Mx & _). change (Z.max 15 0) with 15%Z in Mx.
  split; [lia|].
  destruct (fit_rows _ _ _ _ _ _ _ _ _ 15 th r Hs Q0 NW Nan S' Sz Pc Pe Hr' (length (r_perf r) - 1) ltac:(lia)) as (cp & ep & cj & ej & Sp & Pp & Qp & U & _ & _ & _ & _ & Row & Last).
  destruct (Last ltac:(lia)) as [X1 X2]. rewrite E1 in X1. rewrite E2 in X2. apply ProofGrid.map_Fin_inj in X1, X2. subst cj ej. split.
  - rewrite <- merged_values by (try congruence; exact T). fold lays. replace (last (r_perf r) []) with (nth (length (r_perf r) - 1) (r_perf r) []); [exact Row|].
    assert (Np : r_perf r <> []) by (intros Q; rewrite Q in R2; cbn in R2; lia).
    destruct (exists_last Np) as (l & row & ->). rewrite last_last, app_length, app_nth2 by (cbn; lia). cbn [length]. replace (length l + 1 - 1 - length l)%nat with 0%nat by lia. reflexivity.
  - apply (sum_close fp W f lays (rdot W f) cp ep c Hs Q0 NW Nf Q0 Sp Pp Qp _ U).
Qed.
