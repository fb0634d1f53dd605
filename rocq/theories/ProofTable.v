(** The fits of the example scripts run (C99). *)
From Coquelicot Require Import Coquelicot.
From Coq Require Import Reals String Ascii List ZArith Lia Lra Bool Sorted.
From Verif Require Import XR PyText ModelParse SpecParse SpecDens SpecMeas SpecGrid SpecSlater ModelDens ModelMeas ModelGrid ModelFit ModelSlater ModelLoad Lists ProofDens ProofInit
  ProofDeriv ProofMeas ProofGrid ProofSlater SpecFit SpecSteps ProofSteps ProofExpPoly SpecScript ProofScript.
Import ListNotations.
Local Open Scope R_scope.

Lemma ten_small r : 25 / 2 <= r -> / 10 ^ 10 <= Rabs r.
Proof.
  intros H. rewrite Rabs_right by lra. apply Rle_trans with 1; [|lra]. rewrite <- Rinv_1. apply Rinv_le_contravar; [lra|]. apply pow_R1_Rle. lra.
Qed.
Lemma rho_nonneg L r : Forall (fun s => 0 <= s_occ s) L -> 0 <= rho L r.
Proof.
  intros O. unfold rho, rho_w. pose proof PI_RGT_0. apply Rmult_le_pos; [|apply Rlt_le, Rinv_0_lt_compat; lra].
  induction O as [|s L Hs _ IH]; [unfold rsum; cbn; lra|]. cbn [map]. rewrite rsum_cons'. pose proof (pow2_ge_0 (phi s r)). assert (0 <= s_occ s * phi s r ^ 2) by now apply Rmult_le_pos. lra.
Qed.
Lemma Rdec0 (g : R -> R) r : g r = 0 \/ ~ g r = 0.
Proof. destruct (Req_EM_T (g r) 0); auto. Qed.
Lemma sub_sorted xs ys : strictly_ascending ys -> incl ys xs -> forall P, Forall P xs -> Forall P ys.
Proof. intros _ I P F. apply Forall_forall. intros y Hy. exact (proj1 (Forall_forall _ _) F y (I y Hy)). Qed.

Lemma fitted_density a L s z nc nd extra origin (kinetic : bool) : describes a L -> Forall valid L -> Forall (fun s => 0 <= s_occ s) L -> In s L -> 0 < s_occ s -> leading s ->
  (0 < z)%Z -> (0 <= nc)%Z -> (3 * Z.of_nat (size s) <= nd)%Z ->
  exists pts f, clenshaw_init (VInt z) (VInt nc) (VInt nd) (EList (map Fin extra)) (VBool origin) = Ok (map Fin pts) /\
    (if kinetic then kinetic_energy a (A1 (map Fin pts)) else atomic_density a (A1 (map Fin pts)) MTotal) = Ok (map Fin f) /\
    ascending pts /\ length f = length pts /\ nonneg f /\ substantial pts f.
Proof.
  intros De V O I P Ld Hz Hc Hd. assert (Vs := proj1 (Forall_forall _ _) V s I).
  assert (S1 : (1 <= size s)%nat).
  { destruct Ld as (l1 & c & w & n & l2 & E & _). unfold size. rewrite E, map_app. cbn [map snd]. destruct (Vs c w n) as [_ Hn]; [rewrite E; apply in_or_app; right; now left|].
    clear -Hn. rewrite list_sum_app. cbn. lia. }
  destruct (clenshaw_far z nc nd origin extra (size s + 1) Hz Hc ltac:(lia) ltac:(lia)) as (pts & xs & E & Asc & Lx & Sx & Fx).
  destruct kinetic.
  - destruct (kinetic_api a L pts De V O) as (dphi & t & Et & Lt & Ht). exists pts, t. split; [exact E|]. split; [exact Et|]. split; [exact Asc|]. split; [exact Lt|].
    assert (Nt : nonneg t). { apply Forall_forall. intros y Hy. destruct (In_nth t y 0 Hy) as (i & Hi & <-). apply Ht. lia. }
    split; [exact Nt|].
    assert (At : forall r, In r xs -> In r pts /\ 25 / 2 <= r /\ is_derive (phi s) r (dphi s r)).
    { intros r Hr. destruct (proj1 (Forall_forall _ _) Fx r Hr) as [Ip Bp]. split; [exact Ip|]. split; [exact Bp|]. destruct (In_nth pts r 0 Ip) as (i & Hi & <-). apply Ht; [exact Hi|now apply ten_small|exact I]. }
    destruct (pick (fun r => tau dphi L r = 0) (Rdec0 (tau dphi L)) xs (size s) Sx ltac:(lia) S1) as (v & u & Iv & Nv & Iu & Nu).
    { intros ys Sy Iy Zy. apply (kinetic_zeros dphi L s ys O I P Vs Ld Sy). apply Forall_forall. intros y Hy. destruct (At y (Iy y Hy)) as (_ & B & D). split; [lra|]. split; [exact D|]. exact (proj1 (Forall_forall _ _) Zy y Hy). }
    destruct (At v Iv) as (Ip & B & _). apply (substantial_at pts t v); auto; [lra| |].
    + intros i Hi Ei. destruct (Ht i Hi) as [T0 T1]. destruct T1 as [T1 _]; [rewrite Ei; now apply ten_small|]. rewrite Ei in T1. rewrite <- T1 in Nv. lra.
    + exists u. split; [apply At; exact Iu|exact Nu].
  - exists pts, (map (rho L) pts). split; [exact E|]. split; [now apply density_total|]. split; [exact Asc|]. split; [now rewrite map_length|].
    split; [unfold nonneg; rewrite Forall_map; apply Forall_forall; intros r _; now apply rho_nonneg|].
    destruct (pick (fun r => rho L r = 0) (Rdec0 (rho L)) xs (size s) Sx ltac:(lia) S1) as (v & u & Iv & Nv & Iu & Nu).
    { intros ys Sy _ Zy. exact (density_zeros L s ys O I P Vs Ld Sy Zy). }
    destruct (proj1 (Forall_forall _ _) Fx v Iv) as [Ip B]. apply (substantial_at pts _ v); auto; [now rewrite map_length|unfold nonneg; rewrite Forall_map; apply Forall_forall; intros r _; now apply rho_nonneg|lra| |].
    + intros i Hi Ei. rewrite (nth_indep _ 0 (rho L 0)) by (rewrite map_length; exact Hi). rewrite map_nth, Ei. pose proof (rho_nonneg L v O). lra.
    + exists u. split; [exact (proj1 (proj1 (Forall_forall _ _) Fx u Iu))|exact Nu].
Qed.

Lemma table_runs fl ugbs files e z nc nd extra (kinetic origin : bool) factor total fuel data L s d es ep :
  slater_atoms fl files (Some e) false false fuel = Some (Ok data) -> describes (atom_of data) L -> Forall valid L -> Forall (fun s => 0 <= s_occ s) L -> In s L -> 0 < s_occ s -> leading s ->
  get_ugbs_exponents fl ugbs (Some e) = Ok d -> dget (str "S") d = Some (map Fin es) -> dget (str "P") d = Some (map Fin ep) -> positive es -> positive ep -> (0 < length es + length ep)%nat ->
  (0 < z)%Z -> (0 <= nc)%Z -> (3 * Z.of_nat (size s) <= nd)%Z -> 0 < factor -> match total with Some N => 0 < N | None => True end ->
  exists r c' e', table_fit fl ugbs files e z nc nd (map Fin extra) kinetic origin factor (option_map Fin total) fuel = Some (Ok r) /\
    r_coeffs r = map Fin c' /\ r_exps r = map Fin e' /\ length c' = (length es + length ep)%nat /\ length e' = (length es + length ep)%nat /\ positive c' /\ positive e' /\
    (1 <= length (r_perf r))%nat.
Proof.
  intros Sl De V O I P Ld Ug Ds Dp Ps Pp Ln Hz Hc Hd Hf HN.
  destruct (fitted_density (atom_of data) L s z nc nd extra origin kinetic De V O I P Ld Hz Hc Hd) as (pts & f & E & Ef & Asc & Lf & Nf & Sub).
  assert (Pz : 0 < IZR z) by (apply IZR_lt; exact Hz). assert (Pn : 0 < INR (length es + length ep)) by (apply lt_0_INR; exact Ln).
  assert (Pc : positive (repeat (IZR z / INR (length es + length ep)) (length es + length ep))). { apply Forall_forall. intros x Hx. apply repeat_spec in Hx. subst x. now apply Rdiv_lt_0_compat. }
  assert (Pe : positive (map (fun x => x * factor) (es ++ ep))). { unfold positive. rewrite Forall_map. apply Forall_app. split; [eapply Forall_impl; [|exact Ps]|eapply Forall_impl; [|exact Pp]]; intros x Hx; cbv beta in *; now apply Rmult_lt_0_compat. }
  assert (Lc : length (repeat (IZR z / INR (length es + length ep)) (length es + length ep)) = (length es + length ep)%nat) by apply repeat_length.
  assert (Le : length (map (fun x => x * factor) (es ++ ep)) = (length es + length ep)%nat) by (rewrite map_length; apply app_length).
  assert (Hm : 0 <= / 10 ^ 18) by (apply Rlt_le, Rinv_0_lt_compat, pow_lt; lra).
  assert (Hi : (0 < 10000)%Z) by reflexivity.
  destruct (total_run pts f (length es) (length ep) (/ 10 ^ 18) total _ _ 10000 (/ 10 ^ 6) (/ 10 ^ 6) (/ 10 ^ 14) Asc Lf Nf Sub Ln Hm HN Hi Lc Le Pc Pe)
    as (m & fp & r & c' & e' & Em & Efp & Er & A & B & C & D & F & G & Hp & _).
  exists r, c', e'. split; [|exact (conj A (conj B (conj C (conj D (conj F (conj G Hp))))))].
  unfold table_fit. rewrite E. cbn [bindo]. rewrite Ug. cbn [bindo]. unfold dlookup. rewrite Ds, Dp. cbn [bindo]. rewrite !map_length.
  unfold share. destruct (length es + length ep)%nat as [|k] eqn:Ek; [lia|]. rewrite <- Ek in *. cbn [bindo]. rewrite Sl. cbn [bindo]. rewrite Ef. cbn [bindo]. rewrite Em. cbn [bindo]. rewrite Efp. cbn [bindo].
  rewrite <- Er. f_equal. f_equal.
  - f_equal. f_equal. symmetry. apply map_repeat.
  - f_equal. f_equal. rewrite <- map_app, !map_map; reflexivity.
Qed.
