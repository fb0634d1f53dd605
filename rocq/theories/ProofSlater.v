(** Proofs about SlaterAtoms. *)
From Coquelicot Require Import Coquelicot.
From Coq Require Import Reals List ZArith Lia Lra Bool.
From Verif Require Import XR SpecDens Lists GaussInt ProofNorm ModelSlater SpecSlater.
Import ListNotations.
Local Open Scope R_scope.

Lemma Int_part_INR k : Int_part (INR k) = Z.of_nat k.
Proof.
  destruct (base_Int_part (INR k)) as [H1 H2]. rewrite INR_IZR_INZ in *.
  apply le_IZR in H1. rewrite <- minus_IZR in H2. apply (lt_IZR (-1)) in H2. lia.
Qed.

Lemma xpow_nat r k : xpow (Fin r) (INR k) = Fin (r ^ k).
Proof.
  unfold xpow. destruct k as [|k].
  - simpl INR. rewrite reqb_true by reflexivity. reflexivity.
  - assert (Hk : 0 < INR (S k)) by (apply lt_0_INR; lia).
    rewrite reqb_false by lra.
    destruct (Rlt_dec 0 r) as [Hr|Hr].
    + rewrite rltb_true by exact Hr. f_equal. apply Rpower_pow. exact Hr.
    + rewrite rltb_false by exact Hr. destruct (Req_EM_T r 0) as [->|Hz].
      * rewrite reqb_true by reflexivity. rewrite rltb_true by exact Hk.
        f_equal. symmetry. apply pow_ne_zero. lia.
      * rewrite reqb_false by exact Hz. rewrite Int_part_INR, <- INR_IZR_INZ.
        rewrite reqb_true by reflexivity. f_equal. symmetry. apply pow_powerRZ.
Qed.

Lemma fact_pos k : 0 < INR (fact k).
Proof. apply lt_0_INR. apply lt_O_fact. Qed.

Lemma slater_fin z n r : 0 < z -> (1 <= n)%nat -> slater z n (Fin r) = Fin (sto z n r).
Proof.
  intros Hz Hn. unfold slater, slater_norm.
  replace (IZR (Z.of_nat n - 1)) with (INR (n - 1)) by (rewrite INR_IZR_INZ; f_equal; lia).
  rewrite !xpow_nat. pose proof (fact_pos (2 * n)) as Hf.
  unfold xdiv. rewrite reqb_false by lra. unfold xsqrt.
  assert (0 < 2 * z / INR (fact (2 * n))) by (apply Rdiv_lt_0_compat; lra).
  rewrite rltb_false by lra. reflexivity.
Qed.

Definition dsto (z : R) (n : nat) (r : R) : R := ((INR n - 1) / r - z) * sto z n r.

Lemma sto_derive z n r : (1 <= n)%nat -> r <> 0 -> is_derive (sto z n) r (dsto z n r).
Proof.
  intros Hn Hr. unfold dsto, sto.
  set (K := (2 * z) ^ n * sqrt (2 * z / INR (fact (2 * n)))).
  destruct n as [|n]; [lia|]. replace (S n - 1)%nat with n by lia.
  auto_derive; [exact I|].
  replace (INR (S n) - 1) with (INR n) by (rewrite S_INR; ring).
  destruct n as [|n].
  - simpl. field. exact Hr.
  - replace (Nat.pred (S n)) with n by reflexivity. cbn [pow]. field. exact Hr.
Qed.

Lemma slater_deriv_fin z n r : 0 < z -> (1 <= n)%nat -> / 10 ^ 10 <= Rabs r ->
  slater_deriv z n (Fin r) = Fin (dsto z n r).
Proof.
  intros Hz Hn Hr. unfold slater_deriv. rewrite slater_fin by assumption.
  cbn [xabs xltb]. rewrite rltb_false by lra.
  assert (Hr0 : r <> 0).
  { intros ->. rewrite Rabs_R0 in Hr. assert (0 < / 10 ^ 10) by (apply Rinv_0_lt_compat; apply pow_lt; lra). lra. }
  unfold xdiv. rewrite reqb_false by exact Hr0. reflexivity.
Qed.

Lemma slater_deriv_small z n r : 0 < z -> (1 <= n)%nat -> Rabs r < / 10 ^ 10 ->
  slater_deriv z n (Fin r) = Fin 0.
Proof.
  intros Hz Hn Hr. unfold slater_deriv. rewrite slater_fin by assumption.
  cbn [xabs xltb]. rewrite rltb_true by exact Hr. cbn [xmul]. f_equal. ring.
Qed.

(** What the code uses as derivative at every point. *)
Definition csto (z : R) (n : nat) (r : R) : R :=
  if Rlt_dec (Rabs r) (/ 10 ^ 10) then 0 else dsto z n r.

Lemma slater_deriv_all z n r : 0 < z -> (1 <= n)%nat -> slater_deriv z n (Fin r) = Fin (csto z n r).
Proof.
  intros Hz Hn. unfold csto. destruct (Rlt_dec (Rabs r) (/ 10 ^ 10)).
  - apply slater_deriv_small; assumption.
  - apply slater_deriv_fin; [assumption|assumption|lra].
Qed.

(** ** The data of an atom as a list of subshells *)

Definition lnum (l : shell) : nat := match l with LS => 0 | LP => 1 | LD => 2 | LF => 3 end.

Definition describes (a : atom) (L : list subshell) : Prop :=
  at_occ a = map s_occ L /\ at_energy a = map s_en L /\
  Forall2 (fun o s =>
    s_l s = lnum (snd o) /\
    at_exps a (snd o) = Some (map (fun '(c, z, n) => z) (s_exp s)) /\
    at_nums a (snd o) = Some (map (fun '(c, z, n) => n) (s_exp s)) /\
    at_coeff a o = Some (map (fun '(c, z, n) => c) (s_exp s))) (at_orbitals a) L.

(** Code-level orbital derivative. *)
Definition cphi (deriv : bool) (s : subshell) (r : R) : R :=
  rsum (map (fun '(c, z, n) => c * (if deriv then csto z n r else sto z n r)) (s_exp s)).

Lemma cphi_false s r : cphi false s r = phi s r.
Proof. reflexivity. Qed.

Lemma stretch_eq {A B} (l : list A) (m : list B) : length l = length m -> stretch l m = Ok (l, m).
Proof. intros H. unfold stretch. now rewrite H, Nat.eqb_refl. Qed.

Lemma phi_column_ok a deriv o s pts : valid s ->
  at_exps a (snd o) = Some (map (fun '(c, z, n) => z) (s_exp s)) ->
  at_nums a (snd o) = Some (map (fun '(c, z, n) => n) (s_exp s)) ->
  at_coeff a o = Some (map (fun '(c, z, n) => c) (s_exp s)) ->
  phi_column a deriv o (A1 (map Fin pts)) = Ok (map Fin (map (cphi deriv s) pts)).
Proof.
  intros V H1 H2 H3. unfold phi_column. rewrite H1, H2, H3. cbn [lookup bind slater_matrix].
  rewrite !stretch_eq by now rewrite !map_length. cbn [bind fst snd]. rewrite !map_length, !Nat.eqb_refl.
  f_equal. rewrite !map_map. apply map_ext. intros r.
  unfold cphi. clear H1 H2 H3. revert V. unfold valid. induction (s_exp s) as [|[[c z] n] l IH]; intros V; [reflexivity|].
  destruct (V c z n (or_introl eq_refl)) as [Hz Hn].
  cbn [map map2]. unfold xdot in *. cbn [map2]. unfold xsum in *. cbn [fold_right].
  rewrite IH by (intros c' z' n' Hi; apply (V c' z' n'); right; exact Hi).
  destruct deriv.
  - rewrite slater_deriv_all by assumption. cbn [xmul xadd]. f_equal. rewrite rsum_cons. ring.
  - rewrite slater_fin by assumption. cbn [xmul xadd]. f_equal. rewrite rsum_cons. ring.
Qed.

Lemma mapM_Forall2 {A B C} (P : A -> B -> Prop) (f : A -> res C) (g : B -> C) l m :
  Forall2 P l m -> (forall a b, In b m -> P a b -> f a = Ok (g b)) -> mapM f l = Ok (map g m).
Proof.
  induction 1 as [|a b l m Hab F IH]; intros H; [reflexivity|].
  cbn [mapM map]. rewrite (H a b) by (auto; left; reflexivity). cbn [bind].
  rewrite IH; [reflexivity|]. intros a' b' Hi. apply H. right. exact Hi.
Qed.

Lemma phi_matrix_ok a L deriv pts : describes a L -> Forall valid L ->
  phi_matrix a (A1 (map Fin pts)) deriv = Ok (map (fun s => map Fin (map (cphi deriv s) pts)) L).
Proof.
  intros (_ & _ & F) V. unfold phi_matrix. rewrite Forall_forall in V.
  eapply mapM_Forall2; [exact F|]. intros o s Hi (_ & H1 & H2 & H3).
  apply phi_column_ok; auto.
Qed.

Lemma cols_dot_ok {A} (f : A -> R -> R) (w : A -> R) (L : list A) (pts : list R) n :
  n = length pts ->
  cols_dot n (map (fun s => map Fin (map (f s) pts)) L) (map Fin (map w L)) =
  Ok (map Fin (map (fun r => rsum (map (fun s => w s * f s r) L)) pts)).
Proof.
  intros ->. unfold cols_dot. rewrite !map_length, Nat.eqb_refl. f_equal.
  induction L as [|s L IH].
  - cbn [map map2 fold_right]. unfold rsum. simpl. induction pts; simpl; [reflexivity|].
    f_equal. assumption.
  - cbn [map map2 fold_right]. rewrite IH. rewrite !map_map.
    clear. induction pts as [|r pts IH]; [reflexivity|]. cbn [map map2]. rewrite IH.
    f_equal. cbn [xmul xadd]. f_equal. rewrite rsum_cons. ring.
Qed.

Lemma div4pi_ok {A} (f : A -> R) l :
  map (fun x => xdiv x (Fin (4 * PI))) (map Fin (map f l)) = map Fin (map (fun r => f r / (4 * PI)) l).
Proof.
  rewrite !map_map. apply map_ext. intros r. unfold xdiv. pose proof PI_RGT_0.
  rewrite reqb_false by lra. reflexivity.
Qed.

Lemma phi_sq L pts :
  map (map xsq) (map (fun s => map Fin (map (cphi false s) pts)) L) =
  map (fun s => map Fin (map (fun r => phi s r ^ 2) pts)) L.
Proof.
  rewrite map_map. apply map_ext. intros s. rewrite !map_map. apply map_ext. intros r.
  unfold xsq. cbn [xmul]. rewrite cphi_false. f_equal. ring.
Qed.

(** Weights used for each mode, with reference energy [h]. *)
Definition mode_weight (mode : dmode) (h : R) (s : subshell) : R :=
  match mode with
  | MValence => s_occ s * exp (- (s_en s - h) ^ 2)
  | MCore => s_occ s * (1 - exp (- (s_en s - h) ^ 2))
  | _ => s_occ s
  end.

Lemma homo_ok a L s : describes a (L ++ [s]) -> homo a = Ok (s_en s).
Proof.
  intros (H1 & H2 & _). unfold homo. rewrite H1, H2, !map_length, app_length.
  replace (length L + length [s])%nat with (S (length L)) by (simpl; lia).
  rewrite map_app, nth_error_app2 by (rewrite map_length; lia).
  rewrite map_length, Nat.sub_diag. reflexivity.
Qed.

Lemma scaled_occ_ok a L s mode : describes a (L ++ [s]) -> mode <> MOther ->
  scaled_occ a mode = Ok (map Fin (map (mode_weight mode (s_en s)) (L ++ [s]))).
Proof.
  intros D Hm. pose proof (homo_ok a L s D) as Hh. destruct D as (H1 & H2 & _).
  unfold scaled_occ. rewrite Hh. cbn [bind].
  rewrite H1, H2, !stretch_eq by now rewrite !map_length. cbn [bind fst snd].
  destruct mode; [reflexivity| | |congruence]; f_equal;
    rewrite map2_map, map2_same, map_map; apply map_ext; intros x; reflexivity.
Qed.

Lemma density_total a L pts : describes a L -> Forall valid L ->
  atomic_density a (A1 (map Fin pts)) MTotal = Ok (map Fin (map (rho L) pts)).
Proof.
  intros D V. unfold atomic_density. cbn [scaled_occ bind].
  rewrite (phi_matrix_ok a L false pts D V). cbn [bind]. rewrite phi_sq.
  destruct D as (H1 & _ & _). rewrite H1.
  rewrite (cols_dot_ok (fun s r => phi s r ^ 2) s_occ L pts) by (cbn [nrows]; apply map_length).
  cbn [bind]. rewrite div4pi_ok. reflexivity.
Qed.

Lemma density_mode a L s mode pts : describes a (L ++ [s]) -> Forall valid (L ++ [s]) -> mode <> MOther ->
  atomic_density a (A1 (map Fin pts)) mode =
  Ok (map Fin (map (rho_w (mode_weight mode (s_en s)) (L ++ [s])) pts)).
Proof.
  intros D V Hm. unfold atomic_density. rewrite (scaled_occ_ok a L s mode D Hm). cbn [bind].
  rewrite (phi_matrix_ok a _ false pts D V). cbn [bind]. rewrite phi_sq.
  rewrite (cols_dot_ok (fun s r => phi s r ^ 2) _ (L ++ [s]) pts) by (cbn [nrows]; apply map_length).
  cbn [bind]. rewrite div4pi_ok. reflexivity.
Qed.

(** ** Core and valence *)

Lemma rho_w_add w w' L r : rho_w w L r + rho_w w' L r = rho_w (fun s => w s + w' s) L r.
Proof.
  unfold rho_w. rewrite <- Rdiv_plus_distr. f_equal.
  induction L as [|s L IH]; [unfold rsum; simpl; ring|]. cbn [map]. rewrite !rsum_cons, <- IH. ring.
Qed.

Lemma rho_w_ext w w' L r : (forall s, In s L -> w s = w' s) -> rho_w w L r = rho_w w' L r.
Proof.
  intros H. unfold rho_w. f_equal. f_equal. apply map_ext_in. intros s Hs. rewrite H by exact Hs.
  reflexivity.
Qed.

Lemma rho_w_nonneg w L r : (forall s, In s L -> 0 <= w s) -> 0 <= rho_w w L r.
Proof.
  intros H. unfold rho_w. pose proof PI_RGT_0. apply Rdiv_le_0_compat; [|lra].
  apply rsum_nonneg. apply Forall_forall. intros x Hx. apply in_map_iff in Hx.
  destruct Hx as [s [<- Hs]]. apply Rmult_le_pos; [apply H; exact Hs|apply pow2_ge_0].
Qed.

Lemma exp_neg_sq_range x : 0 < exp (- x ^ 2) <= 1.
Proof.
  split; [apply exp_pos|]. rewrite <- exp_0. pose proof (pow2_ge_0 x).
  destruct (Req_dec (x ^ 2) 0) as [->|]; [rewrite Ropp_0; lra|]. left. apply exp_increasing. lra.
Qed.

Lemma core_valence a L s pts : describes a (L ++ [s]) -> Forall valid (L ++ [s]) ->
  Forall (fun t => 0 <= s_occ t) (L ++ [s]) ->
  exists tot core val,
    atomic_density a (A1 (map Fin pts)) MTotal = Ok (map Fin tot) /\
    atomic_density a (A1 (map Fin pts)) MCore = Ok (map Fin core) /\
    atomic_density a (A1 (map Fin pts)) MValence = Ok (map Fin val) /\
    length tot = length pts /\ length core = length pts /\ length val = length pts /\
    forall i, (i < length pts)%nat ->
      nth i tot 0 = nth i core 0 + nth i val 0 /\
      0 <= nth i core 0 <= nth i tot 0 /\ 0 <= nth i val 0 <= nth i tot 0.
Proof.
  intros D V Ho.
  exists (map (rho_w (mode_weight MTotal (s_en s)) (L ++ [s])) pts),
         (map (rho_w (mode_weight MCore (s_en s)) (L ++ [s])) pts),
         (map (rho_w (mode_weight MValence (s_en s)) (L ++ [s])) pts).
  split; [apply density_mode; auto; discriminate|].
  split; [apply density_mode; auto; discriminate|].
  split; [apply density_mode; auto; discriminate|].
  rewrite !map_length. do 3 (split; [reflexivity|]).
  intros i Hi.
  assert (N : forall f : R -> R, nth i (map f pts) 0 = f (nth i pts 0)).
  { intros f. rewrite nth_indep with (d' := f 0) by (rewrite map_length; exact Hi). apply map_nth. }
  rewrite !N. set (r := nth i pts 0). rewrite Forall_forall in Ho.
  assert (E : rho_w (mode_weight MTotal (s_en s)) (L ++ [s]) r =
    rho_w (mode_weight MCore (s_en s)) (L ++ [s]) r + rho_w (mode_weight MValence (s_en s)) (L ++ [s]) r).
  { rewrite rho_w_add. apply rho_w_ext. intros t _. cbn [mode_weight]. ring. }
  assert (Hc : 0 <= rho_w (mode_weight MCore (s_en s)) (L ++ [s]) r).
  { apply rho_w_nonneg. intros t Ht. specialize (Ho t Ht). cbn [mode_weight].
    pose proof (exp_neg_sq_range (s_en t - s_en s)). apply Rmult_le_pos; lra. }
  assert (Hv : 0 <= rho_w (mode_weight MValence (s_en s)) (L ++ [s]) r).
  { apply rho_w_nonneg. intros t Ht. specialize (Ho t Ht). cbn [mode_weight].
    pose proof (exp_neg_sq_range (s_en t - s_en s)). apply Rmult_le_pos; lra. }
  lra.
Qed.

(** ** Derivatives *)

Lemma rsum_derive {A} (f df : A -> R -> R) (L : list A) (r : R) :
  (forall s, In s L -> is_derive (f s) r (df s r)) ->
  is_derive (fun t : R => rsum (map (fun s => f s t) L)) r (rsum (map (fun s => df s r) L)).
Proof.
  induction L as [|s L IH]; intros H.
  - cbn [map]. unfold rsum. simpl. apply (is_derive_const (V := R_NormedModule) 0).
  - cbn [map]. apply (is_derive_ext (fun t : R => f s t + rsum (map (fun s0 => f s0 t) L))).
    { intros t. rewrite rsum_cons. reflexivity. }
    rewrite rsum_cons. apply (is_derive_plus (f s) (fun t : R => rsum (map (fun s0 => f s0 t) L))).
    + apply H. left. reflexivity.
    + apply IH. intros t Ht. apply H. right. exact Ht.
Qed.

Lemma small_nonzero r : / 10 ^ 10 <= Rabs r -> r <> 0.
Proof.
  intros H ->. rewrite Rabs_R0 in H.
  assert (0 < / 10 ^ 10) by (apply Rinv_0_lt_compat; apply pow_lt; lra). lra.
Qed.

Lemma phi_derive s r : valid s -> / 10 ^ 10 <= Rabs r -> is_derive (phi s) r (cphi true s r).
Proof.
  intros V Hr.
  pose (f := fun (x : R * R * nat) (t : R) => fst (fst x) * sto (snd (fst x)) (snd x) t).
  pose (df := fun (x : R * R * nat) (t : R) => fst (fst x) * csto (snd (fst x)) (snd x) t).
  apply (is_derive_ext (fun t : R => rsum (map (fun x => f x t) (s_exp s)))).
  { intros t. unfold phi. f_equal. apply map_ext. intros [[c z] n]. reflexivity. }
  replace (cphi true s r) with (rsum (map (fun x => df x r) (s_exp s))).
  2:{ unfold cphi. f_equal. apply map_ext. intros [[c z] n]. reflexivity. }
  apply rsum_derive. intros [[c z] n] Hi. destruct (V c z n Hi) as [Hz Hn]. unfold f, df. cbn [fst snd].
  apply (is_derive_scal (sto z n) r c). unfold csto.
  destruct (Rlt_dec (Rabs r) (/ 10 ^ 10)); [lra|].
  apply sto_derive; [exact Hn|apply small_nonzero; exact Hr].
Qed.

Lemma derivative_density_ok a L pts : describes a L -> Forall valid L ->
  derivative_density a (A1 (map Fin pts)) =
  Ok (map Fin (map (fun r => rsum (map (fun s => s_occ s * (2 * (phi s r * cphi true s r))) L) / (4 * PI)) pts)).
Proof.
  intros D V. unfold derivative_density.
  rewrite (phi_matrix_ok a L false pts D V), (phi_matrix_ok a L true pts D V). cbn [bind].
  replace (map2 (map2 (fun x y => xmul (Fin 2) (xmul x y)))
            (map (fun s => map Fin (map (cphi false s) pts)) L)
            (map (fun s => map Fin (map (cphi true s) pts)) L))
    with (map (fun s => map Fin (map (fun r => 2 * (phi s r * cphi true s r)) pts)) L).
  - destruct D as (H1 & _ & _). rewrite H1.
    rewrite (cols_dot_ok (fun s r => 2 * (phi s r * cphi true s r)) s_occ L pts)
      by (cbn [nrows]; apply map_length).
    cbn [bind]. rewrite div4pi_ok. reflexivity.
  - rewrite map2_map, map2_same. apply map_ext. intros s.
    rewrite !map2_map, map2_same, map_map. apply map_ext. intros r. reflexivity.
Qed.

Lemma rho_derive L r : Forall valid L -> / 10 ^ 10 <= Rabs r ->
  is_derive (rho L) r (rsum (map (fun s => s_occ s * (2 * (phi s r * cphi true s r))) L) / (4 * PI)).
Proof.
  intros V Hr. unfold rho, rho_w.
  apply (is_derive_ext (fun t : R => / (4 * PI) * rsum (map (fun s => s_occ s * phi s t ^ 2) L))).
  { intros t. change (/ (4 * PI) * rsum (map (fun s => s_occ s * phi s t ^ 2) L) = rsum (map (fun s => s_occ s * phi s t ^ 2) L) / (4 * PI)). unfold Rdiv. apply Rmult_comm. }
  replace (rsum (map (fun s => s_occ s * (2 * (phi s r * cphi true s r))) L) / (4 * PI)) with
    (/ (4 * PI) * rsum (map (fun s => s_occ s * (2 * (phi s r * cphi true s r))) L))
    by (unfold Rdiv; apply Rmult_comm).
  apply is_derive_scal.
  apply (rsum_derive (fun s (t : R) => s_occ s * phi s t ^ 2)
                     (fun s (t : R) => s_occ s * (2 * (phi s t * cphi true s t)))).
  intros s Hs. rewrite Forall_forall in V. apply is_derive_scal.
  pose proof (phi_derive s r (V s Hs) Hr) as Hd.
  replace (2 * (phi s r * cphi true s r)) with (INR 2 * cphi true s r * phi s r ^ Nat.pred 2)
    by (simpl; ring).
  apply (is_derive_pow (phi s) 2 r). exact Hd.
Qed.

Lemma deriv_density_api a L pts : describes a L -> Forall valid L ->
  exists dens d,
    atomic_density a (A1 (map Fin pts)) MTotal = Ok (map Fin dens) /\
    derivative_density a (A1 (map Fin pts)) = Ok (map Fin d) /\
    dens = map (rho L) pts /\ length d = length pts /\
    forall i, (i < length pts)%nat ->
      (/ 10 ^ 10 <= Rabs (nth i pts 0) -> is_derive (rho L) (nth i pts 0) (nth i d 0)) /\
      (Rabs (nth i pts 0) < / 10 ^ 10 -> nth i d 0 = 0).
Proof.
  intros D V. eexists. eexists. split; [apply density_total; eassumption|].
  split; [apply derivative_density_ok; eassumption|]. split; [reflexivity|].
  split; [apply map_length|]. intros i Hi.
  assert (N : forall f : R -> R, nth i (map f pts) 0 = f (nth i pts 0)).
  { intros f. rewrite nth_indep with (d' := f 0) by (rewrite map_length; exact Hi). apply map_nth. }
  rewrite !N.
  cbv beta. split; [apply rho_derive; exact V|].
  intros Hr. replace (rsum _) with 0; [unfold Rdiv; ring|].
  clear -Hr. induction L as [|s L IH]; [reflexivity|]. cbn [map]. rewrite rsum_cons, <- IH.
  replace (cphi true s (nth i pts 0)) with 0; [ring|].
  unfold cphi. induction (s_exp s) as [|[[c z] n] l IHl]; [reflexivity|].
  cbn [map]. rewrite rsum_cons, <- IHl. unfold csto.
  destruct (Rlt_dec (Rabs (nth i pts 0)) (/ 10 ^ 10)); [ring|lra].
Qed.

(** ** Kinetic energy *)

Definition ctau (L : list subshell) (r : R) : R :=
  rsum (map (fun s => s_occ s * (cphi true s r ^ 2 +
     (if Rlt_dec (Rabs r) (/ 10 ^ 10) then 0
      else INR (s_l s) * (INR (s_l s) + 1) * phi s r ^ 2 / r ^ 2))) L) / 2 / (4 * PI).

Lemma angular_l l : angular l = INR (lnum l) * (INR (lnum l) + 1).
Proof. destruct l; simpl; ring. Qed.

Lemma kinetic_ok a L pts : describes a L -> Forall valid L ->
  kinetic_energy a (A1 (map Fin pts)) = Ok (map Fin (map (ctau L) pts)).
Proof.
  intros D V. unfold kinetic_energy. pose proof D as (H1 & _ & F). rewrite Forall_forall in V.
  rewrite (mapM_Forall2 _ _ (fun s => map Fin (map (fun r => cphi true s r ^ 2 +
     (if Rlt_dec (Rabs r) (/ 10 ^ 10) then 0
      else INR (s_l s) * (INR (s_l s) + 1) * phi s r ^ 2 / r ^ 2)) pts)) _ L F).
  - cbn [bind]. rewrite H1.
    rewrite (cols_dot_ok (fun s r => cphi true s r ^ 2 +
     (if Rlt_dec (Rabs r) (/ 10 ^ 10) then 0
      else INR (s_l s) * (INR (s_l s) + 1) * phi s r ^ 2 / r ^ 2)) s_occ L pts)
      by (cbn [nrows]; apply map_length).
    cbn [bind]. f_equal. rewrite !map_map. apply map_ext. intros r. unfold ctau.
    unfold xdiv at 2. rewrite reqb_false by lra. unfold xdiv. pose proof PI_RGT_0.
    rewrite reqb_false by lra. reflexivity.
  - intros o s Hi (Hl & E1 & E2 & E3). unfold kinetic_column.
    rewrite (phi_column_ok a true o s pts (V s Hi) E1 E2 E3).
    rewrite (phi_column_ok a false o s pts (V s Hi) E1 E2 E3). cbn [bind]. f_equal.
    clear -Hl. induction pts as [|r pts IH]; [reflexivity|].
    cbn [map combine map2]. rewrite IH. f_equal. cbn [xabs xltb].
    unfold rltb. destruct (Rlt_dec (Rabs r) (/ 10 ^ 10)) as [Hr|Hr].
    + unfold xsq. cbn [xmul xadd]. f_equal. ring.
    + assert (Hr0 : r <> 0) by (apply small_nonzero; lra).
      unfold xsq. cbn [xmul xadd]. unfold xdiv.
      rewrite reqb_false by (apply Rmult_integral_contrapositive; auto).
      cbn [xadd]. f_equal. rewrite cphi_false, angular_l, <- Hl. field. exact Hr0.
Qed.

Lemma kinetic_api a L pts : describes a L -> Forall valid L ->
  Forall (fun t => 0 <= s_occ t) L ->
  exists (dphi : subshell -> R -> R) t,
    kinetic_energy a (A1 (map Fin pts)) = Ok (map Fin t) /\ length t = length pts /\
    forall i, (i < length pts)%nat ->
      0 <= nth i t 0 /\
      (/ 10 ^ 10 <= Rabs (nth i pts 0) ->
        nth i t 0 = tau dphi L (nth i pts 0) /\
        forall s, In s L -> is_derive (phi s) (nth i pts 0) (dphi s (nth i pts 0))).
Proof.
  intros D V Ho. exists (cphi true). eexists. split; [apply kinetic_ok; eassumption|].
  split; [apply map_length|]. intros i Hi.
  assert (N : forall f : R -> R, nth i (map f pts) 0 = f (nth i pts 0)).
  { intros f. rewrite nth_indep with (d' := f 0) by (rewrite map_length; exact Hi). apply map_nth. }
  rewrite !N.
  set (r := nth i pts 0). pose proof PI_RGT_0. rewrite Forall_forall in Ho, V. split; [|intros Hr; split].
  - unfold ctau. unfold Rdiv. rewrite Rmult_assoc. apply Rmult_le_pos.
    + apply rsum_nonneg. apply Forall_forall. intros x Hx. apply in_map_iff in Hx.
      destruct Hx as [s [<- Hs]]. apply Rmult_le_pos; [apply Ho; exact Hs|].
      apply Rplus_le_le_0_compat; [apply pow2_ge_0|].
      destruct (Rlt_dec (Rabs r) (/ 10 ^ 10)) as [|Hr]; [lra|].
      assert (r <> 0) by (apply small_nonzero; lra).
      apply Rdiv_le_0_compat; [|apply pow2_gt_0; assumption].
      pose proof (pos_INR (s_l s)). apply Rmult_le_pos; [apply Rmult_le_pos; lra|apply pow2_ge_0].
    + left. apply Rmult_lt_0_compat; apply Rinv_0_lt_compat; lra.
  - unfold ctau, tau. destruct (Rlt_dec (Rabs r) (/ 10 ^ 10)); [lra|].
    unfold Rdiv. field. lra.
  - intros s Hs. apply phi_derive; [apply V; exact Hs|exact Hr].
Qed.

(** Weizsaecker bound from the Cauchy-Schwarz inequality. *)
Lemma cauchy_w {A} (w x y : A -> R) (L : list A) : (forall s, In s L -> 0 <= w s) ->
  rsum (map (fun s => w s * (x s * y s)) L) ^ 2 <=
  rsum (map (fun s => w s * x s ^ 2) L) * rsum (map (fun s => w s * y s ^ 2) L).
Proof.
  intros H.
  assert (Q : forall t : R, 0 <= rsum (map (fun s => w s * x s ^ 2) L) * t ^ 2
       + 2 * t * rsum (map (fun s => w s * (x s * y s)) L) + rsum (map (fun s => w s * y s ^ 2) L)).
  { intros t. induction L as [|s L IH]; [unfold rsum; simpl; lra|].
    cbn [map]. rewrite !rsum_cons.
    assert (0 <= w s * (t * x s + y s) ^ 2) by (apply Rmult_le_pos; [apply H; left; reflexivity|apply pow2_ge_0]).
    specialize (IH ltac:(intros u Hu; apply H; right; exact Hu)). nra. }
  set (A0 := rsum (map (fun s => w s * x s ^ 2) L)) in *.
  set (B0 := rsum (map (fun s => w s * (x s * y s)) L)) in *.
  set (C0 := rsum (map (fun s => w s * y s ^ 2) L)) in *.
  destruct (Req_dec A0 0) as [HA|HA].
  - rewrite HA in *. destruct (Req_dec B0 0) as [HB|HB]; [rewrite HB; lra|].
    specialize (Q (- (C0 + 1) / (2 * B0))).
    replace (2 * (- (C0 + 1) / (2 * B0)) * B0) with (- (C0 + 1)) in Q by (field; exact HB). lra.
  - assert (0 <= A0).
    { apply rsum_nonneg. apply Forall_forall. intros v Hv. apply in_map_iff in Hv.
      destruct Hv as [s [<- Hs]]. apply Rmult_le_pos; [apply H; exact Hs|apply pow2_ge_0]. }
    specialize (Q (- B0 / A0)).
    assert (E : A0 * (- B0 / A0) ^ 2 + 2 * (- B0 / A0) * B0 + C0 = (A0 * C0 - B0 ^ 2) / A0)
      by (field; exact HA).
    rewrite E in Q. assert (0 <= (A0 * C0 - B0 ^ 2) / A0 * A0) by (apply Rmult_le_pos; lra).
    replace ((A0 * C0 - B0 ^ 2) / A0 * A0) with (A0 * C0 - B0 ^ 2) in H1 by (field; exact HA). lra.
Qed.

Lemma weizsaecker a L pts : describes a L -> Forall valid L ->
  Forall (fun t => 0 <= s_occ t) L ->
  exists dens d t,
    atomic_density a (A1 (map Fin pts)) MTotal = Ok (map Fin dens) /\
    derivative_density a (A1 (map Fin pts)) = Ok (map Fin d) /\
    kinetic_energy a (A1 (map Fin pts)) = Ok (map Fin t) /\
    forall i, (i < length pts)%nat -> nth i d 0 ^ 2 <= 8 * nth i dens 0 * nth i t 0.
Proof.
  intros D V Ho. do 3 eexists. split; [apply density_total; eassumption|].
  split; [apply derivative_density_ok; eassumption|]. split; [apply kinetic_ok; eassumption|].
  intros i Hi.
  assert (N : forall f : R -> R, nth i (map f pts) 0 = f (nth i pts 0)).
  { intros f. rewrite nth_indep with (d' := f 0) by (rewrite map_length; exact Hi). apply map_nth. }
  rewrite !N. set (r := nth i pts 0). rewrite Forall_forall in Ho.
  unfold rho, rho_w, ctau. pose proof PI_RGT_0 as Hpi.
  pose proof (cauchy_w s_occ (fun s => phi s r) (fun s => cphi true s r) L Ho) as CS. cbv beta in CS.
  set (A0 := rsum (map (fun s => s_occ s * phi s r ^ 2) L)) in *.
  set (B0 := rsum (map (fun s => s_occ s * (phi s r * cphi true s r)) L)) in *.
  set (C0 := rsum (map (fun s => s_occ s * cphi true s r ^ 2) L)) in *.
  replace (rsum (map (fun s => s_occ s * (2 * (phi s r * cphi true s r))) L)) with (2 * B0).
  2:{ unfold B0. clear. induction L as [|s L IH]; [unfold rsum; simpl; ring|].
      cbn [map]. rewrite !rsum_cons, <- IH. ring. }
  set (T := rsum (map (fun s => s_occ s * (cphi true s r ^ 2 + _)) L)).
  assert (HT : C0 <= T).
  { unfold C0, T. clear -Ho. induction L as [|s L IH]; [apply Rle_refl|].
    cbn [map]. rewrite !rsum_cons. apply Rplus_le_compat.
    - apply Rmult_le_compat_l; [apply Ho; left; reflexivity|].
      destruct (Rlt_dec (Rabs r) (/ 10 ^ 10)) as [|Hr]; [lra|].
      assert (r <> 0) by (apply small_nonzero; lra).
      assert (0 <= INR (s_l s) * (INR (s_l s) + 1) * phi s r ^ 2 / r ^ 2).
      { apply Rdiv_le_0_compat; [|apply pow2_gt_0; assumption].
        pose proof (pos_INR (s_l s)). apply Rmult_le_pos; [apply Rmult_le_pos; lra|apply pow2_ge_0]. }
      lra.
    - apply IH. intros t Ht. apply Ho. right. exact Ht. }
  assert (HA : 0 <= A0).
  { apply rsum_nonneg. apply Forall_forall. intros v Hv. apply in_map_iff in Hv.
    destruct Hv as [s [<- Hs]]. apply Rmult_le_pos; [apply Ho; exact Hs|apply pow2_ge_0]. }
  assert (HB : B0 ^ 2 <= A0 * T).
  { eapply Rle_trans; [exact CS|]. apply Rmult_le_compat_l; [exact HA|exact HT]. }
  replace ((2 * B0 / (4 * PI)) ^ 2) with (B0 ^ 2 * / (4 * PI ^ 2)) by (field; lra).
  replace (8 * (A0 / (4 * PI)) * (T / 2 / (4 * PI))) with (A0 * T * / (4 * PI ^ 2)) by (field; lra).
  apply Rmult_le_compat_r; [|exact HB]. left. apply Rinv_0_lt_compat.
  assert (0 < PI ^ 2) by (apply pow_lt; exact Hpi). lra.
Qed.

(** ** Integrals *)

(** r^m e^(-b r) on [0, +oo). *)
Fixpoint gamT (b : R) (m : nat) (T : R) : R :=
  match m with
  | O => (1 - exp (- b * T)) / b
  | S k => (INR (S k) * gamT b k T - T ^ S k * exp (- b * T)) / b
  end.

Lemma is_RInt_gamT b m T : 0 < b -> is_RInt (fun r : R => r ^ m * exp (- b * r)) 0 T (gamT b m T).
Proof.
  intros Hb. induction m as [|m IH].
  - replace (gamT b 0 T) with (minus ((fun r : R => - exp (- b * r) / b) T) ((fun r : R => - exp (- b * r) / b) 0)).
    2:{ unfold minus, plus, opp; simpl. rewrite Rmult_0_r, exp_0. field. lra. }
    apply (is_RInt_derive (fun r : R => - exp (- b * r) / b)).
    + intros r _. auto_derive; [lra|]. simpl. field. lra.
    + intros r _. apply exd_cont. auto_derive. exact I.
  - cbn [gamT].
    assert (P : is_RInt (fun r : R => INR (S m) * r ^ m * exp (- b * r) - b * (r ^ S m * exp (- b * r)))
                        0 T (T ^ S m * exp (- b * T))).
    { replace (T ^ S m * exp (- b * T)) with
        (minus ((fun r : R => r ^ S m * exp (- b * r)) T) ((fun r : R => r ^ S m * exp (- b * r)) 0)).
      2:{ unfold minus, plus, opp; simpl. ring. }
      apply (is_RInt_derive (fun r : R => r ^ S m * exp (- b * r))).
      - intros x _.
        replace (INR (S m) * x ^ m * exp (- b * x) - b * (x ^ S m * exp (- b * x))) with
          (plus (mult (INR (S m) * x ^ m) (exp (- b * x))) (mult (x ^ S m) (- b * exp (- b * x)))).
        2:{ unfold plus, mult; cbn -[INR pow]. ring. }
        apply (is_derive_mult (fun y : R => y ^ S m) (fun y : R => exp (- b * y))).
        + apply d_pow.
        + auto_derive; [exact I|]. ring.
        + intros; apply Rmult_comm.
      - intros x _. apply exd_cont.
        apply (ex_derive_minus (fun r : R => INR (S m) * r ^ m * exp (- b * r))
                               (fun r : R => b * (r ^ S m * exp (- b * r)))); auto_derive; exact I. }
    pose proof (is_RInt_scal _ _ _ (INR (S m)) _ IH) as H2.
    pose proof (is_RInt_minus _ _ _ _ _ _ H2 P) as H3.
    apply (is_RInt_scal _ _ _ (/ b)) in H3.
    replace ((INR (S m) * gamT b m T - T ^ S m * exp (- b * T)) / b) with
      (scal (/ b) (minus (scal (INR (S m)) (gamT b m T)) (T ^ S m * exp (- b * T)))).
    2:{ unfold scal, minus, plus, opp; cbn -[INR pow]; unfold mult; cbn -[INR pow]. field. lra. }
    eapply is_RInt_ext; [|exact H3]. intros x _.
    unfold scal, minus, plus, opp; cbn -[INR pow]; unfold mult; cbn -[INR pow]. field. lra.
Qed.

Lemma pow_expb_lim n b : 0 < b -> is_lim (fun t => t ^ n * exp (- b * t)) p_infty 0.
Proof.
  intros Hb. apply (is_lim_ext (fun t => (/ b) ^ n * ((b * t) ^ n * exp (- (b * t))))).
  { intros t. rewrite <- Rmult_assoc, <- Rpow_mult_distr, <- Rmult_assoc, Rinv_l, Rmult_1_l by lra.
    f_equal. f_equal. ring. }
  replace (Finite 0) with (Rbar_mult ((/ b) ^ n) (Finite 0)) by (simpl; f_equal; ring).
  apply is_lim_scal_l. apply (lim_scale (fun t => t ^ n * exp (- t))); auto. apply pow_expneg_lim.
Qed.

Lemma gamT_lim b m : 0 < b -> is_lim (gamT b m) p_infty (INR (fact m) / b ^ (m + 1)).
Proof.
  intros Hb. induction m as [|m IH].
  - cbn [gamT]. apply (is_lim_ext (fun T => / b * (1 - T ^ 0 * exp (- b * T)))).
    { intros T. simpl. field. lra. }
    replace (Finite (INR (fact 0) / b ^ (0 + 1))) with (Rbar_mult (/ b) (Finite (1 - 0))).
    2:{ simpl. f_equal. field. lra. }
    apply is_lim_scal_l. apply (is_lim_minus (fun _ => 1) (fun T => T ^ 0 * exp (- b * T)) p_infty 1 0).
    + apply is_lim_const.
    + apply pow_expb_lim. exact Hb.
    + reflexivity.
  - cbn [gamT].
    apply (is_lim_ext (fun T => / b * (INR (S m) * gamT b m T - T ^ S m * exp (- b * T)))).
    { intros T. field. lra. }
    replace (Finite (INR (fact (S m)) / b ^ (S m + 1))) with
      (Rbar_mult (/ b) (Finite (INR (S m) * (INR (fact m) / b ^ (m + 1)) - 0))).
    2:{ cbn [Rbar_mult]. simpl. f_equal. rewrite plus_INR, mult_INR.
        replace (match m with 0%nat => 1 | S _ => INR m + 1 end) with (INR (S m)) by reflexivity.
        rewrite S_INR. field. split; [apply pow_nonzero|]; lra. }
    apply is_lim_scal_l.
    apply (is_lim_minus (fun T => INR (S m) * gamT b m T) (fun T => T ^ S m * exp (- b * T)) p_infty
             (INR (S m) * (INR (fact m) / b ^ (m + 1))) 0).
    + apply (is_lim_scal_l (gamT b m) (INR (S m)) p_infty (INR (fact m) / b ^ (m + 1))). exact IH.
    + apply pow_expb_lim. exact Hb.
    + reflexivity.
Qed.

Lemma RInt_gen_gam b m : 0 < b ->
  is_RInt_gen (fun r : R => r ^ m * exp (- b * r)) (at_point 0) (Rbar_locally p_infty)
              (INR (fact m) / b ^ (m + 1)).
Proof.
  intros Hb. apply (RInt_gen_of_lim _ (gamT b m)); [|apply gamT_lim; exact Hb].
  intros T _. apply is_RInt_gamT. exact Hb.
Qed.

Lemma sto_overlap z n z' n' : 0 < z -> 0 < z' -> (1 <= n)%nat -> (1 <= n')%nat ->
  is_RInt_gen (fun r : R => sto z n r * sto z' n' r * r ^ 2) (at_point 0) (Rbar_locally p_infty)
              (overlap z n z' n').
Proof.
  intros Hz Hz' Hn Hn'.
  pose proof (RInt_gen_gam (z + z') (n + n') ltac:(lra)) as Hg.
  set (K := (2 * z) ^ n * sqrt (2 * z / INR (fact (2 * n))) *
            ((2 * z') ^ n' * sqrt (2 * z' / INR (fact (2 * n'))))) in *.
  apply (RInt_gen_scal_R _ K) in Hg.
  eapply RInt_gen_ext_R; [|reflexivity|exact Hg].
  intros r. cbv beta. unfold sto.
  replace (n + n')%nat with ((n - 1) + (n' - 1) + 2)%nat by lia. rewrite !pow_add.
  replace (- (z + z') * r) with (- z * r + - z' * r) by ring. rewrite exp_plus.
  unfold K. ring.
Qed.

Lemma sto_norm z n : 0 < z -> (1 <= n)%nat ->
  is_RInt_gen (fun r : R => sto z n r ^ 2 * r ^ 2) (at_point 0) (Rbar_locally p_infty) 1.
Proof.
  intros Hz Hn. pose proof (sto_overlap z n z n Hz Hz Hn Hn) as H.
  eapply RInt_gen_ext_R; [|symmetry|exact H].
  - intros r. cbv beta. ring.
  - unfold overlap. pose proof (fact_pos (2 * n)) as Hf.
    replace (n + n)%nat with (2 * n)%nat by lia. replace (z + z) with (2 * z) by ring.
    assert (Hp : 0 < (2 * z) ^ n) by (apply pow_lt; lra).
    replace ((2 * z) ^ (2 * n + 1)) with ((2 * z) ^ n * (2 * z) ^ n * (2 * z)).
    2:{ rewrite pow_add, pow_1. replace (2 * n)%nat with (n + n)%nat by lia. rewrite pow_add. ring. }
    set (q := sqrt (2 * z / INR (fact (2 * n)))).
    assert (Hq : q * q = 2 * z / INR (fact (2 * n))).
    { apply sqrt_sqrt. left. apply Rdiv_lt_0_compat; lra. }
    replace ((2 * z) ^ n * q * ((2 * z) ^ n * q) *
             (INR (fact (2 * n)) / ((2 * z) ^ n * (2 * z) ^ n * (2 * z)))) with
      ((q * q) * (INR (fact (2 * n)) / (2 * z))) by (field; lra).
    rewrite Hq. field. lra.
Qed.

Lemma RInt_gen_zero : is_RInt_gen (fun _ : R => 0) (at_point 0) (Rbar_locally p_infty) 0.
Proof.
  apply (RInt_gen_of_lim _ (fun _ => 0)); [|apply is_lim_const].
  intros T _. pose proof (is_RInt_const (V := R_NormedModule) 0 T 0) as H.
  assert (E : @scal R_Ring R_NormedModule (T - 0) 0 = 0) by (unfold scal; simpl; unfold mult; simpl; ring).
  rewrite E in H. exact H.
Qed.

Lemma RInt_gen_rsum {A} (f : A -> R -> R) (v : A -> R) (L : list A) :
  (forall s, In s L -> is_RInt_gen (f s) (at_point 0) (Rbar_locally p_infty) (v s)) ->
  is_RInt_gen (fun r : R => rsum (map (fun s => f s r) L)) (at_point 0) (Rbar_locally p_infty)
              (rsum (map v L)).
Proof.
  induction L as [|s L IH]; intros H.
  - apply RInt_gen_zero.
  - eapply RInt_gen_ext_R; [| |apply (RInt_gen_plus_R (f s) (fun r : R => rsum (map (fun s0 => f s0 r) L)) (v s) (rsum (map v L)))].
    + intros r. cbv beta. cbn [map]. rewrite rsum_cons. reflexivity.
    + cbn [map]. rewrite rsum_cons. reflexivity.
    + apply H. left. reflexivity.
    + apply IH. intros t Ht. apply H. right. exact Ht.
Qed.

Lemma phi_norm s : valid s ->
  is_RInt_gen (fun r : R => phi s r ^ 2 * r ^ 2) (at_point 0) (Rbar_locally p_infty) (orb_norm s).
Proof.
  intros V. unfold orb_norm, phi.
  eapply RInt_gen_ext_R; [|reflexivity|apply (RInt_gen_rsum
    (fun '(c, z, n) (r : R) => rsum (map (fun '(c', z', n') => (c * c') * (sto z n r * sto z' n' r * r ^ 2)) (s_exp s)))
    (fun '(c, z, n) => rsum (map (fun '(c', z', n') => c * c' * overlap z n z' n') (s_exp s))))].
  - intros r. cbv beta.
    set (S0 := rsum (map (fun '(c, z, n) => c * sto z n r) (s_exp s))).
    transitivity (S0 * (S0 * r ^ 2)); [ring|].
    assert (Inner : forall c z n l, rsum (map (fun '(c', z', n') => (c * c') * (sto z n r * sto z' n' r * r ^ 2)) l) =
              c * sto z n r * (rsum (map (fun '(c, z, n) => c * sto z n r) l) * r ^ 2)).
    { intros c z n l. induction l as [|[[c' z'] n'] l IH]; [unfold rsum; simpl; ring|].
      cbn [map]. rewrite !rsum_cons, IH. ring. }
    assert (Outer : forall l, rsum (map (fun s0 => (let '(c, z, n) := s0 in fun r0 : R =>
               rsum (map (fun '(c', z', n') => (c * c') * (sto z n r0 * sto z' n' r0 * r0 ^ 2)) (s_exp s))) r) l)
             = rsum (map (fun '(c, z, n) => c * sto z n r) l) * (S0 * r ^ 2)).
    { intros l. induction l as [|[[c z] n] l IH]; [unfold rsum; simpl; ring|].
      cbn [map]. rewrite !rsum_cons, IH, Inner. fold S0. ring. }
    rewrite Outer. fold S0. reflexivity.
  - intros [[c z] n] Hi. destruct (V c z n Hi) as [Hz Hn].
    eapply RInt_gen_ext_R; [| |apply (RInt_gen_rsum
      (fun '(c', z', n') (r : R) => (c * c') * (sto z n r * sto z' n' r * r ^ 2))
      (fun '(c', z', n') => c * c' * overlap z n z' n'))].
    + intros r. cbv beta. f_equal. apply map_ext. intros [[c' z'] n']. reflexivity.
    + reflexivity.
    + intros [[c' z'] n'] Hi'. destruct (V c' z' n' Hi') as [Hz' Hn'].
      apply (RInt_gen_scal_R (fun r : R => sto z n r * sto z' n' r * r ^ 2)).
      apply sto_overlap; assumption.
Qed.

Lemma rho_integral L : Forall valid L ->
  is_RInt_gen (fun r : R => 4 * PI * r ^ 2 * rho L r) (at_point 0) (Rbar_locally p_infty)
              (rsum (map (fun s => s_occ s * orb_norm s) L)).
Proof.
  intros V. rewrite Forall_forall in V.
  eapply RInt_gen_ext_R; [|reflexivity|apply (RInt_gen_rsum
    (fun s (r : R) => s_occ s * (phi s r ^ 2 * r ^ 2)) (fun s => s_occ s * orb_norm s))].
  - intros r. cbv beta. unfold rho, rho_w. pose proof PI_RGT_0.
    transitivity (r ^ 2 * rsum (map (fun s => s_occ s * phi s r ^ 2) L)); [field; lra|].
    clear. induction L as [|s L IH]; [unfold rsum; simpl; ring|].
    cbn [map]. rewrite !rsum_cons, <- IH. ring.
  - intros s Hs. apply (RInt_gen_scal_R (fun r : R => phi s r ^ 2 * r ^ 2)). apply phi_norm.
    apply V. exact Hs.
Qed.

(** ** Behaviour far away and at the origin *)

Lemma rsum_lim {A} (f : A -> R -> R) (L : list A) :
  (forall s, In s L -> is_lim (f s) p_infty 0) ->
  is_lim (fun t : R => rsum (map (fun s => f s t) L)) p_infty 0.
Proof.
  induction L as [|s L IH]; intros H.
  - apply (is_lim_const 0 p_infty).
  - apply (is_lim_ext (fun t : R => f s t + rsum (map (fun s0 => f s0 t) L))).
    { intros t. cbn [map]. rewrite rsum_cons. reflexivity. }
    replace (Finite 0) with (Finite (0 + 0)) by (f_equal; ring).
    apply (is_lim_plus (f s) (fun t : R => rsum (map (fun s0 => f s0 t) L)) p_infty 0 0).
    + apply H. left. reflexivity.
    + apply IH. intros t Ht. apply H. right. exact Ht.
    + reflexivity.
Qed.

Lemma lim_scal0 (f : R -> R) k : is_lim f p_infty 0 -> is_lim (fun t : R => k * f t) p_infty 0.
Proof.
  intros H. replace (Finite 0) with (Rbar_mult k (Finite 0)) by (simpl; f_equal; ring).
  apply is_lim_scal_l. exact H.
Qed.

Lemma sto_lim z n : 0 < z -> is_lim (sto z n) p_infty 0.
Proof.
  intros Hz. unfold sto.
  apply (is_lim_ext (fun t : R => ((2 * z) ^ n * sqrt (2 * z / INR (fact (2 * n)))) * (t ^ (n - 1) * exp (- z * t)))).
  { intros t. ring. }
  apply lim_scal0. apply pow_expb_lim. exact Hz.
Qed.

Lemma phi_lim s : valid s -> is_lim (phi s) p_infty 0.
Proof.
  intros V.
  pose (f := fun (x : R * R * nat) (t : R) => fst (fst x) * sto (snd (fst x)) (snd x) t).
  apply (is_lim_ext (fun t : R => rsum (map (fun x => f x t) (s_exp s)))).
  { intros t. unfold phi. f_equal. apply map_ext. intros [[c z] n]. reflexivity. }
  apply rsum_lim. intros [[c z] n] Hi. destruct (V c z n Hi) as [Hz Hn]. unfold f. cbn [fst snd].
  apply lim_scal0. apply sto_lim. exact Hz.
Qed.

Lemma rho_lim w L : Forall valid L -> is_lim (rho_w w L) p_infty 0.
Proof.
  intros V. rewrite Forall_forall in V.
  apply (is_lim_ext (fun t : R => / (4 * PI) * rsum (map (fun s => w s * (phi s t * phi s t)) L))).
  { intros t. unfold rho_w. replace (map (fun s => w s * (phi s t * phi s t)) L) with (map (fun s => w s * phi s t ^ 2) L).
    - unfold Rdiv. apply Rmult_comm.
    - apply map_ext. intros s. ring. }
  apply lim_scal0. apply rsum_lim. intros s Hs. apply lim_scal0.
  replace (Finite 0) with (Finite (0 * 0)) by (f_equal; ring).
  apply (is_lim_mult (phi s) (phi s) p_infty 0 0); [apply phi_lim; auto|apply phi_lim; auto|exact I].
Qed.

Lemma density_decay a L s mode : describes a (L ++ [s]) -> Forall valid (L ++ [s]) -> mode <> MOther ->
  exists g : R -> R, is_lim g p_infty (Finite 0) /\
    forall pts, atomic_density a (A1 (map Fin pts)) mode = Ok (map Fin (map g pts)).
Proof.
  intros D V Hm. exists (rho_w (mode_weight mode (s_en s)) (L ++ [s])).
  split; [apply rho_lim; exact V|]. intros pts. apply density_mode; assumption.
Qed.

Lemma slater_rows deriv zs ns pts : length zs = length ns ->
  Forall (fun z => 0 < z) zs -> Forall (fun n => (1 <= n)%nat) ns ->
  slater_matrix deriv zs ns (A1 (map Fin pts)) =
  Ok (map (map Fin) (map (fun r => map2 (fun z n => if deriv then csto z n r else sto z n r) zs ns) pts)).
Proof.
  intros Hl Hz Hn. unfold slater_matrix. rewrite stretch_eq by assumption. cbn [bind fst snd]. f_equal. rewrite !map_map.
  apply map_ext. intros r. revert ns Hl Hn. induction zs as [|z zs IH]; intros [|n ns] Hl Hn; try discriminate; [reflexivity|].
  inversion Hz; inversion Hn; subst. cbn [map2 map]. rewrite IH by (auto; simpl in Hl; congruence).
  f_equal. destruct deriv; [apply slater_deriv_all|apply slater_fin]; assumption.
Qed.

Lemma slater_errors deriv zs ns points e : slater_matrix deriv zs ns points = Raise e -> e = ValueError.
Proof.
  unfold slater_matrix, stretch. destruct points; [destruct Nat.eqb|]; [|destruct zs as [|? [|? ?]], ns as [|? [|? ?]]|];
    intros H; cbn in H; inversion H; reflexivity.
Qed.

(** ** Forms used by the property file *)

Lemma sto_norm_api z n : 0 < z -> (1 <= n)%nat ->
  exists g : R -> R,
    (forall pts, slater_matrix false [z] [n] (A1 (map Fin pts)) = Ok (map (fun r => [Fin (g r)]) pts)) /\
    is_RInt_gen (fun r : R => g r ^ 2 * r ^ 2) (at_point 0) (Rbar_locally p_infty) 1.
Proof.
  intros Hz Hn. exists (sto z n). split; [|apply sto_norm; assumption].
  intros pts. rewrite slater_rows by (auto; simpl; auto). f_equal. rewrite map_map. reflexivity.
Qed.

Lemma map2_seq {A B C} (f : A -> B -> C) l m da db : length l = length m ->
  map2 f l m = map (fun j => f (nth j l da) (nth j m db)) (seq 0 (length l)).
Proof.
  revert m. induction l as [|x l IH]; intros [|y m] H; try discriminate; [reflexivity|].
  simpl in H. cbn [map2 length seq map nth]. f_equal. rewrite <- seq_shift, map_map.
  apply IH. congruence.
Qed.

Lemma slater_derive_api zs ns : length zs = length ns ->
  Forall (fun z => 0 < z) zs -> Forall (fun n => (1 <= n)%nat) ns ->
  exists g d : nat -> R -> R,
    (forall pts, slater_matrix false zs ns (A1 (map Fin pts)) =
       Ok (map (fun r => map (fun j => Fin (g j r)) (seq 0 (length zs))) pts)) /\
    (forall pts, slater_matrix true zs ns (A1 (map Fin pts)) =
       Ok (map (fun r => map (fun j => Fin (d j r)) (seq 0 (length zs))) pts)) /\
    forall j r, (j < length zs)%nat ->
      (/ 10 ^ 10 <= Rabs r -> is_derive (g j) r (d j r)) /\
      (Rabs r < / 10 ^ 10 -> d j r = 0).
Proof.
  intros Hl Hz Hn.
  exists (fun j => sto (nth j zs 0) (nth j ns 0%nat)), (fun j => csto (nth j zs 0) (nth j ns 0%nat)).
  split; [|split].
  - intros pts. rewrite slater_rows by assumption. f_equal. rewrite map_map. apply map_ext. intros r.
    rewrite (map2_seq _ zs ns 0 0%nat) by exact Hl. rewrite map_map. reflexivity.
  - intros pts. rewrite slater_rows by assumption. f_equal. rewrite map_map. apply map_ext. intros r.
    rewrite (map2_seq _ zs ns 0 0%nat) by exact Hl. rewrite map_map. reflexivity.
  - intros j r Hj. rewrite Forall_forall in Hn. split.
    + intros Hr. unfold csto. destruct (Rlt_dec (Rabs r) (/ 10 ^ 10)); [lra|].
      apply sto_derive; [|apply small_nonzero; exact Hr].
      apply Hn. apply nth_In. rewrite <- Hl. exact Hj.
    + intros Hr. unfold csto. destruct (Rlt_dec (Rabs r) (/ 10 ^ 10)); [reflexivity|lra].
Qed.

Lemma density_integral_api a L : describes a L -> Forall valid L ->
  exists g : R -> R,
    (forall pts, atomic_density a (A1 (map Fin pts)) MTotal = Ok (map Fin (map g pts))) /\
    is_RInt_gen (fun r : R => 4 * PI * r ^ 2 * g r) (at_point 0) (Rbar_locally p_infty)
                (rsum (map (fun s => s_occ s * orb_norm s) L)) /\
    (Forall (fun s => orb_norm s = 1) L ->
     is_RInt_gen (fun r : R => 4 * PI * r ^ 2 * g r) (at_point 0) (Rbar_locally p_infty)
                (rsum (map s_occ L))).
Proof.
  intros D V. exists (rho L). split; [intros pts; apply density_total; assumption|].
  split; [apply rho_integral; exact V|]. intros H1.
  replace (map s_occ L) with (map (fun s => s_occ s * orb_norm s) L); [apply rho_integral; exact V|].
  apply map_ext_in. intros s Hs. rewrite Forall_forall in H1. rewrite H1 by exact Hs. ring.
Qed.

Lemma phi_norm_api s : valid s ->
  is_RInt_gen (fun r : R => phi s r ^ 2 * r ^ 2) (at_point 0) (Rbar_locally p_infty) (orb_norm s).
Proof. exact (phi_norm s). Qed.

(** Reference energy. *)
Lemma homo_partial a L s mode pts : describes a (L ++ [s]) -> Forall valid (L ++ [s]) ->
  (mode = MValence \/ mode = MCore) ->
  (forall t, In t L -> s_en t <= s_en s) ->
  exists h, (exists t, In t (L ++ [s]) /\ s_en t = h) /\ (forall t, In t (L ++ [s]) -> s_en t <= h) /\
  atomic_density a (A1 (map Fin pts)) mode =
    Ok (map Fin (map (rho_w (fun t => s_occ t * (match mode with MValence => exp (- (s_en t - h) ^ 2)
                                   | _ => 1 - exp (- (s_en t - h) ^ 2) end)) (L ++ [s])) pts)).
Proof.
  intros D V Hm H. exists (s_en s). split; [|split].
  - exists s. split; [apply in_or_app; right; left; reflexivity|reflexivity].
  - intros t Ht. apply in_app_or in Ht. destruct Ht as [Ht|[<-|[]]]; [apply H; exact Ht|lra].
  - rewrite (density_mode a L s) by (auto; destruct Hm; subst; discriminate).
    destruct Hm as [-> | ->]; reflexivity.
Qed.

(** Errors. *)
Lemma mode_error a points : atomic_density a points MOther = Raise ValueError.
Proof. reflexivity. Qed.

Lemma shape_error a d l mode : at_orbitals a <> [] -> mode <> MOther -> length (at_occ a) = length (at_energy a) ->
  at_occ a <> [] -> (forall o, In o (at_orbitals a) -> at_exps a (snd o) <> None /\ at_nums a (snd o) <> None) ->
  atomic_density a (A2 d l) mode = Raise ValueError.
Proof.
  intros Ho Hm Hl Hn Hd.
  assert (P : phi_matrix a (A2 d l) false = Raise ValueError).
  { unfold phi_matrix. destruct (at_orbitals a) as [|o t] eqn:E; [congruence|].
    cbn [mapM]. destruct (Hd o (or_introl eq_refl)) as [H1 H2]. unfold phi_column.
    destruct (at_exps a (snd o)); [|congruence]. destruct (at_nums a (snd o)); [|congruence]. reflexivity. }
  assert (Q : exists occ, scaled_occ a mode = Ok occ).
  { unfold scaled_occ. destruct mode; [eexists; reflexivity| | |congruence];
    unfold homo; rewrite Hl; destruct (at_energy a) as [|x m] eqn:E;
      try (exfalso; apply Hn; apply length_zero_iff_nil; rewrite Hl; reflexivity);
    cbn [length]; rewrite stretch_eq by exact Hl;
    destruct (nth_error (x :: m) (length m)) eqn:F; try (eexists; reflexivity);
    apply nth_error_None in F; simpl in F; lia. }
  destruct Q as [occ Q]. unfold atomic_density. rewrite Q. cbn [bind]. rewrite P. reflexivity.
Qed.

(** ** Which data are accepted *)
Lemma stretch_fits {A B} (l : list A) (m : list B) k :
  (exists p, stretch l m = Ok p /\ length (fst p) = k) <-> fitting (length l) (length m) k.
Proof.
  unfold stretch, fitting. destruct (Nat.eqb_spec (length l) (length m)) as [E|E].
  - split; [intros (p & H & <-); inversion H; subst; cbn [fst]; lia|]. intros H. exists (l, m). cbn [fst]. split; auto. lia.
  - destruct l as [|x [|x' l]], m as [|y [|y' m]]; cbn [length] in *; try lia;
    (split; [intros (p & H & <-); inversion H; subst; cbn [fst length]; rewrite ?repeat_length; cbn [length]; try lia|]);
    intros H; try lia; (eexists; split; [reflexivity|]); cbn [fst length]; rewrite ?repeat_length; cbn [length]; lia.
Qed.
Lemma stretch_error {A B} (l : list A) (m : list B) e : stretch l m = Raise e -> e = ValueError.
Proof.
  unfold stretch. destruct Nat.eqb; [discriminate|]. destruct l as [|? [|? ?]], m as [|? [|? ?]]; intros H; inversion H; reflexivity.
Qed.
Lemma stretch_lengths {A B} (l : list A) (m : list B) p : stretch l m = Ok p -> length (fst p) = length (snd p).
Proof.
  unfold stretch. destruct (Nat.eqb_spec (length l) (length m)); [intros H; inversion H; auto|].
  destruct l as [|? [|? ?]], m as [|? [|? ?]]; intros H; inversion H; cbn [fst snd length]; rewrite ?repeat_length; auto.
Qed.

Definition sized (a : atom) (o : label) : Prop := exists zs ns c,
  at_exps a (snd o) = Some zs /\ at_nums a (snd o) = Some ns /\ at_coeff a o = Some c /\
  fitting (length zs) (length ns) (length c).

Lemma phi_column_accepts a deriv o pts : (exists v, phi_column a deriv o (A1 pts) = Ok v) <-> sized a o.
Proof.
  unfold phi_column, sized. split.
  - intros (v & H). destruct (at_exps a (snd o)) as [zs|]; [|discriminate]. cbn [lookup bind] in H.
    destruct (at_nums a (snd o)) as [ns|]; [|discriminate]. cbn [lookup bind slater_matrix] in H.
    destruct (stretch zs ns) as [p|] eqn:E; [|discriminate]. cbn [bind] in H.
    destruct (at_coeff a o) as [c|]; [|discriminate]. cbn [lookup bind] in H.
    destruct (Nat.eqb_spec (length (fst p)) (length c)); [|discriminate]. exists zs, ns, c. do 3 (split; auto).
    apply stretch_fits. eauto.
  - intros (zs & ns & c & -> & -> & -> & F). cbn [lookup bind slater_matrix]. apply stretch_fits in F. destruct F as (p & -> & <-).
    cbn [bind]. rewrite Nat.eqb_refl. eauto.
Qed.
Lemma phi_column_error a deriv o points e : phi_column a deriv o points = Raise e ->
  (e = KeyError /\ (at_exps a (snd o) = None \/ at_nums a (snd o) = None \/ at_coeff a o = None)) \/ e = ValueError.
Proof.
  unfold phi_column. destruct (at_exps a (snd o)) as [zs|]; [|intros H; inversion H; auto]. cbn [lookup bind].
  destruct (at_nums a (snd o)) as [ns|]; [|intros H; inversion H; auto]. cbn [lookup bind].
  destruct (slater_matrix deriv zs ns points) eqn:E; [|intros H; inversion H; subst; right; eapply slater_errors; eassumption]. cbn [bind].
  destruct (at_coeff a o) as [c|]; [|intros H; inversion H; auto 6]. cbn [lookup bind].
  destruct (stretch zs ns) eqn:S; [|intros H; inversion H; subst; right; eapply stretch_error; eassumption]. cbn [bind].
  destruct Nat.eqb; intros H; inversion H; auto.
Qed.

Lemma mapM_accepts {A B} (f : A -> res B) (P : A -> Prop) l : (forall x, In x l -> ((exists v, f x = Ok v) <-> P x)) ->
  ((exists v, mapM f l = Ok v) <-> forall x, In x l -> P x).
Proof.
  induction l as [|x l IH]; intros H; [split; [intros _ y []|exists []; reflexivity]|].
  assert (IH' := IH (fun y Hy => H y (or_intror Hy))). cbn [mapM]. split.
  - intros (v & E). destruct (f x) as [y|] eqn:F; [|discriminate]. cbn [bind] in E. destruct (mapM f l) as [ys|] eqn:G; [|discriminate].
    intros z [<-|Hz]; [apply H; [now left|eauto]|]. apply IH'; eauto.
  - intros Q. destruct (proj2 (H x (or_introl eq_refl)) (Q x (or_introl eq_refl))) as (y & ->). cbn [bind].
    destruct (proj2 IH') as (ys & ->); [intros z Hz; apply Q; now right|]. cbn [bind]. eauto.
Qed.
Lemma mapM_raises {A B} (f : A -> res B) l e : mapM f l = Raise e -> exists x, In x l /\ f x = Raise e.
Proof.
  induction l as [|x l IH]; [discriminate|]. cbn [mapM]. destruct (f x) as [y|e'] eqn:F; cbn [bind].
  - destruct (mapM f l) as [ys|e'']; cbn [bind]; intros H; inversion H; subst. destruct IH as (z & Hz & Ez); auto. exists z. split; auto. now right.
  - intros H; inversion H; subst. exists x. split; auto. now left.
Qed.
Lemma mapM_len {A B} (f : A -> res B) l v : mapM f l = Ok v -> length v = length l.
Proof.
  revert v. induction l as [|x l IH]; intros v; cbn [mapM]; [intros H; inversion H; auto|].
  destruct (f x); [|discriminate]. cbn [bind]. destruct (mapM f l) eqn:E; [|discriminate]. cbn [bind]. intros H; inversion H. cbn. now rewrite (IH _ eq_refl).
Qed.

Lemma cols_accepts n (cols : list (list xr)) occ : (exists v, cols_dot n cols occ = Ok v) <-> length cols = length occ.
Proof. unfold cols_dot. destruct (Nat.eqb_spec (length cols) (length occ)); split; intros H; eauto; [now destruct H|contradiction]. Qed.
Lemma cols_error n (cols : list (list xr)) occ e : cols_dot n cols occ = Raise e -> e = ValueError.
Proof. unfold cols_dot. destruct Nat.eqb; intros H; inversion H; auto. Qed.

Lemma phi_accepts a deriv pts : (exists v, phi_matrix a (A1 pts) deriv = Ok v) <-> forall o, In o (at_orbitals a) -> sized a o.
Proof. apply mapM_accepts. intros o _. apply phi_column_accepts. Qed.

Lemma density_accepts a pts : (exists v, atomic_density a (A1 pts) MTotal = Ok v) <->
  length (at_occ a) = length (at_orbitals a) /\ forall o, In o (at_orbitals a) -> sized a o.
Proof.
  rewrite <- (phi_accepts a false pts). unfold atomic_density. cbn [scaled_occ bind]. split.
  - intros (v & H). destruct (phi_matrix a (A1 pts) false) as [m|] eqn:E; [|discriminate]. cbn [bind] in H. split; eauto.
    destruct (cols_dot (nrows (A1 pts)) (map (map xsq) m) (map Fin (at_occ a))) eqn:C; [|discriminate].
    assert (length (map (map xsq) m) = length (map Fin (at_occ a))) by (apply (cols_accepts (nrows (A1 pts))); eauto).
    apply mapM_len in E. rewrite !map_length in *. congruence.
  - intros (L & m & E). rewrite E. cbn [bind].
    destruct (proj2 (cols_accepts (nrows (A1 pts)) (map (map xsq) m) (map Fin (at_occ a)))) as (v & ->).
    { rewrite !map_length, L. now apply mapM_len in E. }
    cbn [bind]. eauto.
Qed.

Lemma scaled_accepts a mode k : mode = MValence \/ mode = MCore ->
  ((exists v, scaled_occ a mode = Ok v /\ length v = k) <->
   fitting (length (at_occ a)) (length (at_energy a)) k /\ at_energy a <> [] /\ (length (at_occ a) <= length (at_energy a))%nat).
Proof.
  intros Hm. rewrite <- (stretch_fits (at_occ a) (at_energy a)).
  assert (Q : (exists h, homo a = Ok h) <-> at_energy a <> [] /\ (length (at_occ a) <= length (at_energy a))%nat).
  { unfold homo. set (i := match length (at_occ a) with O => _ | S _ => _ end).
    assert (I : (i < length (at_energy a))%nat <-> at_energy a <> [] /\ (length (at_occ a) <= length (at_energy a))%nat).
    { unfold i. destruct (at_energy a) as [|x m]; cbn [length]; [split; [lia|intros [C _]; now destruct C]|].
      split; [intros H; split; [discriminate|]; destruct (length (at_occ a)); lia|intros [_ H]; destruct (length (at_occ a)); cbn [pred]; lia]. }
    rewrite <- I. destruct (nth_error (at_energy a) i) eqn:E; split; intros H; eauto.
    - apply nth_error_Some. congruence.
    - now destruct H.
    - apply nth_error_None in E. lia. }
  rewrite <- Q. unfold scaled_occ.
  assert (G : forall v, (do h <- homo a; do p <- stretch (at_occ a) (at_energy a);
     Ok (map2 (fun n e => let w := exp (- (e - h) ^ 2) in Fin (n * match mode with MValence => w | _ => 1 - w end)) (fst p) (snd p))) = Ok v ->
     exists h p, homo a = Ok h /\ stretch (at_occ a) (at_energy a) = Ok p /\ length v = length (fst p)).
  { intros v H. destruct (homo a) as [h|]; [|discriminate]. cbn [bind] in H. destruct (stretch _ _) as [p|] eqn:S; [|discriminate]. cbn [bind] in H.
    inversion H; subst. exists h, p. split; auto. split; auto. rewrite map2_length, (stretch_lengths _ _ _ S). lia. }
  split.
  - intros (v & H & <-). assert (H' := G v). destruct H' as (h & p & Hh & Hp & L); [destruct Hm as [-> | ->]; exact H|]. split; eauto.
  - intros ((p & S & <-) & (h & Hh)). rewrite Hh, S. cbn [bind].
    exists (map2 (fun n e => let w := exp (- (e - h) ^ 2) in Fin (n * match mode with MValence => w | _ => 1 - w end)) (fst p) (snd p)).
    split; [destruct Hm as [-> | ->]; reflexivity|]. rewrite map2_length, (stretch_lengths _ _ _ S). lia.
Qed.

Lemma mode_accepts a mode pts : mode = MValence \/ mode = MCore ->
  ((exists v, atomic_density a (A1 pts) mode = Ok v) <->
   (fitting (length (at_occ a)) (length (at_energy a)) (length (at_orbitals a)) /\ at_energy a <> [] /\
    (length (at_occ a) <= length (at_energy a))%nat) /\ forall o, In o (at_orbitals a) -> sized a o).
Proof.
  intros Hm. rewrite <- (phi_accepts a false pts), <- (scaled_accepts a mode _ Hm). unfold atomic_density. split.
  - intros (v & H). destruct (scaled_occ a mode) as [occ|] eqn:O; [|discriminate]. cbn [bind] in H.
    destruct (phi_matrix a (A1 pts) false) as [m|] eqn:E; [|discriminate]. cbn [bind] in H. split; eauto. exists occ. split; auto.
    destruct (cols_dot (nrows (A1 pts)) (map (map xsq) m) occ) eqn:C; [|discriminate].
    assert (length (map (map xsq) m) = length occ) by (apply (cols_accepts (nrows (A1 pts))); eauto).
    apply mapM_len in E. rewrite !map_length in *. congruence.
  - intros ((occ & -> & L) & m & E). cbn [bind]. rewrite E. cbn [bind].
    destruct (proj2 (cols_accepts (nrows (A1 pts)) (map (map xsq) m) occ)) as (v & ->).
    { rewrite !map_length, L. now apply mapM_len in E. }
    cbn [bind]. eauto.
Qed.

Lemma derivative_accepts a pts : (exists v, derivative_density a (A1 pts) = Ok v) <->
  length (at_occ a) = length (at_orbitals a) /\ forall o, In o (at_orbitals a) -> sized a o.
Proof.
  unfold derivative_density. split.
  - intros (v & H). destruct (phi_matrix a (A1 pts) false) as [m|] eqn:E; [|discriminate]. cbn [bind] in H.
    destruct (phi_matrix a (A1 pts) true) as [d|] eqn:D; [|discriminate]. cbn [bind] in H. split; [|apply (phi_accepts a false pts); eauto].
    destruct (cols_dot _ _ _) eqn:C in H; [|discriminate].
    assert (length (map2 (map2 (fun x y => xmul (Fin 2) (xmul x y))) m d) = length (map Fin (at_occ a))) by (apply (cols_accepts (nrows (A1 pts))); eauto).
    apply mapM_len in E. apply mapM_len in D. rewrite map2_length, map_length in *. lia.
  - intros (L & S). destruct (proj2 (phi_accepts a false pts) S) as (m & E). destruct (proj2 (phi_accepts a true pts) S) as (d & D). rewrite E, D. cbn [bind].
    destruct (proj2 (cols_accepts (nrows (A1 pts)) (map2 (map2 (fun x y => xmul (Fin 2) (xmul x y))) m d) (map Fin (at_occ a)))) as (v & ->).
    { apply mapM_len in E. apply mapM_len in D. rewrite map2_length, map_length. lia. }
    cbn [bind]. eauto.
Qed.

Lemma kinetic_accepts a pts : (exists v, kinetic_energy a (A1 pts) = Ok v) <->
  length (at_occ a) = length (at_orbitals a) /\ forall o, In o (at_orbitals a) -> sized a o.
Proof.
  assert (K : (exists v, mapM (fun o => kinetic_column a o (A1 pts)) (at_orbitals a) = Ok v) <-> forall o, In o (at_orbitals a) -> sized a o).
  { apply mapM_accepts. intros o _. unfold kinetic_column. split.
    - intros (v & H). destruct (phi_column a true o (A1 pts)) eqn:E; [|discriminate]. apply (phi_column_accepts a true o pts). eauto.
    - intros S. destruct (proj2 (phi_column_accepts a true o pts) S) as (d & ->). destruct (proj2 (phi_column_accepts a false o pts) S) as (p & ->). cbn [bind]. eauto. }
  rewrite <- K. unfold kinetic_energy. split.
  - intros (v & H). destruct (mapM _ _) as [m|] eqn:E in H; [|discriminate]. cbn [bind] in H. split; eauto.
    destruct (cols_dot _ _ _) eqn:C in H; [|discriminate].
    assert (length m = length (map Fin (at_occ a))) by (apply (cols_accepts (nrows (A1 pts))); eauto).
    apply mapM_len in E. rewrite map_length in *. congruence.
  - intros (L & m & E). rewrite E. cbn [bind].
    destruct (proj2 (cols_accepts (nrows (A1 pts)) m (map Fin (at_occ a)))) as (v & ->).
    { rewrite map_length, L. now apply mapM_len in E. }
    cbn [bind]. eauto.
Qed.

Lemma all_accept a pts :
  let ok := length (at_occ a) = length (at_orbitals a) /\ forall o, In o (at_orbitals a) -> exists zs ns c,
    at_exps a (snd o) = Some zs /\ at_nums a (snd o) = Some ns /\ at_coeff a o = Some c /\ fitting (length zs) (length ns) (length c) in
  ((exists v, atomic_density a (A1 pts) MTotal = Ok v) <-> ok) /\
  ((exists v, derivative_density a (A1 pts) = Ok v) <-> ok) /\ ((exists v, kinetic_energy a (A1 pts) = Ok v) <-> ok).
Proof. split; [apply density_accepts|]. split; [apply derivative_accepts|apply kinetic_accepts]. Qed.

Lemma density_errors a points mode e : atomic_density a points mode = Raise e ->
  e = ValueError \/ (e = IndexError /\ mode <> MTotal /\ (at_energy a = [] \/ (length (at_energy a) < length (at_occ a))%nat)) \/
  (e = KeyError /\ exists o, In o (at_orbitals a) /\ (at_exps a (snd o) = None \/ at_nums a (snd o) = None \/ at_coeff a o = None)).
Proof.
  unfold atomic_density. destruct (scaled_occ a mode) as [occ|e'] eqn:S; cbn [bind].
  - destruct (phi_matrix a points false) as [m|e'] eqn:E; cbn [bind].
    + destruct (cols_dot _ _ _) as [v|e'] eqn:C; cbn [bind]; intros H; inversion H; subst. left. eapply cols_error; eassumption.
    + intros H; inversion H; subst. destruct (mapM_raises _ _ _ E) as (o & Ho & F). destruct (phi_column_error _ _ _ _ _ F) as [[-> K]| ->]; auto.
      right. right. split; auto. exists o. auto.
  - intros H; inversion H; subst. clear H. unfold scaled_occ in S.
    assert (G : forall (B : Type) (k : R -> list R * list R -> res B), (do h <- homo a; do p <- stretch (at_occ a) (at_energy a); k h p) = Raise e ->
      (forall h p, exists v, k h p = Ok v) ->
      e = ValueError \/ e = IndexError /\ (at_energy a = [] \/ (length (at_energy a) < length (at_occ a))%nat)).
    { intros B k. unfold homo. destruct (nth_error _ _) eqn:N; cbn [bind].
      - destruct (stretch (at_occ a) (at_energy a)) as [p|] eqn:Q; cbn [bind]; intros H T.
        + destruct (T r p) as (v & V). congruence.
        + left. eapply stretch_error. rewrite Q. inversion H. reflexivity.
      - intros H _. inversion H. right. split; auto. apply nth_error_None in N. destruct (at_occ a), (at_energy a); cbn [length pred] in *; auto; right; lia. }
    destruct mode; try discriminate; [| |now inversion S; left];
    (destruct (G _ _ S) as [-> | [-> K]]; [intros h p; eexists; reflexivity|auto|]); right; left; (split; [auto|split; [discriminate|auto]]).
Qed.
