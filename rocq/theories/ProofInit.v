(** Construction of models: distances, validation, bookkeeping of model.py objects. *)
From Coquelicot Require Import Coquelicot.
From Coq Require Import Reals List ZArith Lia Lra Bool Permutation.
From Verif Require Import XR ModelDens SpecDens Lists ProofDens ProofDeriv ProofMol.
Import ListNotations.
Local Open Scope R_scope.

Lemma row_norm_fin x c : length x = length c ->
  row_norm (map Fin c) (map Fin x) = Fin (dist x c).
Proof.
  intros H. unfold row_norm, dist.
  assert (E : xsum (map xsq (map2 xsub (map Fin x) (map Fin c))) = Fin (sqdist x c)).
  { revert c H; induction x as [|a x IH]; intros [|b c] H; simpl in *; try discriminate; auto.
    unfold xsum in *. simpl. rewrite IH by congruence. simpl. f_equal. ring. }
  rewrite E. simpl. rewrite rltb_false; auto.
  apply Rle_not_lt. clear. revert c; induction x as [|a x IH]; intros [|b c]; simpl; try lra.
  specialize (IH c). pose proof (pow2_ge_0 (a - b)). simpl in *. lra.
Qed.

Lemma map_repeat {A B} (f : A -> B) x n : map f (repeat x n) = repeat (f x) n.
Proof. induction n; simpl; congruence. Qed.

Lemma geom_radii pts ctr rs : geom pts ctr rs ->
  exists c, check_center pts ctr = Ok c /\ radii_of pts c = Ok (map Fin rs).
Proof.
  intros H; destruct H as [d rows c Hr Hc|d rows Hr|p c0|p]; simpl.
  - rewrite map_length, Hc, Nat.eqb_refl. eexists; split; [reflexivity|].
    f_equal. rewrite !map_map. apply map_ext_in. intros x Hx. apply row_norm_fin.
    eapply Forall_forall in Hr; eauto. congruence.
  - eexists; split; [reflexivity|]. f_equal. rewrite !map_map. apply map_ext_in. intros x Hx.
    rewrite <- (map_repeat Fin 0 d). apply row_norm_fin.
    eapply Forall_forall in Hr; eauto. rewrite repeat_length. auto.
  - eexists; split; [reflexivity|]. unfold broadcast_sub. simpl length. rewrite map_length.
    destruct (Nat.eqb_spec (length p) 1) as [E|E]; simpl.
    + destruct p as [|x [|y p]]; simpl in E; try discriminate. reflexivity.
    + f_equal. rewrite !map_map. apply map_ext. intros. reflexivity.
  - eexists; split; [reflexivity|]. unfold broadcast_sub. simpl length. rewrite map_length.
    destruct (Nat.eqb_spec (length p) 1) as [E|E]; simpl.
    + destruct p as [|x [|y p]]; simpl in E; try discriminate. simpl. do 3 f_equal. 
      rewrite Ropp_0, Rplus_0_r. reflexivity.
    + f_equal. rewrite !map_map. apply map_ext. intros. simpl. do 2 f_equal. lra.
Qed.

Lemma atomic_init_ok pts ctr rs ns np norm :
  geom pts ctr rs -> (0 < ns + np)%nat ->
  exists m, atomic_init (VArr pts) ctr (VInt (Z.of_nat ns)) (VInt (Z.of_nat np)) norm = Ok m /\
    a_points m = pts /\ a_radii m = map Fin rs /\ a_ns m = Z.of_nat ns /\
    a_np m = Z.of_nat np /\ a_norm m = norm.
Proof.
  intros Hg Hn. destruct (geom_radii _ _ _ Hg) as (c & Hc & Hr).
  unfold atomic_init. cbn [as_integral as_int].
  destruct (Z.ltb_spec (Z.of_nat ns) 0); [lia|].
  destruct (Z.ltb_spec (Z.of_nat np) 0); [lia|].
  destruct (Z.eqb_spec (Z.of_nat ns + Z.of_nat np) 0); [lia|].
  rewrite Hc. cbn [bind]. rewrite Hr. cbn [bind].
  eexists; split; [reflexivity|]. simpl. auto 10.
Qed.

(** C01 *)
Lemma atomic_value pts ctr rs ns np norm c e deriv :
  geom pts ctr rs -> (0 < ns + np)%nat ->
  length c = (ns + np)%nat -> length e = (ns + np)%nat ->
  (norm = true -> Forall (fun a => 0 < a) e) ->
  exists m dg,
    atomic_init (VArr pts) ctr (VInt (Z.of_nat ns)) (VInt (Z.of_nat np)) norm = Ok m /\
    atomic_evaluate m (A1 (map Fin c)) (A1 (map Fin e)) deriv =
      Ok (map Fin (map (fun r => gsum norm (lay_atom ns np r) c e) rs), dg).
Proof.
  intros Hg Hn Hc He Hp.
  destruct (atomic_init_ok _ _ _ ns np norm Hg Hn) as (m & Hm & _ & Hr & Hs & Hpp & Hnm).
  exists m. rewrite (atomic_evaluate_fin m rs ns np c e deriv); auto.
  2: now rewrite Hnm.
  eexists; split; auto. rewrite map_map, Hnm. reflexivity.
Qed.

Lemma bcol_ecol_len norm lay c e :
  length lay = length c -> length lay = length e ->
  length (bcol norm lay e ++ ecol norm lay c e) = (2 * length e)%nat.
Proof. intros. rewrite app_length, bcol_length, ecol_length by auto. lia. Qed.

Definition grad_rows norm (lays : list (list (bool * R))) (c e : list R) : list (list R) :=
  map (fun lay => bcol norm lay e ++ ecol norm lay c e) lays.

Lemma nth_grad_c norm lay c e k :
  length lay = length c -> length lay = length e -> (k < length c)%nat ->
  nth k (bcol norm lay e ++ ecol norm lay c e) 0 = nth k (bcol norm lay e) 0.
Proof. intros. apply app_nth1. rewrite bcol_length; lia. Qed.
Lemma nth_grad_e norm lay c e k :
  length lay = length c -> length lay = length e -> (k < length c)%nat ->
  nth (length c + k) (bcol norm lay e ++ ecol norm lay c e) 0 = nth k (ecol norm lay c e) 0.
Proof.
  intros. rewrite app_nth2 by (rewrite bcol_length; lia). f_equal. rewrite bcol_length; lia.
Qed.

(** C02 *)
Lemma atomic_grad pts ctr rs ns np norm c e :
  geom pts ctr rs -> (0 < ns + np)%nat ->
  length c = (ns + np)%nat -> length e = (ns + np)%nat ->
  (norm = true -> Forall (fun a => 0 < a) e) ->
  exists m dg,
    atomic_init (VArr pts) ctr (VInt (Z.of_nat ns)) (VInt (Z.of_nat np)) norm = Ok m /\
    atomic_evaluate m (A1 (map Fin c)) (A1 (map Fin e)) true =
      Ok (map Fin (map (fun r => gsum norm (lay_atom ns np r) c e) rs),
          Some (map (map Fin) dg)) /\
    length dg = length rs /\
    forall i, (i < length rs)%nat ->
      length (nth i dg []) = (2 * (ns + np))%nat /\
      forall k, (k < ns + np)%nat ->
        is_derive (fun t : R => gsum norm (lay_atom ns np (nth i rs 0)) (upd c k t) e)
                  (nth k c 0) (nth k (nth i dg []) 0) /\
        is_derive (fun t : R => gsum norm (lay_atom ns np (nth i rs 0)) c (upd e k t))
                  (nth k e 0) (nth (ns + np + k) (nth i dg []) 0).
Proof.
  intros Hg Hn Hc He Hp.
  destruct (atomic_init_ok _ _ _ ns np norm Hg Hn) as (m & Hm & _ & Hr & Hs & Hpp & Hnm).
  exists m, (map (fun r => bcol norm (lay_atom ns np r) e ++ ecol norm (lay_atom ns np r) c e) rs).
  split; auto. split; [|split].
  - rewrite (atomic_evaluate_fin m rs ns np c e true); auto.
    2: now rewrite Hnm.
    rewrite !map_map, Hnm. reflexivity.
  - now rewrite map_length.
  - intros i Hi.
    set (F := fun r => bcol norm (lay_atom ns np r) e ++ ecol norm (lay_atom ns np r) c e).
    rewrite (nth_indep _ [] (F 0)) by (rewrite map_length; auto). rewrite map_nth. unfold F.
    set (lay := lay_atom ns np (nth i rs 0)).
    assert (L : length lay = (ns + np)%nat) by apply lay_atom_length.
    split; [rewrite bcol_ecol_len; lia|].
    intros k Hk. split.
    + rewrite nth_grad_c by lia. apply is_derive_gsum_c; lia.
    + replace (ns + np)%nat with (length c) by lia. rewrite nth_grad_e by lia.
      apply is_derive_gsum_e; try lia. intros Hn'. specialize (Hp Hn').
      rewrite Forall_forall in Hp. apply Hp. apply nth_In. lia.
Qed.

(** C03 *)
Lemma eval_s_flag m M c e : fst (eval_s m M c e true) = fst (eval_s m M c e false).
Proof. reflexivity. Qed.
Lemma eval_p_flag m M c e : fst (eval_p m M c e true) = fst (eval_p m M c e false).
Proof. unfold eval_p. destruct (negb (a_norm m)); reflexivity. Qed.

Lemma eval_s_snd m M c e : snd (eval_s m M c e false) = None /\
  exists d, snd (eval_s m M c e true) = Some d.
Proof. split; [reflexivity|]. eexists; reflexivity. Qed.
Lemma eval_p_snd m M c e : snd (eval_p m M c e false) = None /\
  exists d, snd (eval_p m M c e true) = Some d.
Proof.
  unfold eval_p. destruct (negb (a_norm m)).
  - apply eval_s_snd.
  - split; [reflexivity|]. eexists; reflexivity.
Qed.

Lemma atomic_flag_gen m c e :
  match atomic_evaluate m c e true, atomic_evaluate m c e false with
  | Ok (g, Some _), Ok (g', None) => g = g'
  | Raise x, Raise y => x = y
  | _, _ => False
  end.
Proof.
  unfold atomic_evaluate. destruct c as [c|]; auto. destruct e as [e|]; auto.
  destruct (negb (Nat.eqb _ _)); auto. destruct (negb (Z.eqb _ _)); auto.
  cbv zeta. set (M := map (gauss_row e) (a_radii m)). clearbody M.
  destruct (a_np m =? 0)%Z; [|destruct (a_ns m =? 0)%Z].
  - pose proof (eval_s_flag m M c e). destruct (eval_s_snd m M c e) as [H1 [d H2]].
    destruct (eval_s m M c e true) as [g o], (eval_s m M c e false) as [g' o'].
    simpl in *. subst. reflexivity.
  - pose proof (eval_p_flag m M c e). destruct (eval_p_snd m M c e) as [H1 [d H2]].
    destruct (eval_p m M c e true) as [g o], (eval_p m M c e false) as [g' o'].
    simpl in *. subst. reflexivity.
  - unfold eval_mixed.
    match goal with |- context [eval_s m ?M1 ?c1 ?e1 true] =>
      pose proof (eval_s_flag m M1 c1 e1); destruct (eval_s_snd m M1 c1 e1) as [H1 [d H2]];
      destruct (eval_s m M1 c1 e1 true) as [g o], (eval_s m M1 c1 e1 false) as [g' o'] end.
    match goal with |- context [eval_p m ?M1 ?c1 ?e1 true] =>
      pose proof (eval_p_flag m M1 c1 e1); destruct (eval_p_snd m M1 c1 e1) as [H3 [d' H4]];
      destruct (eval_p m M1 c1 e1 true) as [gp op], (eval_p m M1 c1 e1 false) as [gp' op'] end.
    simpl in *. subst. reflexivity.
Qed.

Lemma atomic_flag m c e :
  res_fst (atomic_evaluate m c e true) = res_fst (atomic_evaluate m c e false).
Proof.
  pose proof (atomic_flag_gen m c e) as H.
  destruct (atomic_evaluate m c e true) as [[g [d|]]|x],
           (atomic_evaluate m c e false) as [[g' [d'|]]|y]; simpl in *; try tauto; congruence.
Qed.

Lemma mol_flag m c e :
  res_fst (mol_evaluate m c e true) = res_fst (mol_evaluate m c e false).
Proof.
  unfold mol_evaluate. destruct c as [c|]; auto. destruct e as [e|]; auto.
  destruct (negb (Z.of_nat (length c) =? m_nbasis m)%Z || negb (Z.of_nat (length e) =? m_nbasis m)%Z);
    auto.
  set (R := fun (s t : res (Z * list xr * list (list xr))) =>
    match s, t with
    | Ok (n, g, _), Ok (n', g', _) => n = n' /\ g = g'
    | Raise x, Raise y => x = y
    | _, _ => False end).
  assert (H : forall l s t, R s t ->
     R (fold_left (mol_step m c e true) l s) (fold_left (mol_step m c e false) l t)).
  { induction l as [|a l IH]; intros s t Hst; auto. cbn [fold_left]. apply IH.
    destruct s as [[[n g] d]|x], t as [[[n' g'] d']|y]; cbn in Hst; try contradiction;
      [|rewrite Hst; reflexivity].
    destruct Hst as [<- <-].
    unfold mol_step. cbn [bind].
    match goal with |- context [atomic_evaluate a ?cs ?es true] =>
      pose proof (atomic_flag_gen a cs es) as H;
      destruct (atomic_evaluate a cs es true) as [[g1 [d1|]]|x],
           (atomic_evaluate a cs es false) as [[g2 [d2|]]|y] end;
      simpl in H; try tauto; subst; cbn [bind fst snd]; try reflexivity.
    destruct (negb (Nat.eqb (length g) (length g2))); simpl; auto. }
  match goal with |- context [fold_left (mol_step m c e true) ?l ?s] =>
    match goal with |- context [fold_left (mol_step m c e false) l ?t] =>
      specialize (H l s t) end end.
  cbv zeta. simpl in H. specialize (H (conj eq_refl eq_refl)).
  destruct (fold_left (mol_step m c e true) _ _) as [[[n g] d]|x],
    (fold_left (mol_step m c e false) _ _) as [[[n' g'] d']|y]; simpl in *; try tauto.
  - destruct H; congruence.
  - congruence.
Qed.

(** *** Molecular construction *)
Definition mk_ctr (b : nat * nat) (rs : list R) : ctr := (fst b, snd b, rs).

Lemma mol_centers_ok pts coords basis norm N :
  forall rss,
  Forall2 (fun c rs => geom pts (VArr (A1 (map Fin c))) rs /\ length rs = N) coords rss ->
  length coords = length basis ->
  Forall (fun b => (0 < fst b + snd b)%nat) basis ->
  exists l, mol_centers pts (map (map Fin) coords) (basis_rows basis) norm = Ok l /\
    Forall2 (ctr_ok norm N) l (map2 mk_ctr basis rss) /\
    map (fun a => (a_ns a, a_np a)) l =
      map (fun b => (Z.of_nat (fst b), Z.of_nat (snd b))) basis.
Proof.
  revert basis; induction coords as [|c coords IH]; intros [|b basis] rss HF Hl Hb;
    simpl in Hl; try discriminate.
  - inversion HF; subst. exists []. simpl. auto.
  - inversion HF as [|? rs ? rss' [Hg HN] HF' ]; subst.
    inversion Hb as [|? ? Hb0 Hb']; subst.
    destruct (atomic_init_ok _ _ _ (fst b) (snd b) norm Hg Hb0) as (m & Hm & _ & Hr & Hs & Hp & Hn).
    destruct (IH basis rss' HF' ltac:(lia) Hb') as (l & Hl1 & Hl2 & Hl3).
    exists (m :: l). cbn [map mol_centers basis_rows].
    change (atomic_init (VArr pts) (VArr (A1 (map Fin c))) (VNpInt (Z.of_nat (fst b))) (VNpInt (Z.of_nat (snd b))) norm)
      with (atomic_init (VArr pts) (VArr (A1 (map Fin c))) (VInt (Z.of_nat (fst b))) (VInt (Z.of_nat (snd b))) norm).
    rewrite Hm. cbn [bind].
    unfold basis_rows in Hl1. rewrite Hl1. split; auto. split.
    + simpl. constructor; auto. unfold ctr_ok, mk_ctr, c_ns, c_np, c_rs. simpl. auto.
    + simpl. rewrite Hs, Hp, Hl3. reflexivity.
Qed.

Lemma mgeom_centers pts d cs rss : mgeom pts d cs rss ->
  Forall2 (fun c rs => geom pts (VArr (A1 (map Fin c))) rs /\ length rs = nlen pts) cs rss /\
  Forall (fun c => length c = d) cs /\
  match pts with A2 d' _ => d' = d | A1 _ => d = 1%nat end.
Proof.
  intros H; destruct H as [d rows cs Hr Hc|p cs Hc]; (split; [|split; auto]).
  - induction Hc as [|c cs H H' IH]; simpl; constructor; auto.
    split; [apply geom_nd; auto|]. simpl. now rewrite !map_length.
  - induction Hc as [|c cs H H' IH]; simpl; constructor; auto.
    destruct c as [|c0 [|c1 c]]; simpl in H; try discriminate.
    split; [apply geom_1d|]. simpl. now rewrite !map_length.
Qed.

Lemma zsum_map_nat basis :
  zsum (map (fun b => (fst b + snd b)%Z)
            (map (fun b : nat * nat => (Z.of_nat (fst b), Z.of_nat (snd b))) basis)) =
  Z.of_nat (basis_size basis).
Proof.
  unfold basis_size. induction basis as [|b l IH]; auto. simpl in *. rewrite IH. lia.
Qed.

Lemma tot_mk basis rss : length basis = length rss ->
  tot (map2 mk_ctr basis rss) = basis_size basis.
Proof.
  revert rss; induction basis as [|b l IH]; intros [|rs rss] H; simpl in H; try discriminate; auto.
  unfold tot, basis_size in *. simpl. rewrite IH by congruence. reflexivity.
Qed.

Lemma mol_init_ok pts d coords rss basis norm :
  mgeom pts d coords rss -> length coords = length basis ->
  Forall (fun b => (0 < fst b + snd b)%nat) basis ->
  exists m, mol_init pts (VArr (A2 d (map (map Fin) coords))) (B2 (basis_rows basis)) norm = Ok m /\
    m_points m = pts /\
    Forall2 (ctr_ok norm (nlen pts)) (m_center m) (map2 mk_ctr basis rss) /\
    m_basis m = map (fun b => (Z.of_nat (fst b), Z.of_nat (snd b))) basis /\
    m_nbasis m = Z.of_nat (basis_size basis).
Proof.
  intros Hg Hl Hb. destruct (mgeom_centers _ _ _ _ Hg) as (HF & Hd & Hp).
  destruct (mol_centers_ok pts coords basis norm _ rss HF Hl Hb) as (l & H1 & H2 & H3).
  unfold mol_init, basis_rows in *. rewrite !map_length, Hl, Nat.eqb_refl. cbn [negb].
  assert (Hc : match pts with A1 _ => false | A2 d' _ => negb (Nat.eqb d' d) end = false).
  { destruct pts; auto. subst. now rewrite Nat.eqb_refl. }
  rewrite Hc, H1. cbn [bind].
  eexists; split; [reflexivity|]. simpl. rewrite H3. split; auto. split; auto. split; auto.
  unfold m_nbasis. simpl. apply zsum_map_nat.
Qed.

Lemma mgeom_lengths pts d cs rss : mgeom pts d cs rss ->
  length cs = length rss /\ Forall (fun rs => length rs = nlen pts) rss.
Proof.
  intros H. destruct (mgeom_centers _ _ _ _ H) as (HF & _). split.
  - clear -HF. induction HF; simpl; congruence.
  - clear -HF. induction HF as [|? ? ? ? [_ ?]]; constructor; auto.
Qed.

Definition lay_basis (basis : list (nat * nat)) (rs : list R) : list (bool * R) :=
  lay_mol (map2 (fun b r => (fst b, snd b, r)) basis rs).

Lemma lay_at_mk basis rss i : lay_at (map2 mk_ctr basis rss) i = lay_basis basis (dists_at rss i).
Proof.
  unfold lay_at, lay_basis. f_equal. unfold dists_at.
  revert rss; induction basis as [|b l IH]; intros [|rs rss]; simpl; auto. now rewrite IH.
Qed.

Lemma lay_basis_cons b basis r rs :
  lay_basis (b :: basis) (r :: rs) = lay_atom (fst b) (snd b) r ++ lay_basis basis rs.
Proof. reflexivity. Qed.

Lemma lay_basis_length basis rs : length basis = length rs ->
  length (lay_basis basis rs) = basis_size basis.
Proof.
  revert rs; induction basis as [|b l IH]; intros [|r rs] H; simpl in H; try discriminate; auto.
  rewrite lay_basis_cons, app_length, lay_atom_length, IH by congruence. reflexivity.
Qed.

Lemma mol_sum_gsum norm basis rs cs es :
  length basis = length rs -> length cs = basis_size basis -> length es = basis_size basis ->
  mol_sum norm basis rs cs es = gsum norm (lay_basis basis rs) cs es.
Proof.
  revert rs cs es; induction basis as [|[s p] l IH]; intros [|r rs] cs es H Hc He;
    simpl in H; try discriminate; auto.
  rewrite lay_basis_cons. cbn [mol_sum fst snd].
  unfold basis_size in *. simpl in Hc, He.
  rewrite IH; [|congruence|rewrite skipn_length; lia|rewrite skipn_length; lia].
  rewrite <- (firstn_skipn (s + p) cs) at 3. rewrite <- (firstn_skipn (s + p) es) at 3.
  rewrite gsum_app; auto; rewrite lay_atom_length, firstn_length; lia.
Qed.

(** C04 *)
Lemma mol_value pts d coords rss basis norm c e deriv :
  mgeom pts d coords rss -> length coords = length basis ->
  Forall (fun b => (0 < fst b + snd b)%nat) basis ->
  length c = basis_size basis -> length e = basis_size basis ->
  (norm = true -> Forall (fun a => 0 < a) e) ->
  exists m dg,
    mol_init pts (VArr (A2 d (map (map Fin) coords))) (B2 (basis_rows basis)) norm = Ok m /\
    mol_evaluate m (A1 (map Fin c)) (A1 (map Fin e)) deriv =
      Ok (map Fin (map (fun i => mol_sum norm basis (dists_at rss i) c e) (seq 0 (nlen pts))), dg).
Proof.
  intros Hg Hl Hb Hc He Hp.
  destruct (mol_init_ok _ _ _ _ basis norm Hg Hl Hb) as (m & Hm & Hpts & HF & _ & Hn).
  destruct (mgeom_lengths _ _ _ _ Hg) as [Hlen _].
  assert (Ht : tot (map2 mk_ctr basis rss) = basis_size basis) by (apply tot_mk; lia).
  exists m. rewrite (mol_evaluate_fin m norm (nlen pts) (map2 mk_ctr basis rss) c e deriv);
    auto; try congruence.
  eexists; split; auto. f_equal. f_equal. rewrite map_map. apply map_ext. intros i.
  rewrite lay_at_mk, mol_sum_gsum; auto. unfold dists_at. rewrite map_length. lia.
Qed.

(** C05 *)
Lemma mol_grad pts d coords rss basis norm c e :
  mgeom pts d coords rss -> length coords = length basis ->
  Forall (fun b => (0 < fst b + snd b)%nat) basis ->
  length c = basis_size basis -> length e = basis_size basis ->
  (norm = true -> Forall (fun a => 0 < a) e) ->
  exists m dg,
    mol_init pts (VArr (A2 d (map (map Fin) coords))) (B2 (basis_rows basis)) norm = Ok m /\
    mol_evaluate m (A1 (map Fin c)) (A1 (map Fin e)) true =
      Ok (map Fin (map (fun i => mol_sum norm basis (dists_at rss i) c e) (seq 0 (nlen pts))),
          Some (map (map Fin) dg)) /\
    length dg = nlen pts /\
    forall i, (i < nlen pts)%nat ->
      length (nth i dg []) = (2 * basis_size basis)%nat /\
      forall k, (k < basis_size basis)%nat ->
        is_derive (fun t : R => mol_sum norm basis (dists_at rss i) (upd c k t) e)
                  (nth k c 0) (nth k (nth i dg []) 0) /\
        is_derive (fun t : R => mol_sum norm basis (dists_at rss i) c (upd e k t))
                  (nth k e 0) (nth (basis_size basis + k) (nth i dg []) 0).
Proof.
  intros Hg Hl Hb Hc He Hp.
  destruct (mol_init_ok _ _ _ _ basis norm Hg Hl Hb) as (m & Hm & Hpts & HF & _ & Hn).
  destruct (mgeom_lengths _ _ _ _ Hg) as [Hlen _].
  assert (Ht : tot (map2 mk_ctr basis rss) = basis_size basis) by (apply tot_mk; lia).
  set (F := fun i => bcol norm (lay_basis basis (dists_at rss i)) e ++
                     ecol norm (lay_basis basis (dists_at rss i)) c e).
  exists m, (map F (seq 0 (nlen pts))). split; auto. split; [|split].
  - rewrite (mol_evaluate_fin m norm (nlen pts) (map2 mk_ctr basis rss) c e true);
      auto; try congruence.
    f_equal. f_equal.
    + rewrite map_map. apply map_ext. intros i.
      rewrite lay_at_mk, mol_sum_gsum; auto. unfold dists_at. rewrite map_length. lia.
    + f_equal. rewrite map_map. apply map_ext. intros i. unfold F. rewrite lay_at_mk. reflexivity.
  - now rewrite map_length, seq_length.
  - intros i Hi.
    rewrite (nth_indep _ [] (F 0%nat)) by (rewrite map_length, seq_length; auto).
    rewrite map_nth, seq_nth by auto. simpl Nat.add. unfold F.
    set (rs := dists_at rss i).
    assert (Lr : length basis = length rs) by (unfold rs, dists_at; rewrite map_length; lia).
    set (lay := lay_basis basis rs).
    assert (L : length lay = basis_size basis) by (apply lay_basis_length; auto).
    split; [rewrite bcol_ecol_len; lia|].
    intros k Hk. split.
    + rewrite nth_grad_c by lia.
      apply (is_derive_ext (fun t : R => gsum norm lay (upd c k t) e)).
      { intros t. symmetry. apply mol_sum_gsum; auto. now rewrite upd_length. }
      apply is_derive_gsum_c; lia.
    + replace (basis_size basis) with (length c) by lia. rewrite nth_grad_e by lia.
      apply (is_derive_ext (fun t : R => gsum norm lay c (upd e k t))).
      { intros t. symmetry. apply mol_sum_gsum; auto. now rewrite upd_length. }
      apply is_derive_gsum_e; try lia. intros Hn'. specialize (Hp Hn').
      rewrite Forall_forall in Hp. apply Hp. apply nth_In. lia.
Qed.
