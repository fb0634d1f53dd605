(** Facts about model objects and grids as the fits see them. *)
From Coquelicot Require Import Coquelicot.
From Coq Require Import Reals List ZArith Lia Lra Bool.
From Verif Require Import XR SpecDens SpecMeas SpecGrid ModelDens ModelMeas ModelGrid ModelFit Lists ProofDens
  ProofDeriv ProofMol ProofInit ProofModelMisc ProofMeas ProofGrid ProofCubic SpecFit.
Import ListNotations.
Local Open Scope R_scope.

(** ** Sums over indices *)

Lemma sumn_S n F : sumn (S n) F = F 0%nat + sumn n (fun i => F (S i)).
Proof. unfold sumn. simpl. rewrite <- seq_shift, map_map. reflexivity. Qed.

Lemma sumn_ext n F G : (forall i, (i < n)%nat -> F i = G i) -> sumn n F = sumn n G.
Proof.
  intros H. unfold sumn. f_equal. apply map_ext_in. intros i Hi. apply in_seq in Hi. apply H. lia.
Qed.
Lemma sumn_plus n F G : sumn n (fun i => F i + G i) = sumn n F + sumn n G.
Proof.
  revert F G; induction n as [|n IH]; intros F G; [unfold sumn; simpl; ring|].
  rewrite !sumn_S, IH. ring.
Qed.
Lemma sumn_scal n a F : sumn n (fun i => a * F i) = a * sumn n F.
Proof.
  revert F; induction n as [|n IH]; intros F; [unfold sumn; simpl; ring|].
  rewrite !sumn_S, IH. ring.
Qed.
Lemma sumn_minus n F G : sumn n (fun i => F i - G i) = sumn n F - sumn n G.
Proof.
  revert F G; induction n as [|n IH]; intros F G; [unfold sumn; simpl; ring|].
  rewrite !sumn_S, IH. ring.
Qed.
Lemma sumn_zero n F : (forall i, (i < n)%nat -> F i = 0) -> sumn n F = 0.
Proof.
  revert F; induction n as [|n IH]; intros F H; [reflexivity|].
  rewrite sumn_S, IH, (H 0%nat); [ring|lia|]. intros. apply H. lia.
Qed.
Lemma sumn_le n F G : (forall i, (i < n)%nat -> F i <= G i) -> sumn n F <= sumn n G.
Proof.
  revert F G; induction n as [|n IH]; intros F G H; [unfold sumn; simpl; lra|].
  rewrite !sumn_S. apply Rplus_le_compat; [apply H; lia|]. apply IH. intros. apply H. lia.
Qed.
Lemma sumn_pos n F : (forall i, (i < n)%nat -> 0 <= F i) ->
  (exists i, (i < n)%nat /\ 0 < F i) -> 0 < sumn n F.
Proof.
  revert F; induction n as [|n IH]; intros F H [i [Hi HF]]; [lia|].
  rewrite sumn_S. assert (H0 : 0 <= F 0%nat) by (apply H; lia).
  assert (H1 : 0 <= sumn n (fun i => F (S i))).
  { rewrite <- (sumn_zero n (fun _ => 0)) by auto. apply sumn_le. intros. apply H. lia. }
  destruct i as [|i]; [lra|]. assert (0 < sumn n (fun i => F (S i))); [|lra].
  apply IH; [intros; apply H; lia|]. exists i. split; [lia|auto].
Qed.
Lemma sumn_nonneg n F : (forall i, (i < n)%nat -> 0 <= F i) -> 0 <= sumn n F.
Proof. intros H. rewrite <- (sumn_zero n (fun _ => 0)) by auto. now apply sumn_le. Qed.
(** Equality in a termwise inequality of sums. *)
Lemma sumn_eq_le n F G : (forall i, (i < n)%nat -> F i <= G i) -> sumn n G <= sumn n F ->
  forall i, (i < n)%nat -> F i = G i.
Proof.
  intros H Hs i Hi. destruct (Req_dec (F i) (G i)) as [E|E]; auto. exfalso.
  assert (0 < sumn n (fun i => G i - F i)); [|rewrite sumn_minus in H0; lra].
  apply sumn_pos; [intros j Hj; specialize (H j Hj); lra|]. exists i. split; auto.
  specialize (H i Hi). lra.
Qed.
Lemma sumn_swap n m F : sumn n (fun i => sumn m (fun k => F i k)) = sumn m (fun k => sumn n (fun i => F i k)).
Proof.
  revert F; induction n as [|n IH]; intros F.
  - unfold sumn at 1. simpl. symmetry. now apply sumn_zero.
  - rewrite sumn_S, IH, <- sumn_plus. apply sumn_ext. intros k Hk. now rewrite sumn_S.
Qed.
Lemma rsum_sumn l : rsum l = sumn (length l) (fun i => nth i l 0).
Proof.
  induction l as [|x l IH]; [reflexivity|]. cbn [length]. rewrite rsum_cons, sumn_S, IH. reflexivity.
Qed.
Lemma rdot_sumn w v : length w = length v ->
  rdot w v = sumn (length w) (fun i => nth i w 0 * nth i v 0).
Proof.
  intros H. unfold rdot. rewrite rsum_sumn, map2_length, H, Nat.min_id. apply sumn_ext.
  intros i Hi. apply nth_map2; lia.
Qed.

(** ** Layouts *)

Lemma gsum_sumn norm : forall lay c e, length lay = length c -> length lay = length e ->
  gsum norm lay c e =
  sumn (length lay) (fun k => nth k c 0 * basis_fn norm (kind lay k) (nth k e 0) (away lay k)).
Proof.
  induction lay as [|[p r] lay IH]; intros [|x c] [|a e] H1 H2; try discriminate; [reflexivity|].
  cbn [length gsum]. rewrite sumn_S, IH by (simpl in *; lia). reflexivity.
Qed.
Lemma nth_bcol norm : forall lay e k, length lay = length e -> (k < length e)%nat ->
  nth k (bcol norm lay e) 0 = basis_fn norm (kind lay k) (nth k e 0) (away lay k).
Proof.
  induction lay as [|[p r] lay IH]; intros [|a e] k H Hk; simpl in H, Hk; try lia.
  destruct k as [|k]; [reflexivity|]. cbn [bcol nth]. rewrite IH by lia. reflexivity.
Qed.
Lemma nth_ecol norm : forall lay c e k, length lay = length c -> length lay = length e ->
  (k < length e)%nat ->
  nth k (ecol norm lay c e) 0 = nth k c 0 * dbasis norm (kind lay k) (nth k e 0) (away lay k).
Proof.
  induction lay as [|[p r] lay IH]; intros [|x c] [|a e] k H1 H Hk; simpl in H1, H, Hk; try lia.
  destruct k as [|k]; [reflexivity|]. cbn [ecol nth]. rewrite IH by lia. reflexivity.
Qed.

Lemma basis_fn_nonneg norm p a r : 0 <= basis_fn norm p a r.
Proof.
  unfold basis_fn. apply Rmult_le_pos; [apply Rmult_le_pos|left; apply exp_pos].
  - destruct norm; [left; apply norm_const_pos|lra].
  - destruct p; [apply pow2_ge_0|lra].
Qed.
Lemma basis_fn_pos norm p a r : r <> 0 -> 0 < basis_fn norm p a r.
Proof.
  intros Hr. unfold basis_fn. apply Rmult_lt_0_compat; [apply Rmult_lt_0_compat|apply exp_pos].
  - destruct norm; [apply norm_const_pos|lra].
  - destruct p; [|lra]. simpl. rewrite Rmult_1_r. now apply Rsqr_pos_lt in Hr.
Qed.

Lemma gsum_nonneg norm lay c e : length lay = length c -> length lay = length e ->
  nonneg c -> 0 <= gsum norm lay c e.
Proof.
  intros H1 H2 Hc. rewrite gsum_sumn by auto. apply sumn_nonneg. intros k Hk.
  apply Rmult_le_pos; [|apply basis_fn_nonneg].
  unfold nonneg in Hc. rewrite Forall_forall in Hc. apply Hc, nth_In. lia.
Qed.

(** ** What a view of a model provides *)

Record vfacts (m : gmodel) (norm : bool) (lays : list (list (bool * R))) (nb : nat) : Prop := {
  vf_nb : g_nbasis m = Z.of_nat nb;
  vf_pos : (0 < nb)%nat;
  vf_len : forall lay, In lay lays -> length lay = nb;
  vf_kind : forall k lay lay', In lay lays -> In lay' lays -> kind lay k = kind lay' k;
  vf_eval : forall c e deriv, length c = nb -> length e = nb -> (norm = true -> positive e) ->
    g_evaluate m (A1 (map Fin c)) (A1 (map Fin e)) deriv =
    Ok (map Fin (values norm lays c e),
        if deriv then Some (map (fun lay => map Fin (bcol norm lay e ++ ecol norm lay c e)) lays)
        else None);
  vf_radii : forall k, (k < nb)%nat ->
    index_radii m k = Ok (map (fun lay => Fin (away lay k)) lays);
  vf_pre_len : length (g_prefactor m) = nb;
  vf_pre : forall k lay, (k < nb)%nat -> In lay lays ->
    nth k (g_prefactor m) NaN = Fin (half_power (kind lay k)) }.

Lemma types_length ns np : length (types ns np) = (ns + np)%nat.
Proof. unfold types. now rewrite app_length, !repeat_length. Qed.
Lemma kind_atom ns np r k : (k < ns + np)%nat -> kind (lay_atom ns np r) k = nth k (types ns np) false.
Proof.
  intros H. unfold kind, lay_atom.
  rewrite (nth_indep _ _ ((fun t : bool => (t, r)) false)) by (rewrite map_length, types_length; auto).
  now rewrite (map_nth (fun t : bool => (t, r))).
Qed.
Lemma away_atom ns np r k : (k < ns + np)%nat -> away (lay_atom ns np r) k = r.
Proof.
  intros H. unfold away, lay_atom.
  rewrite (nth_indep _ _ ((fun t : bool => (t, r)) false)) by (rewrite map_length, types_length; auto).
  now rewrite (map_nth (fun t : bool => (t, r))).
Qed.
Lemma prefactor_types a ns np : a_ns a = Z.of_nat ns -> a_np a = Z.of_nat np ->
  a_prefactor a = map (fun t => Fin (half_power t)) (types ns np).
Proof.
  intros H1 H2. unfold a_prefactor, py_repeat, types. rewrite H1, H2, !Nat2Z.id, map_app, !map_repeat.
  unfold half_power. f_equal; f_equal; f_equal; lra.
Qed.

Lemma atom_facts m rs ns np norm :
  a_radii m = map Fin rs -> a_ns m = Z.of_nat ns -> a_np m = Z.of_nat np -> a_norm m = norm ->
  (0 < ns + np)%nat -> vfacts (GAtom m) norm (map (lay_atom ns np) rs) (ns + np).
Proof.
  intros Hr Hs Hp Hn Hpos. constructor; auto.
  - simpl. unfold a_nbasis. rewrite Hs, Hp. lia.
  - intros lay H. apply in_map_iff in H. destruct H as [r [<- _]]. apply lay_atom_length.
  - intros k lay lay' H H'. apply in_map_iff in H, H'.
    destruct H as [r [<- _]], H' as [r' [<- _]].
    destruct (Nat.lt_ge_cases k (ns + np)) as [Hk|Hk].
    + now rewrite !kind_atom.
    + unfold kind. now rewrite !nth_overflow by (rewrite lay_atom_length; auto).
  - intros c e deriv Hc He Hpe. cbn [g_evaluate].
    rewrite (atomic_evaluate_fin m rs ns np c e deriv) by (auto; rewrite ?Hn; auto).
    rewrite Hn. unfold values. rewrite !map_map. reflexivity.
  - intros k Hk. unfold index_radii. cbn [g_natoms g_radii Nat.eqb concat]. rewrite app_nil_r, Hr.
    f_equal. rewrite map_map. apply map_ext. intros r. now rewrite away_atom.
  - cbn [g_prefactor]. rewrite (prefactor_types m ns np), map_length by auto. apply types_length.
  - intros k lay Hk H. apply in_map_iff in H. destruct H as [r [<- _]].
    cbn [g_prefactor]. rewrite (prefactor_types m ns np), kind_atom by auto.
    rewrite (nth_indep _ _ ((fun t => Fin (half_power t)) false))
      by (rewrite map_length, types_length; auto).
    now rewrite (map_nth (fun t => Fin (half_power t))).
Qed.

(** Position of a basis function in a molecular layout. *)
Lemma lay_mol_cons b r l : lay_mol ((b, r) :: l) = lay_atom (fst b) (snd b) r ++ lay_mol l.
Proof. reflexivity. Qed.
Lemma lay_basis_combine basis rs : lay_basis basis rs = lay_mol (combine basis rs).
Proof.
  unfold lay_basis. f_equal. revert rs; induction basis as [|[s p] b IH]; intros [|r rs]; auto.
  simpl. now rewrite IH.
Qed.

Lemma nth_lay_mol basis rs j k d :
  length basis = length rs -> (j < length basis)%nat ->
  let sizes := map (fun b : nat * nat => (fst b + snd b)%nat) basis in
  (before sizes j <= k < before sizes (S j))%nat ->
  nth k (lay_mol (combine basis rs)) d =
  nth (k - before sizes j) (lay_atom (fst (nth j basis (0, 0)%nat)) (snd (nth j basis (0, 0)%nat)) (nth j rs 0)) d.
Proof.
  revert rs j k. induction basis as [|b basis IH]; intros [|r rs] j k Hl Hj sizes Hk;
    simpl in Hl, Hj; try lia.
  cbn [combine]. rewrite lay_mol_cons. subst sizes. cbn [map] in *.
  destruct j as [|j].
  - unfold before in *. cbn [firstn list_sum fold_right] in *. rewrite app_nth1.
    + cbn [nth]. f_equal. lia.
    + rewrite lay_atom_length. lia.
  - unfold before in Hk |- *. cbn [firstn list_sum fold_right] in Hk |- *. rewrite app_nth2.
    + rewrite lay_atom_length. cbn [nth].
      rewrite (IH rs j) by (unfold before; cbn [firstn list_sum fold_right]; try lia;
                            unfold list_sum in *; lia).
      f_equal. unfold before, list_sum. lia.
    + rewrite lay_atom_length. unfold list_sum in *. lia.
Qed.

Lemma map_fst_lay_mol basis rs : length basis = length rs ->
  map fst (lay_mol (combine basis rs)) = concat (map (fun b => types (fst b) (snd b)) basis).
Proof.
  revert rs; induction basis as [|b basis IH]; intros [|r rs] H; try discriminate; auto.
  cbn [combine map concat]. rewrite lay_mol_cons, map_app, IH by (simpl in H; lia).
  f_equal. unfold lay_atom. rewrite map_map. simpl. apply map_id.
Qed.
Lemma kind_mol basis rs k : length basis = length rs ->
  kind (lay_mol (combine basis rs)) k = nth k (concat (map (fun b => types (fst b) (snd b)) basis)) false.
Proof.
  intros H. rewrite <- (map_fst_lay_mol basis rs H). unfold kind.
  change false with (fst (false, 0)) at 2. now rewrite (map_nth (@fst bool R)).
Qed.
Lemma concat_types_length basis :
  length (concat (map (fun b => types (fst b) (snd b)) basis)) = basis_size basis.
Proof.
  unfold basis_size. induction basis as [|b basis IH]; auto.
  cbn [map concat list_sum fold_right]. rewrite app_length, types_length.
  unfold list_sum in IH. now rewrite IH.
Qed.

Lemma Forall2_nth {A B} (P : A -> B -> Prop) l l' i d d' :
  Forall2 P l l' -> (i < length l)%nat -> P (nth i l d) (nth i l' d').
Proof.
  intros H. revert i; induction H as [|x y l l' Hxy H IH]; intros i Hi; simpl in Hi; [lia|].
  destruct i as [|i]; auto. apply IH. lia.
Qed.

Lemma before_S sizes j : before sizes (S j) = (before sizes j + nth j sizes 0)%nat.
Proof.
  unfold before. revert j; induction sizes as [|x l IH]; intros [|j]; auto.
  - simpl. lia.
  - cbn [nth]. change (firstn (S (S j)) (x :: l)) with (x :: firstn (S j) l).
    change (firstn (S j) (x :: l)) with (x :: firstn j l).
    change (list_sum (x :: firstn (S j) l)) with (x + list_sum (firstn (S j) l))%nat.
    change (list_sum (x :: firstn j l)) with (x + list_sum (firstn j l))%nat.
    rewrite IH. lia.
Qed.
Lemma Forall2_len {A B} (P : A -> B -> Prop) l l' : Forall2 P l l' -> length l = length l'.
Proof. induction 1; simpl; auto. Qed.

Lemma mol_facts pts d coords rss basis norm m :
  mgeom pts d coords rss -> length coords = length basis -> basis <> [] ->
  Forall (fun b => (0 < fst b + snd b)%nat) basis ->
  mol_init pts (VArr (A2 d (map (map Fin) coords))) (B2 (basis_rows basis)) norm = Ok m ->
  vfacts (GMol m) norm (map (fun i => lay_mol (combine basis (dists_at rss i))) (seq 0 (nlen pts)))
         (basis_size basis).
Proof.
  intros Hg Hl Hne Hb Hm.
  pose proof (mgeom_lengths _ _ _ _ Hg) as [Hl1 Hl2].
  assert (HR : forall i, length basis = length (dists_at rss i)).
  { intros i. unfold dists_at. rewrite map_length. lia. }
  assert (HL : forall i, lay_at (map2 mk_ctr basis rss) i = lay_mol (combine basis (dists_at rss i))).
  { intros i. rewrite lay_at_mk. apply lay_basis_combine. }
  destruct (mol_init_ok _ _ _ _ basis norm Hg Hl Hb) as (m' & Hm' & Hpts & Hctr & Hbas & Hn).
  rewrite Hm in Hm'; injection Hm' as <-.
  assert (Hcl : length (m_center m) = length basis).
  { rewrite (Forall2_len _ _ _ Hctr), map2_length. lia. }
  assert (HC : forall j, (j < length basis)%nat -> exists a, nth_error (m_center m) j = Some a /\
     a_radii a = map Fin (nth j rss [])).
  { intros j Hj. destruct (nth_error (m_center m) j) as [a|] eqn:Ea.
    2:{ apply nth_error_None in Ea. lia. }
    exists a. split; auto.
    pose proof (Forall2_nth _ _ _ j a (0, 0, [])%nat Hctr ltac:(lia)) as Hx.
    rewrite (nth_error_nth _ _ a Ea) in Hx.
    rewrite (nth_map2 mk_ctr basis rss j (0, 0)%nat []) in Hx by lia.
    apply Hx. }
  constructor.
  - exact Hn.
  - destruct basis as [|b basis]; [congruence|]. inversion Hb; subst.
    unfold basis_size. simpl. lia.
  - intros lay H. apply in_map_iff in H. destruct H as [i [<- _]].
    rewrite <- lay_basis_combine. now apply lay_basis_length.
  - intros k lay lay' H H'. apply in_map_iff in H, H'.
    destruct H as [i [<- _]], H' as [i' [<- _]]. now rewrite !kind_mol.
  - intros c e deriv Hc He Hpe. cbn [g_evaluate].
    assert (Ht : tot (map2 mk_ctr basis rss) = basis_size basis) by (apply tot_mk; lia).
    rewrite (mol_evaluate_fin m norm (nlen pts) (map2 mk_ctr basis rss) c e deriv)
      by (rewrite ?Ht, ?Hpts; auto).
    unfold values. rewrite !map_map. f_equal. f_equal.
    + apply map_ext. intros i. now rewrite HL.
    + destruct deriv; auto. f_equal. apply map_ext. intros i. now rewrite HL.
  - intros k Hk.
    destruct (proj2 (assign_owner _ _ _ _ basis norm m (Z.of_nat k) Hg Hl Hb Hm))
      as (j & Hj & Hj1 & Hj2 & Hj3); [lia|].
    assert (HA : map (fun lay => Fin (away lay k))
       (map (fun i => lay_mol (combine basis (dists_at rss i))) (seq 0 (nlen pts))) =
       map Fin (nth j rss [])).
    { assert (Hlj : length (nth j rss []) = nlen pts).
      { rewrite Forall_forall in Hl2. apply Hl2, nth_In. lia. }
      rewrite (map_nth_seq Fin (nth j rss []) 0), Hlj, map_map. apply map_ext. intros i.
      f_equal. unfold away. set (sizes := map (fun b : nat * nat => (fst b + snd b)%nat) basis) in *.
      rewrite (nth_lay_mol basis (dists_at rss i) j k) by (auto; fold sizes; lia). fold sizes.
      change (away (lay_atom (fst (nth j basis (0, 0)%nat)) (snd (nth j basis (0, 0)%nat))
                (nth j (dists_at rss i) 0)) (k - before sizes j) = nth i (nth j rss []) 0).
      rewrite away_atom.
      - unfold dists_at. rewrite (nth_indep _ 0 ((fun rs : list R => nth i rs 0) [])) by (rewrite map_length; lia).
        now rewrite (map_nth (fun rs : list R => nth i rs 0)).
      - assert (E : before sizes (S j) = (before sizes j + nth j sizes 0)%nat).
        { apply before_S. }
        assert (E2 : nth j sizes 0%nat = (fst (nth j basis (0, 0)%nat) + snd (nth j basis (0, 0)%nat))%nat).
        { unfold sizes. rewrite (nth_indep _ 0%nat ((fun b : nat * nat => (fst b + snd b)%nat) (0, 0)%nat))
            by (rewrite map_length; lia).
          now rewrite (map_nth (fun b : nat * nat => (fst b + snd b)%nat)). }
        lia. }
    unfold index_radii. cbn [g_natoms].
    rewrite HA. destruct (Nat.eqb_spec (length (m_basis m)) 1) as [E|E].
    + rewrite Hbas, map_length in E. assert (j = 0)%nat by lia. subst j.
      cbn [g_radii]. unfold m_radii. destruct (HC 0%nat) as (a & Ha & Har); [lia|].
      destruct (m_center m) as [|a' [|]]; simpl in Hcl; try lia.
      simpl in Ha. injection Ha as ->. cbn [map concat]. rewrite app_nil_r, Har. reflexivity.
    + rewrite Hj. cbn [bind]. destruct (HC j Hj1) as (a & Ha & Har).
      unfold m_radii. rewrite nth_error_map, Ha. cbn [option_map]. now rewrite Har.
  - cbn [g_prefactor]. unfold m_prefactor.
    assert (E : forall l info, Forall2 (ctr_ok norm (nlen pts)) l info ->
       concat (map a_prefactor l) =
       map (fun t => Fin (half_power t)) (concat (map (fun x => types (c_ns x) (c_np x)) info))).
    { clear. intros l info H. induction H as [|a x l info Hx H IH]; auto.
      cbn [map concat]. rewrite map_app, IH. f_equal. destruct Hx as (H1 & H2 & _).
      now apply prefactor_types. }
    rewrite (E _ _ Hctr), map_length, <- concat_types_length. f_equal. f_equal.
    rewrite map_map2. clear - Hl1 Hl. assert (H : length basis = length rss) by lia.
    revert rss H Hl Hl1. generalize coords. induction basis; intros co [|r rss] H _ _; try discriminate; auto.
    cbn [map2 map]. f_equal. apply (IHbasis (repeat [] (length basis)) rss); simpl in H; rewrite ?repeat_length; lia.
  - intros k lay Hk H. apply in_map_iff in H. destruct H as [i [<- _]]. rewrite kind_mol by auto.
    cbn [g_prefactor]. unfold m_prefactor.
    assert (E : forall l info, Forall2 (ctr_ok norm (nlen pts)) l info ->
       concat (map a_prefactor l) =
       map (fun t => Fin (half_power t)) (concat (map (fun x => types (c_ns x) (c_np x)) info))).
    { clear. intros l info H. induction H as [|a x l info Hx H IH]; auto.
      cbn [map concat]. rewrite map_app, IH. f_equal. destruct Hx as (H1 & H2 & _).
      now apply prefactor_types. }
    rewrite (E _ _ Hctr).
    replace (concat (map (fun x => types (c_ns x) (c_np x)) (map2 mk_ctr basis rss)))
      with (concat (map (fun b => types (fst b) (snd b)) basis)).
    + rewrite (nth_indep _ _ ((fun t => Fin (half_power t)) false))
        by (rewrite map_length, concat_types_length; auto).
      now rewrite (map_nth (fun t => Fin (half_power t))).
    + f_equal. rewrite map_map2. assert (Hb' : length basis = length rss) by lia. clear - Hb'.
      revert rss Hb'. induction basis; intros [|r rss] H; try discriminate; auto.
      cbn [map2 map]. f_equal. apply (IHbasis rss). simpl in H; lia.
Qed.

Lemma views_facts m norm lays : views m norm lays -> exists nb, vfacts m norm lays nb.
Proof.
  intros H. destruct H.
  - destruct (atomic_init_ok pts ctr rs ns np norm H H0) as (m' & E & _ & Hr & Hs & Hp & Hn).
    rewrite H1 in E. injection E as <-. exists (ns + np)%nat. now apply atom_facts.
  - destruct (atomic_init_ok pts ctr rs ns np norm H H0) as (m0 & E & _ & Hr & Hs & Hp & Hn).
    rewrite H2 in E. injection E as <-. exists (ns' + np')%nat.
    unfold change_numb in H3. simpl in H3. injection H3 as <-. apply atom_facts; auto.
  - exists (basis_size basis). eapply mol_facts; eauto.
Qed.
