(** Remaining properties of model.py: C06, C08-C11. *)
From Coquelicot Require Import Coquelicot.
From Coq Require Import Reals List ZArith Lia Lra Bool Permutation.
From Verif Require Import XR ModelDens SpecDens Lists ProofDens ProofDeriv ProofMol ProofInit.
Import ListNotations.
Local Open Scope R_scope.

(** *** C06 *)
Lemma first_ge_spec v : forall l acc i0,
  (Forall (fun x => 0 <= x) l)%Z -> (acc < v)%Z -> (v <= acc + zsum l)%Z ->
  exists j, first_ge v (cumsum_from acc l) i0 = Ok (i0 + j)%nat /\ (j < length l)%nat /\
    (acc + zsum (firstn j l) < v)%Z /\ (v <= acc + zsum (firstn (S j) l))%Z.
Proof.
  induction l as [|x l IH]; intros acc i0 Hpos Hlt Hle.
  - unfold zsum in Hle; simpl in Hle. lia.
  - inversion Hpos; subst. cbn [cumsum_from first_ge].
    destruct (Z.leb_spec v (acc + x)).
    + exists 0%nat. rewrite Nat.add_0_r. split; auto. unfold zsum. simpl. lia.
    + destruct (IH (acc + x)%Z (S i0) H2 ltac:(lia))
        as (j & H3 & H4 & H5 & H6).
      { unfold zsum in *. simpl in Hle. lia. }
      exists (S j). rewrite H3. split; [f_equal; lia|]. split; [simpl; lia|].
      unfold zsum in *. cbn [firstn fold_right] in *. lia.
Qed.

Lemma zsum_of_nat sizes j : zsum (firstn j (map Z.of_nat sizes)) = Z.of_nat (before sizes j).
Proof.
  unfold before. rewrite firstn_map. generalize (firstn j sizes). clear.
  induction l as [|x l IH]; auto. simpl. rewrite IH. lia.
Qed.

Lemma before_mono sizes i j : (i <= j)%nat -> (before sizes i <= before sizes j)%nat.
Proof.
  unfold before. revert i j; induction sizes as [|x l IH]; intros [|i] [|j] H; simpl; try lia.
  specialize (IH i j ltac:(lia)). lia.
Qed.

Lemma sizes_eq basis :
  map (fun b => (fst b + snd b)%Z)
      (map (fun b : nat * nat => (Z.of_nat (fst b), Z.of_nat (snd b))) basis) =
  map Z.of_nat (map (fun b => (fst b + snd b)%nat) basis).
Proof. rewrite !map_map. apply map_ext. intros [s p]; simpl. lia. Qed.

Lemma assign_owner pts d coords rss basis norm m (index : Z) :
  mgeom pts d coords rss -> length coords = length basis ->
  Forall (fun b => (0 < fst b + snd b)%nat) basis ->
  mol_init pts (VArr (A2 d (map (map Fin) coords))) (B2 (basis_rows basis)) norm = Ok m ->
  let sizes := map (fun b => (fst b + snd b)%nat) basis in
  ((Z.of_nat (basis_size basis) <= index)%Z -> assign_basis_to_center m index = Raise ValueError) /\
  ((0 <= index < Z.of_nat (basis_size basis))%Z ->
   exists j, assign_basis_to_center m index = Ok j /\ (j < length basis)%nat /\
     (Z.of_nat (before sizes j) <= index < Z.of_nat (before sizes (S j)))%Z /\
     forall j', (j' < length basis)%nat ->
       (Z.of_nat (before sizes j') <= index < Z.of_nat (before sizes (S j')))%Z -> j' = j).
Proof.
  intros Hg Hl Hb Hm sizes.
  destruct (mol_init_ok _ _ _ _ basis norm Hg Hl Hb) as (m' & Hm' & _ & _ & Hbas & Hn).
  rewrite Hm in Hm'; injection Hm' as <-.
  unfold assign_basis_to_center. rewrite Hn. split.
  - intros H. destruct (Z.leb_spec (Z.of_nat (basis_size basis)) index); auto; lia.
  - intros H. destruct (Z.leb_spec (Z.of_nat (basis_size basis)) index); [lia|].
    rewrite Hbas, sizes_eq. fold sizes.
    assert (Hz : zsum (map Z.of_nat sizes) = Z.of_nat (basis_size basis)).
    { unfold basis_size. fold sizes. rewrite <- (firstn_all (map Z.of_nat sizes)), zsum_of_nat.
      unfold before. rewrite map_length. now rewrite firstn_all. }
    destruct (first_ge_spec (index + 1)%Z (map Z.of_nat sizes) 0%Z 0%nat) as (j & H1 & H2 & H3 & H4).
    + apply Forall_map. apply Forall_forall. intros; lia.
    + lia.
    + rewrite Hz. lia.
    + rewrite map_length in H2. unfold sizes in H2 at 1. rewrite map_length in H2.
      rewrite zsum_of_nat in H3. rewrite zsum_of_nat in H4.
      exists j. simpl in H1. split; auto. split; auto. split; [lia|].
      intros j' Hj' Hin.
      destruct (Nat.lt_trichotomy j' j) as [C|[C|C]]; auto.
      * pose proof (before_mono sizes (S j') j ltac:(lia)). lia.
      * pose proof (before_mono sizes (S j) j' ltac:(lia)). lia.
Qed.

Lemma assign_negative pts d coords rss basis norm m (index : Z) :
  mgeom pts d coords rss -> length coords = length basis -> basis <> [] ->
  Forall (fun b => (0 < fst b + snd b)%nat) basis ->
  mol_init pts (VArr (A2 d (map (map Fin) coords))) (B2 (basis_rows basis)) norm = Ok m ->
  (index < 0)%Z -> assign_basis_to_center m index = Ok 0%nat.
Proof.
  intros Hg Hl Hne Hb Hm Hi.
  destruct (mol_init_ok _ _ _ _ basis norm Hg Hl Hb) as (m' & Hm' & _ & _ & Hbas & Hn).
  rewrite Hm in Hm'; injection Hm' as <-.
  unfold assign_basis_to_center. rewrite Hn.
  destruct (Z.leb_spec (Z.of_nat (basis_size basis)) index); [lia|].
  rewrite Hbas. destruct basis as [|[s p] basis]; [congruence|].
  cbn [map cumsum_from first_ge fst snd].
  destruct (Z.leb_spec (index + 1) (0 + (Z.of_nat s + Z.of_nat p))); auto. lia.
Qed.

(** *** C08: validation *)
Lemma as_int_iff v n : as_int v = Some n <-> int_arg v n.
Proof.
  unfold int_arg; split.
  - destruct v as [|b|z|x| |a| |z]; simpl; intros E; try discriminate.
    + injection E as <-. destruct b; auto.
    + injection E as <-. auto.
  - intros [->|[[-> ->]|[-> ->]]]; reflexivity.
Qed.

Lemma as_integral_iff v n : as_integral v = Some n <-> integral_arg v n.
Proof.
  unfold integral_arg. rewrite <- as_int_iff. destruct v; cbn; split; intros H; try discriminate; auto;
    try (destruct H; [assumption|discriminate]).
  - injection H as <-. auto.
  - destruct H as [H|H]; [discriminate|congruence].
Qed.

Lemma init_nd_accepts d rows center num_s num_p norm :
  (exists m, atomic_init (VArr (A2 d rows)) center num_s num_p norm = Ok m) <->
  (exists ns np, counts_ok num_s num_p ns np) /\ center_ok_nd d center.
Proof.
  split.
  - intros [m H]. unfold atomic_init in H.
    destruct (as_integral num_s) as [ns|] eqn:Es; [|discriminate].
    destruct (Z.ltb_spec ns 0); [discriminate|].
    destruct (as_integral num_p) as [np|] eqn:Ep; [|discriminate].
    destruct (Z.ltb_spec np 0); [discriminate|].
    destruct (Z.eqb_spec (ns + np) 0); [discriminate|].
    apply as_integral_iff in Es. apply as_integral_iff in Ep.
    split; [exists ns, np; repeat split; auto|].
    unfold center_ok_nd. destruct center as [| | | | |[c|]| |]; simpl in H; try discriminate; auto.
    right. destruct (Nat.eqb_spec d (length c)); [|discriminate]. eauto.
  - intros [(ns & np & Hs & Hp & Hns & Hnp & Hz) Hc].
    apply as_integral_iff in Hs. apply as_integral_iff in Hp.
    unfold atomic_init. rewrite Hs, Hp.
    destruct (Z.ltb_spec ns 0); [lia|]. destruct (Z.ltb_spec np 0); [lia|].
    destruct (Z.eqb_spec (ns + np) 0); [lia|].
    destruct Hc as [->|(c & -> & <-)]; simpl.
    + eexists; reflexivity.
    + rewrite Nat.eqb_refl. eexists; reflexivity.
Qed.

Lemma init_exceptions points center num_s num_p norm x :
  atomic_init points center num_s num_p norm = Raise x ->
  (x = TypeError <->
     (forall a, points <> VArr a) \/
     ~ (exists ns, integral_arg num_s ns /\ 0 <= ns)%Z \/ ~ (exists np, integral_arg num_p np /\ 0 <= np)%Z) /\
  (x = TypeError \/ x = ValueError).
Proof.
  intros H. unfold atomic_init in H.
  assert (UI : forall v a b, integral_arg v a -> integral_arg v b -> a = b).
  { intros v a b Ha Hb. apply as_integral_iff in Ha. apply as_integral_iff in Hb. congruence. }
  destruct points as [| | | | |pts| |];
    try (injection H as <-; split; [split; auto; left; discriminate|auto]).
  destruct (as_integral num_s) as [ns|] eqn:Es.
  2:{ injection H as <-. split; auto. split; auto. intros _. right; left.
      intros (n & Hn & _). apply as_integral_iff in Hn. congruence. }
  pose proof Es as Es'. apply as_integral_iff in Es'.
  destruct (Z.ltb_spec ns 0).
  { injection H as <-. split; auto. split; auto. intros _. right; left.
    intros (n & Hn & Hn0). specialize (UI _ _ _ Es' Hn). lia. }
  destruct (as_integral num_p) as [np|] eqn:Ep.
  2:{ injection H as <-. split; auto. split; auto. intros _. right; right.
      intros (n & Hn & _). apply as_integral_iff in Hn. congruence. }
  pose proof Ep as Ep'. apply as_integral_iff in Ep'.
  destruct (Z.ltb_spec np 0).
  { injection H as <-. split; auto. split; auto. intros _. right; right.
    intros (n & Hn & Hn0). specialize (UI _ _ _ Ep' Hn). lia. }
  assert (Hv : x = ValueError).
  { destruct (ns + np =? 0)%Z; [congruence|].
    unfold check_center, radii_of, broadcast_sub in H.
    destruct center as [| | | | |[c|nc cr]| |]; destruct pts as [p|d rows];
      cbn [bind] in H; try congruence.
    - destruct (Nat.eqb (length p) (length [Fin 0])); cbn [bind] in H; congruence.
    - destruct (Nat.eqb (length p) (length c)); cbn [bind] in H; [congruence|].
      destruct c as [|c0 [|c1 c]]; destruct p as [|p0 [|p1 p]]; cbn [bind] in H; congruence.
    - destruct (Nat.eqb d (length c)); cbn [bind] in H; congruence. }
  subst x. split; auto. split; [discriminate|].
  intros [C|[C|C]]; exfalso.
  - eapply C; reflexivity.
  - apply C. eauto.
  - apply C. eauto.
Qed.

Lemma evaluate_accepts m coeffs expons deriv :
  (exists out, atomic_evaluate m coeffs expons deriv = Ok out) <->
  exists c e, coeffs = A1 c /\ expons = A1 e /\ length c = length e /\
              Z.of_nat (length c) = a_nbasis m.
Proof.
  unfold atomic_evaluate. split.
  - intros [out H]. destruct coeffs as [c|]; [|discriminate]. destruct expons as [e|]; [|discriminate].
    destruct (Nat.eqb_spec (length c) (length e)); [|discriminate].
    destruct (Z.eqb_spec (Z.of_nat (length c)) (a_nbasis m)); [|discriminate]. exists c, e; auto.
  - intros (c & e & -> & -> & H1 & H2). rewrite H1, Nat.eqb_refl. cbn [negb].
    rewrite <- H1, H2, Z.eqb_refl. cbn [negb].
    destruct (a_np m =? 0)%Z; [eauto|]. destruct (a_ns m =? 0)%Z; eauto.
Qed.

Lemma evaluate_rejects m coeffs expons deriv x :
  atomic_evaluate m coeffs expons deriv = Raise x -> x = ValueError.
Proof.
  unfold atomic_evaluate. destruct coeffs as [c|]; [|congruence]. destruct expons as [e|]; [|congruence].
  destruct (negb (Nat.eqb _ _)); [congruence|]. destruct (negb (Z.eqb _ _)); [congruence|].
  destruct (a_np m =? 0)%Z; [discriminate|]. destruct (a_ns m =? 0)%Z; discriminate.
Qed.

(** *** C09 *)
Lemma change_numb_fresh points center num_s num_p norm m new_s new_p ns np :
  atomic_init points center num_s num_p norm = Ok m ->
  int_arg new_s ns -> int_arg new_p np -> (0 <= ns)%Z -> (0 <= np)%Z -> (ns + np <> 0)%Z ->
  change_numb m new_s new_p = atomic_init points center new_s new_p norm.
Proof.
  intros H Is Ip Hns Hnp Hz.
  assert (Hs' : as_integral new_s = Some ns) by (apply as_integral_iff; left; exact Is).
  assert (Hp' : as_integral new_p = Some np) by (apply as_integral_iff; left; exact Ip).
  apply as_int_iff in Is. apply as_int_iff in Ip.
  unfold atomic_init in *.
  destruct points as [| | | | |pts| |]; try discriminate.
  rewrite Hs', Hp'. unfold change_numb. rewrite Is, Ip.
  destruct (Z.ltb_spec ns 0); [lia|]. destruct (Z.ltb_spec np 0); [lia|].
  destruct (Z.eqb_spec (ns + np) 0); [lia|].
  destruct (as_integral num_s) as [ns0|]; [|discriminate]. destruct (ns0 <? 0)%Z; [discriminate|].
  destruct (as_integral num_p) as [np0|]; [|discriminate]. destruct (np0 <? 0)%Z; [discriminate|].
  destruct (ns0 + np0 =? 0)%Z; [discriminate|].
  destruct (check_center pts center); cbn [bind] in *; [|discriminate].
  destruct (radii_of pts a); cbn [bind] in *; [|discriminate].
  injection H as <-. reflexivity.
Qed.

Lemma numpy_counts points center num_s num_p norm m s p ns np :
  atomic_init points center num_s num_p norm = Ok m -> counts_ok s p ns np -> s = VNpInt ns \/ p = VNpInt np ->
  (exists m', atomic_init points center s p norm = Ok m' /\ a_ns m' = ns /\ a_np m' = np) /\
  change_numb m s p = Raise TypeError.
Proof.
  intros H (Is & Ip & Hns & Hnp & Hz) N. split.
  - apply as_integral_iff in Is, Ip. unfold atomic_init in *. destruct points as [| | | | |pts| |]; try discriminate.
    rewrite Is, Ip. destruct (Z.ltb_spec ns 0); [lia|]. destruct (Z.ltb_spec np 0); [lia|]. destruct (Z.eqb_spec (ns + np) 0); [lia|].
    destruct (as_integral num_s) as [ns0|]; [|discriminate]. destruct (ns0 <? 0)%Z; [discriminate|].
    destruct (as_integral num_p) as [np0|]; [|discriminate]. destruct (np0 <? 0)%Z; [discriminate|].
    destruct (ns0 + np0 =? 0)%Z; [discriminate|].
    destruct (check_center pts center); cbn [bind] in *; [|discriminate].
    destruct (radii_of pts a); cbn [bind] in *; [|discriminate]. eexists. split; [reflexivity|]. auto.
  - unfold change_numb. destruct N as [->| ->]; cbn [as_int]; [reflexivity|]. destruct (as_int s); reflexivity.
Qed.

(** Histories: any sequence of accepted changes with admissible counts. *)
Definition change_all (m : atomic) (h : list (pyval * pyval)) : res atomic :=
  apply_all (fun m sp => change_numb m (fst sp) (snd sp)) m h.

Lemma change_history points center num_s num_p norm m h last_s last_p :
  atomic_init points center num_s num_p norm = Ok m ->
  Forall (fun sp => exists ns np, int_arg (fst sp) ns /\ int_arg (snd sp) np /\ (0 <= ns)%Z /\ (0 <= np)%Z /\ (ns + np <> 0)%Z) (h ++ [(last_s, last_p)]) ->
  change_all m (h ++ [(last_s, last_p)]) = atomic_init points center last_s last_p norm.
Proof.
  revert num_s num_p m; induction h as [|[s p] h IH]; intros num_s num_p m Hm HF;
    unfold change_all in *; simpl in *.
  - inversion HF as [|? ? (ns & np & C1 & C2 & C3 & C4 & C5) _]; subst. simpl in C1, C2.
    rewrite (change_numb_fresh _ _ _ _ _ _ _ _ _ _ Hm C1 C2 C3 C4 C5). simpl in *.
    destruct (atomic_init points center last_s last_p norm); reflexivity.
  - inversion HF as [|? ? (ns & np & C1 & C2 & C3 & C4 & C5) HF']; subst. simpl in C1, C2.
    rewrite (change_numb_fresh _ _ _ _ _ _ _ _ _ _ Hm C1 C2 C3 C4 C5).
    destruct (atomic_init points center s p norm) as [m'|x] eqn:E.
    + cbn [bind]. eapply IH; eauto.
    + exfalso. pose proof (change_numb_fresh _ _ _ _ _ _ _ _ _ _ Hm C1 C2 C3 C4 C5) as H. rewrite E in H.
      unfold change_numb in H. 
      apply as_int_iff in C1. apply as_int_iff in C2. rewrite C1, C2 in H. discriminate.
Qed.

(** *** C10 *)
Lemma lincomb_length s u v : length u = length v -> length (lincomb s u v) = length u.
Proof. intros H. unfold lincomb. rewrite map2_length. lia. Qed.

Lemma gsum_lincomb norm lay s u v e : length u = length v ->
  gsum norm lay (lincomb s u v) e = gsum norm lay u e + s * gsum norm lay v e.
Proof.
  revert u v e; induction lay as [|[p r] l IH]; intros [|x u] [|y v] e H; simpl in H;
    try discriminate; cbn [lincomb map2]; try (simpl; ring).
  destruct e as [|a e]; simpl; [ring|]. unfold lincomb in IH. rewrite IH by congruence. ring.
Qed.

Lemma basis_fn_nonneg norm p a r : 0 <= basis_fn norm p a r.
Proof.
  unfold basis_fn. apply Rmult_le_pos; [apply Rmult_le_pos|].
  - destruct norm; [left; apply norm_const_pos|lra].
  - destruct p; [apply pow2_ge_0|lra].
  - left. apply exp_pos.
Qed.
Lemma basis_fn_s_pos norm a r : 0 < basis_fn norm false a r.
Proof.
  unfold basis_fn. apply Rmult_lt_0_compat; [apply Rmult_lt_0_compat|]; try lra.
  - destruct norm; [apply norm_const_pos|lra].
  - apply exp_pos.
Qed.

Lemma gsum_nonneg norm lay c e : Forall (fun x => 0 <= x) c -> 0 <= gsum norm lay c e.
Proof.
  intros H. revert lay e; induction H as [|x c Hx Hc IH]; intros [|[p r] l] [|a e]; simpl; try lra.
  specialize (IH l e). pose proof (basis_fn_nonneg norm p a r).
  pose proof (Rmult_le_pos _ _ Hx H). lra.
Qed.

Lemma gsum_pos norm lay c e k :
  Forall (fun x => 0 <= x) c -> length lay = length c -> length lay = length e ->
  (k < length c)%nat -> 0 < nth k c 0 -> fst (nth k lay (true, 0)) = false ->
  0 < gsum norm lay c e.
Proof.
  intros H. revert lay e k; induction H as [|x c Hx Hc IH]; intros [|[p r] l] [|a e] k L1 L2 Hk Hp Ht;
    simpl in L1, L2, Hk; try discriminate; try lia.
  destruct k as [|k]; simpl in Hp, Ht; cbn [gsum].
  - subst p. pose proof (basis_fn_s_pos norm a r).
    pose proof (gsum_nonneg norm l c e Hc). pose proof (Rmult_lt_0_compat _ _ Hp H). lra.
  - specialize (IH l e k ltac:(lia) ltac:(lia) ltac:(lia) Hp Ht).
    pose proof (basis_fn_nonneg norm p a r). pose proof (Rmult_le_pos _ _ Hx H). lra.
Qed.

Lemma nth_lay_atom_s ns np r k : (k < ns)%nat -> fst (nth k (lay_atom ns np r) (true, 0)) = false.
Proof.
  intros H. rewrite lay_atom_split. unfold lay_one.
  rewrite app_nth1 by (rewrite repeat_length; auto).
  rewrite (nth_indep _ _ (false, r)) by (rewrite repeat_length; auto).
  now rewrite nth_repeat.
Qed.

(** *** C11 *)
Lemma dist_translate v x y : length x = length v -> length y = length v ->
  dist (translate v x) (translate v y) = dist x y.
Proof.
  intros Hx Hy. unfold dist. f_equal. unfold translate.
  revert x y Hx Hy; induction v as [|a v IH]; intros [|b x] [|c y] Hx Hy; simpl in *;
    try discriminate; auto.
  rewrite IH by congruence. ring.
Qed.

(** evaluate depends only on the distances, the counts and the normalization flag. *)
Lemma evaluate_ext m m' : a_radii m = a_radii m' -> a_ns m = a_ns m' -> a_np m = a_np m' ->
  a_norm m = a_norm m' -> forall c e deriv, atomic_evaluate m c e deriv = atomic_evaluate m' c e deriv.
Proof.
  intros H1 H2 H3 H4 c e deriv. unfold atomic_evaluate, a_nbasis, eval_mixed, eval_p, eval_s.
  rewrite H1, H2, H3, H4. reflexivity.
Qed.

Lemma atomic_translate d rows ctr v ns np norm :
  Forall (fun x => length x = d) rows -> length ctr = d -> length v = d -> (0 < ns + np)%nat ->
  exists m m',
    atomic_init (VArr (A2 d (map (map Fin) rows))) (VArr (A1 (map Fin ctr)))
                (VInt (Z.of_nat ns)) (VInt (Z.of_nat np)) norm = Ok m /\
    atomic_init (VArr (A2 d (map (map Fin) (map (translate v) rows))))
                (VArr (A1 (map Fin (translate v ctr))))
                (VInt (Z.of_nat ns)) (VInt (Z.of_nat np)) norm = Ok m' /\
    forall c e deriv, atomic_evaluate m c e deriv = atomic_evaluate m' c e deriv.
Proof.
  intros Hr Hc Hv Hn.
  assert (Hr' : Forall (fun x => length x = d) (map (translate v) rows)).
  { apply Forall_map. eapply Forall_impl; [|exact Hr]. intros x Hx. simpl in *.
    unfold translate. rewrite map2_length. lia. }
  assert (Hc' : length (translate v ctr) = d) by (unfold translate; rewrite map2_length; lia).
  destruct (atomic_init_ok _ _ _ ns np norm (geom_nd d rows ctr Hr Hc) Hn)
    as (m & Hm & _ & R1 & S1 & P1 & N1).
  destruct (atomic_init_ok _ _ _ ns np norm (geom_nd d _ _ Hr' Hc') Hn)
    as (m' & Hm' & _ & R2 & S2 & P2 & N2).
  exists m, m'. split; auto. split; auto. apply evaluate_ext; try congruence.
  rewrite R1, R2. f_equal. rewrite map_map. apply map_ext_in. intros x Hx.
  symmetry. apply dist_translate; auto. eapply Forall_forall in Hr; eauto. congruence. congruence.
Qed.

(** A one-center molecule is the atomic model. *)
Lemma mol_single pts d ctr rs ns np norm c e deriv :
  mgeom pts d [ctr] [rs] -> (0 < ns + np)%nat ->
  length c = (ns + np)%nat -> length e = (ns + np)%nat ->
  (norm = true -> Forall (fun a => 0 < a) e) ->
  exists m a,
    mol_init pts (VArr (A2 d [map Fin ctr])) (B2 (basis_rows [(ns, np)])) norm = Ok m /\
    atomic_init (VArr pts) (VArr (A1 (map Fin ctr))) (VInt (Z.of_nat ns)) (VInt (Z.of_nat np)) norm
      = Ok a /\
    mol_evaluate m (A1 (map Fin c)) (A1 (map Fin e)) deriv =
    atomic_evaluate a (A1 (map Fin c)) (A1 (map Fin e)) deriv.
Proof.
  intros Hg Hn Hc He Hp.
  assert (Hb : Forall (fun b : nat * nat => (0 < fst b + snd b)%nat) [(ns, np)]) by (constructor; auto).
  destruct (mol_init_ok _ _ _ _ [(ns, np)] norm Hg eq_refl Hb) as (m & Hm & Hpts & HF & _ & Hnb).
  destruct (mgeom_centers _ _ _ _ Hg) as (HF2 & _).
  inversion HF2 as [|? ? ? ? [Hga HN] _ E1 E2]; subst.
  destruct (atomic_init_ok _ _ _ ns np norm Hga Hn) as (a & Ha & _ & Hr & Hs & Hpp & Hnm).
  exists m, a. split; auto. split; auto.
  assert (Hbs : basis_size [(ns, np)] = (ns + np)%nat) by (unfold basis_size; simpl; lia).
  rewrite (mol_evaluate_fin m norm (nlen (m_points m)) (map2 mk_ctr [(ns, np)] [rs]) c e deriv);
    auto; try (unfold tot; simpl; unfold c_nb, c_ns, c_np; simpl; lia); try congruence.
  all: try (rewrite Hnb, Hbs; unfold tot; simpl; unfold c_nb, c_ns, c_np; simpl; lia).
  rewrite (atomic_evaluate_fin a rs ns np c e deriv); auto.
  2: now rewrite Hnm.
  rewrite Hnm. f_equal. rewrite <- HN. f_equal.
  - rewrite (map_nth_seq _ rs 0). apply map_ext. intros i. cbn [map2]. rewrite lay_at_one. reflexivity.
  - destruct deriv; auto. f_equal. rewrite (map_nth_seq _ rs 0). apply map_ext. intros i.
    cbn [map2]. rewrite lay_at_one. reflexivity.
Qed.

(** Permuting the centers together with their parameter blocks. *)
Definition blocks_sum (norm : bool) (x : list R) (bs : list mblock) : R :=
  mol_sum norm (map b_basis bs) (map (fun b => dist x (b_ctr b)) bs)
          (concat (map b_c bs)) (concat (map b_e bs)).

Lemma blocks_sum_cons norm d x b bs : block_ok norm d b ->
  blocks_sum norm x (b :: bs) =
  gsum norm (lay_atom (fst (b_basis b)) (snd (b_basis b)) (dist x (b_ctr b))) (b_c b) (b_e b) +
  blocks_sum norm x bs.
Proof.
  intros (_ & _ & H1 & H2 & _). unfold blocks_sum. cbn [map concat mol_sum].
  destruct (b_basis b) as [s p]. simpl in *.
  rewrite !firstn_app_exact, !skipn_app_exact by auto. reflexivity.
Qed.

Lemma blocks_sum_perm norm d x bs bs' :
  Permutation bs bs' -> Forall (block_ok norm d) bs -> blocks_sum norm x bs = blocks_sum norm x bs'.
Proof.
  intros HP. induction HP as [|b l l' HP IH|a b l|l l' l'' H1 IH1 H2 IH2]; intros HF; auto.
  - inversion HF; subst. rewrite !(blocks_sum_cons norm d) by auto. rewrite IH; auto.
  - inversion HF as [|? ? Ha HF']; subst. inversion HF' as [|? ? Hb HF'']; subst.
    rewrite !(blocks_sum_cons norm d) by auto. ring.
  - rewrite IH1 by auto. apply IH2. eapply Permutation_Forall; eauto.
Qed.

Lemma concat_len (f : mblock -> list R) bs :
  Forall (fun b => length (f b) = (fst (b_basis b) + snd (b_basis b))%nat) bs ->
  length (concat (map f bs)) = basis_size (map b_basis bs).
Proof.
  unfold basis_size. induction 1 as [|b bs H1 H2 IH]; auto. simpl. rewrite app_length, IH, H1. reflexivity.
Qed.

Lemma mol_blocks norm d rows bs deriv :
  Forall (fun x => length x = d) rows -> Forall (block_ok norm d) bs ->
  exists m dg,
    mol_init (A2 d (map (map Fin) rows)) (VArr (A2 d (map (map Fin) (map b_ctr bs))))
             (B2 (basis_rows (map b_basis bs))) norm = Ok m /\
    mol_evaluate m (A1 (map Fin (concat (map b_c bs)))) (A1 (map Fin (concat (map b_e bs)))) deriv =
      Ok (map Fin (map (fun x => blocks_sum norm x bs) rows), dg).
Proof.
  intros Hr Hb.
  assert (Hc : Forall (fun c => length c = d) (map b_ctr bs)).
  { apply Forall_map. eapply Forall_impl; [|exact Hb]. intros b H; apply H. }
  pose proof (mgeom_nd d rows (map b_ctr bs) Hr Hc) as Hg.
  destruct (mol_value _ _ _ _ (map b_basis bs) norm (concat (map b_c bs)) (concat (map b_e bs)) deriv Hg)
    as (m & dg & Hm & He).
  - now rewrite !map_length.
  - apply Forall_map. eapply Forall_impl; [|exact Hb]. intros b H; apply H.
  - apply concat_len. eapply Forall_impl; [|exact Hb]. intros b H; apply H.
  - apply concat_len. eapply Forall_impl; [|exact Hb]. intros b H; apply H.
  - intros Hn. apply Forall_concat. apply Forall_map. eapply Forall_impl; [|exact Hb].
    intros b H. now apply H.
  - exists m, dg. split; auto. rewrite He. f_equal. f_equal. f_equal.
    cbn [nlen]. rewrite map_length. 
    rewrite (map_nth_seq (fun x => blocks_sum norm x bs) rows []).
    apply map_ext_in. intros i Hi. apply in_seq in Hi. unfold blocks_sum. f_equal.
    unfold dists_at. rewrite !map_map. apply map_ext. intros b.
    rewrite (nth_indep _ 0 (dist [] (b_ctr b))) by (rewrite map_length; lia).
    exact (map_nth (fun x => dist x (b_ctr b)) rows [] i).
Qed.

Lemma mol_permute norm d rows bs bs' deriv :
  Forall (fun x => length x = d) rows -> Forall (block_ok norm d) bs -> Permutation bs bs' ->
  exists m m' g dg dg',
    mol_init (A2 d (map (map Fin) rows)) (VArr (A2 d (map (map Fin) (map b_ctr bs))))
             (B2 (basis_rows (map b_basis bs))) norm = Ok m /\
    mol_init (A2 d (map (map Fin) rows)) (VArr (A2 d (map (map Fin) (map b_ctr bs'))))
             (B2 (basis_rows (map b_basis bs'))) norm = Ok m' /\
    mol_evaluate m (A1 (map Fin (concat (map b_c bs)))) (A1 (map Fin (concat (map b_e bs)))) deriv =
      Ok (g, dg) /\
    mol_evaluate m' (A1 (map Fin (concat (map b_c bs')))) (A1 (map Fin (concat (map b_e bs')))) deriv =
      Ok (g, dg').
Proof.
  intros Hr Hb HP.
  destruct (mol_blocks norm d rows bs deriv Hr Hb) as (m & dg & Hm & He).
  destruct (mol_blocks norm d rows bs' deriv Hr (Permutation_Forall HP Hb)) as (m' & dg' & Hm' & He').
  exists m, m', (map Fin (map (fun x => blocks_sum norm x bs) rows)), dg, dg'.
  repeat split; auto. rewrite He'. f_equal. f_equal. f_equal. apply map_ext. intros x.
  symmetry. eapply blocks_sum_perm; eauto.
Qed.

(** C10 at the API. *)
Lemma atomic_linear pts ctr rs ns np norm s u v e :
  geom pts ctr rs -> (0 < ns + np)%nat ->
  length u = (ns + np)%nat -> length v = (ns + np)%nat -> length e = (ns + np)%nat ->
  (norm = true -> Forall (fun a => 0 < a) e) ->
  exists m gu gv,
    atomic_init (VArr pts) ctr (VInt (Z.of_nat ns)) (VInt (Z.of_nat np)) norm = Ok m /\
    atomic_evaluate m (A1 (map Fin u)) (A1 (map Fin e)) false = Ok (map Fin gu, None) /\
    atomic_evaluate m (A1 (map Fin v)) (A1 (map Fin e)) false = Ok (map Fin gv, None) /\
    atomic_evaluate m (A1 (map Fin (lincomb s u v))) (A1 (map Fin e)) false =
      Ok (map Fin (lincomb s gu gv), None).
Proof.
  intros Hg Hn Hu Hv He Hp.
  destruct (atomic_init_ok _ _ _ ns np norm Hg Hn) as (m & Hm & _ & Hr & Hs & Hpp & Hnm).
  rewrite <- Hnm in Hp.
  exists m, (map (fun r => gsum norm (lay_atom ns np r) u e) rs),
            (map (fun r => gsum norm (lay_atom ns np r) v e) rs).
  split; auto.
  rewrite !(atomic_evaluate_fin m rs ns np); auto.
  2: rewrite lincomb_length; lia.
  rewrite !map_map, Hnm. repeat split; auto. f_equal. f_equal.
  unfold lincomb at 2. rewrite map2_map_same, map_map. apply map_ext. intros r. f_equal.
  apply gsum_lincomb. lia.
Qed.

Lemma atomic_nonneg pts ctr rs ns np norm c e :
  geom pts ctr rs -> (0 < ns + np)%nat ->
  length c = (ns + np)%nat -> length e = (ns + np)%nat ->
  (norm = true -> Forall (fun a => 0 < a) e) -> Forall (fun x => 0 <= x) c ->
  exists m g,
    atomic_init (VArr pts) ctr (VInt (Z.of_nat ns)) (VInt (Z.of_nat np)) norm = Ok m /\
    atomic_evaluate m (A1 (map Fin c)) (A1 (map Fin e)) false = Ok (map Fin g, None) /\
    Forall (fun x => 0 <= x) g /\
    ((exists k, (k < ns)%nat /\ 0 < nth k c 0) -> Forall (fun x => 0 < x) g).
Proof.
  intros Hg Hn Hc He Hp Hpos.
  destruct (atomic_init_ok _ _ _ ns np norm Hg Hn) as (m & Hm & _ & Hr & Hs & Hpp & Hnm).
  rewrite <- Hnm in Hp.
  exists m, (map (fun r => gsum norm (lay_atom ns np r) c e) rs). split; auto.
  rewrite (atomic_evaluate_fin m rs ns np); auto. rewrite map_map, Hnm. split; auto. split.
  - apply Forall_map. apply Forall_forall. intros r _. now apply gsum_nonneg.
  - intros (k & Hk & Hk0). apply Forall_map. apply Forall_forall. intros r _.
    apply (gsum_pos _ _ _ _ k); auto; rewrite ?lay_atom_length; try lia.
    now apply nth_lay_atom_s.
Qed.

Lemma mol_linear pts d coords rss basis norm s u v e :
  mgeom pts d coords rss -> length coords = length basis ->
  Forall (fun b => (0 < fst b + snd b)%nat) basis ->
  length u = basis_size basis -> length v = basis_size basis -> length e = basis_size basis ->
  (norm = true -> Forall (fun a => 0 < a) e) ->
  exists m gu gv,
    mol_init pts (VArr (A2 d (map (map Fin) coords))) (B2 (basis_rows basis)) norm = Ok m /\
    mol_evaluate m (A1 (map Fin u)) (A1 (map Fin e)) false = Ok (map Fin gu, None) /\
    mol_evaluate m (A1 (map Fin v)) (A1 (map Fin e)) false = Ok (map Fin gv, None) /\
    mol_evaluate m (A1 (map Fin (lincomb s u v))) (A1 (map Fin e)) false =
      Ok (map Fin (lincomb s gu gv), None) /\
    (Forall (fun x => 0 <= x) u -> Forall (fun x => 0 <= x) gu).
Proof.
  intros Hg Hl Hb Hu Hv He Hp.
  destruct (mol_init_ok _ _ _ _ basis norm Hg Hl Hb) as (m & Hm & Hpts & HF & _ & Hn).
  destruct (mgeom_lengths _ _ _ _ Hg) as [Hlen _].
  assert (Ht : tot (map2 mk_ctr basis rss) = basis_size basis) by (apply tot_mk; lia).
  set (info := map2 mk_ctr basis rss) in *.
  exists m, (map (fun i => gsum norm (lay_at info i) u e) (seq 0 (nlen pts))),
            (map (fun i => gsum norm (lay_at info i) v e) (seq 0 (nlen pts))).
  split; auto.
  rewrite !(mol_evaluate_fin m norm (nlen pts) info); auto; try congruence.
  2: rewrite lincomb_length; lia.
  rewrite !map_map. repeat split; auto.
  - f_equal. f_equal.
    unfold lincomb at 2. rewrite map2_map_same, map_map. apply map_ext. intros r. f_equal.
    apply gsum_lincomb. lia.
  - intros Hpos. apply Forall_map. apply Forall_forall. intros i _. now apply gsum_nonneg.
Qed.

(** *** C08: one value per grid point *)
Lemma map2_len {A B C} (f : A -> B -> C) l l' n :
  length l = n -> length l' = n -> length (map2 f l l') = n.
Proof. intros. rewrite map2_length. lia. Qed.

Lemma eval_s_len m M c e deriv n : length M = n -> length (fst (eval_s m M c e deriv)) = n.
Proof.
  intros. unfold eval_s. destruct deriv; cbn [fst]; rewrite map_length; destruct (a_norm m);
    rewrite ?map_length; auto.
Qed.
Lemma times_r2_len rs M n : length rs = n -> length M = n -> length (times_r2 rs M) = n.
Proof. intros. apply map2_len; auto. Qed.
Lemma eval_p_len m M c e deriv n : length (a_radii m) = n -> length M = n ->
  length (fst (eval_p m M c e deriv)) = n.
Proof.
  intros. unfold eval_p. destruct (negb (a_norm m)).
  - apply eval_s_len. now apply times_r2_len.
  - destruct deriv; cbn [fst]; rewrite !map_length; now apply times_r2_len.
Qed.

Lemma evaluate_len m c e deriv g dg :
  atomic_evaluate m c e deriv = Ok (g, dg) -> length g = length (a_radii m).
Proof.
  unfold atomic_evaluate. destruct c as [c|]; [|discriminate]. destruct e as [e|]; [|discriminate].
  destruct (negb (Nat.eqb _ _)); [discriminate|]. destruct (negb (Z.eqb _ _)); [discriminate|].
  set (M := map (gauss_row e) (a_radii m)).
  assert (HM : length M = length (a_radii m)) by (unfold M; now rewrite map_length).
  clearbody M.
  destruct (a_np m =? 0)%Z; [|destruct (a_ns m =? 0)%Z]; intros E.
  - injection E as E. pose proof (eval_s_len m M c e deriv _ HM) as H. now rewrite E in H.
  - injection E as E. pose proof (eval_p_len m M c e deriv _ eq_refl HM) as H. now rewrite E in H.
  - injection E as E. unfold eval_mixed in E.
    match type of E with context [snd (eval_s m ?M1 ?c1 ?e1 deriv)] =>
      pose proof (eval_s_len m M1 c1 e1 deriv _ (eq_trans (map_length _ _) HM)) as H1;
      destruct (eval_s m M1 c1 e1 deriv) as [gs os] end.
    match type of E with context [snd (eval_p m ?M1 ?c1 ?e1 deriv)] =>
      pose proof (eval_p_len m M1 c1 e1 deriv _ eq_refl (eq_trans (map_length _ _) HM)) as H2;
      destruct (eval_p m M1 c1 e1 deriv) as [gp op] end.
    cbn [fst snd] in *.
    assert (Hg : g = map2 xadd gs gp) by (destruct os, op; congruence).
    subst g. now apply map2_len.
Qed.

Lemma init_nd_points d rows center num_s num_p norm m c e deriv g dg :
  atomic_init (VArr (A2 d rows)) center num_s num_p norm = Ok m ->
  atomic_evaluate m c e deriv = Ok (g, dg) -> length g = length rows.
Proof.
  intros H E. apply evaluate_len in E. rewrite E.
  unfold atomic_init in H. destruct (as_integral num_s); [|discriminate].
  destruct (_ <? _)%Z; [discriminate|]. destruct (as_integral num_p); [|discriminate].
  destruct (_ <? _)%Z; [discriminate|]. destruct (_ =? _)%Z; [discriminate|].
  destruct (check_center _ _); [|discriminate]. cbn [bind radii_of] in H.
  injection H as <-. simpl. apply map_length.
Qed.

(** 1-D points: a center of another size than one is accepted. *)
Lemma init_1d_center_unchecked :
  exists m, atomic_init (VArr (A1 [Fin 1; Fin 2])) (VArr (A1 [Fin 5; Fin 7])) (VInt 1) (VInt 0) false
              = Ok m /\ a_radii m = [Fin 4; Fin 5].
Proof.
  eexists; split; [reflexivity|]. simpl. repeat f_equal.
  - replace (1 + - (5)) with (-4) by lra. rewrite Rabs_left; lra.
  - replace (2 + - (7)) with (-5) by lra. rewrite Rabs_left; lra.
Qed.

Lemma init_1d_wrong_count :
  exists m g, atomic_init (VArr (A1 [Fin 1])) (VArr (A1 [Fin 5; Fin 7])) (VInt 1) (VInt 0) false
              = Ok m /\
    atomic_evaluate m (A1 [Fin 1]) (A1 [Fin 1]) false = Ok (g, None) /\ length g = 2%nat.
Proof. eexists; eexists; split; [reflexivity|]. split; reflexivity. Qed.

Lemma change_negative :
  exists m m', atomic_init (VArr (A1 [Fin 1])) VNone (VInt 1) (VInt 0) false = Ok m /\
    change_numb m (VInt (-1)) (VInt 1) = Ok m' /\ a_ns m' = (-1)%Z /\ a_nbasis m' = 0%Z.
Proof. eexists; eexists; split; [reflexivity|]. split; [reflexivity|]. split; reflexivity. Qed.

(** Molecular construction on d-dimensional points. *)
Lemma mol_centers_accepts d rows norm : forall cs bs,
  length cs = length bs -> Forall (fun c => length c = d) cs ->
  ((exists l, mol_centers (A2 d rows) cs bs norm = Ok l) <->
   Forall (fun sp => exists ns np, counts_ok (fst sp) (snd sp) ns np) bs).
Proof.
  induction cs as [|c cs IH]; intros [|[s p] bs] Hl Hc; simpl in Hl; try discriminate.
  - split; [constructor|]. intros _. exists []. reflexivity.
  - inversion Hc as [|? ? Hc1 Hc2]; subst. specialize (IH bs ltac:(lia) Hc2). cbn [mol_centers].
    pose proof (init_nd_accepts (length c) rows (VArr (A1 c)) s p norm) as Ha. split.
    + intros [l H].
      destruct (atomic_init (VArr (A2 (length c) rows)) (VArr (A1 c)) s p norm) as [a|] eqn:E;
        [|discriminate]. cbn [bind] in H.
      destruct (mol_centers (A2 (length c) rows) cs bs norm) as [r|] eqn:E2; [|discriminate].
      constructor; [|apply IH; eauto]. simpl. apply Ha. eauto.
    + intros H. inversion H as [|? ? H1 H2]; subst. simpl in H1.
      destruct Ha as [_ Ha]. destruct Ha as [a Ha].
      { split; auto. right. eauto. }
      rewrite Ha. cbn [bind]. apply IH in H2. destruct H2 as [l H2]. rewrite H2. cbn [bind]. eauto.
Qed.

Lemma mol_init_accepts d rows d' cs bs norm :
  Forall (fun c => length c = d') cs ->
  ((exists m, mol_init (A2 d rows) (VArr (A2 d' cs)) (B2 bs) norm = Ok m) <->
   length cs = length bs /\ d' = d /\
   Forall (fun sp => exists ns np, counts_ok (fst sp) (snd sp) ns np) bs).
Proof.
  intros Hc. unfold mol_init.
  destruct (Nat.eqb_spec (length cs) (length bs)) as [El|El]; cbn [negb].
  2:{ split; [intros [m H]; discriminate|intros (H & _); contradiction]. }
  destruct (Nat.eqb_spec d d') as [Ed|Ed]; cbn [negb].
  2:{ split; [intros [m H]; discriminate|intros (_ & H & _); congruence]. }
  subst d'. pose proof (mol_centers_accepts d rows norm cs bs El Hc) as H. split.
  - intros [m Hm]. split; auto. split; auto. apply H.
    destruct (mol_centers (A2 d rows) cs bs norm); [eauto|discriminate].
  - intros (_ & _ & HF). apply H in HF. destruct HF as [l Hl]. rewrite Hl. cbn [bind]. eauto.
Qed.

Lemma mol_init_rejects pts coords basis norm :
  (forall d cs, coords <> VArr (A2 d cs)) \/ (forall bs, basis <> B2 bs) ->
  mol_init pts coords basis norm = Raise ValueError.
Proof.
  intros H. unfold mol_init. destruct coords as [| | | | |[|d cs]| |]; auto.
  destruct basis as [|bs|]; auto. destruct H as [H|H]; exfalso; eapply H; eauto.
Qed.
