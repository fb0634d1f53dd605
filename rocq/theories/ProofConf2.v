(** Number of electrons, cores of heavy elements, columns. *)
From Coq Require Import String Ascii List Bool Arith ZArith Lia.
From Verif Require Import XR PyText SpecParse ProofText ModelParse ProofConf.
Import ListNotations.
Local Open Scope list_scope.

(** ** Number of electrons *)
Definition contrib (nl : nat * nat) (p : piece) : nat :=
  match p with
  | Closed k => if Nat.eqb k (fst nl) then 2 * (2 * snd nl + 1) else 0
  | Sub n l c => if Nat.eqb n (fst nl) && Nat.eqb l (snd nl) then c else 0
  end.
Definition amount (ps : list piece) (nl : nat * nat) : nat := list_sum (map (contrib nl) ps).

Lemma sum_cons a l : list_sum (a :: l) = a + list_sum l.
Proof. reflexivity. Qed.
Lemma sum_zero {A} (f : A -> nat) l : (forall x, In x l -> f x = 0) -> list_sum (map f l) = 0.
Proof. induction l as [|x l IH]; intros H; auto. cbn [map]. rewrite sum_cons, H, IH by (auto using in_eq; intros; apply H; now right). auto. Qed.
Lemma amount_electrons ps n l : subshell_ok n l -> distinct ps -> separate ps -> electrons ps n l (amount ps (n, l)).
Proof.
  intros Sok D [N1 N2]. unfold electrons, amount.
  destruct (listed ps (n, l)) as [c|] eqn:L.
  - apply listed_some in L. left. assert (C := N2 _ _ _ L).
    assert (E : list_sum (map (contrib (n, l)) ps) = c).
    { apply in_split in L. destruct L as (a & b & ->). rewrite map_app, list_sum_app. cbn [map]. rewrite sum_cons.
      assert (Z : forall p, In p a \/ In p b -> contrib (n, l) p = 0).
      { intros p I. destruct p as [k|n' l' c']; cbn.
        - destruct (Nat.eqb_spec k n) as [->|]; auto. exfalso. apply C. apply in_or_app. cbn. tauto.
        - destruct (Nat.eqb_spec n' n) as [->|]; auto. destruct (Nat.eqb_spec l' l) as [->|]; auto. exfalso. destruct I as [I|I].
          + apply In_nth_error in I. destruct I as (i & I). assert (i < length a) by (apply nth_error_Some; congruence).
            assert (i = length a); [|lia]. eapply (D i (length a) n l c' c); [rewrite nth_error_app1; auto|rewrite nth_error_app2, Nat.sub_diag; auto].
          + apply In_nth_error in I. destruct I as (i & I).
            assert (length a = length a + S i); [|lia]. eapply (D (length a) (length a + S i) n l c c'); [rewrite nth_error_app2, Nat.sub_diag; auto|].
            rewrite nth_error_app2 by lia. replace (length a + S i - length a) with (S i) by lia. exact I. }
      rewrite (sum_zero _ a), (sum_zero _ b) by auto. cbn. rewrite !Nat.eqb_refl. cbn. lia. }
    rewrite E. exact L.
  - assert (L' := listed_none _ _ _ L). right. destruct (in_dec piece_dec (Closed n) ps) as [I|I].
    + left. repeat split; auto. apply in_split in I. destruct I as (a & b & ->). rewrite map_app, list_sum_app. cbn [map]. rewrite sum_cons.
      assert (Z : forall p, In p a \/ In p b -> contrib (n, l) p = 0).
      { intros p I. destruct p as [k|n' l' c']; cbn.
        - destruct (Nat.eqb_spec k n) as [->|]; auto. exfalso. rewrite flat_map_app in N1. cbn in N1. apply NoDup_remove_2 in N1. apply N1.
          apply in_or_app. rewrite !in_flat_map. destruct I as [I|I]; [left|right]; (exists (Closed n); split; [exact I|now left]).
        - destruct (Nat.eqb_spec n' n) as [->|]; auto. destruct (Nat.eqb_spec l' l) as [->|]; auto. exfalso. apply (L' c'). apply in_or_app. cbn. tauto. }
      rewrite (sum_zero _ a), (sum_zero _ b) by auto. cbn. rewrite Nat.eqb_refl. lia.
    + right. repeat split; auto. apply sum_zero. intros [k|n' l' c'] J; cbn.
      * destruct (Nat.eqb_spec k n) as [->|]; auto. contradiction.
      * destruct (Nat.eqb_spec n' n) as [->|]; auto. destruct (Nat.eqb_spec l' l) as [->|]; auto. now apply L' in J.
Qed.

Lemma sum_swap {A B} (f : A -> B -> nat) la lb :
  list_sum (map (fun a => list_sum (map (f a) lb)) la) = list_sum (map (fun b => list_sum (map (fun a => f a b) la)) lb).
Proof.
  induction la as [|a la IH]; cbn [map].
  - induction lb as [|b lb IH]; auto.
  - rewrite sum_cons, IH. clear IH. induction lb as [|b lb IH]; auto. cbn [map]. rewrite !sum_cons, <- IH. lia.
Qed.
Lemma contrib_grid p : piece_ok p -> list_sum (map (fun nl => contrib nl p) grid) = size p.
Proof.
  destruct p as [k|n l c]; cbn [piece_ok size].
  - intros H. destruct k as [|[|[|[|[|k]]]]]; try lia; reflexivity.
  - intros [[H1 H2] _]. destruct l as [|[|[|[|l]]]]; [| | | |lia]; destruct n as [|[|[|[|[|[|[|[|n]]]]]]]]; try lia; cbn; lia.
Qed.
Lemma amount_total ps : Forall piece_ok ps -> list_sum (map (amount ps) grid) = total ps.
Proof.
  intros H. unfold amount. rewrite sum_swap. unfold total. f_equal. apply map_ext_in. intros p I. apply contrib_grid. rewrite Forall_forall in H. auto.
Qed.

Lemma zsum_filter (d : dict Z) : zsum (map snd (filter (fun p => negb (snd p =? 0)%Z) d)) = zsum (map snd d).
Proof. induction d as [|[k v] d IH]; auto. cbn. destruct (Z.eqb_spec v 0) as [->|]; cbn; unfold zsum in IH; rewrite IH; auto. Qed.

Lemma dict_sum (d : dict Z) : forall ks (f : text -> Z), map fst d = ks -> NoDup ks -> (forall k, In k ks -> dget k d = Some (f k)) ->
  zsum (map snd d) = zsum (map f ks).
Proof.
  induction d as [|[k v] d IH]; intros ks f E N H; subst ks; auto. cbn [map fst snd] in *. inversion N; subst.
  cbn [zsum fold_right]. fold (zsum (map snd d)). fold (zsum (map f (map fst d))). rewrite (IH (map fst d) f); auto.
  - f_equal. specialize (H k (or_introl eq_refl)). cbn in H. rewrite text_eqb_refl in H. congruence.
  - intros x I. specialize (H x (or_intror I)). cbn in H. destruct (text_eqb_spec x k) as [E|]; auto. subst x. contradiction.
Qed.

(** The dictionary before zero counts are dropped. *)
Lemma raw_dict ps : Forall piece_ok ps -> distinct ps ->
  exists d, occupations (show_all ps) = Ok (filter (fun p => negb (snd p =? 0)%Z) d) /\ map fst d = all_orbitals /\
  forall n l c, subshell_ok n l -> electrons ps n l c -> dget (key (n, l)) d = Some (Z.of_nat c).
Proof.
  intros H D. destruct (occupations_raw ps H D) as (d & E & K & V). exists d. auto.
Qed.
Lemma occupations_total ps d : Forall piece_ok ps -> distinct ps -> separate ps -> occupations (show_all ps) = Ok d ->
  zsum (map snd d) = Z.of_nat (total ps).
Proof.
  intros H D S E. destruct (raw_dict ps H D) as (r & E' & K & V). rewrite E in E'. injection E' as ->. rewrite zsum_filter.
  set (f k := match dget k r with Some v => v | None => 0%Z end).
  assert (G : forall nl, In nl grid -> dget (key nl) r = Some (Z.of_nat (amount ps nl))).
  { intros [n l] I. apply grid_ok in I. apply V; auto. now apply amount_electrons. }
  rewrite (dict_sum r all_orbitals f); auto using all_orbitals_nodup.
  - rewrite all_orbitals_grid, map_map. rewrite <- (amount_total ps H).
    assert (Q : forall g, (forall nl, In nl g -> In nl grid) -> zsum (map (fun x => f (key x)) g) = Z.of_nat (list_sum (map (amount ps) g))).
    { induction g as [|nl g IH]; intros I; auto. cbn [map zsum fold_right]. rewrite sum_cons. fold (zsum (map (fun x => f (key x)) g)).
      rewrite IH by (intros; apply I; now right). unfold f at 1. rewrite G by (apply I; now left). lia. }
    apply Q. auto.
  - intros k I. unfold f. rewrite all_orbitals_grid in I. apply in_map_iff in I. destruct I as (nl & <- & I). rewrite G by auto. reflexivity.
Qed.

(** ** Cores *)
Lemma show_all_app a b : show_all (a ++ b) = show_all a ++ show_all b.
Proof. unfold show_all. now rewrite map_app, concat_app. Qed.

Lemma find_absent_char c p s : ~ In c s -> find (c :: p) s = None.
Proof.
  intros H. apply find_none. intros a b E. apply H. rewrite E. apply in_or_app. right. now left.
Qed.
Lemma heavy_xe t : ~ In "["%char t -> heavy_configuration (str "[XE]" ++ t) = Ok (show_all xe_pieces ++ t).
Proof.
  intros H. change (str "[XE]") with (txt "[XE]"). unfold heavy_configuration, occurs, split_second. rewrite (find_here (txt "[XE]") t). cbn [Nat.add length txt list_ascii_of_string skipn app].
  rewrite (find_absent_char "[" _ t H). reflexivity.
Qed.
Lemma heavy_rn t : ~ In "["%char t -> heavy_configuration (str "[RN]" ++ t) = Ok (show_all rn_pieces ++ t).
Proof.
  intros H. assert (E : find (txt "[XE]") (str "[RN]" ++ t) = None).
  { cbn [str list_ascii_of_string app find starts txt Ascii.eqb Bool.eqb andb]. rewrite (find_absent_char "[" _ t H). reflexivity. }
  change (str "[RN]") with (txt "[RN]") in *. unfold heavy_configuration, occurs, split_second. rewrite E, (find_here (txt "[RN]") t).
  cbn [Nat.add length txt list_ascii_of_string skipn app]. rewrite (find_absent_char "[" _ t H). reflexivity.
Qed.
Lemma heavy_bad conf : (forall a b, conf <> a ++ str "[XE]" ++ b) -> (forall a b, conf <> a ++ str "[RN]" ++ b) -> heavy_configuration conf = Raise ValueError.
Proof. intros H1 H2. apply find_none in H1. apply find_none in H2. unfold heavy_configuration, occurs, txt. rewrite H1, H2. reflexivity. Qed.
Lemma heavy_raises conf e : heavy_configuration conf = Raise e -> e = ValueError /\ forall a b, conf <> a ++ str "[XE]" ++ b /\ conf <> a ++ str "[RN]" ++ b.
Proof.
  unfold heavy_configuration. destruct (occurs (txt "[XE]") conf) eqn:A; [discriminate|]. destruct (occurs (txt "[RN]") conf) eqn:B; [discriminate|].
  intros H. injection H as <-. split; auto. intros a b. split; intros E.
  - assert (occurs (txt "[XE]") conf = true) by (apply occurs_spec; eauto). congruence.
  - assert (occurs (txt "[RN]") conf = true) by (apply occurs_spec; eauto). congruence.
Qed.

Lemma show_no_bracket ps : Forall piece_ok ps -> ~ In "["%char (show_all ps).
Proof.
  induction 1 as [|p ps Hp Hps IH]; [auto|]. rewrite show_all_cons. intros I. apply in_app_or in I. destruct I as [I|I]; auto.
  destruct p as [k|n l c]; cbn [show] in I.
  - destruct I as [I|I].
    + cbn in Hp. destruct k as [|[|[|[|[|k]]]]]; try lia; discriminate.
    + apply in_app_or in I. destruct I as [[I|[]]|I]; [discriminate|]. apply in_app_or in I. destruct I as [I|[I|[]]]; [|discriminate].
      apply decimal_digits in I. discriminate.
  - unfold label in I. rewrite <- app_assoc in I. apply in_app_or in I. destruct I as [I|[I|I]].
    + apply decimal_digits in I. discriminate.
    + destruct Hp as [[Hp1 _] _]. destruct l as [|[|[|[|l]]]]; try lia; discriminate.
    + change (In "["%char (str "(" ++ decimal c ++ str ")")) in I.
      apply in_app_or in I. destruct I as [[I|[]]|I]; [discriminate|]. apply in_app_or in I. destruct I as [I|[I|[]]]; [|discriminate].
      apply decimal_digits in I. discriminate.
Qed.
(** Both cores followed by further subshells. *)
Lemma heavy_ok (name : string) core ps : (name = "[XE]"%string /\ core = xe_pieces) \/ (name = "[RN]"%string /\ core = rn_pieces) ->
  Forall piece_ok ps -> heavy_configuration (str name ++ show_all ps) = Ok (show_all (core ++ ps)).
Proof.
  intros H P. rewrite show_all_app. apply show_no_bracket in P. destruct H as [[-> ->]|[-> ->]]; [now apply heavy_xe|now apply heavy_rn].
Qed.
Lemma xe_ok : Forall piece_ok xe_pieces.
Proof. unfold xe_pieces. repeat constructor; cbn; lia. Qed.
Lemma rn_ok : Forall piece_ok rn_pieces.
Proof. unfold rn_pieces, xe_pieces. cbn [app]. repeat constructor; cbn; lia. Qed.
Lemma heavy_electrons (name : string) core z ps : (name = "[XE]"%string /\ core = xe_pieces /\ z = 54%Z) \/ (name = "[RN]"%string /\ core = rn_pieces /\ z = 86%Z) ->
  Forall piece_ok ps -> distinct (core ++ ps) -> separate (core ++ ps) ->
  exists conf d, heavy_configuration (str name ++ show_all ps) = Ok conf /\ occupations conf = Ok d /\
    zsum (map snd d) = (z + Z.of_nat (total ps))%Z /\
    forall n l c, subshell_ok n l -> electrons (core ++ ps) n l c -> dget (label n l) d = if Nat.eqb c 0 then None else Some (Z.of_nat c).
Proof.
  intros H P D S. exists (show_all (core ++ ps)).
  assert (C : Forall piece_ok (core ++ ps)). { apply Forall_app. split; auto. destruct H as [(_ & -> & _)|(_ & -> & _)]; [apply xe_ok|apply rn_ok]. }
  destruct (occupations_ok _ C D) as (d & E & V & _). exists d. split; [apply heavy_ok; auto; tauto|]. split; auto. split; auto.
  rewrite (occupations_total _ _ C D S E). unfold total. rewrite map_app, list_sum_app.
  destruct H as [(_ & -> & ->)|(_ & -> & ->)]; [change (list_sum (map size xe_pieces)) with 54|change (list_sum (map size rn_pieces)) with 86]; lia.
Qed.

(** ** Columns *)
Lemma py_int_digit n : n <= 9 -> py_int [ascii_of_nat (48 + n)] = Ok (Z.of_nat n).
Proof. intros H. rewrite <- decimal_1 by auto. apply py_int_decimal. Qed.
Lemma get_column_label n l : n <= 9 -> l <= 3 -> get_column (label n l) = Ok (Z.of_nat n + 1 - Z.of_nat l)%Z.
Proof.
  intros Hn Hl. rewrite label_orb by auto. unfold get_column, orb. cbn [nth_error firstn]. rewrite py_int_digit by auto.
  destruct l as [|[|[|[|l]]]]; [| | | |lia]; cbn [l_char nth Ascii.eqb Bool.eqb bind]; f_equal; lia.
Qed.
Lemma py_get_nat {A} (l : list A) i : py_get l (Z.of_nat i) = match nth_error l i with Some x => Ok x | None => Raise IndexError end.
Proof.
  unfold py_get. assert (H : (Z.of_nat i <? 0)%Z = false) by (apply Z.ltb_ge; lia). rewrite H, H, Nat2Z.id. reflexivity.
Qed.
Lemma column_right l k (b e : text) cs c : l <= 3 -> l + 1 + k <= 9 -> nth_error cs k = Some c ->
  (do j <- get_column (label (l + 1 + k) l); py_get (b :: e :: cs) j) = Ok c.
Proof.
  intros Hl Hn H. rewrite get_column_label by auto. cbn [bind]. replace (Z.of_nat (l + 1 + k) + 1 - Z.of_nat l)%Z with (Z.of_nat (S (S k))) by lia.
  rewrite py_get_nat. cbn [nth_error]. now rewrite H.
Qed.
(** In a block that starts at [n0] the coefficient read is [n0 - l - 1] columns to the right. *)
Lemma column_shifted l n0 k (b e : text) cs : l <= 3 -> l < n0 -> n0 + k <= 9 ->
  (do j <- get_column (label (n0 + k) l); py_get (b :: e :: cs) j) =
  match nth_error cs (k + (n0 - l - 1)) with Some c => Ok c | None => Raise IndexError end.
Proof.
  intros Hl Hn H. rewrite get_column_label by auto. cbn [bind]. replace (Z.of_nat (n0 + k) + 1 - Z.of_nat l)%Z with (Z.of_nat (S (S (k + (n0 - l - 1))))) by lia.
  rewrite py_get_nat. reflexivity.
Qed.
