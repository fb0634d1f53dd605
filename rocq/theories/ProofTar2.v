(** The functions of the atoms and ions of the archive. *)
From Coq Require Import Reals.
From Coquelicot Require Import Coquelicot.
From Coq Require Import String Ascii List Bool Arith ZArith Lia Lra.
From Verif Require Import XR PyStr PyText SpecParse ProofText ModelParse SpecFile ModelSlater SpecDens SpecSlater ProofSlater ModelLoad SpecLoad ProofLoad SpecKin ProofKin
  ProofConf ProofConf2 ProofFile ProofFile2 ProofCheck SpecShipped ProofShipped ProofNames ProofElec DataSlater DataTar SpecElem ProofElem SpecTar ProofTar SpecScript.
Import ListNotations.
Local Open Scope Z_scope.

Lemma digits_nonneg l : (forall c, In c l -> digit c) -> 0 <= digits l.
Proof.
  induction l as [|c l IH]; intros H; cbn [digits]; [lia|]. specialize (IH (fun x I => H x (or_intror I))). assert (D := H c (or_introl eq_refl)). unfold digit in D.
  assert (P : 0 <= 10 ^ Z.of_nat (length l)) by (apply Z.pow_nonneg; lia). nia.
Qed.
Lemma digits_pos l : (forall c, In c l -> digit c) -> (exists c, In c l /\ c <> "0"%char) -> 0 < digits l.
Proof.
  induction l as [|c l IH]; intros H (x & I & N); [destruct I|]. cbn [digits]. assert (D := H c (or_introl eq_refl)). unfold digit in D.
  assert (P : 0 < 10 ^ Z.of_nat (length l)) by (apply Z.pow_pos_nonneg; lia). assert (Q := digits_nonneg l (fun x I => H x (or_intror I))).
  destruct (Ascii.eqb_spec c "0") as [->|N'].
  - destruct I as [<-|I]; [congruence|]. assert (0 < digits l) by (apply IH; eauto; intros; apply H; now right). change (nat_of_ascii "0") with 48%nat. lia.
  - assert (nat_of_ascii c <> 48%nat). { intros E. apply N'. rewrite <- (ascii_nat_embedding c), E. reflexivity. } nia.
Qed.

Section Values.
Context (fl : text -> res xr) (Hfl : reads_decimals fl).
Lemma posnum_pos t : numeral false t = true -> posnum t = true -> exists r, val fl t = Fin r /\ (0 < r)%R.
Proof.
  intros N P. apply numeral_parts in N. destruct N as (g & d & e & -> & G & _ & E & D). unfold posnum in P. rewrite andb_true_iff, negb_true_iff, existsb_exists in P. destruct P as [P1 (c & I & P2)].
  assert (g = []) as ->. { destruct G as [G|G]; auto. subst g. cbn in P1. discriminate. }
  destruct (Hfl d e E D) as [H _]. exists (IZR (digits (d ++ e)) / 10 ^ length e)%R. split; [unfold val; cbn [app]; now rewrite H|].
  apply Rdiv_lt_0_compat; [|apply pow_lt; lra]. apply IZR_lt. apply digits_pos; auto. apply andb_true_iff in P2. destruct P2 as [P2 P3]. exists c. split; [|intros ->; discriminate].
  cbn [app] in I. apply in_app_iff in I. rewrite in_app_iff in *. destruct I as [I|[[I|[]]|I]]; auto. subst c. discriminate P2.
Qed.

Lemma rows_are_num l rs : forall ls, rows_are l rs ls = true -> forall r, In r rs -> numerals (snd (fst r) :: snd r) = true.
Proof.
  induction rs as [|x rs IH]; intros [|y ls]; cbn [rows_are]; try discriminate; [intros _ r []|]. rewrite andb_true_iff. intros [H1 H2] r [<-|I]; eauto.
  unfold row_is in H1. apply andb_true_iff in H1. tauto.
Qed.
Lemma tail_is_num s ts : tail_is s ts = true -> numerals ts = true.
Proof. unfold tail_is. destruct (words s); [discriminate|]. rewrite andb_true_iff. tauto. Qed.
Lemma block_is_num heavy b ls : block_is heavy b ls = true -> numerals (tb_energy b) = true /\ forall r, In r (tb_rows b) -> numerals (snd (fst r) :: snd r) = true.
Proof.
  destruct ls as [|h [|e r]]; try discriminate. cbn [block_is]. rewrite !andb_true_iff. intros [[_ H3] H4]. split; [now apply tail_is_num in H3|].
  destruct heavy; [exact (rows_are_num _ _ _ H4)|]. destruct r as [|c r]; [discriminate|]. apply andb_true_iff in H4. destruct H4 as [_ H4]. exact (rows_are_num _ _ _ H4).
Qed.
Lemma readable_num heavy core qs w t p : readable heavy core qs w t p = true -> forall b, In b (tf_blocks t) ->
  numerals (tb_energy b) = true /\ forall r, In r (tb_rows b) -> numerals (snd (fst r) :: snd r) = true.
Proof.
  unfold readable, layoutb. rewrite !andb_true_iff. intros [[[[[[_ H] _] _] _] _] _]. revert H. generalize (tf_blocks t) (pt_blocks p).
  intros bs. induction bs as [|b bs IH]; intros [|l ls]; cbn [blocks_are]; try discriminate; [intros _ b []|]. rewrite andb_true_iff. intros [H1 H2] x [<-|I]; eauto using block_is_num.
Qed.
Lemma numeral_val s : numeral false (str s) = true -> finite (val fl (str s)).
Proof. intros H. apply (val_finite fl Hfl). eapply numeral_decimal; eauto. Qed.
Lemma readable_blocks heavy core qs w t p : readable heavy core qs w t p = true -> posrows t = true ->
  finite_blocks (contents_of (val fl) w t) /\ positive_blocks (contents_of (val fl) w t).
Proof.
  intros R P. assert (N := readable_num _ _ _ _ _ _ R). unfold posrows in P. rewrite forallb_forall in P.
  assert (Vs : forall l, numerals l = true -> Forall finite (vals (val fl) l)).
  { intros l H. unfold numerals in H. rewrite forallb_forall in H. apply Forall_forall. intros x I. unfold vals in I. apply in_map_iff in I. destruct I as (s & <- & I). apply numeral_val. auto. }
  split.
  - intros B I. cbn [contents_of ct_blocks] in I. apply in_map_iff in I. destruct I as (b & <- & I). destruct (N b I) as [N1 N2]. cbn [block_of bl_energy bl_rows]. split; [auto|].
    intros r J. apply in_map_iff in J. destruct J as (x & <- & J). cbn [row_exp row_coef fst snd]. specialize (N2 x J). unfold numerals in N2. cbn [forallb] in N2. apply andb_true_iff in N2. destruct N2 as [N2 N3].
    split; [now apply numeral_val|]. now apply Vs.
  - intros B r z I J E. cbn [contents_of ct_blocks] in I. apply in_map_iff in I. destruct I as (b & <- & I). destruct (N b I) as [_ N2]. cbn [block_of bl_rows] in J. apply in_map_iff in J. destruct J as (x & <- & J).
    specialize (P b I). rewrite forallb_forall in P. specialize (P x J). apply andb_true_iff in P. destruct P as [P1 P2]. specialize (N2 x J). unfold numerals in N2. cbn [forallb] in N2. apply andb_true_iff in N2. destruct N2 as [N2 _].
    cbn [row_exp row_n fst snd] in *. destruct (posnum_pos _ N2 P2) as (r & Er & Hr). rewrite Er in E. injection E as <-. split; auto. now apply Nat.leb_le.
Qed.
Lemma horner_digits d : horner d = digits d.
Proof. exact (dval_digits d). Qed.
Lemma nonzero_val t : numeral false t = true -> nonzero t = true -> exists r, val fl t = Fin r /\ r <> 0%R.
Proof.
  intros N P. apply numeral_parts in N. destruct N as (g & d & e & -> & G & _ & E & D). unfold nonzero in P. rewrite existsb_exists in P. destruct P as (c & I & P2).
  apply andb_true_iff in P2. destruct P2 as [P2 P3]. apply negb_true_iff in P3.
  assert (J : In c (d ++ e)).
  { rewrite !in_app_iff in *. destruct I as [I|[I|[[I|[]]|I]]]; auto; [|subst c; discriminate P2]. destruct G as [G|G]; subst g; [destruct I|]. destruct I as [<-|[]]. discriminate P2. }
  assert (Dp : 0 < digits (d ++ e)). { apply digits_pos; auto. exists c. split; auto. intros ->. discriminate P3. }
  assert (Q : (0 < IZR (digits (d ++ e)) / 10 ^ length e)%R) by (apply Rdiv_lt_0_compat; [now apply IZR_lt|apply pow_lt; lra]).
  destruct (Hfl d e E D) as [H1 H2]. destruct G as [G|G]; subst g; unfold val; cbn [app].
  - rewrite H1. eexists. split; [reflexivity|lra].
  - change (fl ("-"%char :: d ++ str "." ++ e)) with (fl (str "-" ++ d ++ str "." ++ e)). rewrite H2. eexists. split; [reflexivity|lra].
Qed.
Lemma split_dot a b : (forall c, In c (a ++ b) -> digit c) -> split_char "." [] (a ++ "."%char :: b) = [a; b].
Proof.
  intros D. assert (N : forall c, In c (a ++ b) -> Ascii.eqb c "." = false). { intros c I. apply Ascii.eqb_neq. intros ->. specialize (D _ I). unfold digit in D. cbn in D. lia. }
  assert (B : forall cur, split_char "." cur b = [cur ++ b]).
  { assert (Nb : forall c, In c b -> Ascii.eqb c "." = false) by (intros; apply N, in_or_app; auto). clear -Nb. induction b as [|c b IH]; intros cur; cbn [split_char]; [now rewrite app_nil_r|].
    rewrite (Nb c (or_introl eq_refl)). rewrite IH by (intros; apply Nb; now right). now rewrite <- app_assoc. }
  enough (X : forall cur, split_char "." cur (a ++ "."%char :: b) = [cur ++ a; b]) by exact (X []).
  assert (Na : forall c, In c a -> Ascii.eqb c "." = false) by (intros; apply N, in_or_app; auto). clear N D. induction a as [|c a IH]; intros cur; cbn [split_char app].
  - rewrite Ascii.eqb_refl, B. now rewrite app_nil_r.
  - rewrite (Na c (or_introl eq_refl)). rewrite IH by (intros; apply Na; now right). now rewrite <- app_assoc.
Qed.
Lemma Forall2_left {A B} (P : A -> B -> Prop) l m a : Forall2 P l m -> In a l -> exists b, In b m /\ P a b.
Proof. induction 1 as [|x y l m H _ IH]; intros I; [destruct I|]. destruct I as [<-|I]; [exists y; split; [now left|exact H]|]. destruct (IH I) as (b & J & Q). exists b. split; [now right|exact Q]. Qed.
Lemma differs_val t u : numeral false t = true -> numeral false u = true -> posnum t = true -> posnum u = true -> differs t u = true -> val fl t <> val fl u.
Proof.
  intros Nt Nu Pt Pu H. apply numeral_parts in Nt, Nu. destruct Nt as (g & d & e & -> & G & _ & E & D). destruct Nu as (g' & d' & e' & -> & G' & _ & E' & D').
  assert (g = []) as ->. { destruct G as [G|G]; auto. subst g. discriminate Pt. } assert (g' = []) as ->. { destruct G' as [G'|G']; auto. subst g'. discriminate Pu. }
  unfold differs in H. cbn [app] in H. change (str "." ++ e) with ("."%char :: e) in H. change (str "." ++ e') with ("."%char :: e') in H.
  rewrite (split_dot d e D), (split_dot d' e' D') in H. apply andb_true_iff in H. destruct H as [H1 H2]. apply Nat.eqb_eq in H1. apply negb_true_iff, Z.eqb_neq in H2. rewrite !horner_digits in H2.
  destruct (Hfl d e E D) as [V _]. destruct (Hfl d' e' E' D') as [V' _]. unfold val. cbn [app]. rewrite V, V', H1. intros X. injection X as X. apply H2, eq_IZR. assert (P : (10 ^ length e' <> 0)%R) by (apply pow_nonzero; lra).
  apply (Rmult_eq_compat_r (10 ^ length e')) in X. unfold Rdiv in X. rewrite !Rmult_assoc, !Rinv_l, !Rmult_1_r in X by exact P. exact X.
Qed.
(** The first subshell of the file. *)
Lemma first_leading heavy core qs w t p ps L : readable heavy core qs w t p = true -> posrows t = true -> leadrow t = true ->
  let C := contents_of (val fl) w t in all_occupied C ps -> file_subs C ps L -> exists s, In s L /\ (0 < s_occ s)%R /\ leading s /\ (size s <= 100)%nat.
Proof.
  intros R P Ld C Ao F. assert (N := readable_num _ _ _ _ _ _ R). unfold leadrow in Ld. unfold posrows in P. rewrite forallb_forall in P. unfold file_subs, C in F. cbn [contents_of ct_blocks] in F.
  unfold all_occupied, C in Ao. cbn [contents_of ct_blocks] in Ao. destruct (tf_blocks t) as [|b bs]; [discriminate|]. destruct (N b (or_introl eq_refl)) as [_ Nr]. specialize (P b (or_introl eq_refl)). rewrite forallb_forall in P. clear N.
  destruct (tb_energy b) as [|en ens] eqn:Een; [discriminate|]. destruct (tb_rows b) as [|[[n z] [|c cs]] rs] eqn:Er; try discriminate. rewrite !andb_true_iff in Ld. destruct Ld as [[L1 L2] L3].
  set (B := block_of (val fl) b) in *. assert (I : In (B, 0%nat) (places (B :: map (block_of (val fl)) bs))).
  { apply places_in. split; [now left|]. unfold B, block_of. cbn [bl_energy]. rewrite Een. cbn. lia. }
  destruct (Forall2_left _ _ _ _ F I) as (s & Is & Hs). exists s. split; [exact Is|]. destruct Hs as (_ & (cc & Hc & Ho) & _ & He). cbn [fst snd] in *. split.
  { rewrite Ho. apply lt_0_INR. destruct cc; [|lia]. exfalso. refine (Ao (bl_l B + 1 + 0, bl_l B)%nat _ Hc). cbn [map]. fold B. rewrite orbital_places. apply in_map_iff. exists (B, 0%nat). auto. }
  unfold B, block_of in He. cbn [bl_rows] in He. rewrite Er in He. cbn [map] in He. unfold row_coef, row_exp, row_n in He. cbn [fst snd vals map nth] in He. rewrite map_map in He. cbn [fst snd] in He.
  destruct (s_exp s) as [|[[c0 z0] n0] ex] eqn:Ex; [discriminate|]. cbn [map] in He. injection He as Hc0 Hz0 Hn0 He.
  assert (Nz := Nr _ (or_introl eq_refl)). unfold numerals in Nz. cbn [forallb fst snd] in Nz. rewrite !andb_true_iff in Nz. destruct Nz as [Nz [Nc _]].
  assert (Pz := P _ (or_introl eq_refl)). cbn [fst snd] in Pz. apply andb_true_iff in Pz. destruct Pz as [_ Pz].
  split.
  - exists [], c0, z0, n0, ex. split; [exact Ex|]. split.
    + destruct (nonzero_val _ Nc L1) as (r & Er' & Hr). rewrite Er' in Hc0. injection Hc0 as ->. exact Hr.
    + cbn [app]. intros J. apply in_map_iff in J. destruct J as ([[c1 z1] n1] & <- & J). apply (in_map (fun '(c, z, n) => (Fin c, Fin z, n))) in J. rewrite He in J. apply in_map_iff in J. destruct J as (x & Hx & J).
      injection Hx as _ Hx _. rewrite forallb_forall in L2. specialize (L2 x J). assert (Nx := Nr x (or_intror J)). unfold numerals in Nx. cbn [forallb] in Nx. apply andb_true_iff in Nx. destruct Nx as [Nx _].
      assert (Px := P x (or_intror J)). apply andb_true_iff in Px. destruct Px as [_ Px]. apply (differs_val _ _ Nz Nx Pz Px L2). now rewrite <- Hz0, Hx.
  - unfold size. rewrite Ex. apply Nat.leb_le in L3. cbn [map fst] in L3. cbn [map snd]. rewrite Hn0. replace (map snd ex) with (map (fun x : nat * string * list string => fst (fst x)) rs); [exact L3|].
    apply (f_equal (map snd)) in He. rewrite !map_map in He. cbn [snd] in He. rewrite <- He. apply map_ext. now intros [[? ?] ?].
Qed.
End Values.

(** Every atom and ion on offer but the silver anion and the cesium cation. *)
Lemma archive_leading fl : reads_decimals fl ->
  forall rest d s n, element s n -> offered d s -> (d, n) <> (Anion, 47%nat) -> (d, n) <> (Cation, 55%nat) -> forall fuel, (100 <= fuel)%nat ->
  exists data L, slater_atoms fl (archive_files rest) (Some s) (folder_eqb d Anion) (folder_eqb d Cation) fuel = Some (Ok data) /\
    describes (atom_of data) L /\ Forall valid L /\ Forall (fun s => 0 <= s_occ s)%R L /\ rsum (map s_occ L) = IZR (ion_electrons d n) /\
    exists s, In s L /\ (0 < s_occ s)%R /\ leading s /\ (size s <= 100)%nat.
Proof.
  intros Hf rest d s n E O N1 N2 fuel Hl.
  destruct (tar_offered_loads fl (val fl) (val_ok fl Hf) rest d s n E O N1 N2 (str_in (lower s) heavy_atoms)) with (fuel := fuel) as (f & C & ps & data & _ & F & Cf & Sl & R & T & Bo & D & Ao & h & p & Rd & Ps & Eh); auto.
  { rewrite <- heavy_spec. apply str_in_spec. }
  apply andb_true_iff in Ps. destruct Ps as [Ps Pl]. destruct (readable_blocks fl Hf _ _ _ _ _ _ Rd Ps) as [Fi Po]. rewrite <- Eh in Fi, Po.
  destruct (subs_exist _ C ps Bo Fi) as (L & FL). assert (De := loaded _ _ _ _ _ Bo D R FL). exists data, L. split; auto. split; auto. split; [eapply subs_valid; eauto|]. split; [eapply subs_occ; eauto|]. split.
  2: { subst C. eapply first_leading; eauto. }
  rewrite <- T. destruct De as (Oc & _). rewrite <- Oc. cbn [atom_of at_occ]. clear. induction (sd_occ data) as [|z zs IH]; auto. cbn [map]. change (zsum (z :: zs)) with (z + zsum zs). change (rsum (?a :: ?b)) with (a + rsum b)%R. rewrite plus_IZR. now rewrite IH.
Qed.
Lemma archive_atoms fl : reads_decimals fl ->
  forall rest d s n, element s n -> offered d s -> (d, n) <> (Anion, 47%nat) -> (d, n) <> (Cation, 55%nat) -> forall fuel, (100 <= fuel)%nat ->
  exists data L, slater_atoms fl (archive_files rest) (Some s) (folder_eqb d Anion) (folder_eqb d Cation) fuel = Some (Ok data) /\
    describes (atom_of data) L /\ Forall valid L /\ Forall (fun s => 0 <= s_occ s)%R L /\ rsum (map s_occ L) = IZR (ion_electrons d n).
Proof.
  intros Hf rest d s n E O N1 N2 fuel Hl. destruct (archive_leading fl Hf rest d s n E O N1 N2 fuel Hl) as (data & L & H1 & H2 & H3 & H4 & H5 & _). exists data, L. auto 6.
Qed.
Lemma archive_loads fl val : (forall t, is_decimal t -> fl t = Ok (val t)) ->
  forall rest d s n, element s n -> offered d s -> (d, n) <> (Anion, 47%nat) -> (d, n) <> (Cation, 55%nat) -> forall heavy, (heavy = true <-> heavy_element s) -> forall fuel, (100 <= fuel)%nat ->
  exists f C ps data, archive_files rest d (lower s) = Some f /\ file_lines fl heavy C f /\ config_of heavy (ct_word C) ps /\
    slater_atoms fl (archive_files rest) (Some s) (folder_eqb d Anion) (folder_eqb d Cation) fuel = Some (Ok data) /\ returned C ps data /\ zsum (sd_occ data) = ion_electrons d n.
Proof.
  intros V rest d s n E O N1 N2 heavy H fuel L. destruct (tar_offered_loads fl val V rest d s n E O N1 N2 heavy H fuel L) as (f & C & ps & data & H1 & H2 & H3 & H4 & H5 & H6 & _).
  exists f, C, ps, data. auto 8.
Qed.
Lemma archive_functions fl : reads_decimals fl ->
  forall rest d s n, element s n -> offered d s -> (d, n) <> (Anion, 47%nat) -> (d, n) <> (Cation, 55%nat) -> forall fuel, (100 <= fuel)%nat ->
  exists data L, slater_atoms fl (archive_files rest) (Some s) (folder_eqb d Anion) (folder_eqb d Cation) fuel = Some (Ok data) /\
    describes (atom_of data) L /\ Forall valid L /\ rsum (map s_occ L) = IZR (ion_electrons d n) /\
    (forall pts, atomic_density (atom_of data) (A1 (map Fin pts)) MTotal = Ok (map Fin (map (rho L) pts))) /\
    is_RInt_gen (fun r : R => 4 * PI * r ^ 2 * rho L r)%R (at_point 0%R) (Rbar_locally p_infty) (rsum (map (fun s => s_occ s * orb_norm s)%R L)).
Proof.
  intros Hf rest d s n E O N1 N2 fuel Hl. destruct (archive_atoms fl Hf rest d s n E O N1 N2 fuel Hl) as (data & L & H1 & De & V & Oc & T). exists data, L. split; auto. split; auto. split; auto. split; auto.
  split; [intros; now apply density_total|now apply rho_integral].
Qed.
