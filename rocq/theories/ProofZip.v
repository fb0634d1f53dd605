(** Proofs about archives with extra fields and comments. *)
From Coq Require Import NArith ZArith List Bool Ascii String Lia.
From Verif Require Import PyText ModelNpz SpecNpz SpecZip ProofNpz.
Import ListNotations.
Local Open Scope N_scope.

Definition stored_entry (offset : N) (z : stored) : entry := mkEntry (z_name z) (crc32 (z_data z)) (count (z_data z)) offset.
Definition fine (offset : N) (z : stored) : Prop := stored_ok z /\ count (z_data z) < 2 ^ 32 /\ offset < 2 ^ 32.

Lemma record_read2 offset z r : fine offset z -> directory_entry (stored_record offset z ++ r) = Some (stored_entry offset z, r).
Proof.
  intros ((L1 & L2 & L3 & L4 & L5 & Hn & Hx & Hy & Hc & B) & Hd & Ho). pose proof (crc_small _ B) as Hs. unfold directory_entry, stored_record.
  match goal with |- context [expect ?p ?s] => replace s with (p ++ z_made z ++ [0; 0] ++ [0; 0] ++ z_time z ++ enc 4 (crc32 (z_data z)) ++ enc 4 (count (z_data z)) ++ enc 4 (count (z_data z)) ++
    enc 2 (count (z_name z)) ++ enc 2 (count (z_extra2 z)) ++ enc 2 (count (z_comment z)) ++ z_attr z ++ enc 4 offset ++ z_name z ++ (z_extra2 z ++ z_comment z) ++ r) by (rewrite <- !app_assoc; reflexivity) end.
  rewrite expect_app. rewrite num_app by exact L2. do 2 (rewrite num_app by reflexivity). rewrite num_app by exact L3. rewrite num_enc by exact Hs.
  do 2 (rewrite num_enc by exact Hd). rewrite num_enc by exact Hn. rewrite num_enc by exact Hy. rewrite num_enc by exact Hc. rewrite num_app by exact L5. rewrite num_enc by exact Ho.
  rewrite take_count by reflexivity. replace (N.to_nat (count (z_extra2 z)) + N.to_nat (count (z_comment z)))%nat with (List.length (z_extra2 z ++ z_comment z)).
  2: { unfold count. rewrite app_length, !Nnat.Nat2N.id. reflexivity. }
  rewrite take_app. rewrite !N.eqb_refl. reflexivity.
Qed.

Lemma directory_read2 l : forall offset fuel, (List.length l <= fuel)%nat ->
  (forall i z, nth_error l i = Some z -> fine (offset + count (List.concat (map stored_file (firstn i l)))) z) ->
  exists es, directory fuel (stored_directory offset l) = Some es /\ List.length es = List.length l /\
    forall i z, nth_error l i = Some z -> nth_error es i = Some (stored_entry (offset + count (List.concat (map stored_file (firstn i l)))) z).
Proof.
  induction l as [|v l IH]; intros offset fuel L H; cbn [stored_directory].
  - exists []. split; [destruct fuel; reflexivity|]. split; auto. intros [|i] ? E; discriminate.
  - destruct fuel as [|fuel]; [cbn in L; lia|].
    assert (S0 : fine offset v). { specialize (H 0%nat v eq_refl). cbn [firstn map List.concat] in H. change (count []) with 0 in H. now rewrite N.add_0_r in H. }
    assert (C : forall i, count (List.concat (map stored_file (firstn (S i) (v :: l)))) = count (stored_file v) + count (List.concat (map stored_file (firstn i l)))).
    { intros i. cbn [firstn map List.concat]. apply count_app. }
    destruct (IH (offset + count (stored_file v)) fuel) as (es & E & EL & EN).
    + cbn in L. lia.
    + intros i w W. specialize (H (S i) w W). rewrite C, N.add_assoc in H. exact H.
    + exists (stored_entry offset v :: es). split.
      * assert (D : forall x, x <> [] -> directory (S fuel) x = match directory_entry x with Some (e, s) => match directory fuel s with Some l => Some (e :: l) | None => None end | None => None end) by (intros [|]; [congruence|reflexivity]).
        rewrite D by (unfold stored_record; discriminate). rewrite record_read2 by exact S0. now rewrite E.
      * split; [cbn; congruence|]. intros [|i] w W; cbn [nth_error] in *.
        -- injection W as <-. cbn [firstn map List.concat]. change (count []) with 0. now rewrite N.add_0_r.
        -- rewrite C, N.add_assoc. now apply EN.
Qed.

Lemma member_read2 pre z post offset : fine offset z -> offset = count pre ->
  member (pre ++ stored_file z ++ post) (stored_entry offset z) = Some (z_data z).
Proof.
  intros ((L1 & L2 & L3 & L4 & L5 & Hn & Hx & Hy & Hc & B) & Hd & Ho) O. unfold member, stored_file, stored_entry. cbn [e_offset e_size e_name e_crc].
  rewrite skipn_exact by (subst offset; unfold count; now rewrite Nnat.Nat2N.id).
  match goal with |- context [expect ?p ?s] => replace s with (p ++ z_needed z ++ [0; 0] ++ [0; 0] ++ (z_time z ++ z_sums z) ++ enc 2 (count (z_name z)) ++ enc 2 (count (z_extra z)) ++
    z_name z ++ z_extra z ++ z_data z ++ post) by (rewrite <- !app_assoc; reflexivity) end.
  rewrite expect_app. rewrite num_app by exact L1. do 2 (rewrite num_app by reflexivity). rewrite num_app by (rewrite app_length, L3, L4; reflexivity).
  rewrite num_enc by exact Hn. rewrite num_enc by exact Hx. do 3 (rewrite take_count by reflexivity). rewrite bytes_eqb_refl, !N.eqb_refl. reflexivity.
Qed.

Lemma archive_fine l : archive_fits l -> forall i z, nth_error l i = Some z -> fine (0 + count (List.concat (map stored_file (firstn i l)))) z.
Proof.
  intros (F & _ & S) i z H. rewrite Forall_forall in F. assert (P := F z (nth_error_In _ _ H)).
  apply nth_error_split in H. destruct H as (a & b & -> & <-). rewrite firstn_app, firstn_all, Nat.sub_diag, app_nil_r.
  assert (L : count (List.concat (map stored_file a)) + count (z_data z) <= count (archive (a ++ z :: b))).
  { assert (M : count (z_data z) <= count (stored_file z)) by (unfold stored_file; rewrite !count_app; lia).
    unfold archive. cbv zeta. rewrite map_app, concat_app. cbn [map List.concat]. rewrite !count_app. clear - M. lia. }
  split; [exact P|]. split; clear - L S; lia.
Qed.
Lemma stored_directory_size l : forall o, (List.length l <= List.length (stored_directory o l))%nat.
Proof. induction l as [|v l IH]; intros o; cbn [stored_directory List.length]; auto. rewrite app_length. specialize (IH (o + count (stored_file v))). assert (1 <= List.length (stored_record o v))%nat by (unfold stored_record; rewrite app_length; change (List.length (raw "PK")) with 2%nat; lia). lia. Qed.

Lemma archive_read l : archive_fits l -> exists es, npz_open (archive l) = Some es /\ List.length es = List.length l /\
  forall i z, nth_error l i = Some z -> exists e, nth_error es i = Some e /\ e_name e = z_name z /\ member (archive l) e = Some (z_data z).
Proof.
  intros HS. assert (Z := archive_fine l HS). destruct HS as (_ & Ln & S).
  destruct (directory_read2 l 0 (List.length (stored_directory 0 l)) (stored_directory_size l 0) Z) as (es & E & EL & EN). exists es. split; [|split; [exact EL|]].
  - unfold npz_open. unfold archive in *. cbv zeta in *. set (F := List.concat (map stored_file l)) in *. set (D := stored_directory 0 l) in *. set (X := zip_end _ _ _) in *.
    assert (LX : List.length X = 22%nat) by (unfold X, zip_end; rewrite !app_length, !enc_length; reflexivity).
    rewrite !app_length, LX. rewrite (proj2 (Nat.ltb_ge _ 22)) by lia. replace (List.length F + (List.length D + 22) - 22)%nat with (List.length (F ++ D)) by (rewrite app_length; lia).
    rewrite !count_app in S. assert (BF : count F < 2 ^ 32) by (clear - S; lia). assert (BD : count D < 2 ^ 32) by (clear - S; lia).
    replace (skipn (List.length (F ++ D)) (F ++ D ++ X)) with X by (rewrite app_assoc; symmetry; now apply skipn_exact).
    unfold X at 1, zip_end.
    match goal with |- context [expect ?p ?s] => change s with (p ++ enc 2 (count l) ++ enc 2 (count l) ++ enc 4 (count D) ++ enc 4 (count F) ++ [0; 0] ++ []) end.
    rewrite expect_app. do 2 (rewrite num_enc by exact Ln). rewrite num_enc by exact BD. rewrite num_enc by exact BF. rewrite num_app by reflexivity.
    cbn [le N.mul N.add]. rewrite !N.eqb_refl. replace (count D + count F =? N.of_nat (List.length (F ++ D))) with true by (symmetry; apply N.eqb_eq; fold (count (F ++ D)); rewrite count_app; lia). cbn [andb negb].
    rewrite skipn_exact by (unfold count; now rewrite Nnat.Nat2N.id). rewrite take_count by reflexivity. rewrite E, EL. fold (count l). now rewrite N.eqb_refl.
  - intros i z H. eexists. split; [exact (EN i z H)|]. split; [reflexivity|]. specialize (Z i z H). rewrite N.add_0_l in *.
    apply nth_error_split in H. destruct H as (a & b & -> & <-). rewrite firstn_app, firstn_all, Nat.sub_diag, app_nil_r in *.
    unfold archive. cbv zeta. rewrite map_app, concat_app. cbn [map List.concat].
    rewrite <- !app_assoc. apply member_read2; auto. 
Qed.
