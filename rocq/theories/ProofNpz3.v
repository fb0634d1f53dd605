(** The models in the shipped .npz files. *)
From Coq Require Import Reals.
From Coq Require Import NArith ZArith List Bool Ascii String Lia Lra Arith.
From Verif Require Import XR PyText SpecParse ProofText ModelNpz SpecNpz DataNpz ProofNpz SpecBin SpecJson ModelJson ProofJson SpecUgbs SpecFits DataFits SpecDens ProofFits ProofNpz2.
Import ListNotations.
Local Open Scope R_scope.

Lemma map_Fin_inj a b : map Fin a = map Fin b -> a = b.
Proof. revert b. induction a as [|x a IH]; intros [|y b] H; try discriminate; auto. injection H as H1 H2. f_equal; auto. Qed.
Lemma npz_fpi : forall k name, nth_error fit_names k = Some name ->
  exists ws wp cw ew ns np c e,
    load_npz fpi_npz name = Some (Ok (mkArray Int64 false [ws], mkArray Int64 false [wp], mkArray Float64 true cw, mkArray Float64 true ew)) /\
    int64 ws = Z.of_nat ns /\ int64 wp = Z.of_nat np /\ map float64 cw = map Fin c /\ map float64 ew = map Fin e /\
    load_fit double fpi_json name = Ok (JInt (Z.of_nat ns), JInt (Z.of_nat np), map Fin c, map Fin e) /\
    ugbs_counts k ns np /\ List.length c = (ns + np)%nat /\ List.length e = (ns + np)%nat /\
    Forall (fun a => 0 < a) c /\ Forall (fun a => 0 < a) e /\ Rabs (rsum c - INR (S k)) <= 2 / 10 ^ 9.
Proof.
  intros k name N. destruct (same_file _ _ _ _ _ fpi_archive fpi_same fpi_checked k name N) as (ws & wp & cw & ew & a & b & c & e & L & Wa & Wb & Wc & We & J).
  destruct (fits_fpi double double_reads k name N) as (ns & np & c' & e' & J' & R). assert (Q : Ok (JInt a, JInt b, map Fin c, map Fin e) = Ok (JInt (Z.of_nat ns), JInt (Z.of_nat np), map Fin c', map Fin e')) by (rewrite <- J'; symmetry; exact J).
  injection Q as Qa Qb Qc Qe. apply map_Fin_inj in Qc, Qe. subst. exists ws, wp, cw, ew, ns, np, c', e'. split; [exact L|]. do 5 (split; [assumption|]). exact R.
Qed.
Lemma npz_slsqp : forall k name, nth_error fit_names k = Some name ->
  exists ws wp cw ew ns np c e,
    load_npz slsqp_npz name = Some (Ok (mkArray Int64 false [ws], mkArray Int64 false [wp], mkArray Float64 true cw, mkArray Float64 true ew)) /\
    int64 ws = Z.of_nat ns /\ int64 wp = Z.of_nat np /\ map float64 cw = map Fin c /\ map float64 ew = map Fin e /\
    load_fit double slsqp_json name = Ok (JInt (Z.of_nat ns), JInt (Z.of_nat np), map Fin c, map Fin e) /\
    ugbs_counts k ns np /\ List.length c = (ns + np)%nat /\ List.length e = (ns + np)%nat /\
    Forall (fun a => 0 < a) c /\ Forall (fun a => 0 < a) e /\
    (k <> 53%nat -> Rabs (rsum c - INR (S k)) <= 3 / 10 ^ 5) /\
    (k = 53%nat -> 11 / 10 ^ 5 <= Rabs (rsum c - INR (S k)) <= 12 / 10 ^ 5).
Proof.
  intros k name N. destruct (same_file _ _ _ _ _ slsqp_archive slsqp_same slsqp_checked k name N) as (ws & wp & cw & ew & a & b & c & e & L & Wa & Wb & Wc & We & J).
  destruct (fits_slsqp double double_reads k name N) as (ns & np & c' & e' & J' & R). assert (Q : Ok (JInt a, JInt b, map Fin c, map Fin e) = Ok (JInt (Z.of_nat ns), JInt (Z.of_nat np), map Fin c', map Fin e')) by (rewrite <- J'; symmetry; exact J).
  injection Q as Qa Qb Qc Qe. apply map_Fin_inj in Qc, Qe. subst. exists ws, wp, cw, ew, ns, np, c', e'. split; [exact L|]. do 5 (split; [assumption|]). exact R.
Qed.

(** ** Other names *)
Definition keys : list text := flat_map (fun n => [str (n ++ "_num_s"); str (n ++ "_num_p"); str (n ++ "_coeffs"); str (n ++ "_exps")]) fit_names.
Definition names_ok (fs : list (list string)) : bool := forallb (fun t => existsb (text_eqb t) keys) (map fst (parts fs)).
Lemma names_ok_spec fs t : names_ok fs = true -> In t (map fst (parts fs)) -> In t keys.
Proof.
  unfold names_ok. rewrite forallb_forall. intros H I. apply H, existsb_exists in I. destruct I as (k & I & E). destruct (text_eqb_spec t k) as [->|]; [exact I|discriminate].
Qed.
Lemma str_app a b : str (a ++ b) = (str a ++ str b)%list.
Proof. unfold str. induction a as [|x a IH]; cbn; [reflexivity|]. now rewrite IH. Qed.
Lemma str_inj a b : str a = str b -> a = b.
Proof. intros H. rewrite <- (string_of_list_ascii_of_string a), <- (string_of_list_ascii_of_string b). now f_equal. Qed.
Lemma keys_in x : In (str (x ++ "_num_s")) keys -> In x fit_names.
Proof.
  unfold keys. rewrite in_flat_map. intros (n & N & I). rewrite !str_app in I. cbn [In] in I.
  assert (Q : forall s, (str n ++ str s)%list = (str x ++ str "_num_s")%list -> (rev (str s) ++ rev (str n))%list = (rev (str "_num_s") ++ rev (str x))%list) by (intros s Q; rewrite <- !rev_app_distr; now f_equal).
  destruct I as [I|[I|[I|[I|[]]]]].
  - apply app_inv_tail in I. apply str_inj in I. now subst.
  - apply Q in I. cbn in I. discriminate.
  - apply Q in I. cbn in I. discriminate.
  - apply Q in I. cbn in I. discriminate.
Qed.
Lemma fpi_names : names_ok fpi_files = true.
Proof. vm_cast_no_check (eq_refl true). Qed.
Lemma slsqp_names : names_ok slsqp_files = true.
Proof. vm_cast_no_check (eq_refl true). Qed.
Lemma other_file fs rs en : archive_ok fs rs en = true -> names_ok fs = true -> forall x, ~ In x fit_names ->
  load_npz (List.concat (map hex fs) ++ List.concat (map hex rs) ++ hex en) x = Some (Raise KeyError).
Proof.
  intros HA HN x X. destruct (archive_ok_spec _ _ _ HA) as [E SV]. destruct (get_saved _ SV) as (es & O & _ & G).
  rewrite E. unfold load_npz. rewrite O. rewrite G; [reflexivity| |].
  - intros I. apply (names_ok_spec _ _ HN) in I. apply X, keys_in, I.
  - intros n _ Q. change (list_ascii_of_string (x ++ "_num_s")) with (str (x ++ "_num_s")) in Q. rewrite str_app in Q. apply (f_equal (@rev ascii)) in Q. rewrite !rev_app_distr in Q. discriminate Q.
Qed.
Lemma npz_other : forall file name, file = fpi_npz \/ file = slsqp_npz -> ~ In name fit_names -> load_npz file name = Some (Raise KeyError).
Proof.
  intros file name [->| ->] H; [exact (other_file _ _ _ fpi_archive fpi_names _ H)|exact (other_file _ _ _ slsqp_archive slsqp_names _ H)].
Qed.
(** Each shipped file is what [np.savez] writes for its arrays. *)
Lemma npz_written : forall file, file = fpi_npz \/ file = slsqp_npz -> exists l, savable l /\ file = savez l.
Proof.
  intros file [->| ->].
  - destruct (archive_ok_spec _ _ _ fpi_archive) as [E S]. eauto.
  - destruct (archive_ok_spec _ _ _ slsqp_archive) as [E S]. eauto.
Qed.
