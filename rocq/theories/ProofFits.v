(** The files of fitted models (C95). *)
From Coq Require Import Reals.
From Coquelicot Require Import Coquelicot.
From Coq Require Import Ascii String List ZArith Bool Lia Lra Arith.
From Verif Require Import XR PyText SpecParse ProofText SpecJson ModelJson ProofJson SpecUgbs SpecFits DataFits SpecDens ModelDens Lists ProofDens ProofModelMisc ProofNorm.
Import ListNotations.
Local Open Scope R_scope.

(** ** Files of entries with commas between them *)
Definition entry_of (p : string) : option (text * json) :=
  match read_members (2 * length (str p) + 1) (str p ++ str "}") with
  | Some ([m], []) => Some m
  | _ => None
  end.
Lemma entry_of_members p m : entry_of p = Some m -> members (str p) [m].
Proof.
  unfold entry_of. intros H. destruct (read_members _ _) as [[l r]|] eqn:E; [|discriminate]. destruct l as [|m' [|]]; try discriminate. destruct r; [|discriminate]. injection H as <-.
  apply read_sound in E. destruct E as (u & E & M). apply (app_inj_tail (str p) u) in E. destruct E as [-> _]. exact M.
Qed.
Lemma members_cons s m t l : members s [m] -> members t l -> members (s ++ str "," ++ t) (m :: l).
Proof.
  intros H Ht. inversion H as [w k w1 w2 u w' j B P B1 B2 B' V E1 E2|w k w1 w2 u w' j t' l' B P B1 B2 B' V M E1 E2]; subst.
  - assert (M := members_more w k w1 w2 u w' j t l B P B1 B2 B' V Ht). rewrite <- !app_assoc in *. exact M.
  - inversion M.
Qed.
Lemma joined_members l ms : l <> [] -> map entry_of l = map Some ms -> members (joined l) ms.
Proof.
  revert ms. induction l as [|p l IH]; intros ms N H; [congruence|]. destruct ms as [|m ms]; [discriminate|]. cbn [map] in H. injection H as Hp Hl. apply entry_of_members in Hp.
  destruct l as [|q l]; [destruct ms; [exact Hp|discriminate]|]. specialize (IH ms ltac:(discriminate) Hl).
  change (joined (p :: q :: l)) with (str p ++ str "," ++ (str " " ++ joined (q :: l))). apply members_cons; [exact Hp|]. apply members_blank; [|exact IH].
  intros c [<-|[]]. now left.
Qed.
Lemma joined_load l ms : l <> [] -> map entry_of l = map Some ms -> json_load (str "{" ++ joined l ++ str "}") = Some (JObj ms).
Proof.
  intros N H. apply json_load_spec. exists [], (str "{" ++ joined l ++ str "}"), []. split; [intros c []|]. split; [intros c []|]. split; [|now rewrite app_nil_r].
  apply value_obj. now apply joined_members.
Qed.

Lemma json_index_in l k v : NoDup (map fst l) -> In (str k, v) l -> json_index (JObj l) k = Ok v.
Proof.
  intros D I. unfold json_index. apply in_rev in I. rewrite <- (rev_involutive l), map_rev in D. apply NoDup_rev in D. rewrite rev_involutive in D.
  revert D I. generalize (rev l) as q. induction q as [|[a b] q IH]; intros D I; [destruct I|]. cbn [List.find fst map] in *. inversion D as [|? ? N D']; subst.
  destruct (text_eqb_spec a (str k)) as [->|Q].
  - destruct I as [E|I]; [injection E as <-; reflexivity|]. exfalso. apply N. change (str k) with (fst (str k, v)). now apply in_map.
  - apply IH; [exact D'|]. destruct I as [E|I]; [congruence|exact I].
Qed.

(** ** Checking one entry: positive numbers of moderate size, their sum in units of 10^-40 *)
Definition num_ok (j : json) : bool :=
  match j with JDec m e => (0 <? m)%Z && (m <? 10 ^ 60)%Z && (-40 <=? e)%Z && (e <=? 0)%Z | _ => false end.
Definition units (j : json) : Z := match j with JDec m e => (m * 10 ^ (e + 40))%Z | _ => 0%Z end.
Definition zsum (l : list Z) : Z := fold_right Z.add 0%Z l.
Definition fit_ok (lo hi : Z) (k : nat) (name : string) (sz : string * list nat) (m : text * json) : bool :=
  text_eqb (fst m) (str name) &&
  match json_index (snd m) "num_s", json_index (snd m) "num_p", json_index (snd m) "coeffs", json_index (snd m) "exps", snd sz with
  | Ok (JInt a), Ok (JInt b), Ok (JArr c), Ok (JArr e), [ns; np; _; _] =>
      (a =? Z.of_nat ns)%Z && (b =? Z.of_nat np)%Z && Nat.eqb (length c) (ns + np) && Nat.eqb (length e) (ns + np) && Nat.ltb 0 ns &&
      forallb num_ok c && forallb num_ok e &&
      let d := Z.abs (zsum (map units c) - (Z.of_nat k + 1) * 10 ^ 40) in (lo * 10 ^ 28 <=? d)%Z && (d <=? hi * 10 ^ 28)%Z
  | _, _, _, _, _ => false
  end.
(** [tol k] bounds the error of entry k, in units of 10^-12, from below and above. *)
Fixpoint fits_ok (tol : nat -> Z * Z) (k : nat) (names : list string) (sizes : list (string * list nat)) (l : list string) : bool :=
  match names, sizes, l with
  | [], _, [] => true
  | name :: names, sz :: sizes, p :: l =>
      match entry_of p with Some m => fit_ok (fst (tol k)) (snd (tol k)) k name sz m | None => false end && fits_ok tol (S k) names sizes l
  | _, _, _ => false
  end.

Section Fits.
Context (fl : Z -> Z -> R) (Hfl : reads_floats fl).
Definition num (j : json) : R := match j with JDec m e => fl m e | _ => 0 end.
Lemma pow10_IZR k : IZR (10 ^ Z.of_nat k) = 10 ^ k.
Proof. rewrite <- pow_IZR. reflexivity. Qed.
Lemma units_dec m e : (-40 <= e)%Z -> IZR (m * 10 ^ (e + 40)) / 10 ^ 40 = dec m e.
Proof.
  intros H. unfold dec. replace e with ((e + 40) - 40)%Z at 2 by lia. set (k := (e + 40)%Z) in *. assert (K : (0 <= k)%Z) by lia. rewrite mult_IZR.
  rewrite <- (Z2Nat.id k) by exact K. rewrite pow10_IZR. unfold Z.sub. rewrite powerRZ_add by lra. rewrite <- pow_powerRZ.
  replace (powerRZ 10 (-(40))) with (/ 10 ^ 40) by reflexivity. field.
Qed.
Lemma num_ok_spec j : num_ok j = true -> exists m e, j = JDec m e /\ 0 < dec m e /\ dec m e = IZR (units j) / 10 ^ 40 /\ Rabs (num j - dec m e) <= dec m e / 2 ^ 53.
Proof.
  destruct j as [|m e| | |]; try discriminate. unfold num_ok. rewrite !andb_true_iff, !Z.ltb_lt, !Z.leb_le. intros [[[M1 M2] E1] E2]. exists m, e. split; [reflexivity|].
  assert (U : dec m e = IZR (units (JDec m e)) / 10 ^ 40) by (cbn [units]; now rewrite units_dec).
  assert (B1 : (1 <= units (JDec m e))%Z) by (cbn [units]; assert (0 < 10 ^ (e + 40))%Z by (apply Z.pow_pos_nonneg; lia); nia).
  assert (B2 : (units (JDec m e) <= 10 ^ 100)%Z).
  { cbn [units]. assert (10 ^ (e + 40) <= 10 ^ 40)%Z by (apply Z.pow_le_mono_r; lia). assert (0 < 10 ^ (e + 40))%Z by (apply Z.pow_pos_nonneg; lia).
    replace (10 ^ 100)%Z with (10 ^ 60 * 10 ^ 40)%Z by reflexivity. nia. }
  apply IZR_le in B1, B2. change (IZR (10 ^ 100)) with (IZR (10 ^ Z.of_nat 100)) in B2. rewrite pow10_IZR in B2.
  assert (P : 0 < 10 ^ 40) by (apply pow_lt; lra). assert (D : 0 < dec m e) by (rewrite U; apply Rdiv_lt_0_compat; lra).
  split; [exact D|]. split; [exact U|]. rewrite <- (Rabs_right (dec m e)) at 2 by lra. apply Hfl. rewrite Rabs_right by lra. split.
  - rewrite U. apply Rle_trans with (1 / 10 ^ 40); [|apply Rmult_le_compat_r; [left; now apply Rinv_0_lt_compat|exact B1]].
    unfold Rdiv. rewrite Rmult_1_l. apply Rinv_le_contravar; [exact P|]. apply Rle_pow; [lra|lia].
  - rewrite U. apply Rle_trans with (10 ^ 100 / 10 ^ 40); [apply Rmult_le_compat_r; [left; now apply Rinv_0_lt_compat|exact B2]|].
    unfold Rdiv. replace (10 ^ 100) with (10 ^ 60 * 10 ^ 40) by (rewrite <- pow_add; reflexivity). rewrite Rmult_assoc, Rinv_r, Rmult_1_r by lra. apply Rle_pow; [lra|lia].
Qed.
Lemma num_pos j : num_ok j = true -> 0 < num j.
Proof.
  intros H. destruct (num_ok_spec j H) as (m & e & _ & D & _ & A). apply Rabs_le_between in A. assert (dec m e / 2 ^ 53 < dec m e); [|lra].
  apply Rmult_lt_reg_r with (2 ^ 53); [apply pow_lt; lra|]. unfold Rdiv. rewrite Rmult_assoc, Rinv_l by (apply pow_nonzero; lra). assert (1 < 2 ^ 53) by (apply Rlt_pow_R1; [lra|lia]). nra.
Qed.
Lemma np_array_ok l : forallb num_ok l = true -> np_array fl (JArr l) = Ok (map Fin (map num l)).
Proof.
  cbn [np_array]. induction l as [|j l IH]; intros H; [reflexivity|]. cbn [forallb] in H. apply andb_true_iff in H. destruct H as [H1 H2]. cbn [mapM map].
  destruct (num_ok_spec j H1) as (m & e & -> & _). cbn [np_number bind]. now rewrite (IH H2).
Qed.
Lemma sum_close l : forallb num_ok l = true -> Rabs (rsum (map num l) - IZR (zsum (map units l)) / 10 ^ 40) <= IZR (zsum (map units l)) / 10 ^ 40 / 2 ^ 53.
Proof.
  induction l as [|j l IH]; intros H; [unfold rsum; cbn; replace (0 - 0 / _) with 0 by lra; rewrite Rabs_R0; lra|]. cbn [forallb] in H. apply andb_true_iff in H. destruct H as [H1 H2].
  specialize (IH H2). destruct (num_ok_spec j H1) as (m & e & _ & D & U & A). cbn [map]. rewrite rsum_cons. change (zsum (units j :: map units l)) with (units j + zsum (map units l))%Z. rewrite plus_IZR.
  replace (num j + rsum (map num l) - (IZR (units j) + IZR (zsum (map units l))) / 10 ^ 40) with ((num j - dec m e) + (rsum (map num l) - IZR (zsum (map units l)) / 10 ^ 40)) by (rewrite U; lra).
  replace ((IZR (units j) + IZR (zsum (map units l))) / 10 ^ 40 / 2 ^ 53) with (dec m e / 2 ^ 53 + IZR (zsum (map units l)) / 10 ^ 40 / 2 ^ 53) by (rewrite U; lra).
  eapply Rle_trans; [apply Rabs_triang|]. lra.
Qed.

(** What a checked entry gives; the bounds with 10^-13 for the rounding of up to 100 electrons. *)
Definition good (lo hi : Z) (k ns np : nat) (c e : list R) : Prop :=
  (0 < ns)%nat /\ length c = (ns + np)%nat /\ length e = (ns + np)%nat /\ Forall (fun a => 0 < a) c /\ Forall (fun a => 0 < a) e /\
  IZR lo / 10 ^ 12 - / 10 ^ 13 <= Rabs (rsum c - INR (S k)) <= IZR hi / 10 ^ 12 + / 10 ^ 13.
Lemma fit_ok_spec lo hi k name sz m data : fit_ok lo hi k name sz m = true -> (k < 100)%nat -> (hi <= 10 ^ 12)%Z -> json_index data name = Ok (snd m) -> forall file, json_load file = Some data ->
  exists ns np d f c e, snd sz = [ns; np; d; f] /\ load_fit fl file name = Ok (JInt (Z.of_nat ns), JInt (Z.of_nat np), map Fin c, map Fin e) /\ good lo hi k ns np c e.
Proof.
  intros H K HH I file F. unfold fit_ok in H. apply andb_true_iff in H. destruct H as [_ H].
  destruct (json_index (snd m) "num_s") as [[a| | | |]|] eqn:Ja; try discriminate. destruct (json_index (snd m) "num_p") as [[b| | | |]|] eqn:Jb; try discriminate.
  destruct (json_index (snd m) "coeffs") as [[| | |c|]|] eqn:Jc; try discriminate. destruct (json_index (snd m) "exps") as [[| | |e|]|] eqn:Je; try discriminate.
  destruct (snd sz) as [|ns [|np [|d [|f [|]]]]]; try discriminate. rewrite !andb_true_iff, !Z.eqb_eq, !Nat.eqb_eq, Nat.ltb_lt, !Z.leb_le in H.
  destruct H as [[[[[[[Ha Hb] Lc] Le] P] Nc] Ne] [B1 B2]]. exists ns, np, d, f, (map num c), (map num e). split; [reflexivity|].
  split; [unfold load_fit; rewrite F, I; cbn [bind]; rewrite Ja; cbn [bind]; rewrite Jb; cbn [bind]; rewrite Jc; cbn [bind]; rewrite (np_array_ok c Nc); cbn [bind]; rewrite Je; cbn [bind]; rewrite (np_array_ok e Ne); cbn [bind]; now subst a b|].
  split; [exact P|]. rewrite !map_length. split; [exact Lc|]. split; [exact Le|].
  split; [apply Forall_forall; intros x X; apply in_map_iff in X; destruct X as (j & <- & J); apply num_pos; rewrite forallb_forall in Nc; auto|].
  split; [apply Forall_forall; intros x X; apply in_map_iff in X; destruct X as (j & <- & J); apply num_pos; rewrite forallb_forall in Ne; auto|].
  assert (S1 := sum_close c Nc). set (z := zsum (map units c)) in *. set (D := Rabs (IZR z / 10 ^ 40 - INR (S k))).
  assert (P28 : IZR (10 ^ 28) = 10 ^ 28) by (change 28%Z with (Z.of_nat 28) at 1; apply pow10_IZR).
  assert (P40 : IZR (10 ^ 40) = 10 ^ 40) by (change 40%Z with (Z.of_nat 40) at 1; apply pow10_IZR).
  assert (Q : 0 < 10 ^ 40) by (apply pow_lt; lra). assert (T40 : 10 ^ 40 = 10 ^ 28 * 10 ^ 12) by (rewrite <- pow_add; reflexivity).
  assert (Q28 : 0 < 10 ^ 28) by (apply pow_lt; lra). assert (Q12 : 0 < 10 ^ 12) by (apply pow_lt; lra).
  assert (ED : D = IZR (Z.abs (z - (Z.of_nat k + 1) * 10 ^ 40)) / 10 ^ 40).
  { unfold D. rewrite abs_IZR, minus_IZR, mult_IZR, plus_IZR, P40, <- INR_IZR_INZ, S_INR. replace (IZR z / 10 ^ 40 - (INR k + 1)) with ((IZR z - (INR k + 1) * 10 ^ 40) * / 10 ^ 40) by (field; lra).
    rewrite Rabs_mult, (Rabs_right (/ 10 ^ 40)); [reflexivity|]. apply Rle_ge. left. now apply Rinv_0_lt_compat. }
  apply IZR_le in B1, B2. rewrite !mult_IZR, P28 in *.
  assert (L1 : IZR lo / 10 ^ 12 <= D). { rewrite ED, T40. apply Rmult_le_reg_r with (10 ^ 28 * 10 ^ 12); [nra|]. unfold Rdiv. rewrite (Rmult_assoc (IZR (Z.abs _))), Rinv_l by nra.
    replace (IZR lo * / 10 ^ 12 * (10 ^ 28 * 10 ^ 12)) with (IZR lo * 10 ^ 28 * (/ 10 ^ 12 * 10 ^ 12)) by ring. rewrite Rinv_l by lra. lra. }
  assert (L2 : D <= IZR hi / 10 ^ 12). { rewrite ED, T40. apply Rmult_le_reg_r with (10 ^ 28 * 10 ^ 12); [nra|]. unfold Rdiv. rewrite (Rmult_assoc (IZR (Z.abs _))), Rinv_l by nra.
    replace (IZR hi * / 10 ^ 12 * (10 ^ 28 * 10 ^ 12)) with (IZR hi * 10 ^ 28 * (/ 10 ^ 12 * 10 ^ 12)) by ring. rewrite Rinv_l by lra. lra. }
  assert (H1 : D <= 1). { eapply Rle_trans; [exact L2|]. apply IZR_le in HH. change (IZR (10 ^ 12)) with (IZR (10 ^ Z.of_nat 12)) in HH. rewrite pow10_IZR in HH. apply Rmult_le_reg_r with (10 ^ 12); [exact Q12|]. unfold Rdiv. rewrite Rmult_assoc, Rinv_l by lra. lra. }
  assert (H2 : INR (S k) <= 100) by (rewrite INR_IZR_INZ; apply IZR_le; lia).
  assert (H3 : IZR z / 10 ^ 40 <= 101) by (unfold D in H1; apply Rabs_le_between in H1; lra).
  assert (H4 : IZR z / 10 ^ 40 / 2 ^ 53 <= / 10 ^ 13).
  { apply Rle_trans with (101 / 2 ^ 53); [apply Rmult_le_compat_r; [left; apply Rinv_0_lt_compat, pow_lt; lra|exact H3]|].
    replace (2 ^ 53) with 9007199254740992 by lra. replace (10 ^ 13) with 10000000000000 by lra. lra. }
  assert (H5 : Rabs (rsum (map num c) - IZR z / 10 ^ 40) <= / 10 ^ 13) by lra.
  unfold D in *. replace (rsum (map num c) - INR (S k)) with ((rsum (map num c) - IZR z / 10 ^ 40) + (IZR z / 10 ^ 40 - INR (S k))) by ring.
  set (x := rsum (map num c) - IZR z / 10 ^ 40) in *. set (y := IZR z / 10 ^ 40 - INR (S k)) in *. split.
  - assert (Rabs y <= Rabs (x + y) + Rabs x); [|lra]. replace y with ((x + y) + - x) at 1 by ring. eapply Rle_trans; [apply Rabs_triang|]. rewrite Rabs_Ropp. lra.
  - eapply Rle_trans; [apply Rabs_triang|]. lra.
Qed.

Lemma fits_ok_map tol k names sizes l : fits_ok tol k names sizes l = true ->
  exists ms, map entry_of l = map Some ms /\ map fst ms = map (fun s => str s) names /\
    forall i name, nth_error names i = Some name -> exists sz m, nth_error sizes i = Some sz /\ nth_error ms i = Some m /\ fit_ok (fst (tol (k + i)%nat)) (snd (tol (k + i)%nat)) (k + i) name sz m = true.
Proof.
  revert k sizes l. induction names as [|name names IH]; intros k sizes l H; cbn [fits_ok] in H.
  - destruct l; [|discriminate]. exists []. split; [reflexivity|]. split; [reflexivity|]. intros [|i] ? Q; discriminate.
  - destruct sizes as [|sz sizes]; [discriminate|]. destruct l as [|p l]; [discriminate|]. apply andb_true_iff in H. destruct H as [H1 H2]. destruct (entry_of p) as [m|] eqn:E; [|discriminate].
    destruct (IH (S k) sizes l H2) as (ms & E1 & E2 & E3). exists (m :: ms). cbn [map]. rewrite E, E1, E2. split; [reflexivity|]. split.
    + f_equal. unfold fit_ok in H1. apply andb_true_iff in H1. destruct H1 as [H1 _]. now destruct (text_eqb_spec (fst m) (str name)).
    + intros [|i] nm Q; cbn [nth_error] in *.
      * injection Q as <-. exists sz, m. rewrite Nat.add_0_r. auto.
      * destruct (E3 i nm Q) as (sz' & m' & A & B & C). exists sz', m'. replace (k + S i)%nat with (S k + i)%nat by lia. auto.
Qed.
Fixpoint distinct (l : list text) : bool := match l with [] => true | a :: r => negb (existsb (text_eqb a) r) && distinct r end.
Lemma distinct_nodup l : distinct l = true -> NoDup l.
Proof.
  induction l as [|a l IH]; intros H; constructor; cbn [distinct] in H; apply andb_true_iff in H; destruct H as [H1 H2]; [|auto].
  intros I. apply negb_true_iff in H1. assert (Q : existsb (text_eqb a) l = true) by (apply existsb_exists; exists a; split; [exact I|apply text_eqb_refl]). congruence.
Qed.
Lemma fit_names_nodup : NoDup (map (fun s => str s) fit_names).
Proof. apply distinct_nodup. reflexivity. Qed.

Lemma fits_all tol l : fits_ok tol 0 fit_names ugbs_sizes l = true -> (forall k, (snd (tol k) <= 10 ^ 12)%Z) ->
  forall k name, nth_error fit_names k = Some name ->
  exists ns np c e, load_fit fl (str "{" ++ joined l ++ str "}") name = Ok (JInt (Z.of_nat ns), JInt (Z.of_nat np), map Fin c, map Fin e) /\
    ugbs_counts k ns np /\ good (fst (tol k)) (snd (tol k)) k ns np c e.
Proof.
  intros H T k name N. destruct (fits_ok_map _ _ _ _ _ H) as (ms & E1 & E2 & E3). destruct (E3 k name N) as (sz & m & A & B & C). cbn [Nat.add] in C.
  assert (L : l <> []) by (intros ->; destruct ms; [|discriminate]; discriminate).
  assert (F : json_load (str "{" ++ joined l ++ str "}") = Some (JObj ms)) by now apply joined_load.
  assert (K : (k < 100)%nat) by (assert (k < length fit_names)%nat by (apply nth_error_Some; congruence); change (length fit_names) with 54%nat in *; lia).
  assert (I : json_index (JObj ms) name = Ok (snd m)).
  { assert (ND : NoDup (map fst ms)) by (rewrite E2; exact fit_names_nodup). apply json_index_in; [exact ND|]. apply nth_error_In in B. replace (str name) with (fst m); [now destruct m|].
    unfold fit_ok in C. apply andb_true_iff in C. destruct C as [C _]. now destruct (text_eqb_spec (fst m) (str name)). }
  destruct (fit_ok_spec _ _ _ _ _ _ _ C K (T k) I _ F) as (ns & np & d & f & c & e & S & Q & G). exists ns, np, c, e. split; [exact Q|]. split; [|exact G].
  destruct sz as [nm sz]. cbn in S. subst sz. exists nm, d, f. exact A.
Qed.
End Fits.

Definition fpi_tol (k : nat) : Z * Z := (0, 1700)%Z.
Definition slsqp_tol (k : nat) : Z * Z := if Nat.eqb k 53 then (116000000, 117000000)%Z else (0, 29000000)%Z.
Lemma fpi_checked : fits_ok fpi_tol 0 fit_names ugbs_sizes fpi_entries = true.
Proof. vm_cast_no_check (eq_refl true). Qed.
Lemma slsqp_checked : fits_ok slsqp_tol 0 fit_names ugbs_sizes slsqp_entries = true.
Proof. vm_cast_no_check (eq_refl true). Qed.

(** ** The statements *)
Lemma fits_fpi fl : reads_floats fl -> forall k name, nth_error fit_names k = Some name ->
  exists ns np c e, load_fit fl fpi_json name = Ok (JInt (Z.of_nat ns), JInt (Z.of_nat np), map Fin c, map Fin e) /\
    ugbs_counts k ns np /\ length c = (ns + np)%nat /\ length e = (ns + np)%nat /\
    Forall (fun a => 0 < a) c /\ Forall (fun a => 0 < a) e /\ Rabs (rsum c - INR (S k)) <= 2 / 10 ^ 9.
Proof.
  intros H k name N. destruct (fits_all fl H fpi_tol fpi_entries fpi_checked (fun _ => ltac:(discriminate)) k name N) as (ns & np & c & e & L & U & _ & L1 & L2 & P1 & P2 & _ & B).
  exists ns, np, c, e. repeat (split; [assumption|]). unfold fpi_tol in B. cbn [snd] in B. lra.
Qed.
Lemma fits_slsqp fl : reads_floats fl -> forall k name, nth_error fit_names k = Some name ->
  exists ns np c e, load_fit fl slsqp_json name = Ok (JInt (Z.of_nat ns), JInt (Z.of_nat np), map Fin c, map Fin e) /\
    ugbs_counts k ns np /\ length c = (ns + np)%nat /\ length e = (ns + np)%nat /\
    Forall (fun a => 0 < a) c /\ Forall (fun a => 0 < a) e /\
    (k <> 53%nat -> Rabs (rsum c - INR (S k)) <= 3 / 10 ^ 5) /\
    (k = 53%nat -> 11 / 10 ^ 5 <= Rabs (rsum c - INR (S k)) <= 12 / 10 ^ 5).
Proof.
  intros H k name N.
  assert (T : forall i, (snd (slsqp_tol i) <= 10 ^ 12)%Z) by (intros i; unfold slsqp_tol; destruct (Nat.eqb i 53); discriminate).
  destruct (fits_all fl H slsqp_tol slsqp_entries slsqp_checked T k name N) as (ns & np & c & e & L & U & _ & L1 & L2 & P1 & P2 & B).
  exists ns, np, c, e. repeat (split; [assumption|]). unfold slsqp_tol in B. split; intros K.
  - rewrite (proj2 (Nat.eqb_neq k 53) K) in B. cbn [fst snd] in B. lra.
  - rewrite (proj2 (Nat.eqb_eq k 53) K) in B. cbn [fst snd] in B. lra.
Qed.

Lemma counts_pos k name ns np : nth_error fit_names k = Some name -> ugbs_counts k ns np -> (0 < ns)%nat.
Proof.
  intros _ (nm & d & f & H). assert (F : forallb (fun s => Nat.ltb 0 (nth 0 (snd s) 0%nat)) ugbs_sizes = true) by reflexivity.
  rewrite forallb_forall in F. apply nth_error_In, F in H. now apply Nat.ltb_lt in H.
Qed.
Lemma fit_density k name ns np c e : nth_error fit_names k = Some name -> ugbs_counts k ns np -> length c = (ns + np)%nat -> length e = (ns + np)%nat ->
  Forall (fun a => 0 < a) c -> Forall (fun a => 0 < a) e ->
  exists g : R -> R,
    (forall rs, Forall (fun r => 0 <= r) rs -> exists m,
       atomic_init (VArr (A1 (map Fin rs))) VNone (VInt (Z.of_nat ns)) (VInt (Z.of_nat np)) true = Ok m /\
       atomic_evaluate m (A1 (map Fin c)) (A1 (map Fin e)) false = Ok (map Fin (map g rs), None)) /\
    (forall r, 0 <= r -> 0 < g r) /\
    is_RInt_gen (fun r => 4 * PI * r ^ 2 * g r) (at_point 0) (Rbar_locally p_infty) (rsum c).
Proof.
  intros N U L1 L2 P1 P2. assert (Z := counts_pos _ _ _ _ N U).
  destruct (api_integral ns np c e ltac:(lia) L1 L2 P2) as (g & G & I). exists g. split; [exact G|]. split; [|exact I]. intros r Hr.
  destruct (G [r] (Forall_cons _ Hr (Forall_nil _))) as (m & Hm & Hv).
  destruct (atomic_nonneg _ _ _ ns np true c e (geom_1d_default [r]) ltac:(lia) L1 L2 (fun _ => P2)) as (m' & v & Hm' & Hv' & _ & Q).
  { eapply Forall_impl; [|exact P1]. intros a A. cbn in A. lra. }
  rewrite Hm in Hm'. injection Hm' as <-. rewrite Hv in Hv'. injection Hv' as Hv'. destruct v as [|x [|]]; try discriminate. injection Hv' as <-.
  assert (K : Forall (fun x => 0 < x) [g r]); [|now inversion K]. apply Q. exists 0%nat. split; [exact Z|]. destruct c as [|a c]; [cbn in L1; lia|]. now inversion P1.
Qed.
