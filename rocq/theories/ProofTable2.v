(** The fits of the example scripts run on the data of the package (C99). *)
From Coquelicot Require Import Coquelicot.
From Coq Require Import Reals String Ascii List ZArith Lia Lra Bool Sorted.
From Verif Require Import XR PyStr PyText ModelParse SpecParse SpecDens SpecMeas SpecGrid SpecSlater ModelDens ModelMeas ModelGrid ModelFit ModelSlater ModelLoad SpecLoad SpecFile SpecElem SpecTar ProofElem
  ProofTar ProofTar2 DataSlater DataTar ProofNames SpecUgbs DataUgbs ProofUgbs SpecFit SpecScript ProofScript ProofTable.
Import ListNotations.
Local Open Scope R_scope.

Lemma sizes_positive : forallb (fun s => Nat.ltb 0 (nth 0 (snd s) 0%nat)) ugbs_sizes = true.
Proof. reflexivity. Qed.
Lemma tables_run fl rest s n e ns nc nd extra (kinetic origin : bool) factor total fuel : reads_decimals fl -> reads_scientific fl -> element s n -> In (e, ns) ugbs_sizes -> same_name (str s) (str e) ->
  (0 <= nc)%Z -> (300 <= nd)%Z -> 0 < factor -> match total with Some N => 0 < N | None => True end -> (100 <= fuel)%nat ->
  exists r c' e', table_fit fl (map str ygbs) (archive_files rest) s (Z.of_nat n) nc nd (map Fin extra) kinetic origin factor (option_map Fin total) fuel = Some (Ok r) /\
    r_coeffs r = map Fin c' /\ r_exps r = map Fin e' /\ length c' = (nth 0 ns 0 + nth 1 ns 0)%nat /\ length e' = (nth 0 ns 0 + nth 1 ns 0)%nat /\ positive c' /\ positive e' /\ (1 <= length (r_perf r))%nat.
Proof.
  intros Hd Hs El I S Hc Hn Hf HN Hl.
  destruct (archive_leading fl Hd rest Neutral s n El Logic.I ltac:(discriminate) ltac:(discriminate) fuel Hl) as (data & L & Sl & De & V & O & _ & sh & Is & Po & Ld & Sz).
  destruct (shipped_exponents fl Hd Hs (map str ygbs) ugbs_checked e ns s I S) as (d & Ug & _ & _ & G).
  destruct (G 0%nat ltac:(lia)) as (es & Es & Les & Ps & _). destruct (G 1%nat ltac:(lia)) as (ep & Ep & Lep & Pp & _).
  assert (P0 := sizes_positive). rewrite forallb_forall in P0. specialize (P0 _ I). cbn [snd] in P0. apply Nat.ltb_lt in P0.
  rewrite <- Les, <- Lep. refine (table_runs fl (map str ygbs) (archive_files rest) s (Z.of_nat n) nc nd extra kinetic origin factor total fuel data L sh d es ep Sl De V O Is Po Ld Ug Es Ep Ps Pp _ _ Hc _ Hf HN); [lia| |lia].
  destruct El as [El _]. lia.
Qed.
Lemma tables fl rest s n e ns fuel : reads_decimals fl -> reads_scientific fl -> element s n -> In (e, ns) ugbs_sizes -> same_name (str s) (str e) -> (100 <= fuel)%nat ->
  exists r c e1 r' c' e', table_1 fl (map str ygbs) (archive_files rest) s (Z.of_nat n) fuel = Some (Ok r) /\ table_5 fl (map str ygbs) (archive_files rest) s (Z.of_nat n) fuel = Some (Ok r') /\
    r_coeffs r = map Fin c /\ r_exps r = map Fin e1 /\ r_coeffs r' = map Fin c' /\ r_exps r' = map Fin e' /\
    length c = (nth 0 ns 0 + nth 1 ns 0)%nat /\ length e1 = length c /\ length c' = length c /\ length e' = length c /\
    positive c /\ positive e1 /\ positive c' /\ positive e' /\ (1 <= length (r_perf r))%nat /\ (1 <= length (r_perf r'))%nat.
Proof.
  intros Hd Hs El I S Hl. assert (Pn : 0 < IZR (Z.of_nat n)). { apply IZR_lt. destruct El as [El _]. lia. }
  assert (A1 : (0 <= 10000)%Z) by (apply Z.leb_le; reflexivity). assert (A2 : (300 <= 899)%Z) by (apply Z.leb_le; reflexivity).
  destruct (tables_run fl rest s n e ns 10000 899 [50; 75; 100] false true 2 (Some (IZR (Z.of_nat n))) fuel Hd Hs El I S A1 A2 ltac:(lra) Pn Hl) as (r & c & e1 & H1 & H2 & H3 & H4 & H5 & H6 & H7 & H8).
  destruct (tables_run fl rest s n e ns 10000 899 [50; 75; 100] true false (10 / 3) None fuel Hd Hs El I S A1 A2 ltac:(lra) Logic.I Hl) as (r' & c' & e' & K1 & K2 & K3 & K4 & K5 & K6 & K7 & K8).
  exists r, c, e1, r', c', e'. split; [exact H1|]. split; [exact K1|]. rewrite H4, H5, K4, K5. auto 16.
Qed.
(** The names of the loops. *)
Definition named (x : string * Z) : bool :=
  match nth_error symbols (Z.to_nat (snd x) - 1) with Some t => String.eqb (lower t) (lower (fst x)) | None => false end && Z.ltb 0 (snd x) &&
  existsb (fun y => String.eqb (lower (fst y)) (lower (fst x))) ugbs_sizes.
Lemma named_all : forallb named (table_1_atoms ++ table_5_atoms) = true.
Proof. vm_compute. reflexivity. Qed.
Lemma named_spec s z : In (s, z) (table_1_atoms ++ table_5_atoms) -> exists n e ns, z = Z.of_nat n /\ element s n /\ In (e, ns) ugbs_sizes /\ same_name (str s) (str e).
Proof.
  intros I. assert (H := named_all). rewrite forallb_forall in H. specialize (H _ I). unfold named in H. cbn [fst snd] in H. rewrite !andb_true_iff, existsb_exists in H. destruct H as [[H1 H2] ([e ns] & J & H3)].
  destruct (nth_error symbols (Z.to_nat z - 1)) as [t|] eqn:E; [|discriminate]. apply Z.ltb_lt in H2. apply String.eqb_eq in H1, H3. cbn [fst] in H3. exists (Z.to_nat z), e, ns. split; [lia|].
  split; [split; [lia|]; exists t; split; [exact E|apply lower_str; congruence]|]. split; [exact J|]. apply lower_str. congruence.
Qed.
Lemma scripts fl rest s z fuel : reads_decimals fl -> reads_scientific fl -> (100 <= fuel)%nat ->
  (In (s, z) table_1_atoms -> exists r, table_1 fl (map str ygbs) (archive_files rest) s z fuel = Some (Ok r)) /\
  (In (s, z) table_5_atoms -> exists r, table_5 fl (map str ygbs) (archive_files rest) s z fuel = Some (Ok r)).
Proof.
  intros Hd Hs Hl. split; intros I; (destruct (named_spec s z) as (n & e & ns & -> & El & J & S); [apply in_or_app; auto|]);
    destruct (tables fl rest s n e ns fuel Hd Hs El J S Hl) as (r & c & e1 & r' & c' & e' & H1 & H2 & _); eauto.
Qed.
