(** The density of beryllium as read from the shipped file (C109). *)
From Coquelicot Require Import Coquelicot.
From Coq Require Import Reals String Ascii List Bool Arith ZArith Lia Lra.
From Verif Require Import XR PyStr PyText SpecParse ProofText ModelParse SpecFile ModelSlater SpecDens SpecSlater ProofSlater ModelLoad SpecLoad ProofLoad SpecKin ProofKin ProofOver
  ProofConf ProofConf2 ProofFile ProofFile2 ProofCheck SpecShipped ProofShipped ProofNames ProofElec DataSlater DataTar SpecElem ProofElem SpecTar ProofTar SpecScript SpecScript4.
Import ListNotations.
Local Open Scope R_scope.

Lemma be_listed : In (Neutral, "be"%string, be_neutral) archive_names.
Proof. apply (nth_error_In archive_names 10). reflexivity. Qed.

Lemma be_electrons n c : electrons [Sub 1 0 2; Sub 2 0 2] n 0 c -> (n = 1 \/ n = 2)%nat -> c = 2%nat.
Proof.
  intros E H. unfold electrons in E. destruct E as [E|[(E & _)|(E & _)]].
  - cbn [In] in E. destruct E as [E|[E|[]]]; injection E; auto.
  - exfalso. destruct H as [->| ->]; apply (E 2%nat); cbn [In]; auto.
  - exfalso. destruct H as [->| ->]; apply (E 2%nat); cbn [In]; auto.
Qed.
Definition be_hint : hint := mkH 0 0 1 [11%nat] ["   T =    "; "14.573023130"; "     V =   "; "-29.146046297"; "     V/T =    "; "-2.000000003"; ""]%string None [Sub 1 0 2; Sub 2 0 2].
Definition be_tf : tfile := Eval vm_compute in file_words (heavy_of be_hint) (h_ratio be_hint) (parts_of be_hint (map str be_neutral)).
Definition be_block : tblock := Eval vm_compute in hd (mkTB 0 [] [] []) (tf_blocks be_tf).
Lemma be_loads fl rest fuel : reads_decimals fl -> (100 <= fuel)%nat ->
  exists data e1 e2, slater_atoms fl (archive_files rest) (Some "be"%string) false false fuel = Some (Ok data) /\ describes (atom_of data) (be_subs e1 e2) /\ Forall valid (be_subs e1 e2).
Proof.
  intros Hf Hl.
  set (h := be_hint).
  set (p := parts_of h (map str be_neutral)). assert (E : leqb (lines_of p) (map str be_neutral) = true) by (vm_compute; reflexivity). apply leqb_spec in E.
  set (t := be_tf).  assert (R : readable false [] [Sub 1 0 2; Sub 2 0 2] (word_of h) t p = true) by (vm_compute; reflexivity).
  destruct (readable_ok fl (val fl) (val_ok fl Hf) _ _ _ _ _ _ R eq_refl) as (F & B & P & D & O). rewrite E in F.
  set (C := contents_of (val fl) (word_of h) t) in *.
  assert (Nr : near 5 C) by (apply near_blocks; auto; vm_compute; reflexivity). destruct Nr as (Fi & Po & _).
  destruct (subs_exist false C [Sub 1 0 2; Sub 2 0 2] B Fi) as (L & S).
  assert (Len : (length (map str be_neutral) < fuel)%nat) by (apply Nat.lt_le_trans with 100%nat; [apply Nat.ltb_lt; vm_compute; reflexivity|exact Hl]).
  assert (Hv : false = true <-> In (lower "be") heavy_atoms). { split; [discriminate|]. intros I. apply str_in_spec in I. vm_compute in I. discriminate. }
  assert (Al : alphabetic (str "be")) by (apply alphabetic_spec; reflexivity).
  assert (Fl : archive_files rest (place false false) (lower "be") = Some (map str be_neutral)) by exact (tar_file rest Neutral "be" _ be_listed).
  destruct (atom_loads fl (archive_files rest) "be" false false fuel (map str be_neutral) C [Sub 1 0 2; Sub 2 0 2] ltac:(discriminate) Al eq_refl ltac:(discriminate) ltac:(discriminate) Fl false Hv F B eq_refl P D O Len) as (data & Sl & Rt).
    assert (De := loaded _ _ _ _ _ B D Rt S). assert (V := subs_valid _ _ _ Po S). apply subs_tplaces in S.
    change (tf_blocks t) with [be_block] in S. set (b := be_block) in S.
    assert (Wf : well_formed b = true) by (vm_compute; reflexivity).
    assert (Ln : length (tb_energy b) = 2%nat) by reflexivity. assert (Lb : tb_l b = 0%nat) by reflexivity.
    unfold tplaces in S. cbn [flat_map] in S. rewrite app_nil_r, Ln in S. cbn [seq map] in S. inversion S as [|? s1 ? L1 S1 S']; subst. inversion S' as [|? s2 ? L2 S2 S'']; subst. inversion S''; subst.
    cbn [fst snd] in S1, S2.
    assert (X1 := sub_terms fl Hf _ b 0 s1 Wf ltac:(rewrite Ln; lia) S1). assert (X2 := sub_terms fl Hf _ b 1 s2 Wf ltac:(rewrite Ln; lia) S2).
    assert (T1 : orbital_i (terms_i b 0) = be_1s) by reflexivity.
    assert (T2 : orbital_i (terms_i b 1) = be_2s) by reflexivity.
    destruct S1 as (A1 & (c1 & C1 & O1) & _). destruct S2 as (A2 & (c2 & C2 & O2) & _).
    cbn [block_of bl_l] in A1, A2, C1, C2. rewrite Lb in *. apply be_electrons in C1; [|lia]. apply be_electrons in C2; [|lia]. subst c1 c2.
    exists data, (s_en s1), (s_en s2). split; [exact Sl|].
    replace (be_subs (s_en s1) (s_en s2)) with [s1; s2]; [auto|].
    unfold be_subs. rewrite <- T1, <- T2, <- X1, <- X2. destruct s1 as [o1 n1 l1 x1], s2 as [o2 n2 l2 x2]. cbn [s_occ s_en s_l s_exp] in *. subst. cbn [INR]. repeat f_equal; cbn; lra.
Qed.
