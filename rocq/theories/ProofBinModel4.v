(** Accuracy and sign of models and fits in floating-point formats. *)
From Coq Require Import Reals List ZArith Bool Lia Lra.
From Flocq Require Import Core IEEE754.BinarySingleNaN.
From Verif Require Import SpecDens SpecGrid SpecRnd SpecRnd2 SpecBin SpecBin64 SpecBinModel ModelRnd ModelRnd2 ModelBin64 ModelBinModel ProofRnd ProofRnd2 ProofRnd3
  ProofRnd4 ProofRnd5 ProofRnd6 ProofRnd7 ProofRnd8 ProofRnd9 ProofRnd10 ProofBin64 ProofBin64b ProofBinModel ProofBinModel2 ProofBinModel3.
From Coq Require Import List.
Import ListNotations.
Local Open Scope R_scope.

Section Format.
Variable fm : format.
Local Notation rnd := (near fm).
Local Notation pow2 := (Raux.bpow radix2).
Local Notation u := (pow2 (- digits fm)).
Local Notation eta := (pow2 (bottom fm - 1)).
Local Notation lo := (pow2 (bottom fm + digits fm - 1)).

Lemma u_small : u <= / 2 ^ 53.
Proof.
  assert (F := facts fm). apply Rle_trans with (pow2 (- (53))); [apply bpow_le; lia|]. rewrite bpow_opp. right. f_equal.
  rewrite <- (IZR_Zpower radix2 53) by discriminate. rewrite pow_IZR. reflexivity.
Qed.
Lemma pow53 : 8 <= 2 ^ 53.
Proof. replace 8 with (2 ^ 3) by ring. apply Rle_pow; [lra | repeat constructor]. Qed.
Lemma u_eighth : u <= 1 / 8.
Proof. eapply Rle_trans; [apply u_small|]. assert (P := pow53). unfold Rdiv. rewrite Rmult_1_l. apply Rinv_le_contravar; lra. Qed.
Lemma lo_small : 0 < lo <= 1 / 2.
Proof. assert (F := facts fm). split; [apply bpow_gt_0|]. replace (1 / 2) with (pow2 (- (1))) by (simpl; lra). apply bpow_le. lia. Qed.
Lemma fm_normal : normal u lo rnd.
Proof. assert (F := facts fm). apply bin_normal. lia. Qed.
Lemma ideal_pow_error : pow_error u lo 1 (fun x y => rnd (Rpower x y)).
Proof. exact (round_pow u lo eta _ rnd (r64 fm) u_eighth fm_normal). Qed.
Lemma ideal_exp_error : exp_error u eta (fun y => rnd (exp y)).
Proof.
  split; [apply bpow_ge_0|]. split; [apply bpow_ge_0|]. intros x _. split.
  - apply (rnd_pos _ _ _ _ (r64 fm)). left; apply exp_pos.
  - assert (E := rd_err _ _ _ _ (r64 fm) (exp x)). rewrite (Rabs_pos_eq (exp x)) in E by (left; apply exp_pos). exact E.
Qed.
Lemma ideal_pi_error : Rabs (value (ideal_pi fm) - PI) <= u * PI.
Proof.
  destruct (pi_rep fm) as [[_ ->] _]. assert (P3 : 3 < PI) by (generalize PI2_3_2; lra).
  assert (E := fm_normal PI). rewrite (Rabs_pos_eq PI) in E by lra. apply E. generalize lo_small. lra.
Qed.

Lemma value_error : forall bexp fexp bpow fpow pi, exponential bexp fexp -> library2 bpow fpow -> circle bpow pi (b_lit 3 (-1)) ->
  forall k v z, pow_error u lo k fpow -> Rabs (value pi - PI) <= u * PI -> 1 / 2 <= (1 - u) ^ (2 * k + 2) -> exp_error v z fexp ->
  forall M fused t norm (lay : list (bool * number fm)) c e K, 0 <= M -> length lay = length c -> length e = length c -> orders (length c) t ->
  fusable fused t -> lone fused t = false -> Forall (fun q => moderate (snd q)) lay ->
  Forall2 (fun q a => finite a /\ 0 <= value a <= M /\ safe lo norm (fst q) (value (snd q)) (value a)) lay e ->
  Forall (fun q => (roundings norm (fst q) k <= K)%nat) lay ->
  finite (b_model bexp bpow pi fused t norm lay c e) ->
  let lay' := map (fun q => (fst q, value (snd q))) lay in
  let q := / (1 - u) in
  Rabs (value (b_model bexp bpow pi fused t norm lay c e) - gsum norm lay' (map value c) (map value e)) <=
    (q ^ (height t + 1 + K) * (1 + gauss_error u eta v z M) - 1) * spread (SpecRnd2.top norm) lay' (map value c) (map value e)
    + q ^ (height t + 1) * (eta * (spread (fun p r a => 2 + q ^ (2 * k + 5) * size norm p a) lay' (map value c) (map value e) + INR (length c + additions t))).
Proof.
  intros bexp fexp bpow fpow pi He Hp Hc k v z Ep Epi Hk Ee M fused t norm lay c e K PM Ll Le O Fu Lo Ml F2 FK Fin lay' q.
  assert (Fe : Forall finite e). { clear - F2. induction F2 as [|x y lay e H F IH]; constructor; [apply H | exact IH]. }
  assert (V := model_agrees fm bexp fexp bpow fpow pi He Hp Hc fused t norm lay c e Fu Lo Ml Fe Fin). rewrite V. fold lay'.
  rewrite <- (map_length value c). apply (model_error u eta _ rnd (r64 fm) u_eighth lo k fpow (value pi) lo_small fm_normal Ep Epi Hk v z fexp Ee M PM);
    rewrite ?map_length; unfold lay'; rewrite ?map_length; try assumption.
  - clear - F2. induction F2 as [|x y lay e H F IH]; cbn [map]; constructor; [cbn; tauto | exact IH].
  - clear - FK. induction FK; cbn [map]; constructor; assumption.
Qed.
Lemma value_sign : forall bexp fexp bpow fpow pi, exponential bexp fexp -> library2 bpow fpow -> circle bpow pi (b_lit 3 (-1)) ->
  forall k v z, pow_error u lo k fpow -> Rabs (value pi - PI) <= u * PI -> exp_error v z fexp ->
  forall fused t norm (lay : list (bool * number fm)) c e, fusable fused t -> lone fused t = false -> Forall (fun q => moderate (snd q)) lay ->
  Forall finite e -> Forall (fun a => 0 <= value a) c -> Forall (fun a => 0 <= value a) e ->
  finite (b_model bexp bpow pi fused t norm lay c e) -> 0 <= value (b_model bexp bpow pi fused t norm lay c e).
Proof.
  intros bexp fexp bpow fpow pi He Hp Hc k v z Ep Epi Ee fused t norm lay c e Fu Lo Ml Fe Pc Pe Fin.
  rewrite (model_agrees fm bexp fexp bpow fpow pi He Hp Hc fused t norm lay c e Fu Lo Ml Fe Fin).
  apply (model_pos u eta _ rnd (r64 fm) u_eighth lo k fpow (value pi) Ep Epi v z fexp Ee); apply Forall_map; assumption.
Qed.
Lemma run_sign : forall bexp fexp bpow fpow pi, exponential bexp fexp -> library2 bpow fpow -> circle bpow pi (b_lit 3 (-1)) ->
  forall k v z, pow_error u lo k fpow -> Rabs (value pi - PI) <= u * PI -> exp_error v z fexp ->
  forall (quadr : list (number fm) -> number fm) quadr' fused t norm mask N f ty D oc oe n c e,
  same_rule quadr quadr' -> fusable fused t -> lone fused t = false -> Forall (Forall moderate) D -> finite N ->
  0 <= value mask -> 0 <= value N -> (forall y, Forall (Rle 0) y -> 0 <= quadr' y) -> Forall (fun a => 0 <= value a) f ->
  0 < rnd (quadr' (map value f) / value N) -> length e = length c -> Forall (fun a => 0 <= value a) c -> Forall (fun a => 0 <= value a) e ->
  clean_run bexp bpow pi quadr fused t norm mask N f ty D oc oe n c e ->
  let q := b_fit bexp bpow pi quadr fused t norm mask N f ty D oc oe n c e in
  Forall (fun a => finite a /\ 0 <= value a) (fst q) /\ Forall (fun a => finite a /\ 0 <= value a) (snd q).
Proof.
  intros bexp fexp bpow fpow pi He Hp Hc k v z Ep Epi Ee quadr quadr' fused t norm mask N f ty D oc oe n c e Hq Fu Lo HD HN Pm PN Pq Pf Pl Le Pc Pe Cl q.
  destruct (run_agrees fm bexp fexp bpow fpow pi He Hp Hc quadr quadr' fused t norm mask N f ty D oc oe Hq Fu Lo HD HN n c e Cl) as (E & F1 & F2). fold q in E, F1, F2.
  assert (S : Forall (Rle 0) (map value (fst q)) /\ Forall (Rle 0) (map value (snd q))).
  { eapply (fit_pos rnd fexp fpow (value pi) u eta _ (r64 fm) u_eighth lo k Ep Epi v z Ee); [exact Pm | exact PN | exact Pq | | exact Pl | | | | exact E];
      [apply Forall_map, Pf | rewrite !map_length; exact Le | apply Forall_map, Pc | apply Forall_map, Pe]. }
  destruct S as [S1 S2]. rewrite Forall_map in S1, S2. clear - F1 F2 S1 S2. rewrite Forall_forall in F1, F2, S1, S2. split; apply Forall_forall; intros a I; auto.
Qed.
End Format.
