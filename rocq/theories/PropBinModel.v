(** Property C118: Gaussian models and the fits of the fixed point method in floating-point formats with
    overflow, infinities and NaN. *)
From Coq Require Import Reals List ZArith Bool Lia Lra Permutation.
From Flocq Require Import Core IEEE754.BinarySingleNaN.
From Verif Require Import SpecDens SpecGrid SpecRnd SpecRnd2 SpecBin SpecBin64 SpecBinModel ModelRnd ModelRnd2 ModelBin64 ModelBinModel ProofRnd ProofRnd2 ProofBin64 ProofBin64b
  ProofBinModel ProofBinModel2 ProofBinModel3 ProofBinModel4.
From Coq Require Import List.
Import ListNotations.
Local Open Scope R_scope.

(** Multiply-add with one rounding, and dot products that use it for some products. *)
Theorem C118_dot : forall fm : format,
  (forall a b c : number fm, finite a -> finite b -> finite c ->
   (fits fm (near fm (value a * value b + value c)) -> represents (b_fma a b c) (near fm (value a * value b + value c))) /\
   (largest fm <= Rabs (near fm (value a * value b + value c)) -> ~ finite (b_fma a b c))) /\
  (forall fused t (m c : list (number fm)), fusable fused t -> lone fused t = false ->
   agrees (b_dot fused t m c) (fl_dot (near fm) fused t (map value m) (map value c))).
Proof.
  exact (fun fm => conj (fma_exact fm) (fun fused t m c Fu Lo => dot_agrees fm fused t m _ c _ Fu Lo (selves_agree fm m) (selves_agree fm c))).
Qed.
Print Assumptions C118_dot.

(** The value of a model at one point, with s-type and p-type functions, normalized or not: when it is
    finite it is that of the rounded model, also where an exponent overflows. *)
Theorem C118_model : forall (fm : format) bexp fexp bpow fpow (pi : number fm),
  exponential bexp fexp -> library2 bpow fpow -> circle bpow pi (b_lit 3 (-1)) ->
  forall fused t norm lay c e, fusable fused t -> lone fused t = false ->
  Forall (fun q => moderate (snd q)) lay -> Forall finite e ->
  agrees (b_model bexp bpow pi fused t norm lay c e)
    (fl_model (near fm) fexp fpow (value pi) fused t norm (map (fun q => (fst q, value (snd q))) lay) (map value c) (map value e)).
Proof. exact model_agrees. Qed.
Print Assumptions C118_model.

(** It is finite when distances, normalization constants and coefficients are at most [2^s], [2^k] and
    [2^b] and the number of functions times [2^(2s+k+b)] is below the overflow threshold. *)
Theorem C118_no_overflow : forall (fm : format) bexp fexp bpow fpow (pi : number fm),
  damping bexp fexp -> library2 bpow fpow -> circle bpow pi (b_lit 3 (-1)) ->
  forall fused t norm lay c e s k b, fusable fused t -> lone fused t = false ->
  (0 <= s)%Z -> (0 <= k)%Z -> (2 * s + k < top fm)%Z -> (bottom fm <= 2 * s + k + b)%Z ->
  (Z.of_nat (length (leaves t)) < 2 ^ digits fm)%Z -> INR (length (leaves t)) * Raux.bpow radix2 (2 * s + k + b) < largest fm ->
  Forall (fun q : bool * number fm => finite (snd q) /\ Rabs (value (snd q)) <= Raux.bpow radix2 s) lay ->
  Forall (fun a => finite a /\ 0 <= value a) e ->
  Forall (fun x => finite x /\ Rabs (value x) <= Raux.bpow radix2 b) c ->
  (norm = true -> forall p a, In (p, a) (combine (map fst lay) e) -> finite (b_norm bpow pi p a) /\ Rabs (value (b_norm bpow pi p a)) <= Raux.bpow radix2 k) ->
  represents (b_model bexp bpow pi fused t norm lay c e)
    (fl_model (near fm) fexp fpow (value pi) fused t norm (map (fun q => (fst q, value (snd q))) lay) (map value c) (map value e)).
Proof. exact model_rep. Qed.
Print Assumptions C118_no_overflow.

(** A finite value is near the documented linear combination, and not negative when coefficients and
    exponents are not. *)
Theorem C118_value : forall (fm : format) bexp fexp bpow fpow (pi : number fm),
  exponential bexp fexp -> library2 bpow fpow -> circle bpow pi (b_lit 3 (-1)) ->
  let u := Raux.bpow radix2 (- digits fm) in
  let eta := Raux.bpow radix2 (bottom fm - 1) in
  let lo := Raux.bpow radix2 (bottom fm + digits fm - 1) in
  forall k v z, pow_error u lo k fpow -> Rabs (value pi - PI) <= u * PI -> 1 / 2 <= (1 - u) ^ (2 * k + 2) -> exp_error v z fexp ->
  forall M fused t norm (lay : list (bool * number fm)) c e K, 0 <= M -> length lay = length c -> length e = length c -> orders (length c) t ->
  fusable fused t -> lone fused t = false -> Forall (fun q => moderate (snd q)) lay ->
  Forall2 (fun q a => finite a /\ 0 <= value a <= M /\ safe lo norm (fst q) (value (snd q)) (value a)) lay e ->
  Forall (fun q => (roundings norm (fst q) k <= K)%nat) lay ->
  finite (b_model bexp bpow pi fused t norm lay c e) ->
  let lay' := map (fun q => (fst q, value (snd q))) lay in
  let q := / (1 - u) in
  Rabs (value (b_model bexp bpow pi fused t norm lay c e) - gsum norm lay' (map value c) (map value e)) <=
    (q ^ (height t + 1 + K) * (1 + gauss_error u eta v z M) - 1) * spread (SpecRnd2.top norm) lay' (map value c) (map value e)
    + q ^ (height t + 1) * (eta * (spread (fun p r a => 2 + q ^ (2 * k + 5) * size norm p a) lay' (map value c) (map value e) + INR (length c + additions t))).
Proof. exact value_error. Qed.
Print Assumptions C118_value.

Theorem C118_sign : forall (fm : format) bexp fexp bpow fpow (pi : number fm),
  exponential bexp fexp -> library2 bpow fpow -> circle bpow pi (b_lit 3 (-1)) ->
  let u := Raux.bpow radix2 (- digits fm) in
  let lo := Raux.bpow radix2 (bottom fm + digits fm - 1) in
  forall k v z, pow_error u lo k fpow -> Rabs (value pi - PI) <= u * PI -> exp_error v z fexp ->
  forall fused t norm (lay : list (bool * number fm)) c e, fusable fused t -> lone fused t = false -> Forall (fun q => moderate (snd q)) lay ->
  Forall finite e -> Forall (fun a => 0 <= value a) c -> Forall (fun a => 0 <= value a) e ->
  finite (b_model bexp bpow pi fused t norm lay c e) -> 0 <= value (b_model bexp bpow pi fused t norm lay c e).
Proof. exact value_sign. Qed.
Print Assumptions C118_sign.

(** Distances whose square overflows: p-type functions are infinite or NaN whatever the exponent, s-type
    functions with the exponent zero too; with a positive exponent s-type functions are zero. *)
Theorem C118_far : forall (fm : format) (r : number fm), largest fm <= Rabs (near fm (value r * value r)) ->
  (forall bexp bpow pi norm a, ~ finite (b_elem bexp bpow pi norm true r a)) /\
  (forall bexp fexp bpow pi norm a, exponential bexp fexp -> finite a -> value a = 0 -> ~ finite (b_elem bexp bpow pi norm false r a)) /\
  (forall bexp fexp bpow pi a, exponential bexp fexp -> finite a -> 0 < value a -> represents (b_elem bexp bpow pi false false r a) 0).
Proof. exact (fun fm r L => conj (far_p fm r L) (conj (far_zero fm r L) (far_s fm r L))). Qed.
Print Assumptions C118_far.

(** A library that rounds correctly meets all that is asked of the library, in every format. *)
Theorem C118_library : forall fm : format,
  let u := Raux.bpow radix2 (- digits fm) in
  let eta := Raux.bpow radix2 (bottom fm - 1) in
  let lo := Raux.bpow radix2 (bottom fm + digits fm - 1) in
  (forall x, (fits fm (near fm x) -> represents (nearest fm x) (near fm x)) /\ (largest fm <= Rabs (near fm x) -> ~ finite (nearest fm x))) /\
  damping (ideal_exp fm) (fun y => near fm (exp y)) /\ library2 (ideal_pow fm) (fun x y => near fm (Rpower x y)) /\
  circle (ideal_pow fm) (ideal_pi fm) (b_lit 3 (-1)) /\
  exp_error u eta (fun y => near fm (exp y)) /\ pow_error u lo 1 (fun x y => near fm (Rpower x y)) /\
  Rabs (value (ideal_pi fm) - PI) <= u * PI.
Proof.
  exact (fun fm => conj (nearest_exact fm) (conj (ideal_damping fm) (conj (ideal_library fm) (conj (ideal_circle fm)
    (conj (ideal_exp_error fm) (conj (ideal_pow_error fm) (ideal_pi_error fm))))))).
Qed.
Print Assumptions C118_library.

(** One pass of the fixed point method: where the new parameters are finite they are those of the
    rounded update. *)
Theorem C118_step : forall (fm : format) bexp fexp bpow fpow (pi : number fm),
  exponential bexp fexp -> library2 bpow fpow -> circle bpow pi (b_lit 3 (-1)) ->
  forall (quadr : list (number fm) -> number fm) quadr' fused t norm mask N f ty D oc oe,
  same_rule quadr quadr' -> fusable fused t -> lone fused t = false -> Forall (Forall moderate) D -> finite N ->
  forall c e cr er, Forall finite e -> clean bexp bpow pi quadr fused t norm mask N f ty D oc oe c e ->
  fl_params (near fm) fexp fpow (value pi) quadr' fused t norm (value mask) (value N) (map value f) ty (map (map value) D) oc oe (map value c) (map value e) = Some (cr, er) ->
  let q := b_params bexp bpow pi quadr fused t norm mask N f ty D oc oe c e in Forall2 agrees (fst q) cr /\ Forall2 agrees (snd q) er.
Proof. exact params_agree. Qed.
Print Assumptions C118_step.

(** Any number of passes. *)
Theorem C118_runs : forall (fm : format) bexp fexp bpow fpow (pi : number fm),
  exponential bexp fexp -> library2 bpow fpow -> circle bpow pi (b_lit 3 (-1)) ->
  forall (quadr : list (number fm) -> number fm) quadr' fused t norm mask N f ty D oc oe,
  same_rule quadr quadr' -> fusable fused t -> lone fused t = false -> Forall (Forall moderate) D -> finite N ->
  forall n c e, clean_run bexp bpow pi quadr fused t norm mask N f ty D oc oe n c e ->
  let q := b_fit bexp bpow pi quadr fused t norm mask N f ty D oc oe n c e in
  fl_fit (near fm) fexp fpow (value pi) quadr' fused t norm (value mask) (value N) (map value f) ty (map (map value) D) oc oe n (map value c) (map value e)
    = Some (map value (fst q), map value (snd q)) /\ Forall finite (fst q) /\ Forall finite (snd q).
Proof. exact run_agrees. Qed.
Print Assumptions C118_runs.

(** No coefficient and no exponent is ever negative. *)
Theorem C118_runs_sign : forall (fm : format) bexp fexp bpow fpow (pi : number fm),
  exponential bexp fexp -> library2 bpow fpow -> circle bpow pi (b_lit 3 (-1)) ->
  let u := Raux.bpow radix2 (- digits fm) in
  let lo := Raux.bpow radix2 (bottom fm + digits fm - 1) in
  forall k v z, pow_error u lo k fpow -> Rabs (value pi - PI) <= u * PI -> exp_error v z fexp ->
  forall (quadr : list (number fm) -> number fm) quadr' fused t norm mask N f ty D oc oe n c e,
  same_rule quadr quadr' -> fusable fused t -> lone fused t = false -> Forall (Forall moderate) D -> finite N ->
  0 <= value mask -> 0 <= value N -> (forall y, Forall (Rle 0) y -> 0 <= quadr' y) -> Forall (fun a => 0 <= value a) f ->
  0 < near fm (quadr' (map value f) / value N) -> length e = length c -> Forall (fun a => 0 <= value a) c -> Forall (fun a => 0 <= value a) e ->
  clean_run bexp bpow pi quadr fused t norm mask N f ty D oc oe n c e ->
  let q := b_fit bexp bpow pi quadr fused t norm mask N f ty D oc oe n c e in
  Forall (fun a => finite a /\ 0 <= value a) (fst q) /\ Forall (fun a => finite a /\ 0 <= value a) (snd q).
Proof. exact run_sign. Qed.
Print Assumptions C118_runs_sign.

(** ** Examples *)
Local Notation double := (number binary64).
Local Notation rnd64 := (near binary64).
Local Notation lit := (@ModelBin64.b_lit binary64).
Definition d1 : double := lit 1 0.
Definition d2 : double := lit 1 1.
Definition dh : double := lit 1 (-1).
Definition d0 : double := @b_zero binary64.
Lemma lit_value : forall m e, bin_fmt (-1074) 53 (IZR m * Raux.bpow radix2 e) -> Rabs (IZR m * Raux.bpow radix2 e) < largest binary64 ->
  represents (lit m e) (IZR m * Raux.bpow radix2 e).
Proof. exact (lit_rep binary64). Qed.
Lemma d1_rep : represents d1 1. Proof. exact (lit_int binary64 1 eq_refl). Qed.
Lemma d2_rep : represents d2 2. Proof. exact (fmt_lit binary64 1 ltac:(unfold bottom; simpl; lia)). Qed.
Lemma dh_rep : represents dh (/ 2). Proof. exact (fmt_lit binary64 (-1) ltac:(unfold bottom; simpl; lia)). Qed.
Lemma same_double : forall a b : double, B2SF a = B2SF b -> a = b.
Proof. apply B2SF_inj. Qed.
Definition second (i : nat) : bool := Nat.eqb i 1.
Definition t2 : order := Plus (At 0) (At 1).
Lemma t2_fuse : fusable second t2 /\ lone second t2 = false. Proof. repeat split. Qed.

(** The second product, (1 + 2^-52)^2, is added exactly to -1 - 2^-51: the result is 2^-104 and not zero. *)
Example C118_dot_example : let x := lit 4503599627370497 (-52) in let m := lit (-4503599627370498) (-52) in
  b_dot second t2 [m; x] [d1; x] = lit 1 (-104) /\ b_dot (fun _ => false) t2 [m; x] [d1; x] = d0.
Proof. split; apply same_double; vm_compute; reflexivity. Qed.

(** Distances 0 and 3 with the library that rounds correctly. *)
Definition lay2 : list (bool * double) := [(false, d0); (true, lit 3 0)].
Lemma lay2_bound : Forall (fun q : bool * double => finite (snd q) /\ Rabs (value (snd q)) <= Raux.bpow radix2 2) lay2.
Proof.
  assert (E : Raux.bpow radix2 2 = 4) by reflexivity. rewrite E. repeat apply Forall_cons; try apply Forall_nil; cbn [snd].
  - split; [reflexivity|]. change (value d0) with 0. rewrite Rabs_R0. lra.
  - destruct (lit_int binary64 3 eq_refl) as [F V]. split; [exact F|]. rewrite V, Rabs_pos_eq; lra.
Qed.
Example C118_no_overflow_example :
  represents (b_model (ideal_exp binary64) (ideal_pow binary64) (ideal_pi binary64) second t2 false lay2 [d1; d2] [dh; d2])
    (fl_model rnd64 (fun y => rnd64 (exp y)) (fun x y => rnd64 (Rpower x y)) (value (ideal_pi binary64)) second t2 false
       (map (fun q => (fst q, value (snd q))) lay2) [1; 2] [/ 2; 2]).
Proof.
  destruct (C118_library binary64) as (_ & Hd & Hp & Hc & _). replace [1; 2] with (map value [d1; d2]) by (cbn [map]; rewrite (proj2 d1_rep), (proj2 d2_rep); reflexivity).
  replace [/ 2; 2] with (map value [dh; d2]) by (cbn [map]; rewrite (proj2 dh_rep), (proj2 d2_rep); reflexivity).
  apply (C118_no_overflow binary64 _ _ _ _ _ Hd Hp Hc second t2 false lay2 [d1; d2] [dh; d2] 2 0 1); try apply t2_fuse; try (unfold bottom; simpl; lia).
  - cbn [leaves t2 app length]. change (Raux.bpow radix2 (2 * 2 + 0 + 1)) with 32. apply Rlt_trans with (Raux.bpow radix2 7); [|apply (pow_lt_largest binary64); reflexivity].
    change (Raux.bpow radix2 7) with 128. simpl. lra.
  - exact lay2_bound.
  - repeat apply Forall_cons; try apply Forall_nil; (split; [first [apply dh_rep | apply d2_rep]|]); rewrite ?(proj2 dh_rep), ?(proj2 d2_rep); lra.
  - change (Raux.bpow radix2 1) with 2. repeat apply Forall_cons; try apply Forall_nil; (split; [first [apply d1_rep | apply d2_rep]|]); rewrite ?(proj2 d1_rep), ?(proj2 d2_rep), Rabs_pos_eq; lra.
Qed.
Lemma lay2_moderate : Forall (fun q : bool * double => moderate (snd q)) lay2.
Proof.
  eapply Forall_impl; [|exact lay2_bound]. intros q [F B]. split; [exact F|].
  apply (mul_rep binary64 (snd q) (snd q) _ _ 2 2 (self_rep binary64 _ F) (self_rep binary64 _ F)) in B; [|exact B | unfold bottom; simpl; lia].
  unfold fits. eapply Rle_lt_trans; [apply B | apply (pow_lt_largest binary64); reflexivity].
Qed.
(** An exponent that overflows: exp(-2^1000 * (2^500)^2) is zero, not NaN. *)
Example C118_model_example :
  agrees (b_model (ideal_exp binary64) (ideal_pow binary64) (ideal_pi binary64) second t2 true lay2 [d1; d2] [dh; lit 1 1000])
    (fl_model rnd64 (fun y => rnd64 (exp y)) (fun x y => rnd64 (Rpower x y)) (value (ideal_pi binary64)) second t2 true
       (map (fun q => (fst q, value (snd q))) lay2) (map value [d1; d2]) (map value [dh; lit 1 1000])) /\
  b_elem (ideal_exp binary64) (ideal_pow binary64) (ideal_pi binary64) false false (lit 1 500) (lit 1 1000) = d0.
Proof.
  destruct (C118_library binary64) as (_ & Hd & Hp & Hc & _). split.
  - apply (C118_model binary64 _ _ _ _ _ (proj1 Hd) Hp Hc); try apply t2_fuse; [exact lay2_moderate|].
    repeat apply Forall_cons; try apply Forall_nil; vm_compute; reflexivity.
  - unfold b_elem. cbv zeta. replace (b_mul (Bopp (lit 1 1000)) (b_mul (lit 1 500) (lit 1 500))) with (B754_infinity true : double); [reflexivity|].
    apply same_double. vm_compute. reflexivity.
Qed.
Example C118_sign_example :
  0 <= value (b_model (ideal_exp binary64) (ideal_pow binary64) (ideal_pi binary64) second t2 false lay2 [d1; d2] [dh; d2]).
Proof.
  destruct (C118_library binary64) as (_ & Hd & Hp & Hc & Ee & Ep & Epi).
  apply (C118_sign binary64 _ _ _ _ _ (proj1 Hd) Hp Hc 1%nat _ _ Ep Epi Ee); try apply t2_fuse; try exact lay2_moderate; try apply C118_no_overflow_example;
    repeat apply Forall_cons; try apply Forall_nil; try apply dh_rep; try apply d2_rep; rewrite ?(proj2 d1_rep), ?(proj2 d2_rep), ?(proj2 dh_rep); lra.
Qed.
(** The distance 2^600. *)
Example C118_far_example :
  ~ finite (b_elem (ideal_exp binary64) (ideal_pow binary64) (ideal_pi binary64) true true (lit 1 600) d1) /\
  ~ finite (b_elem (ideal_exp binary64) (ideal_pow binary64) (ideal_pi binary64) false false (lit 1 600) d0) /\
  represents (b_elem (ideal_exp binary64) (ideal_pow binary64) (ideal_pi binary64) false false (lit 1 600) d1) 0.
Proof.
  assert (L : largest binary64 <= Rabs (rnd64 (value (lit 1 600) * value (lit 1 600)))).
  { rewrite (proj2 (fmt_lit binary64 600 ltac:(unfold bottom; simpl; lia))). rewrite <- bpow_plus.
    unfold near. rewrite (rd_id _ _ _ _ (r64 binary64) _ (bpow_fmt binary64 (600 + 600) ltac:(unfold bottom; simpl; lia))).
    rewrite Rabs_pos_eq by apply bpow_ge_0. apply bpow_le. simpl. lia. }
  destruct (C118_library binary64) as (_ & Hd & _). destruct (C118_far binary64 (lit 1 600) L) as (A & B & C). split; [apply A|]. split.
  - apply (B _ _ _ _ _ _ (proj1 Hd)); reflexivity.
  - apply (C _ _ _ _ _ (proj1 Hd)); [apply d1_rep | rewrite (proj2 d1_rep); lra].
Qed.
Example C118_library_example : represents (nearest extended PI) (near extended PI) /\ represents (ideal_exp binary128 b_zero) 1.
Proof.
  split; [apply (pi_rep extended)|]. change (ideal_exp binary128 b_zero) with (nearest binary128 (exp 0)). rewrite exp_0.
  assert (E : near binary128 1 = 1) by exact (rd_id _ _ _ _ (r64 binary128) _ (bpow_fmt binary128 0 ltac:(unfold bottom; simpl; lia))).
  rewrite <- E at 2. apply (proj1 (C118_library binary128)). rewrite E. apply (int_fits binary128 1); [lia | lra].
Qed.

(** A coarse exponential: 1 from -1/4 on, 1/2 from -2^1000 on, 0 below. *)
Definition step_exp (x : double) : double :=
  match x with
  | B754_infinity true => d0
  | B754_infinity false => x
  | B754_nan => x
  | _ => if Bleb (lit (-1) (-2)) x then d1 else if Bleb (lit (-1) 1000) x then dh else d0
  end.
Definition step_real (y : R) : R := if Rle_dec (-1 * Raux.bpow radix2 (-2)) y then 1 else if Rle_dec (-1 * Raux.bpow radix2 1000) y then / 2 else 0.
Lemma neg_rep : forall e, (-1074 <= e < 1024)%Z -> represents (lit (-1) e) (-1 * Raux.bpow radix2 e).
Proof.
  intros e L. apply lit_value.
  - change (-1) with (- (1)). rewrite Ropp_mult_distr_l_reverse, Rmult_1_l. apply (rd_opp _ _ _ _ (r64 binary64)). apply (bpow_fmt binary64). unfold bottom. simpl. lia.
  - rewrite Rabs_mult, (Rabs_left (-1)) by lra. rewrite Rabs_pos_eq by apply bpow_ge_0. replace (- -1 * Raux.bpow radix2 e) with (Raux.bpow radix2 e) by ring.
    apply (pow_lt_largest binary64). simpl. lia.
Qed.
Lemma step_exponential : exponential step_exp step_real.
Proof.
  destruct (neg_rep (-2) ltac:(lia)) as [Fq Vq]. destruct (neg_rep 1000 ltac:(lia)) as [Fl Vl]. split; [|split; [|split; [|split]]].
  - intros x F _. assert (E : step_exp x = if Bleb (lit (-1) (-2)) x then d1 else if Bleb (lit (-1) 1000) x then dh else d0)
      by (destruct x as [s|s| |s m e H]; try reflexivity; discriminate F).
    rewrite E. unfold step_real. assert (A := leb_spec binary64 _ x Fq F). assert (B := leb_spec binary64 _ x Fl F). rewrite Vq in A. rewrite Vl in B.
    destruct (Rle_dec (-1 * Raux.bpow radix2 (-2)) (value x)) as [L|L].
    + rewrite (proj2 A L). apply d1_rep.
    + destruct (Bleb (lit (-1) (-2)) x); [destruct (L (proj1 A eq_refl))|]. destruct (Rle_dec (-1 * Raux.bpow radix2 1000) (value x)) as [K|K].
      * rewrite (proj2 B K). apply dh_rep.
      * destruct (Bleb (lit (-1) 1000) x); [destruct (K (proj1 B eq_refl)) | reflexivity].
  - split; reflexivity.
  - intros y L. unfold step_real. assert (P : Raux.bpow radix2 1000 < largest binary64) by (apply (pow_lt_largest binary64); reflexivity).
    assert (Q : Raux.bpow radix2 (-2) < Raux.bpow radix2 1000) by (apply bpow_lt; lia).
    destruct (Rle_dec _ y); [lra|]. destruct (Rle_dec _ y); [lra | reflexivity].
  - discriminate.
  - discriminate.
Qed.
Definition t01 : order := Plus (At 1) (At 0).
Definition rule2 : list double -> double := b_cubic t01 [d1; d1].
Definition rule2r : list R -> R := fl_cubic rnd64 t01 (map value [d1; d1]).
Lemma rule2_same : same_rule rule2 rule2r.
Proof. intros y y' F. apply (cubic_agrees binary64); [apply (selves_agree binary64) | exact F]. Qed.
Definition mask40 : double := lit 1 (-40).
Definition dist2 : list (list double) := [[d0; d0]; [d1; d1]].
Lemma dist2_moderate : Forall (Forall moderate) dist2.
Proof.
  assert (Z : moderate d0). { split; [reflexivity|]. change (value d0) with 0. rewrite Rmult_0_l, (rnd0 binary64). unfold fits. rewrite Rabs_R0. apply bpow_gt_0. }
  assert (O : moderate d1). { destruct d1_rep as [F V]. split; [exact F|]. rewrite V, Rmult_1_l.
    assert (E : rnd64 1 = 1) by exact (rd_id _ _ _ _ (r64 binary64) _ (bpow_fmt binary64 0 ltac:(unfold bottom; simpl; lia))).
    rewrite E. apply (int_fits binary64 1); [lia | lra]. }
  unfold dist2. repeat apply Forall_cons; try apply Forall_nil; assumption.
Qed.
Lemma seen_small : forall f g : double, finite f -> finite g -> 0 <= value f <= 4 -> 1 < value g -> seen mask40 f g.
Proof.
  intros f g Ff Fg Bf Bg. split; [vm_compute; reflexivity|]. split; [exact Ff|]. split; [exact Fg|]. right. rewrite (Rabs_pos_eq (value g)) by lra. apply Rle_lt_trans with 1; [|exact Bg].
  eapply Rle_trans; [apply Rle_abs|]. apply (rnd_bound binary64); [exact (bpow_fmt binary64 0 ltac:(unfold bottom; simpl; lia))|].
  rewrite (Rabs_pos_eq (value f)) by lra. assert (P : 4 <= 2 ^ 1022). { replace 4 with (2 ^ 2) by ring. apply Rle_pow; [lra | repeat constructor]. }
  assert (0 < 2 ^ 1022) by lra. rewrite Rabs_pos_eq by (apply Rmult_le_pos; [lra | left; apply Rinv_0_lt_compat; lra]).
  apply Rmult_le_reg_r with (2 ^ 1022); [lra|]. rewrite Rmult_assoc, Rinv_l by lra. lra.
Qed.

(** Two functions at the distances 0 and 1, coefficients 2 and 2, exponents 1 and 2, density 4 and 2:
    the coefficients stay and both exponents become 9/2. *)
Local Notation params := (b_params step_exp (ideal_pow binary64) (ideal_pi binary64) rule2 second t2 false mask40 (lit 1 2) [lit 1 2; d2] [false; false] dist2 true true).
Local Notation fitted := (b_fit step_exp (ideal_pow binary64) (ideal_pi binary64) rule2 second t2 false mask40 (lit 1 2) [lit 1 2; d2] [false; false] dist2 true true).
Local Notation values := (b_values step_exp (ideal_pow binary64) (ideal_pi binary64) second t2 false [false; false] dist2).
Lemma params_1 : params [d2; d2] [d1; d2] = ([d2; d2], [lit 9 (-1); lit 9 (-1)]).
Proof. unfold b_params. cbn [length seq map]. repeat apply f_equal2; try apply same_double; try (vm_compute; reflexivity). Qed.
Lemma params_2 : params [d2; d2] [lit 9 (-1); lit 9 (-1)] = ([d2; d2], [lit 9 (-1); lit 9 (-1)]).
Proof. unfold b_params. cbn [length seq map]. repeat apply f_equal2; try apply same_double; try (vm_compute; reflexivity). Qed.
Lemma values_1 : values [d2; d2] [d1; d2] = [lit 1 2; d2].
Proof. unfold b_values, b_rows, dist2. cbn [map]. repeat apply f_equal2; try apply same_double; try (vm_compute; reflexivity). Qed.
Lemma values_2 : values [d2; d2] [lit 9 (-1); lit 9 (-1)] = [lit 1 2; d2].
Proof. unfold b_values, b_rows, dist2. cbn [map]. repeat apply f_equal2; try apply same_double; try (vm_compute; reflexivity). Qed.
Lemma d4_rep : represents (lit 1 2) 4. Proof. exact (fmt_lit binary64 2 ltac:(unfold bottom; simpl; lia)). Qed.
Lemma clean_at : forall e, Forall finite e -> values [d2; d2] e = [lit 1 2; d2] ->
  (forall k, (k < 2)%nat -> finite (b_avrg2 rule2 mask40 [lit 1 2; d2] [lit 1 2; d2] (b_col (b_rows step_exp (ideal_pow binary64) (ideal_pi binary64) false [false; false] dist2 e) k) (b_col dist2 k))) ->
  clean step_exp (ideal_pow binary64) (ideal_pi binary64) rule2 second t2 false mask40 (lit 1 2) [lit 1 2; d2] [false; false] dist2 true true [d2; d2] e.
Proof.
  intros e Fe V A. destruct d4_rep as [F4 V4]. destruct d2_rep as [F2 V2]. unfold clean. cbv zeta. rewrite V. split; [|split; [|split]].
  - intros y [<-|[<-|[]]]; lra.
  - intros x y [E|[E|[]]]; apply pair_equal_spec in E; destruct E as [<- <-]; apply seen_small; try assumption; lra.
  - intros _. vm_compute. reflexivity.
  - intros _. exact A.
Qed.
Lemma clean_2 : clean_run step_exp (ideal_pow binary64) (ideal_pi binary64) rule2 second t2 false mask40 (lit 1 2) [lit 1 2; d2] [false; false] dist2 true true 2 [d2; d2] [d1; d2].
Proof.
  assert (F2 : Forall finite [d2; d2]) by (repeat apply Forall_cons; try apply Forall_nil; apply d2_rep).
  assert (F12 : Forall finite [d1; d2]) by (repeat apply Forall_cons; try apply Forall_nil; first [apply d1_rep | apply d2_rep]).
  assert (F9 : Forall finite [lit 9 (-1); lit 9 (-1)]) by (repeat apply Forall_cons; try apply Forall_nil; vm_compute; reflexivity).
  cbn [clean_run]. cbv zeta. rewrite params_1. cbn [fst snd]. rewrite params_2. cbn [fst snd].
  repeat (split; [assumption|]). split; [apply (clean_at _ F12 values_1); intros [|[|k]] L; try lia; vm_compute; reflexivity|].
  repeat (split; [assumption|]). split; [apply (clean_at _ F9 values_2); intros [|[|k]] L; try lia; vm_compute; reflexivity|]. auto.
Qed.
Example C118_runs_example :
  fl_fit rnd64 step_real (fun x y => rnd64 (Rpower x y)) (value (ideal_pi binary64)) rule2r second t2 false (value mask40) 4 [4; 2] [false; false] [[0; 0]; [1; 1]] true true 2 [2; 2] [1; 2]
  = Some ([2; 2], [9 / 2; 9 / 2]).
Proof.
  destruct (C118_library binary64) as (_ & _ & Hp & Hc & _).
  assert (R := C118_runs binary64 _ _ _ _ _ step_exponential Hp Hc rule2 rule2r second t2 false mask40 (lit 1 2) [lit 1 2; d2] [false; false] dist2 true true
    rule2_same (proj1 t2_fuse) (proj2 t2_fuse) dist2_moderate (proj1 d4_rep) 2 [d2; d2] [d1; d2] clean_2).
  cbn [b_fit] in R. rewrite params_1 in R. cbn [fst snd] in R. rewrite params_2 in R. destruct R as [R _]. unfold dist2 in R. cbn [fst snd map] in R.
  rewrite (proj2 d4_rep), (proj2 d2_rep), (proj2 d1_rep), (proj2 (half_rep binary64 9 eq_refl)) in R. exact R.
Qed.
Example C118_step_example : clean step_exp (ideal_pow binary64) (ideal_pi binary64) rule2 second t2 false mask40 (lit 1 2) [lit 1 2; d2] [false; false] dist2 true true [d2; d2] [d1; d2] /\
  forall cr er, fl_params rnd64 step_real (fun x y => rnd64 (Rpower x y)) (value (ideal_pi binary64)) rule2r second t2 false (value mask40) (value (lit 1 2)) (map value [lit 1 2; d2])
    [false; false] (map (map value) dist2) true true (map value [d2; d2]) (map value [d1; d2]) = Some (cr, er) -> cr = [2; 2] /\ er = [9 / 2; 9 / 2].
Proof.
  destruct clean_2 as (_ & Fe & Cl & _). split; [exact Cl|]. intros cr er E. destruct (C118_library binary64) as (_ & _ & Hp & Hc & _).
  destruct (C118_step binary64 _ _ _ _ _ step_exponential Hp Hc rule2 rule2r second t2 false mask40 (lit 1 2) [lit 1 2; d2] [false; false] dist2 true true
    rule2_same (proj1 t2_fuse) (proj2 t2_fuse) dist2_moderate (proj1 d4_rep) [d2; d2] [d1; d2] cr er Fe Cl E) as [A B].
  rewrite params_1 in A, B. cbn [fst snd] in A, B.
  apply agree_values in A; [|repeat apply Forall_cons; try apply Forall_nil; apply d2_rep].
  apply agree_values in B; [|repeat apply Forall_cons; try apply Forall_nil; vm_compute; reflexivity].
  rewrite <- A, <- B. cbn [map]. rewrite (proj2 d2_rep), (proj2 (half_rep binary64 9 eq_refl)). split; reflexivity.
Qed.
Lemma step_error : exp_error 0 1 step_real.
Proof.
  split; [lra|]. split; [lra|]. intros x L. assert (P := exp_pos x). assert (Q : exp x <= 1).
  { destruct L as [L|L]; [left; rewrite <- exp_0; apply exp_increasing, L | rewrite L, exp_0; lra]. }
  unfold step_real. destruct (Rle_dec _ x); [|destruct (Rle_dec _ x)]; (split; [lra | apply Rabs_le; lra]).
Qed.
Lemma rule2_pos : forall y, Forall (Rle 0) y -> 0 <= rule2r y.
Proof.
  intros y F. apply (cubic_pos _ _ _ _ (r64 binary64)); [|exact F]. cbn [map]. rewrite (proj2 d1_rep). repeat apply Forall_cons; try apply Forall_nil; lra.
Qed.
Example C118_runs_sign_example : let q := fitted 2 [d2; d2] [d1; d2] in
  Forall (fun a => finite a /\ 0 <= value a) (fst q) /\ Forall (fun a => finite a /\ 0 <= value a) (snd q).
Proof.
  destruct (C118_library binary64) as (_ & _ & Hp & Hc & _ & Ep & Epi). destruct d4_rep as [F4 V4]. destruct d2_rep as [F2 V2]. destruct d1_rep as [F1 V1].
  apply (C118_runs_sign binary64 _ _ _ _ _ step_exponential Hp Hc 1%nat _ _ Ep Epi step_error rule2 rule2r second t2 false mask40 (lit 1 2) [lit 1 2; d2] [false; false] dist2 true true
    2 [d2; d2] [d1; d2] rule2_same (proj1 t2_fuse) (proj2 t2_fuse) dist2_moderate F4); try reflexivity; try exact rule2_pos; try exact clean_2;
    try (repeat apply Forall_cons; try apply Forall_nil; lra).
  - unfold mask40. rewrite (proj2 (fmt_lit binary64 (-40) ltac:(unfold bottom; simpl; lia))). apply bpow_ge_0.
  - assert (E : value (rule2 [lit 1 2; d2]) = rule2r (map value [lit 1 2; d2])) by (apply rule2_same; [apply (selves_agree binary64) | vm_compute; reflexivity]).
    rewrite <- E. assert (D : value (b_div (rule2 [lit 1 2; d2]) (lit 1 2)) = rnd64 (value (rule2 [lit 1 2; d2]) / value (lit 1 2)))
      by (apply (div_agrees binary64); [apply (self_agrees binary64) | apply (self_rep binary64), F4 | vm_compute; reflexivity]).
    rewrite <- D. replace (b_div (rule2 [lit 1 2; d2]) (lit 1 2)) with (lit 3 (-1)) by (apply same_double; vm_compute; reflexivity).
    rewrite (proj2 (half_rep binary64 3 eq_refl)). lra.
Qed.
(** The model of [C118_no_overflow_example], whose value is [exp 0 + 2 * 9 * exp (- 2 * 9)]. *)
Example C118_value_example :
  let u := Raux.bpow radix2 (- (53)) in let eta := Raux.bpow radix2 (-1075) in let q := / (1 - u) in
  Rabs (value (b_model (ideal_exp binary64) (ideal_pow binary64) (ideal_pi binary64) second t2 false lay2 [d1; d2] [dh; d2]) - gsum false [(false, 0); (true, 3)] [1; 2] [/ 2; 2]) <=
    (q ^ (1 + 1 + 2) * (1 + gauss_error u eta u eta 2) - 1) * 19 + q ^ 2 * (eta * ((1 * (2 + q ^ 7 * 1) + (2 * (2 + q ^ 7 * 1) + 0)) + INR 3)).
Proof.
  intros u eta q. destruct (C118_library binary64) as (_ & Hd & Hp & Hc & Ee & Ep & Epi). destruct d2_rep as [F2 V2]. destruct d1_rep as [F1 V1]. destruct dh_rep as [Fh Vh].
  assert (V := C118_value binary64 _ _ _ _ _ (proj1 Hd) Hp Hc 1%nat u eta Ep Epi). cbv zeta in V.
  assert (U : 1 / 2 <= (1 - u) ^ (2 * 1 + 2)).
  { assert (P : 0 <= u) by apply bpow_ge_0. assert (Q : u <= 1 / 8) by apply (u_eighth binary64). cbn [Nat.mul Nat.add pow].
    assert (B : 7 / 8 <= 1 - u <= 1) by lra. assert (B2 : 49 / 64 <= (1 - u) * (1 - u) <= 1) by nra. nra. }
  specialize (V U Ee 2 second t2 false lay2 [d1; d2] [dh; d2] 2%nat ltac:(lra) eq_refl eq_refl (Permutation_refl _) (proj1 t2_fuse) (proj2 t2_fuse) lay2_moderate).
  assert (L3 : value (lit 3 0) = 3) by apply (lit_int binary64 3 eq_refl). assert (L0 : value d0 = 0) by reflexivity.
  assert (M : map (fun q => (fst q, value (snd q))) lay2 = [(false, 0); (true, 3)]) by (unfold lay2; cbn [map fst snd]; rewrite L3, L0; reflexivity).
  assert (M1 : map value [d1; d2] = [1; 2]) by (cbn [map]; rewrite V1, V2; reflexivity). assert (M2 : map value [dh; d2] = [/ 2; 2]) by (cbn [map]; rewrite Vh, V2; reflexivity).
  rewrite M, M1, M2 in V. assert (S : spread (SpecRnd2.top false) [(false, 0); (true, 3)] [1; 2] [/ 2; 2] = 19).
  { cbn [spread]. rewrite (Rabs_pos_eq 1), (Rabs_pos_eq 2) by lra. unfold SpecRnd2.top, size. simpl. ring. }
  rewrite S in V. cbn [spread height additions length t2 Nat.max Nat.add Nat.mul size] in V. rewrite (Rabs_pos_eq 1), (Rabs_pos_eq 2) in V by lra.
  apply V.
  - assert (Lo : Raux.bpow radix2 (bottom binary64 + digits binary64 - 1) <= 1) by (change 1 with (Raux.bpow radix2 0); apply bpow_le; unfold bottom; simpl; lia).
    unfold lay2. repeat apply Forall2_cons; try apply Forall2_nil; cbn [fst snd].
    + split; [exact Fh|]. split; [lra|]. split; [discriminate | discriminate].
    + split; [exact F2|]. split; [lra|]. split; [discriminate|]. intros _. right. rewrite L3. lra.
  - unfold lay2. repeat constructor.
  - apply C118_no_overflow_example.
Qed.
