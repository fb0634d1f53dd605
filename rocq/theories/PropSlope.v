(** Property C119: derivatives of Gaussian models with respect to their parameters, in rounded arithmetic and
    in floating-point formats with overflow. *)
From Coquelicot Require Import Coquelicot.
From Coq Require Import Reals List ZArith Lia Lra.
From Flocq Require Import Core IEEE754.BinarySingleNaN.
From Verif Require Import XR SpecDens SpecRnd SpecRnd2 SpecBin SpecBin64 SpecBinModel SpecSlope ModelRnd ModelRnd2 ModelBin64 ModelBinModel ModelSlope
  ProofRnd ProofRnd2 ProofRnd3 ProofRnd8 ProofBin64 ProofBin64b ProofBinModel ProofBinModel3 ProofBinModel4 ProofSlope ProofSlope2 ProofSlope3 PropRnd2 PropBinModel.
From Coq Require Import List.
Import ListNotations.
Local Open Scope R_scope.

(** The derivative of a basis function with respect to its exponent. *)
Theorem C119_derivative : forall norm p a r, 0 < a -> is_derive (fun t : R => basis_fn norm p t r) a (basis_slope norm p a r).
Proof. exact slope_true. Qed.
Print Assumptions C119_derivative.

(** With exact arithmetic the program computes it, times the coefficient. *)
Theorem C119_exact : forall norm p r c a, (norm = true -> 0 < a) ->
  fl_slope (fun x => x) exp Rpower PI norm p r c a = c * basis_slope norm p a r.
Proof. exact slope_ideal. Qed.
Print Assumptions C119_exact.

(** With rounding: at most [slope_roundings] roundings besides the error of the Gaussian, relative to the sum of
    the sizes of the two terms, and underflow. *)
Theorem C119_value : forall u eta fmt rnd, rounding u eta fmt rnd -> u <= 1 / 8 ->
  forall lo k fpow pi, 0 < lo <= 1 / 2 -> normal u lo rnd -> pow_error u lo k fpow ->
  Rabs (pi - PI) <= u * PI -> 1 / 2 <= (1 - u) ^ (2 * k + 2) ->
  forall v z fexp, exp_error v z fexp -> forall M, 0 <= M ->
  forall norm p r c a, 0 <= a <= M -> smooth lo norm p r a ->
  let q := / (1 - u) in let A := gauss_error u eta v z M in
  Rabs (fl_slope rnd fexp fpow pi norm p r c a - c * basis_slope norm p a r) <=
    (q ^ slope_roundings norm k * (1 + A) - 1) * (Rabs c * reach norm p r a) + slope_floor q eta A k norm p r c a.
Proof. exact slope_error. Qed.
Print Assumptions C119_value.

(** Without underflow there is no second part. *)
Theorem C119_no_underflow : forall q A k norm p r c a, slope_floor q 0 A k norm p r c a = 0.
Proof. exact floor_none. Qed.
Print Assumptions C119_no_underflow.

(** The row of one point has one such entry for every function. *)
Theorem C119_row : forall rnd fexp fpow pi norm lay c e, length lay = length c -> length e = length c ->
  length (fl_slopes rnd fexp fpow pi norm lay c e) = length c /\
  forall i, (i < length c)%nat -> nth i (fl_slopes rnd fexp fpow pi norm lay c e) 0 =
    fl_slope rnd fexp fpow pi norm (fst (nth i lay (false, 0))) (snd (nth i lay (false, 0))) (nth i c 0) (nth i e 0).
Proof. exact slopes_each. Qed.
Print Assumptions C119_row.

(** The derivative with respect to a coefficient is the basis function, rounded. *)
Theorem C119_coefficient : forall u eta fmt rnd, rounding u eta fmt rnd -> u <= 1 / 8 ->
  forall lo k fpow pi, 0 < lo <= 1 / 2 -> normal u lo rnd -> pow_error u lo k fpow ->
  Rabs (pi - PI) <= u * PI -> 1 / 2 <= (1 - u) ^ (2 * k + 2) ->
  forall v z fexp, exp_error v z fexp -> forall M, 0 <= M ->
  forall norm p r a, 0 <= a <= M -> safe lo norm p r a ->
  let q := / (1 - u) in
  Rabs (fl_elem rnd fexp fpow pi norm p r a - basis_fn norm p a r) <=
    (q ^ roundings norm p k * (1 + gauss_error u eta v z M) - 1) * SpecRnd2.top norm p r a + eta * (2 + q ^ (2 * k + 5) * size norm p a).
Proof. exact elem_error. Qed.
Print Assumptions C119_coefficient.

(** In a format with overflow: entries that are finite are those of the rounded program, also where an
    exponent overflows. *)
Theorem C119_formats : forall (fm : format) bexp fexp bpow fpow (pi : number fm),
  exponential bexp fexp -> library2 bpow fpow -> circle bpow pi (b_lit 3 (-1)) ->
  finite (b_mul (b_lit 3 0) (bpow pi (b_lit 3 (-1)))) ->
  forall norm lay c e, Forall (fun q => moderate (snd q)) lay -> Forall finite e ->
  Forall2 agrees (b_slopes bexp bpow pi norm lay c e)
    (fl_slopes (near fm) fexp fpow (value pi) norm (map (fun q => (fst q, value (snd q))) lay) (map value c) (map value e)).
Proof. exact slopes_agree. Qed.
Print Assumptions C119_formats.

(** So they are close to the derivatives. *)
Theorem C119_format_value : forall (fm : format) bexp fexp bpow fpow (pi : number fm),
  exponential bexp fexp -> library2 bpow fpow -> circle bpow pi (b_lit 3 (-1)) ->
  finite (b_mul (b_lit 3 0) (bpow pi (b_lit 3 (-1)))) ->
  let u := Raux.bpow radix2 (- digits fm) in
  let eta := Raux.bpow radix2 (bottom fm - 1) in
  let lo := Raux.bpow radix2 (bottom fm + digits fm - 1) in
  forall k v z, pow_error u lo k fpow -> Rabs (value pi - PI) <= u * PI -> 1 / 2 <= (1 - u) ^ (2 * k + 2) -> exp_error v z fexp ->
  forall M norm p r c a, 0 <= M -> moderate r -> finite a -> 0 <= value a <= M -> smooth lo norm p (value r) (value a) ->
  finite (b_slope bexp bpow pi norm p r c a) ->
  let q := / (1 - u) in let A := gauss_error u eta v z M in
  Rabs (value (b_slope bexp bpow pi norm p r c a) - value c * basis_slope norm p (value a) (value r)) <=
    (q ^ slope_roundings norm k * (1 + A) - 1) * (Rabs (value c) * reach norm p (value r) (value a)) + slope_floor q eta A k norm p (value r) (value c) (value a).
Proof. exact slope_value. Qed.
Print Assumptions C119_format_value.

(** They are finite when distances, normalization constants, coefficients and the powers of the exponents are at
    most [2^s], [2^k], [2^b] and [2^j] and both terms are at most [2^m]. *)
Theorem C119_no_overflow : forall (fm : format) bexp fexp bpow fpow (pi : number fm),
  damping bexp fexp -> library2 bpow fpow -> circle bpow pi (b_lit 3 (-1)) -> 1 <= value (bpow pi (b_lit 3 (-1))) ->
  finite (b_mul (b_lit 3 0) (bpow pi (b_lit 3 (-1)))) ->
  forall (norm p : bool) r c a s k b j m, finite r -> Rabs (value r) <= Raux.bpow radix2 s -> finite a -> 0 <= value a ->
  finite c -> Rabs (value c) <= Raux.bpow radix2 b ->
  (0 <= s)%Z -> (0 <= k)%Z -> (0 <= b)%Z -> (0 <= j)%Z -> (4 * s + k + b <= m)%Z -> (norm = true -> 2 * s + 3 + b + j <= m)%Z -> (m + 1 < top fm)%Z ->
  (norm = true -> finite (b_norm bpow pi p a) /\ Rabs (value (b_norm bpow pi p a)) <= Raux.bpow radix2 k) ->
  (norm = true -> let h := bpow a (b_lit (if p then 3 else 1) (-1)) in finite h /\ Rabs (value h) <= Raux.bpow radix2 j) ->
  represents (b_slope bexp bpow pi norm p r c a) (fl_slope (near fm) fexp fpow (value pi) norm p (value r) (value c) (value a)) /\
  Rabs (fl_slope (near fm) fexp fpow (value pi) norm p (value r) (value c) (value a)) <= Raux.bpow radix2 (m + 1).
Proof. exact slope_rep. Qed.
Print Assumptions C119_no_overflow.

(** The library of correctly rounded functions meets the conditions. *)
Theorem C119_library : forall fm : format, finite (b_mul (b_lit 3 0) (ideal_pow fm (ideal_pi fm) (b_lit 3 (-1)))) /\
  1 <= value (ideal_pow fm (ideal_pi fm) (b_lit 3 (-1))).
Proof. exact (fun fm => conj (ideal_third fm) (ideal_one fm)). Qed.
Print Assumptions C119_library.

(** ** Examples *)
(** The normalized s-type function of exponent 1 at distance 2: the derivative is [(3/2 - 4)] times the value. *)
Example C119_derivative_example : is_derive (fun t : R => basis_fn true false t 2) 1 (- (5 / 2) * (Rpower (1 / PI) (3 / 2) * exp (- (4)))).
Proof.
  assert (D := C119_derivative true false 1 2 Rlt_0_1). replace (- (5 / 2) * (Rpower (1 / PI) (3 / 2) * exp (- (4)))) with (basis_slope true false 1 2); [exact D|].
  unfold basis_slope, basis_fn, norm_const, degree. replace (- (1) * 2 ^ 2) with (- (4)) by ring. field.
Qed.
Example C119_exact_example : fl_slope (fun x => x) exp Rpower PI false true 3 2 5 = 2 * (- 9 * (9 * exp (- (45)))).
Proof.
  rewrite C119_exact by discriminate. unfold basis_slope, basis_fn. replace (- (5) * 3 ^ 2) with (- (45)) by ring. ring.
Qed.
(** The function of [C100_value_example] with exponent 5 at distance 2, in doubles. *)
Lemma half_d : 1 / 2 <= (1 - d_u) ^ (2 * 1 + 2).
Proof.
  assert (U := d_small). assert (U0 : 0 <= d_u) by apply bpow_ge_0. assert (T := pow_incr (7 / 8) (1 - d_u) 4 ltac:(lra)). simpl in *. lra.
Qed.
Lemma ex_smooth : smooth d_lo true true 2 5.
Proof.
  assert (L := d_lo_small). assert (S : safe d_lo true true 2 5).
  { assert (S := ex_safe). inversion S as [|? ? ? ? _ S2]; subst. inversion S2 as [|? ? ? ? S3 _]; subst. apply S3. }
  split; [exact S|]. split; [right; lra|]. intros _. assert (E1 : 1 <= Rpower 5 (3 / 2)) by (apply Rpower_ge1; lra). lra.
Qed.
Example C119_value_example : let q := / (1 - d_u) in let A := gauss_error d_u d_eta d_u d_eta 5 in
  Rabs (fl_slope d_rnd d_exp d_pow (d_rnd PI) true true 2 (-3) 5 - -3 * ((- (4) + 1 / 2) * basis_fn true true 5 2)) <=
    (q ^ 13 * (1 + A) - 1) * (3 * ((4 + 1 / 2) * SpecRnd2.top true true 2 5)) + slope_floor q d_eta A 1 true true 2 (-3) 5.
Proof.
  assert (L := d_lo_small).
  assert (V := C119_value d_u d_eta _ d_rnd d_rounding d_small d_lo 1 d_pow (d_rnd PI) ltac:(split; lra) d_normal d_pow_error d_pi half_d
    d_u d_eta d_exp d_exp_error 5 ltac:(lra) true true 2 (-3) 5 ltac:(lra) ex_smooth). cbv zeta in V |- *.
  unfold basis_slope, reach, degree, slope_roundings in V. rewrite (Rabs_left (-3)) in V by lra.
  replace (- 2 ^ 2 + 5 / 2 / 5) with (- (4) + 1 / 2) in V by field. replace (2 ^ 2 + 5 / 2 / 5) with (4 + 1 / 2) in V by field.
  replace (- -3) with 3 in V by ring. exact V.
Qed.
Example C119_coefficient_example : let q := / (1 - d_u) in
  Rabs (fl_elem d_rnd d_exp d_pow (d_rnd PI) true true 2 5 - basis_fn true true 5 2) <=
    (q ^ 9 * (1 + gauss_error d_u d_eta d_u d_eta 5) - 1) * SpecRnd2.top true true 2 5 + d_eta * (2 + q ^ 7 * size true true 5).
Proof.
  assert (L := d_lo_small).
  exact (C119_coefficient d_u d_eta _ d_rnd d_rounding d_small d_lo 1 d_pow (d_rnd PI) ltac:(split; lra) d_normal d_pow_error d_pi half_d
    d_u d_eta d_exp d_exp_error 5 ltac:(lra) true true 2 5 ltac:(lra) (proj1 ex_smooth)).
Qed.
(** Two functions at one point. *)
Example C119_row_example : nth 1 (fl_slopes d_rnd d_exp d_pow (d_rnd PI) true [(false, 1); (true, 2)] [3; -2] [1; 5]) 0 =
  fl_slope d_rnd d_exp d_pow (d_rnd PI) true true 2 (-2) 5.
Proof. exact (proj2 (C119_row d_rnd d_exp d_pow (d_rnd PI) true [(false, 1); (true, 2)] [3; -2] [1; 5] eq_refl eq_refl) 1%nat ltac:(simpl; lia)). Qed.

(** Distance 3, coefficient 2 and exponent 2 with the library that rounds correctly; a normalized s-type function at
    distance 3 with exponent 1. *)
Local Notation lit := (@ModelBin64.b_lit binary64).
Local Notation slope64 := (b_slope (ideal_exp binary64) (ideal_pow binary64) (ideal_pi binary64)).
Lemma three_rep : represents (lit 3 0) 3. Proof. exact (lit_int binary64 3 eq_refl). Qed.
Lemma unit_pow : forall x s : number binary64, value x <= 1 -> 0 <= value s -> finite (ideal_pow binary64 x s) /\ Rabs (value (ideal_pow binary64 x s)) <= Raux.bpow radix2 0.
Proof.
  intros x s X S. assert (L : ln (value x) <= 0).
  { destruct (Rlt_or_le 0 (value x)) as [P|P]; [rewrite <- ln_1; destruct X as [X | ->]; [left; apply ln_increasing; assumption | lra]|].
    unfold ln. destruct (Rlt_dec 0 (value x)) as [Q|Q]; [exfalso; exact (Rlt_not_le _ _ Q P) | apply Rle_refl]. }
  assert (B : 0 <= Rpower (value x) (value s) <= 1) by (split; [left; apply exp_pos | unfold Rpower; rewrite <- exp_0; apply Raux.exp_le; nra]).
  assert (D : 0 <= near binary64 (Rpower (value x) (value s)) <= 1) by (split; [apply (rnd_int_le binary64 0); [reflexivity | lra] | apply (rnd_le_int binary64 1); [reflexivity | lra]]).
  unfold ideal_pow. destruct (proj1 (nearest_exact binary64 (Rpower (value x) (value s))) (int_fits binary64 1 _ ltac:(lia) D)) as [F V].
  split; [exact F|]. rewrite V. rewrite Rabs_pos_eq by lra. change (Raux.bpow radix2 0) with 1. lra.
Qed.
Example C119_no_overflow_example : finite (slope64 false true (lit 3 0) d2 d2) /\ finite (slope64 true false (lit 3 0) d2 d1).
Proof.
  destruct (C118_library binary64) as (_ & Hd & Hp & Hc & _). destruct (C119_library binary64) as [H3 H1]. destruct three_rep as [F3 V3]. destruct d2_rep as [F2 V2]. destruct d1_rep as [F1 V1].
  split.
  - apply (C119_no_overflow binary64 _ _ _ _ _ Hd Hp Hc H1 H3 false true (lit 3 0) d2 d2 2 0 1 0 9); try assumption; try (simpl; lia); try discriminate; rewrite ?V3, ?V2; try lra.
    + change (Raux.bpow radix2 2) with 4. rewrite Rabs_pos_eq; lra.
    + change (Raux.bpow radix2 1) with 2. rewrite Rabs_pos_eq; lra.
  - destruct (pi_rep binary64) as [[Fp Vp] Bp]. destruct (half_rep binary64 3 eq_refl) as [Fh Vh]. destruct (half_rep binary64 1 eq_refl) as [Fo Vo].
    apply (C119_no_overflow binary64 _ _ _ _ _ Hd Hp Hc H1 H3 true false (lit 3 0) d2 d1 2 0 1 0 9); try assumption; try (simpl; lia); rewrite ?V3, ?V2, ?V1; try lra.
    + change (Raux.bpow radix2 2) with 4. rewrite Rabs_pos_eq; lra.
    + change (Raux.bpow radix2 1) with 2. rewrite Rabs_pos_eq; lra.
    + intros _. unfold b_norm. apply unit_pow; [|rewrite Vh; lra].
      assert (D : near binary64 (1 / near binary64 PI) <= 1).
      { apply (rnd_le_int binary64 1); [reflexivity|]. apply Rmult_le_reg_r with (near binary64 PI); [lra|]. unfold Rdiv. rewrite Rmult_assoc, Rinv_l by lra. lra. }
      assert (D0 : 0 <= near binary64 (1 / near binary64 PI)) by (apply (rnd_int_le binary64 0); [reflexivity | apply Rlt_le, Rdiv_lt_0_compat; lra]).
      destruct (div_fits binary64 d1 (ideal_pi binary64) 1 (near binary64 PI) d1_rep (conj Fp Vp)) as [_ ->]; [lra | | exact D].
      apply (int_fits binary64 1); [lia | split; [exact D0 | exact D]].
    + intros _. cbv zeta. apply unit_pow; [rewrite V1; lra | rewrite Vo; lra].
Qed.
Example C119_formats_example : Forall2 agrees (b_slopes (ideal_exp binary64) (ideal_pow binary64) (ideal_pi binary64) true lay2 [d1; d2] [dh; d2])
  (fl_slopes (near binary64) (fun y => (near binary64) (exp y)) (fun x y => (near binary64) (Rpower x y)) (value (ideal_pi binary64)) true (map (fun q => (fst q, value (snd q))) lay2) (map value [d1; d2]) (map value [dh; d2])).
Proof.
  destruct (C118_library binary64) as (_ & Hd & Hp & Hc & _). destruct (C119_library binary64) as [H3 _].
  apply (C119_formats binary64 _ _ _ _ _ (proj1 Hd) Hp Hc H3 true lay2 [d1; d2] [dh; d2] lay2_moderate).
  repeat apply Forall_cons; try apply Forall_nil; [apply dh_rep | apply d2_rep].
Qed.
(** The derivative of [2 * 9 * exp (-9 t)] at 2 is [-162 * exp (-18)]. *)
Example C119_format_value_example :
  let u := Raux.bpow radix2 (- (53)) in let eta := Raux.bpow radix2 (-1075) in let q := / (1 - u) in let A := gauss_error u eta u eta 2 in
  Rabs (value (slope64 false true (lit 3 0) d2 d2) - - (162) * exp (- (18))) <= (q ^ 5 * (1 + A) - 1) * 162 + slope_floor q eta A 1 false true 3 2 2.
Proof.
  intros u eta q A. destruct (C118_library binary64) as (_ & Hd & Hp & Hc & Ee & Ep & Epi). destruct (C119_library binary64) as [H3 _].
  destruct three_rep as [F3 V3]. destruct d2_rep as [F2 V2].
  assert (Lo : Raux.bpow radix2 (bottom binary64 + digits binary64 - 1) <= 1) by (change 1 with (Raux.bpow radix2 0); apply bpow_le; unfold bottom; simpl; lia).
  assert (U : 1 / 2 <= (1 - u) ^ (2 * 1 + 2)) by exact half_d.
  assert (V := C119_format_value binary64 _ _ _ _ _ (proj1 Hd) Hp Hc H3 1%nat u eta Ep Epi U Ee 2 false true (lit 3 0) d2 d2 ltac:(lra)). cbv zeta in V.
  rewrite V3, V2 in V. assert (Mr : moderate (lit 3 0)) by (assert (M := lay2_moderate); inversion M as [|? ? _ M2]; inversion M2 as [|? ? M3 _]; exact M3).
  assert (Sm : smooth (Raux.bpow radix2 (bottom binary64 + digits binary64 - 1)) false true 3 2) by (split; [split; [discriminate | intros _; right; lra] | split; [right; lra | discriminate]]).
  specialize (V Mr F2 ltac:(lra) Sm (proj1 C119_no_overflow_example)).
  replace (2 * basis_slope false true 2 3) with (- (162) * exp (- (18))) in V by (unfold basis_slope, basis_fn; replace (- (2) * 3 ^ 2) with (- (18)) by ring; ring).
  replace (Rabs 2 * reach false true 3 2) with 162 in V by (unfold reach, SpecRnd2.top, size; rewrite Rabs_pos_eq by lra; ring). exact V.
Qed.
