(** Property C122: the objective that [ScipyFit] minimizes, its gradient and its constraint in floating-point formats
    with overflow. *)
From Coquelicot Require Import Coquelicot.
From Coq Require Import Reals List ZArith Lia Lra.
From Flocq Require Import Core IEEE754.BinarySingleNaN.
From Verif Require Import XR SpecDens SpecRnd SpecBin SpecRnd2 SpecRnd3 SpecRnd4 SpecBin64 SpecBinModel SpecSlope SpecDescent SpecBinDescent
  ModelRnd ModelRnd2 ModelRnd4 ModelBin64 ModelBinModel ModelSlope ModelDescent ModelBinDescent
  ProofRnd ProofBin64 ProofBin64b ProofBinModel ProofBinModel3 ProofBinModel4 ProofSlope ProofSlope2 ProofSlope3 ProofBinDescent ProofBinDescent2 PropRnd2 PropRnd3 PropRnd4 PropBinModel PropSlope PropDescent.
From Coq Require Import List.
Import ListNotations.
Local Open Scope R_scope.

(** For any measure of deviation whose finite values are those of the rounded one at the points of the grid, a finite
    objective and a finite entry of the gradient are those of the rounded program. *)
Theorem C122_any : forall (fm : format) bexp fexp bpow fpow (pi : number fm),
  exponential bexp fexp -> library2 bpow fpow -> circle bpow pi (b_lit 3 (-1)) -> finite (b_mul (b_lit 3 0) (bpow pi (b_lit 3 (-1)))) ->
  forall fu to norm pts c e, Forall finite e -> Forall (good_place fu to) pts -> forall quadr quadr', same_rule quadr quadr' ->
  forall m m', (forall x, In x pts -> agrees (m (densb x) (b_model bexp bpow pi (fu (lays (real_place x))) (to (lays (real_place x))) norm (laysb x) c e)) (m' (value (densb x)) (fl_model (near fm) fexp fpow (value pi) (fu (lays (real_place x))) (to (lays (real_place x))) norm (lays (real_place x)) (map value c) (map value e)))) ->
  agrees (b_func bexp bpow pi fu to quadr m norm pts c e)
    (fl_func (near fm) fexp fpow (value pi) fu to quadr' m' norm (map real_place pts) (map value c) (map value e)) /\
  forall i, agrees (b_jac bexp bpow pi fu to quadr m norm pts c e i)
    (fl_jac (near fm) fexp fpow (value pi) fu to quadr' m' norm (map real_place pts) (map value c) (map value e) i).
Proof.
  exact (fun fm bexp fexp bpow fpow pi He Hp Hc Ht fu to norm pts c e Fe G quadr quadr' Q m m' A =>
    conj (func_agrees fm bexp fexp bpow fpow pi fu to norm pts c e m m' A quadr quadr' Q)
      (jac_agrees fm bexp fexp bpow fpow pi He Hp Hc Ht fu to norm pts c e Fe G m m' A quadr quadr' Q)).
Qed.
Print Assumptions C122_any.

(** So for least squares, *)
Theorem C122_squares : forall (fm : format) bexp fexp bpow fpow (pi : number fm),
  exponential bexp fexp -> library2 bpow fpow -> circle bpow pi (b_lit 3 (-1)) -> finite (b_mul (b_lit 3 0) (bpow pi (b_lit 3 (-1)))) ->
  forall fu to norm pts c e, Forall finite e -> Forall (good_place fu to) pts -> forall quadr quadr', same_rule quadr quadr' ->
  forall bsq fsq, library bsq fsq ->
  agrees (b_func bexp bpow pi fu to quadr (b_square bsq) norm pts c e)
    (fl_func (near fm) fexp fpow (value pi) fu to quadr' (fl_square (near fm) fsq) norm (map real_place pts) (map value c) (map value e)) /\
  forall i, agrees (b_jac bexp bpow pi fu to quadr b_square_slope norm pts c e i)
    (fl_jac (near fm) fexp fpow (value pi) fu to quadr' (fl_square_slope (near fm)) norm (map real_place pts) (map value c) (map value e) i).
Proof.
  exact (fun fm bexp fexp bpow fpow pi He Hp Hc Ht fu to norm pts c e Fe G quadr quadr' Q bsq fsq L =>
    conj (func_agrees fm bexp fexp bpow fpow pi fu to norm pts c e _ _ (squares_point fm bexp fexp bpow fpow pi He Hp Hc fu to norm pts c e Fe G bsq fsq L) quadr quadr' Q)
      (jac_agrees fm bexp fexp bpow fpow pi He Hp Hc Ht fu to norm pts c e Fe G _ _ (squares_change_point fm bexp fexp bpow fpow pi He Hp Hc fu to norm pts c e Fe G) quadr quadr' Q)).
Qed.
Print Assumptions C122_squares.

(** and for the Kullback-Leibler divergence where the ratio of density and model does not overflow. *)
Theorem C122_kl : forall (fm : format) bexp fexp bpow fpow (pi : number fm),
  exponential bexp fexp -> library2 bpow fpow -> circle bpow pi (b_lit 3 (-1)) -> finite (b_mul (b_lit 3 0) (bpow pi (b_lit 3 (-1)))) ->
  forall fu to norm pts c e, Forall finite e -> Forall (good_place fu to) pts -> forall quadr quadr', same_rule quadr quadr' ->
  forall blog flog mask, library blog flog -> (forall x, In x pts -> seen mask (densb x) (b_model bexp bpow pi (fu (lays (real_place x))) (to (lays (real_place x))) norm (laysb x) c e)) ->
  agrees (b_func bexp bpow pi fu to quadr (b_kl blog mask) norm pts c e)
    (fl_func (near fm) fexp fpow (value pi) fu to quadr' (fl_kl (near fm) flog (value mask)) norm (map real_place pts) (map value c) (map value e)) /\
  forall i, agrees (b_jac bexp bpow pi fu to quadr (b_kl_slope mask) norm pts c e i)
    (fl_jac (near fm) fexp fpow (value pi) fu to quadr' (fl_kl_slope (near fm) (value mask)) norm (map real_place pts) (map value c) (map value e) i).
Proof.
  exact (fun fm bexp fexp bpow fpow pi He Hp Hc Ht fu to norm pts c e Fe G quadr quadr' Q blog flog mask L S =>
    conj (func_agrees fm bexp fexp bpow fpow pi fu to norm pts c e _ _ (fun x I => kl_point fm bexp fexp bpow fpow pi He Hp Hc fu to norm pts c e Fe G blog flog L mask x I (S x I)) quadr quadr' Q)
      (jac_agrees fm bexp fexp bpow fpow pi He Hp Hc Ht fu to norm pts c e Fe G _ _ (fun x I => kl_change_point fm bexp fexp bpow fpow pi He Hp Hc fu to norm pts c e Fe G mask x I (S x I)) quadr quadr' Q)).
Qed.
Print Assumptions C122_kl.

(** So is a finite constraint. *)
Theorem C122_constraint : forall (fm : format) bexp fexp bpow fpow (pi : number fm),
  exponential bexp fexp -> library2 bpow fpow -> circle bpow pi (b_lit 3 (-1)) ->
  forall fu to norm pts c e, Forall finite e -> Forall (good_place fu to) pts -> forall quadr quadr', same_rule quadr quadr' -> forall N,
  agrees (b_constraint bexp bpow pi fu to quadr N norm pts c e)
    (fl_constraint (near fm) fexp fpow (value pi) fu to quadr' (value N) norm (map real_place pts) (map value c) (map value e)).
Proof. exact constraint_agrees. Qed.
Print Assumptions C122_constraint.

(** So are the five numbers of [goodness_of_fit]. *)
Theorem C122_quality : forall (fm : format) bexp fexp bpow fpow (pi : number fm),
  exponential bexp fexp -> library2 bpow fpow -> circle bpow pi (b_lit 3 (-1)) ->
  forall fu to norm pts c e, Forall finite e -> Forall (good_place fu to) pts ->
  forall bsq fsq blog flog neg mask quadr quadr', library bsq fsq -> library blog flog -> same_rule quadr quadr' ->
  (forall x, In x pts -> seen mask (densb x) (b_model bexp bpow pi (fu (lays (real_place x))) (to (lays (real_place x))) norm (laysb x) c e)) ->
  Forall2 agrees (b_quality bexp bpow pi fu to bsq blog quadr neg mask norm pts c e)
    (fl_quality (near fm) fexp fpow (value pi) fu to fsq flog quadr' (value neg) (value mask) norm (map real_place pts) (map value c) (map value e)).
Proof. exact quality_agree. Qed.
Print Assumptions C122_quality.

(** The errors of a finite objective and of a finite gradient against the exact ones: least squares, *)
Theorem C122_squares_value : forall (fm : format) bexp fexp bpow fpow (pi : number fm),
  exponential bexp fexp -> library2 bpow fpow -> circle bpow pi (b_lit 3 (-1)) -> finite (b_mul (b_lit 3 0) (bpow pi (b_lit 3 (-1)))) ->
  let u := Raux.bpow radix2 (- digits fm) in
  let eta := Raux.bpow radix2 (bottom fm - 1) in
  let lo := Raux.bpow radix2 (bottom fm + digits fm - 1) in
  forall k v z, pow_error u lo k fpow -> Rabs (value pi - PI) <= u * PI -> 1 / 2 <= (1 - u) ^ (2 * k + 2) -> exp_error v z fexp ->
  forall M, 0 <= M -> forall fu to n quadr quadr' Q B, same_rule quadr quadr' -> sound_rule (bin_fmt (bottom fm) (digits fm)) n quadr' Q B ->
  forall bsq fsq w z2, library bsq fsq -> square_error w z2 fsq ->
  forall norm pts c e, length pts = n -> length e = length c -> Forall finite e -> Forall (good_place fu to) pts ->
  let c' := map value c in let e' := map value e in let pts' := map real_place pts in
  Forall (fun x => SpecDescent.fits lo M norm (lays x) c' e' (to (lays x))) pts' ->
  let A := gauss_error u eta v z M in
  let g x := gsum norm (lays x) c' e' in let dg x := model_bound u eta k A (to (lays x)) norm (lays x) c' e' in
  (finite (b_func bexp bpow pi fu to quadr (b_square bsq) norm pts c e) ->
   Rabs (value (b_func bexp bpow pi fu to quadr (b_square bsq) norm pts c e) - objective Q square_loss norm pts' c' e') <=
    B (map (fun x => (weight x * square_loss (dens x) (g x),
        weighted_bound u eta (weight x) (square_loss (dens x) (g x)) (square_total u eta w z2 (dens x) (g x) (dg x)))) pts')) /\
  forall i, (i < 2 * length c)%nat -> finite (b_jac bexp bpow pi fu to quadr b_square_slope norm pts c e i) ->
  Rabs (value (b_jac bexp bpow pi fu to quadr b_square_slope norm pts c e i) - descent Q square_change norm pts' c' e' i) <=
    B (map (fun x => (weight x * square_change (dens x) (g x) * model_slope norm (lays x) c' e' i,
        gradient_bound u eta (weight x) (square_change (dens x) (g x)) (square_change_total u eta (dens x) (g x) (dg x))
          (model_slope norm (lays x) c' e' i) (param_bound u eta k A norm (lays x) c' e' i))) pts').
Proof. exact squares_value. Qed.
Print Assumptions C122_squares_value.

(** and Kullback-Leibler divergence. *)
Theorem C122_kl_value : forall (fm : format) bexp fexp bpow fpow (pi : number fm),
  exponential bexp fexp -> library2 bpow fpow -> circle bpow pi (b_lit 3 (-1)) -> finite (b_mul (b_lit 3 0) (bpow pi (b_lit 3 (-1)))) ->
  let u := Raux.bpow radix2 (- digits fm) in
  let eta := Raux.bpow radix2 (bottom fm - 1) in
  let lo := Raux.bpow radix2 (bottom fm + digits fm - 1) in
  forall k v z, pow_error u lo k fpow -> Rabs (value pi - PI) <= u * PI -> 1 / 2 <= (1 - u) ^ (2 * k + 2) -> exp_error v z fexp ->
  forall M, 0 <= M -> forall fu to n quadr quadr' Q B, same_rule quadr quadr' -> sound_rule (bin_fmt (bottom fm) (digits fm)) n quadr' Q B ->
  forall blog flog w z2 mask, library blog flog -> log_error w z2 flog ->
  forall norm pts c e, length pts = n -> length e = length c -> Forall finite e -> Forall (good_place fu to) pts ->
  Forall (fun x => seen mask (densb x) (b_model bexp bpow pi (fu (lays (real_place x))) (to (lays (real_place x))) norm (laysb x) c e)) pts ->
  let c' := map value c in let e' := map value e in let pts' := map real_place pts in
  let A := gauss_error u eta v z M in
  let g x := gsum norm (lays x) c' e' in let dg x := model_bound u eta k A (to (lays x)) norm (lays x) c' e' in
  Forall (fun x => SpecDescent.fits lo M norm (lays x) c' e' (to (lays x)) /\ 0 < dens x /\ dg x < g x /\ value mask < g x - dg x /\ lo <= dens x / (g x + dg x)) pts' ->
  (finite (b_func bexp bpow pi fu to quadr (b_kl blog mask) norm pts c e) ->
   Rabs (value (b_func bexp bpow pi fu to quadr (b_kl blog mask) norm pts c e) - objective Q kl_loss norm pts' c' e') <=
    B (map (fun x => (weight x * kl_loss (dens x) (g x),
        weighted_bound u eta (weight x) (kl_loss (dens x) (g x)) (kl_total u eta w z2 (dens x) (g x) (dg x)))) pts')) /\
  forall i, (i < 2 * length c)%nat -> finite (b_jac bexp bpow pi fu to quadr (b_kl_slope mask) norm pts c e i) ->
  Rabs (value (b_jac bexp bpow pi fu to quadr (b_kl_slope mask) norm pts c e i) - descent Q kl_change norm pts' c' e' i) <=
    B (map (fun x => (weight x * kl_change (dens x) (g x) * model_slope norm (lays x) c' e' i,
        gradient_bound u eta (weight x) (kl_change (dens x) (g x)) (kl_change_total u eta (dens x) (g x) (dg x))
          (model_slope norm (lays x) c' e' i) (param_bound u eta k A norm (lays x) c' e' i))) pts').
Proof. exact kl_value. Qed.
Print Assumptions C122_kl_value.

(** The errors of a finite constraint and of finite numbers of [goodness_of_fit]. *)
Theorem C122_constraint_value : forall (fm : format) bexp fexp bpow fpow (pi : number fm),
  exponential bexp fexp -> library2 bpow fpow -> circle bpow pi (b_lit 3 (-1)) ->
  let u := Raux.bpow radix2 (- digits fm) in
  let eta := Raux.bpow radix2 (bottom fm - 1) in
  let lo := Raux.bpow radix2 (bottom fm + digits fm - 1) in
  let fmt := bin_fmt (bottom fm) (digits fm) in
  forall k v z, pow_error u lo k fpow -> Rabs (value pi - PI) <= u * PI -> 1 / 2 <= (1 - u) ^ (2 * k + 2) -> exp_error v z fexp ->
  forall M, 0 <= M -> forall fu to n quadr quadr' Q B, same_rule quadr quadr' -> sound_rule fmt n quadr' Q B ->
  forall norm pts c e, length pts = n -> length e = length c -> Forall finite e -> Forall (good_place fu to) pts ->
  let c' := map value c in let e' := map value e in let pts' := map real_place pts in
  Forall (fun x => SpecDescent.fits lo M norm (lays x) c' e' (to (lays x))) pts' ->
  let A := gauss_error u eta v z M in
  let g x := gsum norm (lays x) c' e' in let dg x := model_bound u eta k A (to (lays x)) norm (lays x) c' e' in
  forall N N0 dN, Rabs (value N - N0) <= dN -> finite (b_constraint bexp bpow pi fu to quadr N norm pts c e) ->
  Rabs (value (b_constraint bexp bpow pi fu to quadr N norm pts c e) - (N0 - Q (map g pts'))) <=
    residual_bound u eta (N0 - Q (map g pts')) (dN + B (map (fun x => (g x, dg x)) pts')).
Proof. exact constraint_value. Qed.
Print Assumptions C122_constraint_value.

Theorem C122_quality_value : forall (fm : format) bexp fexp bpow fpow (pi : number fm),
  exponential bexp fexp -> library2 bpow fpow -> circle bpow pi (b_lit 3 (-1)) ->
  let u := Raux.bpow radix2 (- digits fm) in
  let eta := Raux.bpow radix2 (bottom fm - 1) in
  let lo := Raux.bpow radix2 (bottom fm + digits fm - 1) in
  let fmt := bin_fmt (bottom fm) (digits fm) in
  forall k v z, pow_error u lo k fpow -> Rabs (value pi - PI) <= u * PI -> 1 / 2 <= (1 - u) ^ (2 * k + 2) -> exp_error v z fexp ->
  forall M, 0 <= M -> forall fu to n quadr quadr' Q B, same_rule quadr quadr' -> sound_rule fmt n quadr' Q B ->
  forall norm pts c e, length pts = n -> length e = length c -> Forall finite e -> Forall (good_place fu to) pts ->
  let c' := map value c in let e' := map value e in let pts' := map real_place pts in
  Forall (fun x => SpecDescent.fits lo M norm (lays x) c' e' (to (lays x))) pts' ->
  let A := gauss_error u eta v z M in
  let g x := gsum norm (lays x) c' e' in let dg x := model_bound u eta k A (to (lays x)) norm (lays x) c' e' in
  forall bsq fsq blog flog w z2 w' z3, library bsq fsq -> library blog flog -> square_error w z2 fsq -> (forall x, fmt (fsq x)) -> log_error w' z3 flog ->
  forall neg mask, 0 <= value mask ->
  (forall x, In x pts -> seen mask (densb x) (b_model bexp bpow pi (fu (lays (real_place x))) (to (lays (real_place x))) norm (laysb x) c e)) ->
  forall q1 q2 q3 q4 q5, b_quality bexp bpow pi fu to bsq blog quadr neg mask norm pts c e = [q1; q2; q3; q4; q5] ->
  (finite q1 -> Rabs (value q1 - Q (map g pts')) <= B (map (fun x => (g x, dg x)) pts')) /\
  (finite q2 -> Rabs (value q2 - Q (map (fun x => Rabs (dens x - g x)) pts')) <= B (map (fun x => (Rabs (dens x - g x), residual_bound u eta (dens x - g x) (dg x))) pts')) /\
  (finite q3 -> forall m D, is_max m (map (fun x => Rabs (dens x - g x)) pts') -> (forall x, In x pts' -> residual_bound u eta (dens x - g x) (dg x) <= D) -> Rabs (value q3 - m) <= D) /\
  (finite q4 -> Rabs (value q4 - Q (map (fun x => square_loss (dens x) (g x)) pts')) <= B (map (fun x => (square_loss (dens x) (g x), square_total u eta w z2 (dens x) (g x) (dg x))) pts')) /\
  (finite q5 -> (forall x, In x pts' -> 0 < dens x /\ value mask < g x - dg x /\ lo <= dens x / (g x + dg x)) ->
   Rabs (value q5 - Q (map (fun x => kl_loss (dens x) (g x)) pts')) <= B (map (fun x => (kl_loss (dens x) (g x), kl_total u eta w' z3 (dens x) (g x) (dg x))) pts')).
Proof. exact quality_value. Qed.
Print Assumptions C122_quality_value.

(** The objective and every entry of the gradient are finite, and those of the rounded program, when distances,
    normalization constants, coefficients and powers of the exponents are at most [2^s], [2^k], [2^b] and [2^j], the
    measure is finite at the points and the products with weights and derivatives do not overflow. *)
Theorem C122_no_overflow : forall (fm : format) bexp fexp bpow fpow (pi : number fm),
  damping bexp fexp -> library2 bpow fpow -> circle bpow pi (b_lit 3 (-1)) -> 1 <= value (bpow pi (b_lit 3 (-1))) ->
  finite (b_mul (b_lit 3 0) (bpow pi (b_lit 3 (-1)))) ->
  forall fu to norm pts c e s k b j M, (0 <= s)%Z -> (0 <= k)%Z -> (0 <= b)%Z -> (0 <= j)%Z ->
  (4 * s + k + b <= M)%Z -> (norm = true -> 2 * s + 3 + b + j <= M)%Z -> (M + 1 < top fm)%Z ->
  (norm = true -> forall p a, In a e -> finite (b_norm bpow pi p a) /\ Rabs (value (b_norm bpow pi p a)) <= Raux.bpow radix2 k) ->
  (norm = true -> forall (p : bool) a, In a e -> let h := bpow a (b_lit (if p then 3 else 1) (-1)) in finite h /\ Rabs (value h) <= Raux.bpow radix2 j) ->
  Forall (fun a => finite a /\ 0 <= value a) e -> Forall (fun x => finite x /\ Rabs (value x) <= Raux.bpow radix2 b) c ->
  Forall (sized_place s (2 * s + k + b) fu to) pts ->
  forall m m', (forall x, In x pts -> represents (m (densb x) (b_model bexp bpow pi (fu (lays (real_place x))) (to (lays (real_place x))) norm (laysb x) c e))
    (m' (value (densb x)) (fl_model (near fm) fexp fpow (value pi) (fu (lays (real_place x))) (to (lays (real_place x))) norm (lays (real_place x)) (map value c) (map value e)))) ->
  Forall (fun x => finite (weightb x)) pts -> forall P quadr quadr', finite_rule P quadr quadr' ->
  let c' := map value c in let e' := map value e in let pts' := map real_place pts in
  let vals := fl_mul (near fm) (map weight pts') (fl_map2 m' (map dens pts') (fl_curve (near fm) fexp fpow (value pi) fu to norm pts' c' e')) in
  Forall (SpecBin64.fits fm) vals ->
  (P vals -> represents (b_func bexp bpow pi fu to quadr m norm pts c e) (fl_func (near fm) fexp fpow (value pi) fu to quadr' m' norm pts' c' e')) /\
  forall i, let v := fl_mul (near fm) vals (fl_column (near fm) fexp fpow (value pi) norm pts' c' e' i) in Forall (SpecBin64.fits fm) v -> P v ->
  represents (b_jac bexp bpow pi fu to quadr m norm pts c e i) (fl_jac (near fm) fexp fpow (value pi) fu to quadr' m' norm pts' c' e' i).
Proof.
  intros fm bexp fexp bpow fpow pi Hd Hp Hc H1 Ht fu to norm pts c e s k b j M S0 K0 B0 J0 M1 M2 M3 Hn Hj E C G m m' A W P quadr quadr' Q c' e' pts' vals L. split.
  - exact (func_finite fm bexp fexp bpow fpow pi fu to norm pts c e m m' A W P quadr quadr' Q L).
  - exact (fun i Lv => jac_finite fm bexp fexp bpow fpow pi Hd Hp Hc H1 Ht fu to norm pts c e s k b j M S0 K0 B0 J0 M1 M2 M3 Hn Hj E C G m m' A W P quadr quadr' Q i L Lv).
Qed.
Print Assumptions C122_no_overflow.

(** ** Examples *)
(** Distances 0 and 1, densities 2 and 4, weights 1 and 3, coefficient 4 and exponent 1, with the coarse exponential
    of [C118_runs_example]: the model is 4 and 2. *)
Local Notation double := (number binary64).
Local Notation rnd64 := (near binary64).
Local Notation lit := (@ModelBin64.b_lit binary64).
Definition d4 : double := lit 1 2.
Definition grid2 : list (bplace binary64) := [(d1, d2, [(false, d0)]); (lit 3 0, d4, [(false, d1)])].
Definition plain (l : list (bool * R)) (i : nat) : bool := false.
Definition first (l : list (bool * R)) : order := At 0.
Lemma grid2_good : Forall (good_place plain first) grid2.
Proof.
  assert (D := dist2_moderate). apply Forall_cons_iff in D. destruct D as [D0 D]. apply Forall_cons_iff in D. destruct D as [D1 _].
  apply Forall_cons_iff in D0. destruct D0 as [D0 _]. apply Forall_cons_iff in D1. destruct D1 as [D1 _].
  repeat apply Forall_cons; try apply Forall_nil; (split; [apply Forall_cons; [assumption | apply Forall_nil] | split; [exact I | reflexivity]]).
Qed.
Lemma one_finite : Forall finite [d1]. Proof. apply Forall_cons; [apply d1_rep | apply Forall_nil]. Qed.
Definition times (x : double) : double := b_mul x x.
Definition times_real (r : R) : R := rnd64 (r * r).
Lemma times_library : library times times_real.
Proof.
  intros x F. assert (Fx : finite x) by (destruct x as [s|s| |s m e H]; [reflexivity | destruct s; discriminate F | discriminate F | reflexivity]).
  split; [exact Fx|]. exact (mul_agrees binary64 x x _ _ (self_agrees binary64 x) (self_agrees binary64 x) F).
Qed.
Lemma params2 : map value [d4] = [4] /\ map value [d1] = [1].
Proof. cbn [map]. rewrite (proj2 d1_rep). split; [|reflexivity]. unfold d4. rewrite (proj2 d4_rep). reflexivity. Qed.
Lemma places2 : map real_place grid2 = [(1, 2, [(false, 0)]); (3, 4, [(false, 1)])].
Proof.
  unfold grid2, real_place, weightb, densb, laysb. cbn [map fst snd]. unfold d4. rewrite (proj2 d1_rep), (proj2 d2_rep), (proj2 d4_rep), (proj2 three_rep). reflexivity.
Qed.
Definition small_pow (x y : R) : R := rnd64 (Rpower x y).
Local Notation bfunc m := (b_func step_exp (ideal_pow binary64) (ideal_pi binary64) plain first rule2 m false grid2 [d4] [d1]).
Local Notation bjac m := (b_jac step_exp (ideal_pow binary64) (ideal_pi binary64) plain first rule2 m false grid2 [d4] [d1]).
Local Notation rfunc m := (fl_func rnd64 step_real small_pow (value (ideal_pi binary64)) plain first rule2r m false [(1, 2, [(false, 0)]); (3, 4, [(false, 1)])] [4] [1]).
Local Notation rjac m := (fl_jac rnd64 step_real small_pow (value (ideal_pi binary64)) plain first rule2r m false [(1, 2, [(false, 0)]); (3, 4, [(false, 1)])] [4] [1]).
Lemma func_is : bfunc (b_square times) = lit 1 4.
Proof. apply same_double. vm_compute. reflexivity. Qed.
Lemma jac_is : bjac b_square_slope 0 = lit (-1) 1 /\ bjac b_square_slope 1 = lit 3 3.
Proof. split; apply same_double; vm_compute; reflexivity. Qed.
Lemma kl_is : bjac (b_kl_slope mask40) 0 = lit (-7) (-1).
Proof. apply same_double. vm_compute. reflexivity. Qed.
Example C122_squares_example : rfunc (fl_square rnd64 times_real) = 16 /\ rjac (fl_square_slope rnd64) 0 = - (2) /\ rjac (fl_square_slope rnd64) 1 = 24.
Proof.
  destruct (C118_library binary64) as (_ & _ & Hp & Hc & _). destruct (C119_library binary64) as [H3 _].
  destruct (C122_squares binary64 step_exp step_real (ideal_pow binary64) small_pow (ideal_pi binary64) step_exponential Hp Hc H3 plain first false grid2 [d4] [d1]
    one_finite grid2_good rule2 rule2r rule2_same times times_real times_library) as [F J].
  destruct params2 as [E1 E2]. rewrite E1, E2, places2 in F, J. assert (J0 := J O). assert (J1 := J 1%nat). destruct jac_is as [I0 I1]. rewrite func_is in F. rewrite I0 in J0. rewrite I1 in J1.
  destruct (fmt_lit binary64 4 ltac:(unfold bottom; simpl; lia)) as [Fa Va]. destruct (neg_rep 1 ltac:(lia)) as [Fb Vb]. destruct (lit_int binary64 24 eq_refl) as [Fc Vc].
  assert (E24 : lit 3 3 = lit 24 0) by (apply same_double; vm_compute; reflexivity). rewrite E24 in J1.
  rewrite <- (F Fa), <- (J0 Fb), <- (J1 Fc), Va, Vb, Vc. change (Raux.bpow radix2 4) with 16. change (Raux.bpow radix2 1) with 2. split; [reflexivity|]. split; [ring | reflexivity].
Qed.
Local Notation model2 x := (b_model step_exp (ideal_pow binary64) (ideal_pi binary64) (plain (lays (real_place x))) (first (lays (real_place x))) false (laysb x) [d4] [d1]).
Lemma model_is : model2 ((d1, d2, [(false, d0)]) : bplace binary64) = d4 /\ model2 ((lit 3 0, d4, [(false, d1)]) : bplace binary64) = d2.
Proof. split; apply same_double; vm_compute; reflexivity. Qed.
Lemma grid2_seen : forall x, In x grid2 -> seen mask40 (densb x) (model2 x).
Proof.
  destruct model_is as [E1 E2]. destruct d2_rep as [F2 V2]. destruct d4_rep as [F4 V4].
  intros x [<-|[<-|[]]]; [rewrite E1 | rewrite E2]; unfold d4, densb; cbn [fst snd]; apply seen_small; try assumption; unfold d4; lra.
Qed.
Example C122_kl_example : rjac (fl_kl_slope rnd64 (value mask40)) 0 = - (7) / 2.
Proof.
  destruct (C118_library binary64) as (_ & _ & Hp & Hc & _). destruct (C119_library binary64) as [H3 _].
  assert (L : library (fun _ : double => B754_nan) ln) by (intros x F; discriminate F).
  destruct (C122_kl binary64 step_exp step_real (ideal_pow binary64) small_pow (ideal_pi binary64) step_exponential Hp Hc H3 plain first false grid2 [d4] [d1]
    one_finite grid2_good rule2 rule2r rule2_same _ ln mask40 L grid2_seen) as [_ J].
  destruct params2 as [E1 E2]. rewrite E1, E2, places2 in J. specialize (J O). rewrite kl_is in J. destruct (half_rep binary64 (-7) eq_refl) as [Fa Va].
  rewrite <- (J Fa), Va. reflexivity.
Qed.
(** A measure of its own: the density times the model. *)
Example C122_any_example : rfunc (fun a b => rnd64 (a * b)) = 32 /\ rjac (fun a b => rnd64 (a * b)) 0 = 20.
Proof.
  destruct (C118_library binary64) as (_ & _ & Hp & Hc & _). destruct (C119_library binary64) as [H3 _].
  destruct (C122_any binary64 step_exp step_real (ideal_pow binary64) small_pow (ideal_pi binary64) step_exponential Hp Hc H3 plain first false grid2 [d4] [d1]
    one_finite grid2_good rule2 rule2r rule2_same b_mul (fun a b => rnd64 (a * b))) as [F J].
  { intros x I. apply (mul_agrees binary64); [apply self_agrees|]. exact (each_model binary64 step_exp step_real _ _ _ step_exponential Hp Hc plain first false grid2 [d4] [d1] one_finite grid2_good x I). }
  destruct params2 as [E1 E2]. rewrite E1, E2, places2 in F, J. specialize (J O).
  assert (I0 : bfunc b_mul = lit 32 0) by (apply same_double; vm_compute; reflexivity). assert (I1 : bjac b_mul 0 = lit 20 0) by (apply same_double; vm_compute; reflexivity).
  rewrite I0 in F. rewrite I1 in J. destruct (lit_int binary64 32 eq_refl) as [Fa Va]. destruct (lit_int binary64 20 eq_refl) as [Fb Vb].
  rewrite <- (F Fa), <- (J Fb), Va, Vb. split; reflexivity.
Qed.
(** Four electrons: the integral of the model is 6. *)
Example C122_constraint_example : fl_constraint rnd64 step_real small_pow (value (ideal_pi binary64)) plain first rule2r 4 false [(1, 2, [(false, 0)]); (3, 4, [(false, 1)])] [4] [1] = - (2).
Proof.
  destruct (C118_library binary64) as (_ & _ & Hp & Hc & _).
  assert (F := C122_constraint binary64 step_exp step_real (ideal_pow binary64) small_pow (ideal_pi binary64) step_exponential Hp Hc plain first false grid2 [d4] [d1]
    one_finite grid2_good rule2 rule2r rule2_same d4).
  destruct params2 as [E1 E2]. rewrite E1, E2, places2 in F. assert (V4 : value d4 = 4) by exact (proj2 d4_rep). rewrite V4 in F.
  assert (I0 : b_constraint step_exp (ideal_pow binary64) (ideal_pi binary64) plain first rule2 d4 false grid2 [d4] [d1] = lit (-1) 1) by (apply same_double; vm_compute; reflexivity).
  rewrite I0 in F. destruct (neg_rep 1 ltac:(lia)) as [Fb Vb]. rewrite <- (F Fb), Vb. change (Raux.bpow radix2 1) with 2. ring.
Qed.
(** The model integrates to 6, the deviations are 2 and 2. *)
Lemma quality_is : firstn 4 (b_quality step_exp (ideal_pow binary64) (ideal_pi binary64) plain first times (fun _ => B754_nan) rule2 (lit 100000 0) mask40 false grid2 [d4] [d1]) =
  [lit 6 0; lit 4 0; lit 2 0; lit 8 0].
Proof. unfold b_quality. cbn [firstn]. repeat apply f_equal2; try apply same_double; try (vm_compute; reflexivity). Qed.
Example C122_quality_example : forall flog, firstn 4 (fl_quality rnd64 step_real small_pow (value (ideal_pi binary64)) plain first times_real flog rule2r (value (lit 100000 0)) (value mask40) false
  [(1, 2, [(false, 0)]); (3, 4, [(false, 1)])] [4] [1]) = [6; 4; 2; 8].
Proof.
  intro flog. destruct (C118_library binary64) as (_ & _ & Hp & Hc & _).
  assert (L : library (fun _ : double => B754_nan) flog) by (intros x F; discriminate F).
  assert (A := C122_quality binary64 step_exp step_real (ideal_pow binary64) small_pow (ideal_pi binary64) step_exponential Hp Hc plain first false grid2 [d4] [d1]
    one_finite grid2_good times times_real _ flog (lit 100000 0) mask40 rule2 rule2r times_library L rule2_same grid2_seen).
  destruct params2 as [E1 E2]. rewrite E1, E2, places2 in A. assert (Q := quality_is).
  set (l := fl_quality _ _ _ _ _ _ _ _ _ _ _ _ _ _ _) in *. set (q := b_quality _ _ _ _ _ _ _ _ _ _ _ _ _ _) in *. clearbody l q.
  assert (T : Forall2 agrees (firstn 4 q) (firstn 4 l)).
  { clear - A. generalize 4%nat. induction A as [|a x q l Ax A IH]; intros [|n]; cbn [firstn]; constructor; [exact Ax | apply IH]. }
  rewrite Q in T. rewrite (agree_values binary64 _ _ T) by (repeat apply Forall_cons; try apply Forall_nil; vm_compute; reflexivity). cbn [map].
  rewrite (proj2 (lit_int binary64 6 eq_refl)), (proj2 (lit_int binary64 4 eq_refl)), (proj2 (lit_int binary64 2 eq_refl)), (proj2 (lit_int binary64 8 eq_refl)). reflexivity.
Qed.
(** NaN among the deviations stays; infinity is larger than all numbers. *)
Example max_examples : b_max [d1; B754_nan; d4] = B754_nan /\ b_max [d1; B754_infinity false; d4] = B754_infinity false /\ b_max [d1; d4; d2] = d4.
Proof. repeat split; apply same_double; vm_compute; reflexivity. Qed.
Lemma step_error : exp_error 0 1 step_real.
Proof.
  split; [lra|]. split; [lra|]. intros x X. assert (E : 0 < exp x <= 1).
  { split; [apply exp_pos|]. destruct X as [X | ->]; [left; rewrite <- exp_0; apply exp_increasing, X | rewrite exp_0; lra]. }
  unfold step_real. destruct (Rle_dec _ x); [|destruct (Rle_dec _ x)]; (split; [lra | apply Rabs_le; lra]).
Qed.
Lemma rule2_sound : sound_rule (bin_fmt (bottom binary64) (digits binary64)) 2 rule2r (wsum [1; 1]) (quad_bound d_u (wsum (map Rabs [1; 1])) 2 ((1 + d_u) ^ 1 * (INR 2 * d_eta))).
Proof.
  destruct (C115_rules _ _ _ _ d_rounding d_small) as (_ & Ru & _). unfold rule2r. cbn [map]. rewrite (proj2 d1_rep).
  exact (proj2 (Ru t01 [1; 1] (Permutation.perm_swap _ _ _))).
Qed.
Lemma grid2_fits : Forall (fun x => SpecDescent.fits d_lo 1 false (lays x) [4] [1] (first (lays x))) [(1, 2, [(false, 0)]); (3, 4, [(false, 1)])].
Proof.
  assert (L := d_lo_small). repeat apply Forall_cons; try apply Forall_nil; (split; [reflexivity|]; split; [apply Permutation.Permutation_refl|]);
    (apply Forall2_cons; [|apply Forall2_nil]); (split; [lra|]); cbn [fst snd]; (split; [split; discriminate|]); (split; [|discriminate]); [left; reflexivity | right; lra].
Qed.
(** The objective and the derivative with respect to the exponent; the exact ones are
    [(2 - 4)^2 + 3 (4 - 4 exp (-1))^2] and [96 (1 - exp (-1)) exp (-1)]; the exponential is wrong by up to 1. *)
Example C122_squares_value_example :
  let A := gauss_error d_u d_eta 0 1 1 in
  let places := [(1, 2, [(false, 0)]); (3, 4, [(false, 1)])] in
  let g x := gsum false (lays x) [4] [1] in let dg x := model_bound d_u d_eta 1 A (At 0) false (lays x) [4] [1] in
  let B := quad_bound d_u (wsum (map Rabs [1; 1])) 2 ((1 + d_u) ^ 1 * (INR 2 * d_eta)) in
  Rabs (16 - (4 + 48 * (1 - exp (- (1))) ^ 2)) <=
    B (map (fun x => (weight x * square_loss (dens x) (g x),
        weighted_bound d_u d_eta (weight x) (square_loss (dens x) (g x)) (square_total d_u d_eta d_u d_eta (dens x) (g x) (dg x)))) places) /\
  Rabs (24 - 96 * (1 - exp (- (1))) * exp (- (1))) <=
    B (map (fun x => (weight x * square_change (dens x) (g x) * model_slope false (lays x) [4] [1] 1,
        gradient_bound d_u d_eta (weight x) (square_change (dens x) (g x)) (square_change_total d_u d_eta (dens x) (g x) (dg x))
          (model_slope false (lays x) [4] [1] 1) (param_bound d_u d_eta 1 A false (lays x) [4] [1] 1))) places).
Proof.
  intros A places g dg B. destruct (C118_library binary64) as (_ & _ & Hp & Hc & _ & Ep & Epi). destruct (C119_library binary64) as [H3 _].
  assert (V := C122_squares_value binary64 step_exp step_real (ideal_pow binary64) small_pow (ideal_pi binary64) step_exponential Hp Hc H3 1%nat 0 1 Ep Epi half_d step_error
    1 ltac:(lra) plain first 2%nat rule2 rule2r _ _ rule2_same rule2_sound times times_real d_u d_eta times_library d_sq_error false grid2 [d4] [d1] eq_refl eq_refl one_finite grid2_good).
  cbv zeta in V. destruct params2 as [E1 E2]. rewrite E1, E2, places2 in V. destruct (V grid2_fits) as [F J]. specialize (J 1%nat ltac:(simpl; lia)).
  destruct jac_is as [_ I1]. assert (E24 : lit 3 3 = lit 24 0) by (apply same_double; vm_compute; reflexivity). rewrite E24 in I1. rewrite I1 in J. rewrite func_is in F.
  destruct (fmt_lit binary64 4 ltac:(unfold bottom; simpl; lia)) as [Fa Va]. destruct (lit_int binary64 24 eq_refl) as [Fc Vc]. specialize (F Fa). specialize (J Fc).
  rewrite Va in F. rewrite Vc in J. change (Raux.bpow radix2 4) with 16 in F.
  assert (X0 : exp (- (1) * 0 ^ 2) = 1) by (replace (- (1) * 0 ^ 2) with 0 by ring; apply exp_0). assert (X1 : exp (- (1) * 1 ^ 2) = exp (- (1))) by (f_equal; ring).
  split.
  - replace (4 + 48 * (1 - exp (- (1))) ^ 2) with (objective (wsum [1; 1]) square_loss false places [4] [1]); [exact F|].
    unfold objective, places, square_loss. cbn [map wsum gsum weight dens lays fst snd]. unfold basis_fn. rewrite X0, X1. ring.
  - replace (96 * (1 - exp (- (1))) * exp (- (1))) with (descent (wsum [1; 1]) square_change false places [4] [1] 1); [exact J|].
    unfold descent, places, square_change, model_slope. cbn [map wsum gsum weight dens lays fst snd length Nat.ltb Nat.leb Nat.sub nth]. unfold basis_slope, basis_fn. rewrite X0, X1. ring.
Qed.
(** The constraint is -2, the exact one is [- 4 exp (-1)]. *)
Example C122_constraint_value_example :
  let A := gauss_error d_u d_eta 0 1 1 in
  let places := [(1, 2, [(false, 0)]); (3, 4, [(false, 1)])] in
  let g x := gsum false (lays x) [4] [1] in let dg x := model_bound d_u d_eta 1 A (At 0) false (lays x) [4] [1] in
  let B := quad_bound d_u (wsum (map Rabs [1; 1])) 2 ((1 + d_u) ^ 1 * (INR 2 * d_eta)) in
  Rabs (- (2) - - (4 * exp (- (1)))) <= residual_bound d_u d_eta (- (4 * exp (- (1)))) (0 + B (map (fun x => (g x, dg x)) places)).
Proof.
  intros A places g dg B. destruct (C118_library binary64) as (_ & _ & Hp & Hc & _ & Ep & Epi).
  assert (V := C122_constraint_value binary64 step_exp step_real (ideal_pow binary64) small_pow (ideal_pi binary64) step_exponential Hp Hc 1%nat 0 1 Ep Epi half_d step_error
    1 ltac:(lra) plain first 2%nat rule2 rule2r _ _ rule2_same rule2_sound false grid2 [d4] [d1] eq_refl eq_refl one_finite grid2_good).
  cbv zeta in V. destruct params2 as [E1 E2]. rewrite E1, E2, places2 in V.
  assert (E0 : Rabs (value d4 - 4) <= 0) by (unfold d4; rewrite (proj2 d4_rep); replace (4 - 4) with 0 by ring; rewrite Rabs_R0; apply Rle_refl).
  specialize (V grid2_fits d4 4 0 E0).
  assert (I0 : b_constraint step_exp (ideal_pow binary64) (ideal_pi binary64) plain first rule2 d4 false grid2 [d4] [d1] = lit (-1) 1) by (apply same_double; vm_compute; reflexivity).
  rewrite I0 in V. destruct (neg_rep 1 ltac:(lia)) as [Fb Vb]. specialize (V Fb). rewrite Vb in V. change (Raux.bpow radix2 1) with 2 in V.
  assert (X0 : exp (- (1) * 0 ^ 2) = 1) by (replace (- (1) * 0 ^ 2) with 0 by ring; apply exp_0). assert (X1 : exp (- (1) * 1 ^ 2) = exp (- (1))) by (f_equal; ring).
  replace (4 - wsum [1; 1] (map (fun x => gsum false (lays x) [4] [1]) [(1, 2, [(false, 0)]); (3, 4, [(false, 1)])])) with (- (4 * exp (- (1)))) in V
    by (cbn [map wsum gsum lays fst snd]; unfold basis_fn; rewrite X0, X1; ring).
  replace (-1 * 2) with (- (2)) in V by ring. exact V.
Qed.
(** The integral of the model is 6 and the sum of the squares 8. *)
Example C122_quality_value_example :
  let A := gauss_error d_u d_eta 0 1 1 in
  let places := [(1, 2, [(false, 0)]); (3, 4, [(false, 1)])] in
  let g x := gsum false (lays x) [4] [1] in let dg x := model_bound d_u d_eta 1 A (At 0) false (lays x) [4] [1] in
  let B := quad_bound d_u (wsum (map Rabs [1; 1])) 2 ((1 + d_u) ^ 1 * (INR 2 * d_eta)) in
  Rabs (6 - (4 + 4 * exp (- (1)))) <= B (map (fun x => (g x, dg x)) places) /\
  Rabs (8 - (4 + 16 * (1 - exp (- (1))) ^ 2)) <= B (map (fun x => (square_loss (dens x) (g x), square_total d_u d_eta d_u d_eta (dens x) (g x) (dg x))) places).
Proof.
  intros A places g dg B. destruct (C118_library binary64) as (_ & _ & Hp & Hc & _ & Ep & Epi).
  assert (L : library (fun _ : double => B754_nan) d_log) by (intros x F; discriminate F).
  assert (Pm : 0 <= value mask40) by (unfold mask40; rewrite (proj2 (fmt_lit binary64 (-40) ltac:(unfold bottom; simpl; lia))); apply bpow_ge_0).
  assert (Fs : forall x, bin_fmt (bottom binary64) (digits binary64) (times_real x)) by (intro x; apply (rd_fmt _ _ _ _ (r64 binary64))).
  assert (V := C122_quality_value binary64 step_exp step_real (ideal_pow binary64) small_pow (ideal_pi binary64) step_exponential Hp Hc 1%nat 0 1 Ep Epi half_d step_error
    1 ltac:(lra) plain first 2%nat rule2 rule2r _ _ rule2_same rule2_sound false grid2 [d4] [d1] eq_refl eq_refl one_finite grid2_good).
  cbv zeta in V. destruct params2 as [E1 E2]. rewrite E1, E2, places2 in V.
  specialize (V grid2_fits times times_real _ d_log d_u d_eta d_u d_eta times_library L d_sq_error Fs d_log_error (lit 100000 0) mask40 Pm grid2_seen).
  assert (Q := quality_is). unfold b_quality in Q. cbv zeta in Q. cbn [firstn] in Q. unfold b_quality in V. cbv zeta in V.
  destruct (V _ _ _ _ _ eq_refl) as (V1 & _ & _ & V4 & _). clear V. assert (Q1 := f_equal (fun l => nth 0 l d4) Q). assert (Q4 := f_equal (fun l => nth 3 l d4) Q). cbn [nth] in Q1, Q4. rewrite Q1 in V1. rewrite Q4 in V4.
  destruct (lit_int binary64 6 eq_refl) as [F6 W6]. destruct (lit_int binary64 8 eq_refl) as [F8 W8]. specialize (V1 F6). specialize (V4 F8). rewrite W6 in V1. rewrite W8 in V4.
  assert (X0 : exp (- (1) * 0 ^ 2) = 1) by (replace (- (1) * 0 ^ 2) with 0 by ring; apply exp_0). assert (X1 : exp (- (1) * 1 ^ 2) = exp (- (1))) by (f_equal; ring). split.
  - replace (4 + 4 * exp (- (1))) with (wsum [1; 1] (map g places)) by (unfold g, places; cbn [map wsum gsum lays fst snd]; unfold basis_fn; rewrite X0, X1; ring). exact V1.
  - replace (4 + 16 * (1 - exp (- (1))) ^ 2) with (wsum [1; 1] (map (fun x => square_loss (dens x) (g x)) places))
      by (unfold g, places, square_loss; cbn [map wsum gsum lays dens fst snd]; unfold basis_fn; rewrite X0, X1; ring). exact V4.
Qed.
(** The grid of [C121_kl_example] with the exponential that rounds correctly, and the mask 1/2. *)
Definition grid_kl : list (bplace binary64) := [(d1, d2, [(false, d0)]); (lit 3 0, d1, [(false, d1)])].
Lemma places_kl : map real_place grid_kl = ex_places.
Proof.
  unfold grid_kl, ex_places, real_place, weightb, densb, laysb. cbn [map fst snd]. rewrite (proj2 d1_rep), (proj2 d2_rep), (proj2 three_rep). reflexivity.
Qed.
Lemma grid_kl_good : Forall (good_place plain first) grid_kl.
Proof.
  assert (G := grid2_good). apply Forall_cons_iff in G. destruct G as [(G1 & _) G]. apply Forall_cons_iff in G. destruct G as [(G2 & _) _].
  repeat apply Forall_cons; try apply Forall_nil; (split; [assumption | split; [exact I | reflexivity]]).
Qed.
Lemma kl_model_rep : forall r, finite r -> 0 <= value r <= 1 -> smooth d_lo false false (value r) 1 -> 2 / 3 <= gsum false [(false, value r)] [2] [1] ->
  let m := b_model (ideal_exp binary64) (ideal_pow binary64) (ideal_pi binary64) (fun _ => false) (At 0) false [(false, r)] [d2] [d1] in finite m /\ / 2 < value m.
Proof.
  intros r Fr Br Sm Bg m. destruct (C118_library binary64) as (_ & Hd & Hp & Hc & Ee & Ep & Epi). destruct d1_rep as [F1 V1]. destruct d2_rep as [F2 V2]. assert (L := d_lo_small).
  assert (Rep : represents m (fl_model rnd64 (fun y => rnd64 (exp y)) d_pow (value (ideal_pi binary64)) (fun _ => false) (At 0) false [(false, value r)] [2] [1])).
  { replace [2] with (map value [d2]) by (cbn [map]; rewrite V2; reflexivity). replace [1] with (map value [d1]) by (cbn [map]; rewrite V1; reflexivity).
    apply (C118_no_overflow binary64 _ _ _ _ _ Hd Hp Hc (fun _ => false) (At 0) false [(false, r)] [d2] [d1] 0 0 1); try (unfold bottom; simpl; lia); try exact I; try reflexivity; try discriminate.
    - cbn [leaves length]. change (Raux.bpow radix2 (2 * 0 + 0 + 1)) with 2. apply Rlt_trans with (Raux.bpow radix2 2); [|apply (pow_lt_largest binary64); reflexivity].
      change (Raux.bpow radix2 2) with 4. simpl. lra.
    - apply Forall_cons; [|apply Forall_nil]. split; [exact Fr|]. cbn [snd]. change (Raux.bpow radix2 0) with 1. rewrite Rabs_pos_eq; lra.
    - apply Forall_cons; [|apply Forall_nil]. split; [exact F1 | lra].
    - apply Forall_cons; [|apply Forall_nil]. split; [exact F2|]. change (Raux.bpow radix2 1) with 2. rewrite V2, Rabs_pos_eq; lra. }
  destruct Rep as [Fm Vm]. split; [exact Fm|]. rewrite Vm.
  assert (N := ProofDescent2.curve_near d_u d_eta _ d_rnd d_rounding d_small d_lo 1 d_pow (value (ideal_pi binary64)) ltac:(split; lra) d_normal d_pow_error Epi half_d
    d_u d_eta d_exp d_exp_error 1 ltac:(lra) false [(false, value r)] [2] [1] (fun _ => false) (At 0)).
  assert (G := ex_gap_small (value r)).
  assert (Fi : SpecDescent.fits d_lo 1 false [(false, value r)] [2] [1] (At 0)).
  { split; [reflexivity|]. split; [apply Permutation.Permutation_refl|]. apply Forall2_cons; [|apply Forall2_nil]. split; [lra | exact Sm]. }
  specialize (N eq_refl Fi). apply Raux.Rabs_le_inv in N. change d_rnd with rnd64 in N. change d_exp with (fun y => rnd64 (exp y)) in N.
  set (y := fl_model _ _ _ _ _ _ _ _ _ _) in *. set (gap := model_bound _ _ _ _ _ _ _ _ _) in *. clearbody y gap. lra.
Qed.
Lemma seen_half : forall f g : double, finite f -> finite g -> 0 <= value f <= 2 -> / 2 < value g -> seen dh f g.
Proof.
  intros f g Ff Fg Bf Bg. split; [apply dh_rep|]. split; [exact Ff|]. split; [exact Fg|]. right. rewrite (Rabs_pos_eq (value g)) by lra. apply Rle_lt_trans with (/ 2); [|exact Bg].
  eapply Rle_trans; [apply Rle_abs|]. apply (rnd_bound binary64); [exact (bpow_fmt binary64 (-1) ltac:(unfold bottom; simpl; lia))|].
  rewrite (Rabs_pos_eq (value f)) by lra. assert (P : 4 <= 2 ^ 1022). { replace 4 with (2 ^ 2) by ring. apply Rle_pow; [lra | repeat constructor]. }
  assert (0 < 2 ^ 1022) by lra. rewrite Rabs_pos_eq by (apply Rmult_le_pos; [lra | left; apply Rinv_0_lt_compat; lra]).
  apply Rmult_le_reg_r with (2 ^ 1022); [lra|]. rewrite Rmult_assoc, Rinv_l by lra. change (Raux.bpow radix2 (-1)) with (/ 2). lra.
Qed.
Lemma grid_kl_seen : Forall (fun x => seen dh (densb x) (b_model (ideal_exp binary64) (ideal_pow binary64) (ideal_pi binary64)
  (plain (lays (real_place x))) (first (lays (real_place x))) false (laysb x) [d2] [d1])) grid_kl.
Proof.
  destruct d1_rep as [F1 V1]. destruct d2_rep as [F2 V2]. destruct ex_model as [M1 M2]. assert (L := d_lo_small).
  assert (S0 : smooth d_lo false false 0 1) by (split; [split; discriminate | split; [left; reflexivity | discriminate]]).
  assert (S1 : smooth d_lo false false 1 1) by (split; [split; discriminate | split; [right; lra | discriminate]]).
  apply Forall_cons; [|apply Forall_cons; [|apply Forall_nil]].
  - destruct (kl_model_rep d0 eq_refl) as [Fm Vm]; change (value d0) with 0; [lra | exact S0 | rewrite M1; lra|]. apply seen_half; [exact F2 | exact Fm | unfold densb; cbn [fst snd]; lra | exact Vm].
  - destruct (kl_model_rep d1 F1) as [Fm Vm]; rewrite ?V1; [lra | exact S1 | lra|]. apply seen_half; [exact F1 | exact Fm | unfold densb; cbn [fst snd]; lra | exact Vm].
Qed.
Definition rule_kl : list double -> double := b_cubic PropRnd2.ex_t [d1; d2].
Lemma rule_kl_same : same_rule rule_kl (fl_cubic d_rnd PropRnd2.ex_t [1; 2]).
Proof.
  replace [1; 2] with (map value [d1; d2]) by (cbn [map]; rewrite (proj2 d1_rep), (proj2 d2_rep); reflexivity).
  intros y y' F. apply (cubic_agrees binary64); [apply (selves_agree binary64) | exact F].
Qed.
(** The example of least squares is finite by its magnitudes alone: distances at most 1, coefficient at most 4. *)
Lemma step_damping : damping step_exp step_real.
Proof.
  split; [exact step_exponential|]. split.
  - intros x F L. assert (Ex : step_exp x = if Bleb (lit (-1) (-2)) x then d1 else if Bleb (lit (-1) 1000) x then dh else d0)
      by (destruct x as [s|s| |s m e H]; try reflexivity; discriminate F).
    rewrite Ex. destruct (Bleb _ x); [apply d1_rep|]. destruct (Bleb _ x); [apply dh_rep | reflexivity].
  - intros y L. unfold step_real. destruct (Rle_dec _ y); [lra|]. destruct (Rle_dec _ y); lra.
Qed.
Lemma rule2_finite : finite_rule (fun y => length y = 2%nat /\ Forall (fun r => Rabs r <= Raux.bpow radix2 6) y) rule2 rule2r.
Proof.
  intros y y' Y [Ly By]. assert (E : length y = 2%nat) by (rewrite <- Ly; clear - Y; induction Y; simpl; congruence).
  apply (cubic_rep binary64 t01 [d1; d1] (map value [d1; d1]) y y' 0 6); try (unfold bottom; simpl; lia); try exact Y; try exact By.
  - apply Permutation.perm_swap.
  - change (Raux.bpow radix2 (0 + 6)) with 64. apply Rlt_trans with (Raux.bpow radix2 9); [|apply (pow_lt_largest binary64); reflexivity]. change (Raux.bpow radix2 9) with 512. simpl. lra.
  - apply lift_reps. repeat apply Forall_cons; try apply Forall_nil; apply d1_rep.
  - cbn [map]. rewrite (proj2 d1_rep). change (Raux.bpow radix2 0) with 1. repeat apply Forall_cons; try apply Forall_nil; rewrite Rabs_R1; lra.
Qed.
Example C122_no_overflow_example : finite (bfunc (b_square times)) /\ finite (bjac b_square_slope 1).
Proof.
  destruct (C118_library binary64) as (_ & _ & Hp & Hc & _). destruct (C119_library binary64) as [H3 H1]. destruct params2 as [E1 E2]. destruct d1_rep as [F1 V1]. destruct d4_rep as [F4 V4].
  assert (X : forall d, Rabs d <= 1 -> Rabs d <= Raux.bpow radix2 0) by (intros d H; exact H).
  assert (Sz : Forall (sized_place 0 2 plain first) grid2).
  { repeat apply Forall_cons; try apply Forall_nil; (split; [apply Forall_cons; [|apply Forall_nil]; cbn [snd] | split; [exact I | split; [reflexivity | split; [simpl; lia|]]]]).
    - split; [reflexivity|]. change (value d0) with 0. rewrite Rabs_R0. apply bpow_ge_0.
    - apply Rlt_trans with (Raux.bpow radix2 3); [|apply (pow_lt_largest binary64); reflexivity]. change (Raux.bpow radix2 3) with 8. change (Raux.bpow radix2 2) with 4. simpl. lra.
    - split; [exact F1|]. rewrite V1, Rabs_R1. apply Rle_refl.
    - apply Rlt_trans with (Raux.bpow radix2 3); [|apply (pow_lt_largest binary64); reflexivity]. change (Raux.bpow radix2 3) with 8. change (Raux.bpow radix2 2) with 4. simpl. lra. }
  assert (Fe : Forall (fun a : double => finite a /\ 0 <= value a) [d1]) by (apply Forall_cons; [split; [exact F1 | rewrite V1; lra] | apply Forall_nil]).
  assert (Fc : Forall (fun a : double => finite a /\ Rabs (value a) <= Raux.bpow radix2 2) [d4])
    by (apply Forall_cons; [split; [exact F4 | unfold d4; rewrite V4, Rabs_pos_eq; [apply Rle_refl | lra]] | apply Forall_nil]).
  assert (Wf : Forall (fun x : bplace binary64 => finite (weightb x)) grid2) by (repeat apply Forall_cons; try apply Forall_nil; vm_compute; reflexivity).
  assert (Sq := squares_point binary64 step_exp step_real (ideal_pow binary64) small_pow (ideal_pi binary64) step_exponential Hp Hc plain first false grid2 [d4] [d1] one_finite grid2_good times times_real times_library).
  assert (Sc := squares_change_point binary64 step_exp step_real (ideal_pow binary64) small_pow (ideal_pi binary64) step_exponential Hp Hc plain first false grid2 [d4] [d1] one_finite grid2_good).
  assert (Lit : forall v : list double, Forall (fun a => finite a /\ Rabs (value a) <= Raux.bpow radix2 6) v -> Forall (SpecBin64.fits binary64) (map value v)).
  { intros v Fv. apply Forall_map. eapply Forall_impl; [|exact Fv]. intros a [_ B]. eapply Rle_lt_trans; [exact B | apply (pow_lt_largest binary64); reflexivity]. }
  assert (Vals : forall m m', (forall x, In x grid2 -> agrees (m (densb x) (model2 x)) (m' (value (densb x)) (fl_model rnd64 step_real small_pow (value (ideal_pi binary64)) (plain (lays (real_place x))) (first (lays (real_place x))) false (lays (real_place x)) (map value [d4]) (map value [d1])))) ->
    Forall2 agrees (b_mulv (map weightb grid2) (b_map2 m (map densb grid2) (b_curve step_exp (ideal_pow binary64) (ideal_pi binary64) plain first false grid2 [d4] [d1])))
      (fl_mul rnd64 (map weight (map real_place grid2)) (fl_map2 m' (map dens (map real_place grid2)) (fl_curve rnd64 step_real small_pow (value (ideal_pi binary64)) plain first false (map real_place grid2) (map value [d4]) (map value [d1]))))).
  { intros m m' A. apply mulv_agree; [apply weights_agree | apply measure_agree, A]. }
  destruct (fmt_lit binary64 2 ltac:(unfold bottom; simpl; lia)) as [_ W4].
  assert (I1 : b_mulv (map weightb grid2) (b_map2 (b_square times) (map densb grid2) (b_curve step_exp (ideal_pow binary64) (ideal_pi binary64) plain first false grid2 [d4] [d1])) = [lit 4 0; lit 12 0])
    by (unfold grid2, b_curve, b_map2; cbn [map combine b_mulv fst snd]; repeat apply f_equal2; try apply same_double; try (vm_compute; reflexivity)).
  assert (I2 : b_mulv (map weightb grid2) (b_map2 b_square_slope (map densb grid2) (b_curve step_exp (ideal_pow binary64) (ideal_pi binary64) plain first false grid2 [d4] [d1])) = [lit 4 0; lit (-12) 0])
    by (unfold grid2, b_curve, b_map2; cbn [map combine b_mulv fst snd]; repeat apply f_equal2; try apply same_double; try (vm_compute; reflexivity)).
  assert (Bl : forall z, (Z.abs z <= 64)%Z -> finite (lit z 0) /\ Rabs (value (lit z 0)) <= Raux.bpow radix2 6).
  { intros z Lz. destruct (lit_int binary64 z) as [Fz Vz]; [eapply Z.le_lt_trans; [exact Lz | reflexivity]|]. split; [exact Fz|]. rewrite Vz, <- abs_IZR. change (Raux.bpow radix2 6) with 64. apply IZR_le, Lz. }
  split.
  - assert (A1 := Vals _ _ Sq). rewrite I1 in A1. assert (F12 : Forall (fun a : double => finite a /\ Rabs (value a) <= Raux.bpow radix2 6) [lit 4 0; lit 12 0])
      by (repeat apply Forall_cons; try apply Forall_nil; apply Bl; simpl; lia).
    assert (Eq := agree_values binary64 _ _ A1 (Forall_impl _ (fun a H => proj1 H) F12)).
    destruct (C122_no_overflow binary64 step_exp step_real (ideal_pow binary64) small_pow (ideal_pi binary64) step_damping Hp Hc H1 H3 plain first false grid2 [d4] [d1] 0 0 2 0 2
      ltac:(lia) ltac:(lia) ltac:(lia) ltac:(lia) ltac:(lia) ltac:(discriminate) ltac:(simpl; lia) ltac:(discriminate) ltac:(discriminate) Fe Fc Sz (b_square times) (fl_square rnd64 times_real)) with (P := fun y => length y = 2%nat /\ Forall (fun r => Rabs r <= Raux.bpow radix2 6) y) (quadr := rule2) (quadr' := rule2r) as [R _];
      [|exact Wf | exact rule2_finite | rewrite Eq; apply Lit, F12 |].
    + intros x Ix. assert (D := Sq x Ix). destruct Ix as [<-|[<-|[]]]; (split; [vm_compute; reflexivity | apply D; vm_compute; reflexivity]).
    + apply R. rewrite Eq. split; [reflexivity|]. apply Forall_map. eapply Forall_impl; [|exact F12]. intros a [_ B]. exact B.
  - assert (A1 := Vals _ _ Sc). rewrite I2 in A1. assert (F12 : Forall (fun a : double => finite a /\ Rabs (value a) <= Raux.bpow radix2 6) [lit 4 0; lit (-12) 0])
      by (repeat apply Forall_cons; try apply Forall_nil; apply Bl; simpl; lia).
    assert (Eq := agree_values binary64 _ _ A1 (Forall_impl _ (fun a H => proj1 H) F12)).
    assert (Col : Forall2 agrees (b_mulv [lit 4 0; lit (-12) 0] (b_column step_exp (ideal_pow binary64) (ideal_pi binary64) false grid2 [d4] [d1] 1))
      (fl_mul rnd64 (map value [lit 4 0; lit (-12) 0]) (fl_column rnd64 step_real small_pow (value (ideal_pi binary64)) false (map real_place grid2) (map value [d4]) (map value [d1]) 1))).
    { apply mulv_agree; [apply selves_agree|]. apply (maps_agree binary64 _ (fun x => nth 1 (fl_basis rnd64 step_real small_pow (value (ideal_pi binary64)) false (lays x) (map value [d1]) ++
        fl_slopes rnd64 step_real small_pow (value (ideal_pi binary64)) false (lays x) (map value [d4]) (map value [d1])) 0)).
      exact (each_slope binary64 step_exp step_real (ideal_pow binary64) small_pow (ideal_pi binary64) step_exponential Hp Hc H3 plain first false grid2 [d4] [d1] one_finite grid2_good 1). }
    assert (I3 : b_mulv [lit 4 0; lit (-12) 0] (b_column step_exp (ideal_pow binary64) (ideal_pi binary64) false grid2 [d4] [d1] 1) = [B754_zero true; lit 24 0])
      by (unfold grid2, b_column; cbn [map b_mulv]; repeat apply f_equal2; try apply same_double; try (vm_compute; reflexivity)).
    rewrite I3 in Col. assert (F24 : Forall (fun a : double => finite a /\ Rabs (value a) <= Raux.bpow radix2 6) [B754_zero true; lit 24 0]).
    { apply Forall_cons; [|apply Forall_cons; [|apply Forall_nil]]; [|apply Bl; simpl; lia]. split; [reflexivity|].
      change (value (B754_zero true : double)) with 0. rewrite Rabs_R0. apply bpow_ge_0. }
    assert (Eq2 := agree_values binary64 _ _ Col (Forall_impl _ (fun a H => proj1 H) F24)).
    destruct (C122_no_overflow binary64 step_exp step_real (ideal_pow binary64) small_pow (ideal_pi binary64) step_damping Hp Hc H1 H3 plain first false grid2 [d4] [d1] 0 0 2 0 2
      ltac:(lia) ltac:(lia) ltac:(lia) ltac:(lia) ltac:(lia) ltac:(discriminate) ltac:(simpl; lia) ltac:(discriminate) ltac:(discriminate) Fe Fc Sz b_square_slope (fl_square_slope rnd64)) with (P := fun y => length y = 2%nat /\ Forall (fun r => Rabs r <= Raux.bpow radix2 6) y) (quadr := rule2) (quadr' := rule2r) as [_ R];
      [|exact Wf | exact rule2_finite | rewrite Eq; apply Lit, F12 |].
    + intros x Ix. assert (D := Sc x Ix). destruct Ix as [<-|[<-|[]]]; (split; [vm_compute; reflexivity | apply D; vm_compute; reflexivity]).
    + apply R; rewrite Eq, Eq2; [apply Lit, F24 | split; [reflexivity|]]. apply Forall_map. eapply Forall_impl; [|exact F24]. intros a [_ B]. exact B.
Qed.

(** The derivative with respect to the exponent is finite. *)
Lemma rule_kl_finite : finite_rule (fun y => length y = 2%nat /\ Forall (fun r => Rabs r <= Raux.bpow radix2 6) y) rule_kl (fl_cubic d_rnd PropRnd2.ex_t [1; 2]).
Proof.
  intros y y' Y [Ly By]. assert (E : length y = 2%nat) by (rewrite <- Ly; clear - Y; induction Y; simpl; congruence).
  apply (cubic_rep binary64 PropRnd2.ex_t [d1; d2] [1; 2] y y' 1 6); try (unfold bottom; simpl; lia); try exact Y; try exact By.
  - exact PropRnd2.ex_t_orders.
  - change (Raux.bpow radix2 (1 + 6)) with 128. apply Rlt_trans with (Raux.bpow radix2 9); [|apply (pow_lt_largest binary64); reflexivity]. change (Raux.bpow radix2 9) with 512. simpl. lra.
  - constructor; [exact d1_rep | constructor; [exact d2_rep | constructor]].
  - change (Raux.bpow radix2 1) with 2. repeat apply Forall_cons; try apply Forall_nil; rewrite Rabs_pos_eq; lra.
Qed.
Lemma kl_measure_small : forall f g, 0 <= f <= 2 -> / 2 < g -> Rabs (fl_kl_slope rnd64 (/ 2) f g) <= 4.
Proof.
  intros f g F G. unfold fl_kl_slope, fl_ratio. rewrite Rabs_Ropp. destruct (Rle_dec g (/ 2)); [lra|]. change 4 with (Raux.bpow radix2 2).
  apply (rnd_bound binary64); [apply bpow_fmt; unfold bottom; simpl; lia|]. change (Raux.bpow radix2 2) with 4.
  assert (I : 0 < / g < 2) by (split; [apply Rinv_0_lt_compat; lra | rewrite <- (Rinv_inv 2); apply Rinv_lt_contravar; lra]). unfold Rdiv. rewrite Rabs_pos_eq; nra.
Qed.
Lemma times_small : forall x y a b c, Rabs x <= Raux.bpow radix2 a -> Rabs y <= Raux.bpow radix2 b -> (0 <= a)%Z -> (0 <= b)%Z -> (a + b = c)%Z -> Rabs (rnd64 (x * y)) <= Raux.bpow radix2 c.
Proof.
  intros x y a b c X Y A B <-. apply (rnd_bound binary64); [apply bpow_fmt; unfold bottom; simpl; lia|]. rewrite Rabs_mult, bpow_plus. apply Rmult_le_compat; try apply Rabs_pos; assumption.
Qed.
Lemma kl_jac_is_finite :
  finite (b_jac (ideal_exp binary64) (ideal_pow binary64) (ideal_pi binary64) plain first rule_kl (b_kl_slope dh) false grid_kl [d2] [d1] 1).
Proof.
  destruct (C118_library binary64) as (_ & Hd & Hp & Hc & _). destruct (C119_library binary64) as [H3 H1]. destruct d1_rep as [F1 V1]. destruct d2_rep as [F2 V2]. assert (L := d_lo_small).
  destruct ex_model as [G1 G2]. assert (Three := proj2 three_rep).
  assert (Z0 : finite d0 /\ Rabs (value d0) <= Raux.bpow radix2 0) by (split; [reflexivity | change (value d0) with 0; rewrite Rabs_R0; apply bpow_ge_0]).
  assert (Z1 : finite d1 /\ Rabs (value d1) <= Raux.bpow radix2 0) by (split; [exact F1 | rewrite V1, Rabs_R1; apply Rle_refl]).
  assert (Big : INR 1 * Raux.bpow radix2 1 < largest binary64).
  { apply Rlt_trans with (Raux.bpow radix2 3); [|apply (pow_lt_largest binary64); reflexivity]. change (Raux.bpow radix2 3) with 8. change (Raux.bpow radix2 1) with 2. simpl. lra. }
  assert (Sz : Forall (sized_place 0 1 plain first) grid_kl).
  { repeat apply Forall_cons; try apply Forall_nil; (split; [apply Forall_cons; [assumption | apply Forall_nil] | split; [exact I | split; [reflexivity | split; [simpl; lia | exact Big]]]]). }
  assert (Fe : Forall (fun a : double => finite a /\ 0 <= value a) [d1]) by (apply Forall_cons; [split; [exact F1 | rewrite V1; lra] | apply Forall_nil]).
  assert (B2 : Rabs (value d2) <= Raux.bpow radix2 1) by (rewrite V2, Rabs_pos_eq; [apply Rle_refl | lra]).
  assert (Fc : Forall (fun a : double => finite a /\ Rabs (value a) <= Raux.bpow radix2 1) [d2]) by (apply Forall_cons; [split; assumption | apply Forall_nil]).
  assert (Wf : Forall (fun x : bplace binary64 => finite (weightb x)) grid_kl) by (repeat apply Forall_cons; try apply Forall_nil; [exact F1 | apply three_rep]).
  assert (Mod := fun x I => model_sized binary64 _ _ _ _ _ Hd Hp Hc plain first false grid_kl [d2] [d1] 0 0 1 1 ltac:(lia) ltac:(lia) ltac:(lia) ltac:(lia) ltac:(simpl; lia) ltac:(discriminate) Fe Fc Sz x I).
  assert (S0 : smooth d_lo false false 0 1) by (split; [split; discriminate | split; [left; reflexivity | discriminate]]).
  assert (S1 : smooth d_lo false false 1 1) by (split; [split; discriminate | split; [right; lra | discriminate]]).
  destruct (kl_model_rep d0 eq_refl) as [_ M0]; change (value d0) with 0; [lra | exact S0 | rewrite G1; lra|].
  destruct (kl_model_rep d1 F1) as [_ M1]; rewrite ?V1; [lra | exact S1 | lra|].
  assert (R0 := Mod _ (or_introl eq_refl)). assert (R1 := Mod _ (or_intror (or_introl eq_refl))).
  assert (Sl : forall r : double, finite r /\ Rabs (value r) <= Raux.bpow radix2 0 -> Rabs (fl_slope rnd64 (fun y => rnd64 (exp y)) (fun x y => rnd64 (Rpower x y)) (value (ideal_pi binary64)) false false (value r) (value d2) (value d1)) <= Raux.bpow radix2 2).
  { intros r [Fr Br]. apply (C119_no_overflow binary64 _ _ _ _ _ Hd Hp Hc H1 H3 false false r d2 d1 0 0 1 0 1); try assumption; try lia; try discriminate; [rewrite V1; lra | simpl; lia]. }
  destruct R0 as [_ R0]. destruct R1 as [_ R1]. unfold laysb in R0, R1. cbn [snd] in R0, R1.
  change (plain _) with (fun _ : nat => false) in R0. change (first _) with (At 0) in R0. change (plain _) with (fun _ : nat => false) in R1. change (first _) with (At 0) in R1.
  rewrite R0 in M0. rewrite R1 in M1.
  assert (K0 := kl_measure_small (value d2) _ ltac:(rewrite V2; lra) M0). assert (K1 := kl_measure_small (value d1) _ ltac:(rewrite V1; lra) M1).
  assert (Vb : Forall (fun r => Rabs r <= Raux.bpow radix2 4) (fl_mul rnd64 (map weight (map real_place grid_kl)) (fl_map2 (fl_kl_slope rnd64 (/ 2)) (map dens (map real_place grid_kl))
    (fl_curve rnd64 (fun y => rnd64 (exp y)) (fun x y => rnd64 (Rpower x y)) (value (ideal_pi binary64)) plain first false (map real_place grid_kl) (map value [d2]) (map value [d1]))))).
  { apply Forall_cons; [|apply Forall_cons; [|apply Forall_nil]].
    - apply (times_small _ _ 2 2); try lia; [|exact K0]. change (Raux.bpow radix2 2) with 4. unfold weight, real_place, weightb. cbn [fst snd]. rewrite V1, Rabs_R1. lra.
    - apply (times_small _ _ 2 2); try lia; [|exact K1]. change (Raux.bpow radix2 2) with 4. unfold weight, real_place, weightb. cbn [fst snd]. rewrite Three, Rabs_pos_eq; lra. }
  assert (Fit : forall e v, (e < 1024)%Z -> Forall (fun r => Rabs r <= Raux.bpow radix2 e) v -> Forall (SpecBin64.fits binary64) v).
  { intros e v Le Fv. eapply Forall_impl; [|exact Fv]. intros r B. eapply Rle_lt_trans; [exact B | apply (pow_lt_largest binary64); simpl; lia]. }
  destruct (C122_no_overflow binary64 _ _ _ _ _ Hd Hp Hc H1 H3 plain first false grid_kl [d2] [d1] 0 0 1 0 1
    ltac:(lia) ltac:(lia) ltac:(lia) ltac:(lia) ltac:(lia) ltac:(discriminate) ltac:(simpl; lia) ltac:(discriminate) ltac:(discriminate) Fe Fc Sz (b_kl_slope dh) (fl_kl_slope rnd64 (/ 2)))
    with (P := fun y => length y = 2%nat /\ Forall (fun r => Rabs r <= Raux.bpow radix2 6) y) (quadr := rule_kl) (quadr' := fl_cubic d_rnd PropRnd2.ex_t [1; 2]) as [_ R].
  - intros x I. assert (Se := grid_kl_seen). rewrite Forall_forall in Se. rewrite <- (proj2 (Mod x I)), <- (proj2 dh_rep). apply kl_slope_fits, (Se x I).
  - exact Wf.
  - exact rule_kl_finite.
  - exact (Fit 4%Z _ ltac:(lia) Vb).
  - specialize (R 1%nat). cbv zeta in R.
    match type of R with Forall _ ?v -> _ => assert (Vc : length v = 2%nat /\ Forall (fun r => Rabs r <= Raux.bpow radix2 6) v) end.
    { split; [reflexivity|]. apply Forall_cons_iff in Vb. destruct Vb as [Va Vb]. apply Forall_cons_iff in Vb. destruct Vb as [Vb _].
      apply Forall_cons; [|apply Forall_cons; [|apply Forall_nil]].
      - apply (times_small _ _ 4 2); try lia; [exact Va | exact (Sl d0 Z0)].
      - apply (times_small _ _ 4 2); try lia; [exact Vb | exact (Sl d1 Z1)]. }
    exact (proj1 (R (Fit 6%Z _ ltac:(lia) (proj2 Vc)) Vc)).
Qed.
(** The exact derivative with respect to the exponent is 6. *)
Example C122_kl_value_example :
  let j := b_jac (ideal_exp binary64) (ideal_pow binary64) (ideal_pi binary64) plain first rule_kl (b_kl_slope dh) false grid_kl [d2] [d1] 1 in
  Rabs (value j - 6) <=
    ex_rule_bound (map (fun x => let g := gsum false (lays x) [2] [1] in let s := model_slope false (lays x) [2] [1] 1 in (weight x * kl_change (dens x) g * s,
      gradient_bound d_u d_eta (weight x) (kl_change (dens x) g) (kl_change_total d_u d_eta (dens x) g (ex_gap x))
        s (param_bound d_u d_eta 1 ex_A false (lays x) [2] [1] 1))) ex_places).
Proof.
  intro j. assert (Fj := kl_jac_is_finite). destruct (C118_library binary64) as (_ & Hd & Hp & Hc & Ee & Ep & Epi). destruct (C119_library binary64) as [H3 _].
  assert (Lib : library (fun _ : double => B754_nan) d_log) by (intros x F; discriminate F).
  assert (V := C122_kl_value binary64 _ _ _ _ _ (proj1 Hd) Hp Hc H3 1%nat _ _ Ep Epi half_d Ee
    1 ltac:(lra) plain first 2%nat rule_kl _ _ _ rule_kl_same ex_cubic _ d_log d_u d_eta dh Lib d_log_error false grid_kl [d2] [d1] eq_refl eq_refl one_finite grid_kl_good grid_kl_seen).
  cbv zeta in V. cbn [map] in V. rewrite (proj2 d1_rep), (proj2 d2_rep), (proj2 dh_rep) in V.
  change (real_place (d1, d2, [(false, d0)]) :: [real_place (lit 3 0, d1, [(false, d1)])]) with (map real_place grid_kl) in V.
  rewrite places_kl in V. destruct (V ex_kl_ok) as [_ J]. specialize (J 1%nat ltac:(simpl; lia) Fj).
  assert (D : descent (wsum [1; 2]) kl_change false ex_places [2] [1] 1 = 6).
  { unfold descent, ex_places, kl_change, model_slope. cbn [map wsum gsum weight dens lays fst snd length Nat.ltb Nat.leb Nat.sub nth]. unfold basis_slope, basis_fn.
    assert (P0 := exp_pos (- (1) * 0 ^ 2)). assert (P1 := exp_pos (- (1) * 1 ^ 2)). set (a := exp _) in *. set (b := exp _) in *. clearbody a b. field. lra. }
  rewrite D in J. exact J.
Qed.
