(** Proofs about results in double precision that are finite. *)
From Coq Require Import Reals List ZArith Bool Lia Lra.
From Flocq Require Import Core IEEE754.BinarySingleNaN.
From Verif Require Import SpecRnd SpecBin SpecBin64 ModelRnd ModelRnd4 ModelBin64 ProofBin64.
From Coq Require Import List.
Import ListNotations.
Local Open Scope R_scope.

Section Format.
Variable fm : format.
Local Notation finite := (@SpecBin64.finite fm).
Local Notation value := (@SpecBin64.value fm).
Local Notation represents := (@SpecBin64.represents fm).
Local Notation agrees := (@SpecBin64.agrees fm).
Local Notation library := (@SpecBin64.library fm).
Local Notation library2 := (@SpecBin64.library2 fm).
Local Notation seen := (@SpecBin64.seen fm).
Local Notation same_rule := (@SpecBin64.same_rule fm).
Local Notation computes := (@SpecBin64.computes fm).
Local Notation computes2 := (@SpecBin64.computes2 fm).
Local Notation finite_rule := (@SpecBin64.finite_rule fm).
Local Notation b_add := (@ModelBin64.b_add fm).
Local Notation b_sub := (@ModelBin64.b_sub fm).
Local Notation b_mul := (@ModelBin64.b_mul fm).
Local Notation b_div := (@ModelBin64.b_div fm).
Local Notation b_zero := (@ModelBin64.b_zero fm).
Local Notation b_lit := (@ModelBin64.b_lit fm).
Local Notation b_sum := (@ModelBin64.b_sum fm).
Local Notation b_trap_terms := (@ModelBin64.b_trap_terms fm).
Local Notation b_trapz := (@ModelBin64.b_trapz fm).
Local Notation b_mulv := (@ModelBin64.b_mulv fm).
Local Notation b_cubic := (@ModelBin64.b_cubic fm).
Local Notation b_sphere := (@ModelBin64.b_sphere fm).
Local Notation b_spherical := (@ModelBin64.b_spherical fm).
Local Notation b_map2 := (@ModelBin64.b_map2 fm).
Local Notation b_square := (@ModelBin64.b_square fm).
Local Notation b_square_slope := (@ModelBin64.b_square_slope fm).
Local Notation b_ratio := (@ModelBin64.b_ratio fm).
Local Notation b_kl := (@ModelBin64.b_kl fm).
Local Notation b_kl_slope := (@ModelBin64.b_kl_slope fm).
Local Notation b_kl_values := (@ModelBin64.b_kl_values fm).
Local Notation b_tsallis := (@ModelBin64.b_tsallis fm).
Local Notation b_objective := (@ModelBin64.b_objective fm).
Local Notation b_gradient := (@ModelBin64.b_gradient fm).
Local Notation b_diff := (@ModelBin64.b_diff fm).
Local Notation b_update := (@ModelBin64.b_update fm).
Local Notation add_exact := (ProofBin64.add_exact fm).
Local Notation sub_exact := (ProofBin64.sub_exact fm).
Local Notation mul_exact := (ProofBin64.mul_exact fm).
Local Notation div_exact := (ProofBin64.div_exact fm).
Local Notation lit_int := (ProofBin64.lit_int fm).
Local Notation ltb_spec := (ProofBin64.ltb_spec fm).
Local Notation ratio_rep := (ProofBin64.ratio_rep fm).
Local Notation lift_reps := (ProofBin64.lift_reps fm).

Lemma add_fits : forall a b x y, represents a x -> represents b y -> fits fm ((near fm) (x + y)) -> represents (b_add a b) ((near fm) (x + y)).
Proof. intros a b x y [Fa <-] [Fb <-] L. apply (add_exact a b Fa Fb), L. Qed.
Lemma sub_fits : forall a b x y, represents a x -> represents b y -> fits fm ((near fm) (x - y)) -> represents (b_sub a b) ((near fm) (x - y)).
Proof. intros a b x y [Fa <-] [Fb <-] L. apply (sub_exact a b Fa Fb), L. Qed.
Lemma mul_fits : forall a b x y, represents a x -> represents b y -> fits fm ((near fm) (x * y)) -> represents (b_mul a b) ((near fm) (x * y)).
Proof. intros a b x y [Fa <-] [Fb <-] L. apply (mul_exact a b Fa Fb), L. Qed.
Lemma div_fits : forall a b x y, represents a x -> represents b y -> y <> 0 -> fits fm ((near fm) (x / y)) -> represents (b_div a b) ((near fm) (x / y)).
Proof. intros a b x y [Fa <-] [Fb <-] N L. apply (div_exact a b Fa Fb N), L. Qed.
Lemma abs_rep : forall a x, represents a x -> represents (Babs a) (Rabs x).
Proof. intros a x [F <-]. split; [unfold SpecBin64.finite; rewrite is_finite_Babs; exact F | apply B2R_Babs]. Qed.
Lemma opp_rep : forall a x, represents a x -> represents (Bopp a) (- x).
Proof. intros a x [F <-]. split; [unfold SpecBin64.finite; rewrite is_finite_Bopp; exact F | apply B2R_Bopp]. Qed.
Lemma self_rep : forall a, finite a -> represents a (value a).
Proof. intros a F. split; [exact F | reflexivity]. Qed.
Lemma comp_rep : forall D bf ff a x, computes D bf ff -> represents a x -> D x -> fits fm (ff x) -> represents (bf a) (ff x).
Proof. intros D bf ff a x C [F <-] Dx L. apply C; assumption. Qed.

Lemma square_fits : forall bsq fsq f g, computes (fun _ => True) bsq fsq -> finite f -> finite g ->
  fits fm ((near fm) (value f - value g)) -> fits fm (fl_square (near fm) fsq (value f) (value g)) ->
  represents (b_square bsq f g) (fl_square (near fm) fsq (value f) (value g)).
Proof.
  intros bsq fsq f g C Ff Fg L M. unfold ModelBin64.b_square, fl_square in *. apply (comp_rep (fun _ => True)); [exact C| |exact I|exact M].
  apply sub_fits; [apply self_rep, Ff | apply self_rep, Fg | exact L].
Qed.
Lemma slope_fits : forall f g, finite f -> finite g ->
  fits fm ((near fm) (value f - value g)) -> fits fm (fl_square_slope (near fm) (value f) (value g)) ->
  represents (b_square_slope f g) (fl_square_slope (near fm) (value f) (value g)).
Proof.
  intros f g Ff Fg L M. apply mul_fits; [exact (lit_int (-2) eq_refl)| |exact M].
  apply sub_fits; [apply self_rep, Ff | apply self_rep, Fg | exact L].
Qed.
Lemma kl_fits : forall blog flog mask f g, computes (fun r => 0 < r) blog flog -> seen mask f g ->
  0 < fl_ratio (near fm) (value mask) (value f) (value g) -> fits fm (flog (fl_ratio (near fm) (value mask) (value f) (value g))) ->
  fits fm (fl_kl (near fm) flog (value mask) (value f) (value g)) ->
  represents (b_kl blog mask f g) (fl_kl (near fm) flog (value mask) (value f) (value g)).
Proof.
  intros blog flog mask f g C S P L M. apply mul_fits; [apply self_rep, S| |exact M].
  apply (comp_rep (fun r => 0 < r)); [exact C | apply (ratio_rep mask f g S) | exact P | exact L].
Qed.
Lemma kl_slope_fits : forall mask f g, seen mask f g -> represents (b_kl_slope mask f g) (fl_kl_slope (near fm) (value mask) (value f) (value g)).
Proof. intros mask f g S. apply opp_rep, (ratio_rep mask f g S). Qed.

Lemma map2_rep : forall (m : (number fm) -> (number fm) -> (number fm)) (m' : R -> R -> R) f g,
  (forall a b, In (a, b) (combine f g) -> represents (m a b) (m' (value a) (value b))) ->
  Forall2 represents (b_map2 m f g) (fl_map2 m' (map value f) (map value g)).
Proof.
  intros m m' f. unfold ModelBin64.b_map2, fl_map2. induction f as [|a f IH]; intros [|b g] E; cbn [combine map]; try constructor.
  - apply E. left; reflexivity.
  - apply IH. intros. apply E. right; assumption.
Qed.

Lemma neg_values : forall blog neg mask f g, Forall finite g -> (exists b, In b g /\ value b < 0) ->
  b_kl_values blog neg mask f g = map (fun _ => neg) g.
Proof.
  intros blog neg mask f g Fg (b & I & N). unfold ModelBin64.b_kl_values. rewrite (proj2 (existsb_exists _ g)); [reflexivity|].
  exists b. split; [exact I|]. rewrite Forall_forall in Fg. apply (ltb_spec b b_zero (Fg b I) eq_refl). exact N.
Qed.
Lemma pos_values : forall blog neg mask f g, Forall finite g -> (forall b, In b g -> 0 <= value b) ->
  b_kl_values blog neg mask f g = b_map2 (b_kl blog mask) f g.
Proof.
  intros blog neg mask f g Fg P. unfold ModelBin64.b_kl_values. destruct (existsb (fun b => Bltb b b_zero) g) eqn:E; [|reflexivity].
  apply existsb_exists in E. destruct E as (b & I & E). rewrite Forall_forall in Fg. apply (ltb_spec b b_zero (Fg b I) eq_refl) in E.
  assert (Z : value b_zero = 0) by reflexivity. rewrite Z in E. specialize (P b I). lra.
Qed.

Lemma tsallis_fits : forall bpow fpow D alpha mask f g, computes2 D bpow fpow -> seen mask f g -> finite alpha ->
  let a := (near fm) (value alpha - 1) in let q := fl_ratio0 (near fm) (value mask) (value f) (value g) in
  a <> 0 -> fits fm a -> D q a -> fits fm (fpow q a) -> fits fm ((near fm) (fpow q a - 1)) -> fits fm ((near fm) (value f * (near fm) (fpow q a - 1))) ->
  fits fm (fl_tsallis (near fm) fpow (value alpha) (value mask) (value f) (value g)) ->
  represents (b_tsallis bpow alpha mask f g) (fl_tsallis (near fm) fpow (value alpha) (value mask) (value f) (value g)).
Proof.
  intros bpow fpow D alpha mask f g C S Fa a q Na La Dq L1 L2 L3 L4. destruct (ratio_rep mask f g S) as [_ R]. unfold ModelBin64.b_tsallis, fl_tsallis. cbv zeta.
  assert (A : represents (b_sub alpha (b_lit 1 0)) a) by (apply sub_fits; [apply self_rep, Fa | exact (lit_int 1 eq_refl) | exact La]).
  apply div_fits; [|exact A|exact Na|exact L4]. apply mul_fits; [apply self_rep, S| |exact L3]. apply sub_fits; [|exact (lit_int 1 eq_refl)|exact L2].
  destruct R as [FR VR], A as [FA VA]. fold q in VR. fold q. fold a. rewrite <- VR, <- VA. rewrite <- VR, <- VA in Dq, L1. apply C; assumption.
Qed.

Lemma diff_rep : forall f g, (forall a b, In (a, b) (combine f g) -> finite a /\ finite b /\ fits fm ((near fm) (value a - value b))) ->
  Forall2 represents (b_diff f g) (fl_diff (near fm) (map value f) (map value g)).
Proof.
  intros f g H. apply (map2_rep (fun a b => Babs (b_sub a b)) (fun a b => Rabs ((near fm) (a - b)))). intros a b I.
  destruct (H a b I) as (Fa & Fb & L). apply abs_rep, sub_fits; [apply self_rep, Fa | apply self_rep, Fb | exact L].
Qed.

Lemma mulv_fits : forall x x' y y', Forall2 represents x x' -> Forall2 represents y y' -> Forall (fits fm) (fl_mul (near fm) x' y') ->
  Forall2 represents (b_mulv x y) (fl_mul (near fm) x' y').
Proof.
  intros x x' y y' X. revert y y'. induction X as [|a a' x x' A X IH]; intros y y' Y L; [constructor|].
  destruct Y as [|b b' y y' B Y]; cbn [ModelBin64.b_mulv fl_mul] in *; [constructor|]. inversion L; subst. constructor; [apply mul_fits; assumption | apply IH; assumption].
Qed.

Lemma objective_fits : forall P quadr quadr' m m' om f g, finite_rule P quadr quadr' -> Forall finite om ->
  (forall a b, In (a, b) (combine f g) -> represents (m a b) (m' (value a) (value b))) ->
  let v := fl_mul (near fm) (map value om) (fl_map2 m' (map value f) (map value g)) in Forall (fits fm) v -> P v ->
  represents (b_objective quadr om (b_map2 m f g)) (fl_objective (near fm) quadr' (map value om) (fl_map2 m' (map value f) (map value g))).
Proof. intros P quadr quadr' m m' om f g Q Fo E v L Pv. apply Q; [|exact Pv]. apply mulv_fits; [apply lift_reps, Fo | apply map2_rep, E | exact L]. Qed.
Lemma gradient_fits : forall P quadr quadr' m m' om f g b, finite_rule P quadr quadr' -> Forall finite om -> Forall finite b ->
  (forall x y, In (x, y) (combine f g) -> represents (m x y) (m' (value x) (value y))) ->
  let u := fl_mul (near fm) (map value om) (fl_map2 m' (map value f) (map value g)) in let v := fl_mul (near fm) u (map value b) in
  Forall (fits fm) u -> Forall (fits fm) v -> P v ->
  represents (b_gradient quadr om (b_map2 m f g) b) (fl_gradient (near fm) quadr' (map value om) (fl_map2 m' (map value f) (map value g)) (map value b)).
Proof.
  intros P quadr quadr' m m' om f g b Q Fo Fb E u v Lu Lv Pv. apply Q; [|exact Pv].
  apply mulv_fits; [|apply lift_reps, Fb|exact Lv]. apply mulv_fits; [apply lift_reps, Fo | apply map2_rep, E | exact Lu].
Qed.

Lemma update_fits : forall P quadr quadr' mask N f g b c, finite_rule P quadr quadr' ->
  (forall x y, In (x, y) (combine f g) -> seen mask x y) -> finite N -> finite c -> Forall finite f -> Forall finite b ->
  let v := fl_integrand (near fm) (value mask) (map value f) (map value g) (map value b) in
  let lm := (near fm) (quadr' (map value f) / value N) in let u := (near fm) (value c * quadr' v) in
  Forall (fits fm) v -> P v -> P (map value f) -> value N <> 0 -> fits fm lm -> lm <> 0 -> fits fm u -> fits fm ((near fm) (u / lm)) ->
  represents (b_update quadr mask N f g b c) ((near fm) (u / lm)).
Proof.
  intros P quadr quadr' mask N f g b c Q S FN Fc Ff Fb v lm u Lv Pv Pf NN Ll Nl Lu Lr. unfold ModelBin64.b_update. apply div_fits; [| |exact Nl|exact Lr].
  - apply mul_fits; [apply self_rep, Fc| |exact Lu]. apply Q; [|exact Pv]. unfold v, fl_integrand. apply mulv_fits; [|apply lift_reps, Fb|exact Lv].
    apply (map2_rep (b_ratio (b_lit 1 0) mask) (fl_ratio (near fm) (value mask))). intros x y I. apply (ratio_rep mask x y (S x y I)).
  - apply div_fits; [|apply self_rep, FN|exact NN|exact Ll]. apply Q; [apply lift_reps, Ff | exact Pf].
Qed.
End Format.
