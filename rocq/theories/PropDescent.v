(** Property C121: the objective that [ScipyFit] minimizes and the gradient it hands to the optimizer, for Gaussian
    models in rounded arithmetic, against the exact objective and its gradient. *)
From Coquelicot Require Import Coquelicot.
From Coq Require Import Reals List ZArith Lia Lra.
From Flocq Require Import Core.
From Verif Require Import XR SpecDens SpecRnd SpecBin SpecRnd2 SpecRnd3 SpecRnd4 SpecBinModel SpecSlope SpecDescent ModelRnd ModelRnd2 ModelRnd4 ModelSlope ModelDescent
  ProofRnd ProofRnd2 ProofRnd16 ProofRnd17 ProofDescent ProofDescent2 ProofDescent3 ProofDescent4 PropRnd2 PropRnd3 PropRnd4 PropSlope.
From Coq Require Import List.
Import ListNotations.
Local Open Scope R_scope.

(** The exact objective is differentiable in each of its parameters, and [descent] is its gradient: for any measure
    that is differentiable in the model, *)
Theorem C121_derivative : forall W norm (m dm : R -> R -> R) pts c e i, length e = length c -> (i < 2 * length c)%nat -> Forall (Rlt 0) e ->
  Forall (fun x => length (lays x) = length c /\ is_derive (m (dens x)) (gsum norm (lays x) c e) (dm (dens x) (gsum norm (lays x) c e))) pts ->
  is_derive (fun t : R => objective (wsum W) m norm pts (firstn (length c) (put i t (c ++ e))) (skipn (length c) (put i t (c ++ e))))
    (nth i (c ++ e) 0) (descent (wsum W) dm norm pts c e i).
Proof. exact descent_true. Qed.
Print Assumptions C121_derivative.

(** such as squares of differences, and the Kullback-Leibler divergence for positive models. *)
Theorem C121_measures : (forall f g, is_derive (square_loss f) g (square_change f g)) /\
  (forall f g, 0 <= f -> 0 < g -> is_derive (kl_loss f) g (kl_change f g)).
Proof. exact (conj square_derive kl_derive). Qed.
Print Assumptions C121_measures.

(** With exact arithmetic the program computes both. *)
Theorem C121_exact : forall fu to Q m norm pts c e, length e = length c -> (norm = true -> Forall (Rlt 0) e) ->
  Forall (fun x => length (lays x) = length c /\ orders (length c) (to (lays x))) pts ->
  fl_func (fun x => x) exp Rpower PI fu to Q m norm pts c e = objective Q m norm pts c e /\
  forall i, (i < 2 * length c)%nat -> fl_jac (fun x => x) exp Rpower PI fu to Q m norm pts c e i = descent Q m norm pts c e i.
Proof.
  exact (fun fu to Q m norm pts c e L P F => conj (func_exact fu to Q m norm pts c e L P F) (fun i I => jac_exact fu to Q m norm pts c e i L P I F)).
Qed.
Print Assumptions C121_exact.

(** With rounding: any measure whose computed values are near the exact ones for all models near the exact one.
    The result is the exact objective, or an entry of its gradient, up to the bound of the integration rule. *)
Theorem C121_any : forall u eta fmt rnd, rounding u eta fmt rnd -> u <= 1 / 8 ->
  forall lo k fpow pi, 0 < lo <= 1 / 2 -> normal u lo rnd -> pow_error u lo k fpow ->
  Rabs (pi - PI) <= u * PI -> 1 / 2 <= (1 - u) ^ (2 * k + 2) ->
  forall v z fexp, exp_error v z fexp -> forall M, 0 <= M -> forall fu to n quadr Q B, sound_rule fmt n quadr Q B ->
  let A := gauss_error u eta v z M in
  forall norm pts c e (m' m : R -> R -> R) (d : R -> R -> R -> R), length pts = n -> length e = length c ->
  let g x := gsum norm (lays x) c e in let dg x := model_bound u eta k A (to (lays x)) norm (lays x) c e in
  (forall x, In x pts -> fits lo M norm (lays x) c e (to (lays x)) /\
    forall g', Rabs (g' - g x) <= dg x -> Rabs (m' (dens x) g' - m (dens x) (g x)) <= d (dens x) (g x) (dg x)) ->
  Rabs (fl_func rnd fexp fpow pi fu to quadr m' norm pts c e - objective Q m norm pts c e) <=
    B (map (fun x => (weight x * m (dens x) (g x), weighted_bound u eta (weight x) (m (dens x) (g x)) (d (dens x) (g x) (dg x)))) pts) /\
  forall i, (i < 2 * length c)%nat ->
  Rabs (fl_jac rnd fexp fpow pi fu to quadr m' norm pts c e i - descent Q m norm pts c e i) <=
    B (map (fun x => let s := model_slope norm (lays x) c e i in
        (weight x * m (dens x) (g x) * s, gradient_bound u eta (weight x) (m (dens x) (g x)) (d (dens x) (g x) (dg x)) s (param_bound u eta k A norm (lays x) c e i))) pts).
Proof.
  exact (fun u eta fmt rnd H Hu8 lo k fpow pi Hlo Nr Pw Hpi Half v z fexp X M HM fu to n quadr Q B Sq norm pts c e m' m d L Le F =>
    conj (func_near u eta fmt rnd H Hu8 lo k fpow pi Hlo Nr Pw Hpi Half v z fexp X M HM fu to n quadr Q B Sq norm pts c e m' m d L Le F)
      (fun i I => jac_near u eta fmt rnd H Hu8 lo k fpow pi Hlo Nr Pw Hpi Half v z fexp X M HM fu to n quadr Q B Sq norm pts c e i m' m d L Le I F)).
Qed.
Print Assumptions C121_any.

(** With rounding: least squares. *)
Theorem C121_squares : forall u eta fmt rnd, rounding u eta fmt rnd -> u <= 1 / 8 ->
  forall lo k fpow pi, 0 < lo <= 1 / 2 -> normal u lo rnd -> pow_error u lo k fpow ->
  Rabs (pi - PI) <= u * PI -> 1 / 2 <= (1 - u) ^ (2 * k + 2) ->
  forall v z fexp, exp_error v z fexp -> forall M, 0 <= M -> forall fu to n quadr Q B, sound_rule fmt n quadr Q B ->
  forall w z2 fsq, square_error w z2 fsq ->
  forall norm pts c e, length pts = n -> length e = length c -> Forall (fun x => fits lo M norm (lays x) c e (to (lays x))) pts ->
  let A := gauss_error u eta v z M in
  let g x := gsum norm (lays x) c e in let dg x := model_bound u eta k A (to (lays x)) norm (lays x) c e in
  Rabs (fl_func rnd fexp fpow pi fu to quadr (fl_square rnd fsq) norm pts c e - objective Q square_loss norm pts c e) <=
    B (map (fun x => (weight x * square_loss (dens x) (g x),
        weighted_bound u eta (weight x) (square_loss (dens x) (g x)) (square_total u eta w z2 (dens x) (g x) (dg x)))) pts) /\
  forall i, (i < 2 * length c)%nat ->
  Rabs (fl_jac rnd fexp fpow pi fu to quadr (fl_square_slope rnd) norm pts c e i - descent Q square_change norm pts c e i) <=
    B (map (fun x => (weight x * square_change (dens x) (g x) * model_slope norm (lays x) c e i,
        gradient_bound u eta (weight x) (square_change (dens x) (g x)) (square_change_total u eta (dens x) (g x) (dg x))
          (model_slope norm (lays x) c e i) (param_bound u eta k A norm (lays x) c e i))) pts).
Proof. exact squares_near. Qed.
Print Assumptions C121_squares.

(** Kullback-Leibler divergence, where the model is larger than its error and the mask and the ratio does not
    underflow. *)
Theorem C121_kl : forall u eta fmt rnd, rounding u eta fmt rnd -> u <= 1 / 8 ->
  forall lo k fpow pi, 0 < lo <= 1 / 2 -> normal u lo rnd -> pow_error u lo k fpow ->
  Rabs (pi - PI) <= u * PI -> 1 / 2 <= (1 - u) ^ (2 * k + 2) ->
  forall v z fexp, exp_error v z fexp -> forall M, 0 <= M -> forall fu to n quadr Q B, sound_rule fmt n quadr Q B ->
  forall w z2 flog mask, log_error w z2 flog ->
  forall norm pts c e, length pts = n -> length e = length c ->
  let A := gauss_error u eta v z M in
  let g x := gsum norm (lays x) c e in let dg x := model_bound u eta k A (to (lays x)) norm (lays x) c e in
  Forall (fun x => fits lo M norm (lays x) c e (to (lays x)) /\ 0 < dens x /\ dg x < g x /\ mask < g x - dg x /\ lo <= dens x / (g x + dg x)) pts ->
  Rabs (fl_func rnd fexp fpow pi fu to quadr (fl_kl rnd flog mask) norm pts c e - objective Q kl_loss norm pts c e) <=
    B (map (fun x => (weight x * kl_loss (dens x) (g x),
        weighted_bound u eta (weight x) (kl_loss (dens x) (g x)) (kl_total u eta w z2 (dens x) (g x) (dg x)))) pts) /\
  forall i, (i < 2 * length c)%nat ->
  Rabs (fl_jac rnd fexp fpow pi fu to quadr (fl_kl_slope rnd mask) norm pts c e i - descent Q kl_change norm pts c e i) <=
    B (map (fun x => (weight x * kl_change (dens x) (g x) * model_slope norm (lays x) c e i,
        gradient_bound u eta (weight x) (kl_change (dens x) (g x)) (kl_change_total u eta (dens x) (g x) (dg x))
          (model_slope norm (lays x) c e i) (param_bound u eta k A norm (lays x) c e i))) pts).
Proof. exact kl_near_all. Qed.
Print Assumptions C121_kl.

(** The normalization constraint: the number of electrons [N], given or the integral of the density, minus the
    integral of the model. *)
Theorem C121_constraint : forall u eta fmt rnd, rounding u eta fmt rnd -> u <= 1 / 8 ->
  forall lo k fpow pi, 0 < lo <= 1 / 2 -> normal u lo rnd -> pow_error u lo k fpow ->
  Rabs (pi - PI) <= u * PI -> 1 / 2 <= (1 - u) ^ (2 * k + 2) ->
  forall v z fexp, exp_error v z fexp -> forall M, 0 <= M -> forall fu to n quadr Q B, sound_rule fmt n quadr Q B ->
  forall norm pts c e, length pts = n -> length e = length c ->
  Forall (fun x => fmt (dens x) /\ fits lo M norm (lays x) c e (to (lays x)) /\ lone (fu (lays x)) (to (lays x)) = false) pts ->
  let A := gauss_error u eta v z M in
  let g x := gsum norm (lays x) c e in let dg x := model_bound u eta k A (to (lays x)) norm (lays x) c e in
  (forall N N0 dN, Rabs (N - N0) <= dN ->
    Rabs (fl_constraint rnd fexp fpow pi fu to quadr N norm pts c e - (N0 - Q (map g pts))) <=
      residual_bound u eta (N0 - Q (map g pts)) (dN + B (map (fun x => (g x, dg x)) pts))) /\
  Rabs (fl_integral quadr pts - Q (map dens pts)) <= B (map (fun x => (dens x, 0)) pts).
Proof.
  exact (fun u eta fmt rnd H Hu8 lo k fpow pi Hlo Nr Pw Hpi Half v z fexp X M HM fu to n quadr Q B Sq norm pts c e L Le F =>
    conj (constraint_near u eta fmt rnd H Hu8 lo k fpow pi Hlo Nr Pw Hpi Half v z fexp X M HM fu to n quadr Q B Sq norm pts c e L Le F)
      (integral_near u eta fmt rnd H Hu8 lo k fpow pi Hlo Nr Pw Hpi Half v z fexp X M HM fu to n quadr Q B Sq norm pts c e L Le F)).
Qed.
Print Assumptions C121_constraint.

(** The five numbers of [goodness_of_fit]: the integral of the model, the integral and the maximum of the absolute
    deviation, the integral of its square, and the Kullback-Leibler divergence. *)
Theorem C121_quality : forall u eta fmt rnd, rounding u eta fmt rnd -> u <= 1 / 8 ->
  forall lo k fpow pi, 0 < lo <= 1 / 2 -> normal u lo rnd -> pow_error u lo k fpow ->
  Rabs (pi - PI) <= u * PI -> 1 / 2 <= (1 - u) ^ (2 * k + 2) ->
  forall v z fexp, exp_error v z fexp -> forall M, 0 <= M -> forall fu to n quadr Q B, sound_rule fmt n quadr Q B ->
  forall norm pts c e, length pts = n -> length e = length c ->
  Forall (fun x => fmt (dens x) /\ fits lo M norm (lays x) c e (to (lays x)) /\ lone (fu (lays x)) (to (lays x)) = false) pts ->
  let A := gauss_error u eta v z M in
  let g x := gsum norm (lays x) c e in let dg x := model_bound u eta k A (to (lays x)) norm (lays x) c e in
  forall w z2 fsq w' z3 flog, square_error w z2 fsq -> (forall x, fmt (fsq x)) -> log_error w' z3 flog ->
  forall neg mask, 0 <= mask -> forall q1 q2 q3 q4 q5, fl_quality rnd fexp fpow pi fu to fsq flog quadr neg mask norm pts c e = [q1; q2; q3; q4; q5] ->
  Rabs (q1 - Q (map g pts)) <= B (map (fun x => (g x, dg x)) pts) /\
  Rabs (q2 - Q (map (fun x => Rabs (dens x - g x)) pts)) <= B (map (fun x => (Rabs (dens x - g x), residual_bound u eta (dens x - g x) (dg x))) pts) /\
  (forall m D, is_max m (map (fun x => Rabs (dens x - g x)) pts) -> (forall x, In x pts -> residual_bound u eta (dens x - g x) (dg x) <= D) -> Rabs (q3 - m) <= D) /\
  Rabs (q4 - Q (map (fun x => square_loss (dens x) (g x)) pts)) <= B (map (fun x => (square_loss (dens x) (g x), square_total u eta w z2 (dens x) (g x) (dg x))) pts) /\
  ((forall x, In x pts -> 0 < dens x /\ mask < g x - dg x /\ lo <= dens x / (g x + dg x)) ->
   Rabs (q5 - Q (map (fun x => kl_loss (dens x) (g x)) pts)) <= B (map (fun x => (kl_loss (dens x) (g x), kl_total u eta w' z3 (dens x) (g x) (dg x))) pts)).
Proof. exact quality_near. Qed.
Print Assumptions C121_quality.

(** ** Examples *)
(** Two points with the weights 1 and 3 at the distances 0 and 1 from the center of [2 exp (- r^2)], integrated with
    the weights 1 and 2. *)
Definition ex_places : list place := [(1, 2, [(false, 0)]); (3, 1, [(false, 1)])].
(** The objective of least squares is [(2 - 2)^2 + 6 (1 - 2 / exp 1)^2]; its derivative with respect to the coefficient,
    and with respect to the exponent. *)
Example C121_derivative_example :
  is_derive (fun t : R => 1 * (1 * (2 - (t * 1 + 0)) ^ 2) + (2 * (3 * (1 - (t * exp (- (1)) + 0)) ^ 2) + 0)) 2 (- (12) * (1 - 2 * exp (- (1))) * exp (- (1))) /\
  is_derive (fun t : R => 1 * (1 * (2 - (2 * 1 + 0)) ^ 2) + (2 * (3 * (1 - (2 * exp (- t) + 0)) ^ 2) + 0)) 1 (24 * (1 - 2 * exp (- (1))) * exp (- (1))).
Proof.
  assert (F : Forall (fun x => length (lays x) = 1%nat /\ is_derive (square_loss (dens x)) (gsum false (lays x) [2] [1]) (square_change (dens x) (gsum false (lays x) [2] [1]))) ex_places)
    by (repeat apply Forall_cons; try apply Forall_nil; (split; [reflexivity | apply (proj1 C121_measures)])).
  assert (P : Forall (Rlt 0) [1]) by (constructor; [lra | constructor]).
  assert (E0 : exp (- (1) * 0 ^ 2) = 1) by (replace (- (1) * 0 ^ 2) with 0 by ring; apply exp_0).
  assert (E1 : exp (- (1) * 1 ^ 2) = exp (- (1))) by (f_equal; ring).
  split.
  - assert (D := C121_derivative [1; 2] false square_loss square_change ex_places [2] [1] 0 eq_refl ltac:(simpl; lia) P F).
    unfold objective, descent, ex_places, model_slope, square_loss, square_change, basis_fn, put in D. cbn [map wsum gsum weight dens lays fst snd firstn skipn app length nth Nat.ltb Nat.leb basis_fn] in D.
    unfold basis_fn in D. rewrite E0, E1 in D.
    evar_last; [eapply is_derive_ext; [|exact D]; intro t; cbn; ring | ring].
  - assert (D := C121_derivative [1; 2] false square_loss square_change ex_places [2] [1] 1 eq_refl ltac:(simpl; lia) P F).
    unfold objective, descent, ex_places, model_slope, square_loss, square_change, basis_slope, basis_fn, put in D. cbn [map wsum gsum weight dens lays fst snd firstn skipn app length nth Nat.ltb Nat.leb Nat.sub] in D.
    unfold basis_fn in D. rewrite E0, E1 in D.
    evar_last; [eapply is_derive_ext; [|exact D]; intro t; cbn | ring].
    replace (- t * (0 * (0 * 1))) with 0 by ring. replace (- t * (1 * (1 * 1))) with (- t) by ring. rewrite exp_0. ring.
Qed.
Example C121_measures_example : is_derive (square_loss 3) 1 (- (4)) /\ is_derive (kl_loss 3) 2 (- (3 / 2)).
Proof.
  destruct C121_measures as [S K]. split; [|apply K; lra]. assert (D := S 3 1). unfold square_change in D. replace (- (4)) with (-2 * (3 - 1)) by ring. exact D.
Qed.
Example C121_exact_example : forall fu, 
  fl_func (fun x => x) exp Rpower PI fu (fun _ => At 0) (wsum [1; 2]) square_loss false ex_places [2] [1] = 6 * (1 - 2 * exp (- (1))) ^ 2 /\
  fl_jac (fun x => x) exp Rpower PI fu (fun _ => At 0) (wsum [1; 2]) square_change false ex_places [2] [1] 1 = 24 * (1 - 2 * exp (- (1))) * exp (- (1)).
Proof.
  intro fu. assert (F : Forall (fun x => length (lays x) = 1%nat /\ orders 1 (At 0)) ex_places) by (repeat apply Forall_cons; try apply Forall_nil; (split; [reflexivity | apply Permutation.Permutation_refl])).
  assert (E0 : exp (- (1) * 0 ^ 2) = 1) by (replace (- (1) * 0 ^ 2) with 0 by ring; apply exp_0).
  assert (E1 : exp (- (1) * 1 ^ 2) = exp (- (1))) by (f_equal; ring).
  split.
  - destruct (C121_exact fu (fun _ => At 0) (wsum [1; 2]) square_loss false ex_places [2] [1] eq_refl ltac:(discriminate) F) as [-> _].
    unfold objective, ex_places, square_loss. cbn [map wsum gsum weight dens lays fst snd]. unfold basis_fn. rewrite E0, E1. ring.
  - destruct (C121_exact fu (fun _ => At 0) (wsum [1; 2]) square_change false ex_places [2] [1] eq_refl ltac:(discriminate) F) as [_ J]. rewrite J by (simpl; lia).
    unfold descent, ex_places, square_change, model_slope. cbn [map wsum gsum weight dens lays fst snd length Nat.ltb Nat.leb Nat.sub nth]. unfold basis_slope, basis_fn. rewrite E0, E1. ring.
Qed.
(** In doubles. *)
Lemma ex_cubic : sound_rule (bin_fmt (-1074) 53) 2 (fl_cubic d_rnd PropRnd2.ex_t [1; 2]) (wsum [1; 2])
  (quad_bound d_u (wsum (map Rabs [1; 2])) 2 ((1 + d_u) ^ 1 * (INR 2 * d_eta))).
Proof.
  destruct (C115_rules _ _ _ _ d_rounding d_small) as (_ & R & _). exact (proj2 (R PropRnd2.ex_t [1; 2] PropRnd2.ex_t_orders)).
Qed.
Lemma ex_fits : Forall (fun x => fits d_lo 1 false (lays x) [2] [1] (At 0)) ex_places.
Proof.
  assert (L := d_lo_small). repeat apply Forall_cons; try apply Forall_nil; (split; [reflexivity|]; split; [apply Permutation.Permutation_refl|]);
    (apply Forall2_cons; [|apply Forall2_nil]); (split; [lra|]); cbn [fst snd]; (split; [split; discriminate|]); (split; [|discriminate]); [left; reflexivity | right; lra].
Qed.
Notation ex_A := (gauss_error d_u d_eta d_u d_eta 1).
Notation ex_gap x := (model_bound d_u d_eta 1 ex_A (At 0) false (lays x) [2] [1]).
Notation ex_rule_bound := (quad_bound d_u (wsum (map Rabs [1; 2])) 2 ((1 + d_u) ^ 1 * (INR 2 * d_eta))).
Example C121_squares_example : forall fu,
  Rabs (fl_func d_rnd d_exp d_pow (d_rnd PI) fu (fun _ => At 0) (fl_cubic d_rnd PropRnd2.ex_t [1; 2]) (fl_square d_rnd d_sq) false ex_places [2] [1]
        - 6 * (1 - 2 * exp (- (1))) ^ 2) <=
    ex_rule_bound (map (fun x => let g := gsum false (lays x) [2] [1] in (weight x * square_loss (dens x) g,
      weighted_bound d_u d_eta (weight x) (square_loss (dens x) g) (square_total d_u d_eta d_u d_eta (dens x) g (ex_gap x)))) ex_places) /\
  Rabs (fl_jac d_rnd d_exp d_pow (d_rnd PI) fu (fun _ => At 0) (fl_cubic d_rnd PropRnd2.ex_t [1; 2]) (fl_square_slope d_rnd) false ex_places [2] [1] 1
        - 24 * (1 - 2 * exp (- (1))) * exp (- (1))) <=
    ex_rule_bound (map (fun x => let g := gsum false (lays x) [2] [1] in let s := model_slope false (lays x) [2] [1] 1 in (weight x * square_change (dens x) g * s,
      gradient_bound d_u d_eta (weight x) (square_change (dens x) g) (square_change_total d_u d_eta (dens x) g (ex_gap x))
        s (param_bound d_u d_eta 1 ex_A false (lays x) [2] [1] 1))) ex_places).
Proof.
  intro fu. assert (L := d_lo_small).
  destruct (C121_squares d_u d_eta _ d_rnd d_rounding d_small d_lo 1 d_pow (d_rnd PI) ltac:(split; lra) d_normal d_pow_error d_pi half_d
    d_u d_eta d_exp d_exp_error 1 ltac:(lra) fu (fun _ => At 0) 2 _ _ _ ex_cubic d_u d_eta d_sq d_sq_error false ex_places [2] [1] eq_refl eq_refl ex_fits) as [V J].
  destruct (C121_exact_example fu) as [X1 X2].
  assert (F : Forall (fun x => length (lays x) = 1%nat /\ orders 1 (At 0)) ex_places) by (repeat apply Forall_cons; try apply Forall_nil; (split; [reflexivity | apply Permutation.Permutation_refl])).
  rewrite <- X1, <- X2. split.
  - destruct (C121_exact fu (fun _ => At 0) (wsum [1; 2]) square_loss false ex_places [2] [1] eq_refl ltac:(discriminate) F) as [-> _]. exact V.
  - destruct (C121_exact fu (fun _ => At 0) (wsum [1; 2]) square_change false ex_places [2] [1] eq_refl ltac:(discriminate) F) as [_ Jx]. rewrite Jx by (simpl; lia).
    apply J. simpl; lia.
Qed.
(** The model is [2] and [2 / exp 1], and its error less than 1/10. *)
Lemma ex_gap_small : forall r, 0 <= model_bound d_u d_eta 1 ex_A (At 0) false [(false, r)] [2] [1] <= / 10.
Proof.
  intro r. assert (E := d_eta_small). assert (U : 0 < d_u <= / 1024).
  { split; [apply bpow_gt_0|]. replace (/ 1024) with (bpow radix2 (-10)) by (compute; lra). apply bpow_le. lia. }
  set (u := d_u) in *. set (eta := d_eta) in *. clearbody u eta. assert (E2 : 0 <= eta <= / 1024) by lra. unfold model_bound, gauss_error. cbn [height most spread additions length Nat.add Nat.mul INR].
  unfold SpecRnd2.top, size. set (d := ((1 + u) * 1 + 1) * eta). assert (D : 0 <= d <= / 256) by (unfold d; nra).
  assert (X : 1 <= exp d <= 3).
  { split; [rewrite <- exp_0; destruct (proj1 D) as [T| <-]; [apply Rlt_le, exp_increasing, T | apply Rle_refl]|].
    apply Rle_trans with (exp 1); [apply Rlt_le, exp_increasing; lra | exact exp_le_3]. }
  set (x := exp d) in *. clearbody x.
  assert (B0 : 0 <= (1 + u) ^ 2 - 1 + d <= 4 * u + 4 * eta) by (unfold d; split; nra). set (b := (1 + u) ^ 2 - 1 + d) in *. clearbody b. clearbody d.
  assert (BX : 0 <= b * x <= 3 * (4 * u + 4 * eta)) by (split; nra).
  set (A := b * x + u + eta). assert (HA : 0 <= A <= / 60) by (unfold A; lra). clearbody A.
  assert (Q : 1 <= / (1 - u) <= 1024 / 1023).
  { split; [rewrite <- Rinv_1; apply Rinv_le_contravar; lra | replace (1024 / 1023) with (/ (1023 / 1024)) by field; apply Rinv_le_contravar; lra]. }
  set (q := / (1 - u)) in *. clearbody q.
  assert (P := fun n => conj (pow_R1_Rle q n (proj1 Q)) (pow_incr q (1024 / 1023) n ltac:(lra))).
  assert (P1 := P 1%nat). assert (P3 := P 3%nat). assert (P7 := P 7%nat). cbn [pow] in P1, P3, P7 |- *. rewrite (Rabs_pos_eq 2) by lra.
  set (q7 := q * (q * (q * (q * (q * (q * (q * 1))))))) in *. set (q3 := q * (q * (q * 1))) in *. assert (Q1 : 1 <= q * 1 <= 1024 / 1023) by lra. set (q1 := q * 1) in *.
  clearbody q3 q7 q1. assert (H3 : 1 <= q3 <= 101 / 100) by lra. assert (H7 : 1 <= q7 <= 102 / 100) by lra. clear P1 P3 P7 P Q q.
  assert (T1 : 0 <= (q3 * (1 + A) - 1) <= 27 / 1000).
  { assert (1 * (1 + A) <= q3 * (1 + A)) by (apply Rmult_le_compat_r; lra). assert (q3 * (1 + A) <= 101 / 100 * (1 + / 60)) by (apply Rmult_le_compat; lra). split; lra. }
  assert (T2 : 0 <= eta * (2 * (2 + q7 * 1) + 0 + (1 + 0)) <= 8 * eta).
  { split; [apply Rmult_le_pos; lra | rewrite Rmult_comm; apply Rmult_le_compat_r; lra]. }
  set (y := eta * (2 * (2 + q7 * 1) + 0 + (1 + 0))) in *. set (w := q3 * (1 + A) - 1) in *.
  match goal with |- 0 <= ?a * (2 * (1 * 1) + 0) + q1 * (eta * ?s) <= _ => replace (eta * s) with y by (unfold y; ring); change a with w end.
  clearbody y w. assert (0 <= q1 * y <= 1024 / 1023 * (8 * eta)) by (split; [apply Rmult_le_pos | apply Rmult_le_compat]; lra). split; lra.
Qed.
Lemma ex_model : gsum false [(false, 0)] [2] [1] = 2 /\ 2 / 3 <= gsum false [(false, 1)] [2] [1] <= 2.
Proof.
  cbn [gsum]. unfold basis_fn. replace (- (1) * 0 ^ 2) with 0 by ring. replace (- (1) * 1 ^ 2) with (- (1)) by ring. rewrite exp_0. split; [ring|].
  assert (P := exp_pos 1). assert (E : / 3 <= exp (- (1))) by (rewrite exp_Ropp; apply Rinv_le_contravar; [exact P | exact exp_le_3]).
  assert (F : exp (- (1)) < exp 0) by (apply exp_increasing; lra). rewrite exp_0 in F. set (x := exp (- (1))) in *. lra.
Qed.
Lemma ex_kl_ok : Forall (fun x => fits d_lo 1 false (lays x) [2] [1] (At 0) /\ 0 < dens x /\ ex_gap x < gsum false (lays x) [2] [1] /\
  / 2 < gsum false (lays x) [2] [1] - ex_gap x /\ d_lo <= dens x / (gsum false (lays x) [2] [1] + ex_gap x)) ex_places.
Proof.
  assert (L := d_lo_small). assert (F := ex_fits). unfold ex_places in *. apply Forall_cons_iff in F. destruct F as [F1 F]. apply Forall_cons_iff in F. destruct F as [F2 _].
  destruct ex_model as [M1 M2]. assert (G1 := ex_gap_small 0). assert (G2 := ex_gap_small 1).
  apply Forall_cons; [|apply Forall_cons; [|apply Forall_nil]].
  - split; [exact F1|]. cbn [lays dens fst snd]. rewrite M1. set (a := model_bound _ _ _ _ _ _ _ _ _) in *. clearbody a. repeat split; try lra.
    apply Rle_trans with (2 / 4); [lra|]. apply Rmult_le_compat_l; [lra|]. apply Rinv_le_contravar; lra.
  - split; [exact F2|]. cbn [lays dens fst snd]. set (a := model_bound _ _ _ _ _ _ _ _ _) in *. set (g := gsum _ _ _ _) in *. clearbody a g. repeat split; try lra.
    apply Rle_trans with (1 / 4); [lra|]. apply Rmult_le_compat_l; [lra|]. apply Rinv_le_contravar; lra.
Qed.
Example C121_kl_example : forall fu,
  Rabs (fl_func d_rnd d_exp d_pow (d_rnd PI) fu (fun _ => At 0) (fl_cubic d_rnd PropRnd2.ex_t [1; 2]) (fl_kl d_rnd d_log (/ 2)) false ex_places [2] [1]
        - objective (wsum [1; 2]) kl_loss false ex_places [2] [1]) <=
    ex_rule_bound (map (fun x => let g := gsum false (lays x) [2] [1] in (weight x * kl_loss (dens x) g,
      weighted_bound d_u d_eta (weight x) (kl_loss (dens x) g) (kl_total d_u d_eta d_u d_eta (dens x) g (ex_gap x)))) ex_places) /\
  Rabs (fl_jac d_rnd d_exp d_pow (d_rnd PI) fu (fun _ => At 0) (fl_cubic d_rnd PropRnd2.ex_t [1; 2]) (fl_kl_slope d_rnd (/ 2)) false ex_places [2] [1] 1
        - 6) <=
    ex_rule_bound (map (fun x => let g := gsum false (lays x) [2] [1] in let s := model_slope false (lays x) [2] [1] 1 in (weight x * kl_change (dens x) g * s,
      gradient_bound d_u d_eta (weight x) (kl_change (dens x) g) (kl_change_total d_u d_eta (dens x) g (ex_gap x))
        s (param_bound d_u d_eta 1 ex_A false (lays x) [2] [1] 1))) ex_places).
Proof.
  intro fu. assert (L := d_lo_small).
  destruct (C121_kl d_u d_eta _ d_rnd d_rounding d_small d_lo 1 d_pow (d_rnd PI) ltac:(split; lra) d_normal d_pow_error d_pi half_d
    d_u d_eta d_exp d_exp_error 1 ltac:(lra) fu (fun _ => At 0) 2 _ _ _ ex_cubic d_u d_eta d_log (/ 2) d_log_error false ex_places [2] [1] eq_refl eq_refl ex_kl_ok) as [V J].
  split; [exact V|]. specialize (J 1%nat ltac:(simpl; lia)).
  assert (D : descent (wsum [1; 2]) kl_change false ex_places [2] [1] 1 = 6).
  { unfold descent, ex_places, kl_change, model_slope. cbn [map wsum gsum weight dens lays fst snd length Nat.ltb Nat.leb Nat.sub nth]. unfold basis_slope, basis_fn.
    assert (P0 := exp_pos (- (1) * 0 ^ 2)). assert (P1 := exp_pos (- (1) * 1 ^ 2)). set (a := exp _) in *. set (b := exp _) in *. clearbody a b. field. lra. }
  rewrite D in J. exact J.
Qed.
(** The measure that is the model itself: no error beyond that of the model. *)
Example C121_any_example : forall fu,
  Rabs (fl_func d_rnd d_exp d_pow (d_rnd PI) fu (fun _ => At 0) (fl_cubic d_rnd PropRnd2.ex_t [1; 2]) (fun f g => g) false ex_places [2] [1]
        - (2 + 12 * exp (- (1)))) <=
    ex_rule_bound (map (fun x => let g := gsum false (lays x) [2] [1] in (weight x * g, weighted_bound d_u d_eta (weight x) g (ex_gap x))) ex_places).
Proof.
  intro fu. assert (L := d_lo_small).
  destruct (C121_any d_u d_eta _ d_rnd d_rounding d_small d_lo 1 d_pow (d_rnd PI) ltac:(split; lra) d_normal d_pow_error d_pi half_d
    d_u d_eta d_exp d_exp_error 1 ltac:(lra) fu (fun _ => At 0) 2 _ _ _ ex_cubic false ex_places [2] [1] (fun f g => g) (fun f g => g) (fun f g d => d) eq_refl eq_refl) as [V _].
  { intros x I. assert (F := ex_fits). rewrite Forall_forall in F. split; [apply F, I | intros g' D; exact D]. }
  assert (D : objective (wsum [1; 2]) (fun f g => g) false ex_places [2] [1] = 2 + 12 * exp (- (1))).
  { unfold objective, ex_places. cbn [map wsum gsum weight dens lays fst snd]. unfold basis_fn. replace (- (1) * 0 ^ 2) with 0 by ring. replace (- (1) * 1 ^ 2) with (- (1)) by ring. rewrite exp_0. ring. }
  rewrite D in V. exact V.
Qed.
Lemma ex_whole : Forall (fun x => bin_fmt (-1074) 53 (dens x) /\ fits d_lo 1 false (lays x) [2] [1] (At 0) /\ lone (fun _ => false) (At 0) = false) ex_places.
Proof.
  assert (F := ex_fits). unfold ex_places in *. apply Forall_cons_iff in F. destruct F as [F1 F]. apply Forall_cons_iff in F. destruct F as [F2 _].
  repeat apply Forall_cons; try apply Forall_nil; (split; [apply d_int; reflexivity|]); (split; [assumption | reflexivity]).
Qed.
Lemma ex_integral : wsum [1; 2] (map (fun x => gsum false (lays x) [2] [1]) ex_places) = 2 + 4 * exp (- (1)).
Proof.
  unfold ex_places. cbn [map wsum gsum lays snd]. unfold basis_fn. replace (- (1) * 0 ^ 2) with 0 by ring. replace (- (1) * 1 ^ 2) with (- (1)) by ring. rewrite exp_0. ring.
Qed.
(** Four electrons, given without error, or the integral of the density. *)
Example C121_constraint_example :
  Rabs (fl_constraint d_rnd d_exp d_pow (d_rnd PI) (fun _ _ => false) (fun _ => At 0) (fl_cubic d_rnd PropRnd2.ex_t [1; 2]) 4 false ex_places [2] [1]
        - (2 - 4 * exp (- (1)))) <=
    residual_bound d_u d_eta (2 - 4 * exp (- (1))) (0 + ex_rule_bound (map (fun x => (gsum false (lays x) [2] [1], ex_gap x)) ex_places)) /\
  Rabs (fl_integral (fl_cubic d_rnd PropRnd2.ex_t [1; 2]) ex_places - 4) <= ex_rule_bound [(2, 0); (1, 0)].
Proof.
  assert (L := d_lo_small).
  destruct (C121_constraint d_u d_eta _ d_rnd d_rounding d_small d_lo 1 d_pow (d_rnd PI) ltac:(split; lra) d_normal d_pow_error d_pi half_d
    d_u d_eta d_exp d_exp_error 1 ltac:(lra) (fun _ _ => false) (fun _ => At 0) 2 _ _ _ ex_cubic false ex_places [2] [1] eq_refl eq_refl ex_whole) as [V I].
  split.
  - specialize (V 4 4 0 ltac:(rewrite Rminus_diag_eq, Rabs_R0 by reflexivity; lra)). rewrite ex_integral in V.
    replace (4 - (2 + 4 * exp (- (1)))) with (2 - 4 * exp (- (1))) in V by ring. exact V.
  - replace 4 with (wsum [1; 2] (map dens ex_places)) by (cbn; ring). exact I.
Qed.
(** The largest deviation is at distance 1. *)
Example C121_quality_example : forall neg q1 q2 q3 q4 q5,
  fl_quality d_rnd d_exp d_pow (d_rnd PI) (fun _ _ => false) (fun _ => At 0) d_sq d_log (fl_cubic d_rnd PropRnd2.ex_t [1; 2]) neg (/ 2) false ex_places [2] [1] = [q1; q2; q3; q4; q5] ->
  Rabs (q1 - (2 + 4 * exp (- (1)))) <= ex_rule_bound (map (fun x => (gsum false (lays x) [2] [1], ex_gap x)) ex_places) /\
  Rabs (q3 - (1 - 2 * exp (- (1)))) <= / 5 /\
  Rabs (q5 - 2 * ln (1 / (2 * exp (- (1))))) <= ex_rule_bound (map (fun x => let g := gsum false (lays x) [2] [1] in (kl_loss (dens x) g, kl_total d_u d_eta d_u d_eta (dens x) g (ex_gap x))) ex_places).
Proof.
  intros neg q1 q2 q3 q4 q5 G. assert (L := d_lo_small).
  destruct (C121_quality d_u d_eta _ d_rnd d_rounding d_small d_lo 1 d_pow (d_rnd PI) ltac:(split; lra) d_normal d_pow_error d_pi half_d
    d_u d_eta d_exp d_exp_error 1 ltac:(lra) (fun _ _ => false) (fun _ => At 0) 2 _ _ _ ex_cubic false ex_places [2] [1] eq_refl eq_refl ex_whole
    d_u d_eta d_sq d_u d_eta d_log d_sq_error (fun x => rd_fmt _ _ _ _ d_rounding _) d_log_error neg (/ 2) ltac:(lra) q1 q2 q3 q4 q5 G) as (A1 & _ & A3 & _ & A5).
  rewrite ex_integral in A1. split; [exact A1|].
  assert (E : gsum false [(false, 1)] [2] [1] = 2 * exp (- (1))).
  { cbn [gsum]. unfold basis_fn. replace (- (1) * 1 ^ 2) with (- (1)) by ring. ring. }
  destruct ex_model as [M1 M2]. rewrite E in M2. split.
  - apply A3.
    + unfold ex_places. cbn [map dens lays fst snd]. rewrite M1, E. replace (2 - 2) with 0 by ring. rewrite Rabs_R0.
      assert (X : 2 * exp (- (1)) < 1).
      { assert (P := exp_ineq1 1 ltac:(lra)). rewrite exp_Ropp. apply Rmult_lt_reg_r with (exp 1); [lra|]. rewrite Rmult_assoc, Rinv_l by lra. lra. }
      rewrite (Rabs_pos_eq (1 - _)) by lra. split; [right; left; reflexivity|]. intros y [<-|[<-|[]]]; lra.
    + assert (U : 0 < d_u) by apply bpow_gt_0. assert (U1 : d_u <= / 1024) by (replace (/ 1024) with (bpow radix2 (-10)) by (compute; lra); apply bpow_le; lia). assert (Et := d_eta_small).
      assert (R0 : forall x d, Rabs x <= 1 -> 0 <= d <= / 10 -> residual_bound d_u d_eta x d <= / 5).
      { intros x d Hx Hd. unfold residual_bound. assert (Px := Rabs_pos x). assert (d_u * Rabs x <= / 1024 * 1) by (apply Rmult_le_compat; lra).
        assert ((1 + d_u) * d <= (1 + / 1024) * / 10) by (apply Rmult_le_compat; lra). lra. }
      intros x [<-|[<-|[]]]; cbn [dens lays fst snd]; (apply R0; [|apply ex_gap_small]).
      * rewrite M1. replace (2 - 2) with 0 by ring. rewrite Rabs_R0. lra.
      * rewrite E. apply Rabs_le. lra.
  - assert (K := ex_kl_ok). rewrite Forall_forall in K. specialize (A5 (fun x I => match K x I with conj _ (conj a (conj _ (conj b c))) => conj a (conj b c) end)).
    assert (S : wsum [1; 2] (map (fun x => kl_loss (dens x) (gsum false (lays x) [2] [1])) ex_places) = 2 * ln (1 / (2 * exp (- (1))))).
    { unfold ex_places. cbn [map wsum dens lays fst snd]. unfold kl_loss. rewrite M1, E. replace (2 / 2) with 1 by field. rewrite ln_1. ring. }
    rewrite S in A5. exact A5.
Qed.
