(** Rounded arithmetic: the constraint of [ScipyFit] and the quality of a fit, for Gaussian models. *)
From Coq Require Import Reals List ZArith Lia Lra Arith.
From Flocq Require Raux.
From Verif Require Import SpecDens SpecRnd SpecRnd2 SpecRnd3 SpecRnd4 SpecBinModel SpecSlope SpecDescent ModelRnd ModelRnd2 ModelRnd4 ModelSlope ModelDescent
  ProofRnd ProofRnd2 ProofRnd3 ProofRnd8 ProofRnd13 ProofRnd16 ProofRnd17 ProofSlope ProofSlope2 ProofDescent2 ProofDescent3.
Import ListNotations.
Local Open Scope R_scope.

Section Rounded.
Context (u eta : R) (fmt : R -> Prop) (rnd : R -> R) (H : rounding u eta fmt rnd) (Hu8 : u <= 1 / 8).

Lemma round_near : forall x x' d, Rabs (x' - x) <= d -> Rabs (rnd x' - x) <= residual_bound u eta x d.
Proof.
  intros x x' d D. assert (N := residual_near u eta fmt rnd H x 0 (x - x') d ltac:(rewrite Rminus_0_r, Rabs_minus_sym; exact D)).
  replace (x - (x - x')) with x' in N by ring. rewrite Rminus_0_r in N. exact N.
Qed.

Section Rule.
Context (X : Type) (n : nat) (quadr Q : list R -> R) (B : list (R * R) -> R) (S : sound_rule fmt n quadr Q B).
Lemma rule_map : forall (y' y d : X -> R) pts, length pts = n -> (forall x, In x pts -> fmt (y' x) /\ Rabs (y' x - y x) <= d x) ->
  Rabs (quadr (map y' pts) - Q (map y pts)) <= B (map (fun x => (y x, d x)) pts).
Proof.
  intros y' y d pts L E. replace (map y pts) with (map fst (map (fun x => (y x, d x)) pts)) by (rewrite map_map; reflexivity).
  apply S; [rewrite map_length; exact L|]. clear L. induction pts as [|x pts IH]; cbn [map]; [constructor|].
  constructor; [apply E; left; reflexivity | apply IH; intros; apply E; right; assumption].
Qed.
End Rule.

Lemma dot_fmt : forall fused t m c, lone fused t = false -> fmt (fl_dot rnd fused t m c).
Proof.
  intros fused [|i|l r] m c L; unfold fl_dot; cbn [fl_sum lone] in *; [apply (rd_zero _ _ _ _ H) | | apply (rd_fmt _ _ _ _ H)].
  assert (P : forall i j m c, fused (j + i)%nat = false -> fmt (nth i (fl_prods rnd fused j m c) 0)).
  { clear -H. induction i as [|i IH]; intros j [|a m] [|b c] F; cbn [fl_prods nth]; try apply (rd_zero _ _ _ _ H).
    - rewrite Nat.add_0_r in F. rewrite F. apply (rd_fmt _ _ _ _ H).
    - apply IH. rewrite <- F. f_equal. lia. }
  apply (P i 0%nat). exact L.
Qed.

Context (lo : R) (k : nat) (fpow : R -> R -> R) (pi : R).
Hypothesis (Hlo : 0 < lo <= 1 / 2) (Nr : normal u lo rnd) (Pw : pow_error u lo k fpow)
  (Hpi : Rabs (pi - PI) <= u * PI) (Half : 1 / 2 <= (1 - u) ^ (2 * k + 2)).
Context (v z : R) (fexp : R -> R) (X : exp_error v z fexp) (M : R) (HM : 0 <= M).
Notation A := (gauss_error u eta v z M).
Context (fu : list (bool * R) -> nat -> bool) (to : list (bool * R) -> order).
Context (n : nat) (quadr Q : list R -> R) (B : list (R * R) -> R) (Sq : sound_rule fmt n quadr Q B).
Context (norm : bool) (pts : list place) (c e : list R) (L : length pts = n) (Le : length e = length c).
Hypothesis F : Forall (fun x => fmt (dens x) /\ fits lo M norm (lays x) c e (to (lays x)) /\ lone (fu (lays x)) (to (lays x)) = false) pts.
Notation g x := (gsum norm (lays x) c e).
Notation dg x := (model_bound u eta k A (to (lays x)) norm (lays x) c e).
Notation g' x := (fl_model rnd fexp fpow pi (fu (lays x)) (to (lays x)) norm (lays x) c e).

Lemma each : forall x, In x pts -> fmt (dens x) /\ fmt (g' x) /\ Rabs (g' x - g x) <= dg x.
Proof.
  intros x I. rewrite Forall_forall in F. destruct (F x I) as (Fd & Fi & Lo). split; [exact Fd|]. split; [apply dot_fmt, Lo|].
  apply (curve_near u eta fmt rnd H Hu8 lo k fpow pi Hlo Nr Pw Hpi Half v z fexp X M HM norm (lays x) c e _ _ Le Fi).
Qed.

Lemma model_integral : Rabs (quadr (fl_curve rnd fexp fpow pi fu to norm pts c e) - Q (map (fun x => g x) pts)) <= B (map (fun x => (g x, dg x)) pts).
Proof.
  unfold fl_curve. apply (rule_map place n quadr Q B Sq _ _ _ pts L). intros x I. destruct (each x I) as (_ & E). exact E.
Qed.
Lemma constraint_near : forall N N0 dN, Rabs (N - N0) <= dN ->
  Rabs (fl_constraint rnd fexp fpow pi fu to quadr N norm pts c e - (N0 - Q (map (fun x => g x) pts))) <=
    residual_bound u eta (N0 - Q (map (fun x => g x) pts)) (dN + B (map (fun x => (g x, dg x)) pts)).
Proof.
  intros N N0 dN EN. unfold fl_constraint. apply round_near. assert (E1 := model_integral).
  match goal with |- Rabs (?a - ?b - (?a0 - ?b0)) <= _ => replace (a - b - (a0 - b0)) with ((a - a0) + - (b - b0)) by ring end.
  eapply Rle_trans; [apply Rabs_triang|]. rewrite Rabs_Ropp. apply Rplus_le_compat; assumption.
Qed.
Lemma integral_near : Rabs (fl_integral quadr pts - Q (map dens pts)) <= B (map (fun x => (dens x, 0)) pts).
Proof. apply (rule_map place n quadr Q B Sq dens dens (fun _ => 0) pts L (fun x I => conj (proj1 (each x I)) (near_refl _))). Qed.

Lemma max_near : forall (y' y d : place -> R) D m, pts <> [] -> (forall x, In x pts -> Rabs (y' x - y x) <= d x /\ d x <= D) ->
  is_max m (map y pts) -> Rabs (fl_max (map y' pts) - m) <= D.
Proof.
  intros y' y d D m N E (Im & Mm). assert (N' : map y' pts <> []) by (destruct pts; [congruence | discriminate]).
  destruct (max_spec _ N') as [I Mx]. set (a := fl_max _) in *. apply in_map_iff in I. destruct I as (x & Ex & Ix). apply in_map_iff in Im. destruct Im as (x2 & Ex2 & Ix2).
  assert (M1 := Mx _ (in_map y' _ _ Ix2)). assert (M2 := Mm _ (in_map y _ _ Ix)). destruct (E x Ix) as [E1 E1']. destruct (E x2 Ix2) as [E2 E2'].
  apply Raux.Rabs_le_inv in E1, E2. apply Rabs_le. lra.
Qed.

Lemma quality_near : forall w z2 fsq w' z3 flog, square_error w z2 fsq -> (forall x, fmt (fsq x)) -> log_error w' z3 flog ->
  forall neg mask, 0 <= mask -> forall q1 q2 q3 q4 q5, fl_quality rnd fexp fpow pi fu to fsq flog quadr neg mask norm pts c e = [q1; q2; q3; q4; q5] ->
  Rabs (q1 - Q (map (fun x => g x) pts)) <= B (map (fun x => (g x, dg x)) pts) /\
  Rabs (q2 - Q (map (fun x => Rabs (dens x - g x)) pts)) <= B (map (fun x => (Rabs (dens x - g x), residual_bound u eta (dens x - g x) (dg x))) pts) /\
  (forall m D, is_max m (map (fun x => Rabs (dens x - g x)) pts) -> (forall x, In x pts -> residual_bound u eta (dens x - g x) (dg x) <= D) -> Rabs (q3 - m) <= D) /\
  Rabs (q4 - Q (map (fun x => square_loss (dens x) (g x)) pts)) <= B (map (fun x => (square_loss (dens x) (g x), square_total u eta w z2 (dens x) (g x) (dg x))) pts) /\
  ((forall x, In x pts -> 0 < dens x /\ mask < g x - dg x /\ lo <= dens x / (g x + dg x)) ->
   Rabs (q5 - Q (map (fun x => kl_loss (dens x) (g x)) pts)) <= B (map (fun x => (kl_loss (dens x) (g x), kl_total u eta w' z3 (dens x) (g x) (dg x))) pts)).
Proof.
  intros w z2 fsq w' z3 flog Es Fs El neg mask Hm q1 q2 q3 q4 q5 G. unfold fl_quality, fl_goodness in G. injection G as G1 G2 G3 G4 G5.
  assert (D2 : forall x, In x pts -> fmt (Rabs (rnd (dens x - g' x))) /\ Rabs (Rabs (rnd (dens x - g' x)) - Rabs (dens x - g x)) <= residual_bound u eta (dens x - g x) (dg x)).
  { intros x I. destruct (each x I) as (_ & _ & E). split; [apply (abs_fmt u eta fmt rnd H), (rd_fmt _ _ _ _ H)|].
    eapply Rle_trans; [apply Rabs_triang_inv2 | apply (residual_near u eta fmt rnd H), E]. }
  split; [rewrite <- G1; exact model_integral|]. split; [|split; [|split]].
  - rewrite <- G2. unfold fl_diff, fl_curve. rewrite map2_maps. apply (rule_map place n quadr Q B Sq _ _ _ pts L), D2.
  - intros m D Mx Bd. rewrite <- G3. unfold fl_diff, fl_curve. rewrite map2_maps.
    assert (N : pts <> []) by (destruct Mx as [I _]; destruct pts; [destruct I | discriminate]).
    apply (max_near _ (fun x => Rabs (dens x - g x)) (fun x => residual_bound u eta (dens x - g x) (dg x)) D m N); [|exact Mx].
    intros x I. split; [apply D2, I | apply Bd, I].
  - rewrite <- G4. unfold fl_curve. rewrite map2_maps. apply (rule_map place n quadr Q B Sq _ _ _ pts L). intros x I. destruct (each x I) as (_ & _ & E).
    split; [apply Fs | apply (square_all u eta fmt rnd H w z2 fsq Es), E].
  - intro P. rewrite <- G5. unfold fl_kl_values. destruct (existsb _ _) eqn:T.
    + exfalso. apply existsb_exists in T. destruct T as (y & I & T). unfold fl_curve in I. apply in_map_iff in I. destruct I as (x & <- & I).
      destruct (each x I) as (_ & _ & E). destruct (P x I) as (_ & P2 & _). apply Raux.Rabs_le_inv in E. destruct (Rlt_dec _ 0) as [N|N]; [lra | discriminate].
    + unfold fl_curve. rewrite map2_maps. apply (rule_map place n quadr Q B Sq _ _ _ pts L). intros x I. destruct (each x I) as (_ & _ & E).
      destruct (P x I) as (P1 & P2 & P3). split; [apply (rd_fmt _ _ _ _ H)|]. apply (kl_all u eta fmt rnd H Hu8 lo Nr w' z3 flog El); try assumption. lra.
Qed.
End Rounded.
