(** Slater densities in floating-point formats: finite results are those of the rounded program. *)
From Coq Require Import Reals List ZArith Bool Lia Lra.
From Flocq Require Import Core IEEE754.BinarySingleNaN.
From Verif Require Import SpecSlater SpecRnd SpecRnd3 SpecBin SpecBin64 SpecBinModel SpecBinSto ModelRnd ModelRnd3 ModelBin64 ModelBinModel ModelBinSto
  ProofRnd ProofBin64 ProofBin64b ProofBinModel ProofBinModel2.
From Coq Require Import List.
Import ListNotations.
Local Open Scope R_scope.

Section Format.
Variable fm : format.
Implicit Types a b r x : number fm.
Local Notation rnd := (near fm).

(** *** Square roots *)
Lemma sqrt_finite : forall x, finite (b_sqrt x) -> finite x.
Proof.
  intros x F. destruct (Bsqrt_correct (digits fm) (top fm) (digits_pos fm) (digits_top fm) mode_NE x) as (_ & E & _).
  unfold finite, b_sqrt in F. rewrite E in F. destruct x as [s|s| |[|] m e H]; try discriminate F; reflexivity.
Qed.
Lemma sqrt_agrees : forall x y, agrees x y -> agrees (b_sqrt x) (rnd (sqrt y)).
Proof.
  intros x y A F. rewrite <- (A (sqrt_finite x F)).
  exact (proj1 (Bsqrt_correct (digits fm) (top fm) (digits_pos fm) (digits_top fm) mode_NE x)).
Qed.

(** *** Exponentials *)
Lemma exp_agrees : forall bexp fexp a b, exponential bexp fexp -> finite a -> finite b ->
  agrees (bexp (b_mul a b)) (fexp (rnd (value a * value b))).
Proof.
  intros bexp fexp a b (E1 & E2 & E3 & E4 & E5) Fa Fb Fe. destruct (mul_exact fm a b Fa Fb) as [U V].
  destruct (Rlt_or_le (Rabs (rnd (value a * value b))) (largest fm)) as [L|L].
  - destruct (U L) as [F Vm]. rewrite <- Vm. apply E1; assumption.
  - specialize (V L). destruct (b_mul a b) as [s|s| |s m e H] eqn:Em; try (destruct (V eq_refl)).
    + destruct s; [|contradiction]. rewrite (proj2 E2). symmetry. apply E3, (mul_down fm a b Fa Fb Em).
    + contradiction.
Qed.
Lemma square_up : forall x, ~ finite (b_mul x x) -> finite x -> b_mul x x = B754_infinity false /\ largest fm <= rnd (value x * value x).
Proof.
  intros x N Fx. destruct (mul_exact fm x x Fx Fx) as [U _].
  assert (L : largest fm <= Rabs (rnd (value x * value x))).
  { apply Rnot_lt_le. intro L. apply N, (U L). }
  assert (C := Bmult_correct (digits fm) (top fm) (digits_pos fm) (digits_top fm) mode_NE x x). rewrite Rlt_bool_false in C by exact L.
  change (Bmult mode_NE x x) with (b_mul x x) in C. rewrite xorb_nilpotent in C. split.
  - destruct (b_mul x x) as [s|s| |s m e H]; cbn in C; try discriminate C. injection C as ->. reflexivity.
  - rewrite Rabs_pos_eq in L; [exact L|]. rewrite <- (rnd0 fm) at 1. apply (rd_mono _ _ _ _ (r64 fm)). nra.
Qed.
Lemma rnd_large : forall y, largest fm <= y -> largest fm <= rnd y.
Proof.
  intros y L. assert (F := facts fm). assert (E : rnd (largest fm) = largest fm) by (apply (rd_id _ _ _ _ (r64 fm)), bpow_fmt; lia).
  rewrite <- E. apply (rd_mono _ _ _ _ (r64 fm)), L.
Qed.
Lemma largest_1 : 1 <= largest fm.
Proof. assert (F := facts fm). change 1 with (Raux.bpow radix2 0). apply bpow_le. lia. Qed.
Lemma diff_up : forall a b, finite a -> finite b -> ~ finite (b_sub a b) ->
  (exists s, b_sub a b = B754_infinity s) /\ largest fm <= Rabs (rnd (value a - value b)).
Proof.
  intros a b Fa Fb N. destruct (sub_exact fm a b Fa Fb) as [U _].
  assert (L : largest fm <= Rabs (rnd (value a - value b))). { apply Rnot_lt_le. intro L. apply N, (U L). }
  split; [|exact L]. assert (C := Bminus_correct (digits fm) (top fm) (digits_pos fm) (digits_top fm) mode_NE a b Fa Fb). rewrite Rlt_bool_false in C by exact L.
  destruct C as [C _]. change (Bminus mode_NE a b) with (b_sub a b) in C.
  destruct (b_sub a b) as [s|s| |s m e H]; cbn in C; try discriminate C. exists s. reflexivity.
Qed.
(** The damping of an orbital, also where the difference of the energies or its square overflows. *)
Lemma share_agrees : forall bexp fexp h (s : bshell fm), exponential bexp fexp -> finite h -> finite (h_en s) ->
  agrees (b_share bexp h s) (fl_share rnd fexp (value h) (worth s)).
Proof.
  intros bexp fexp h s (E1 & E2 & E3 & E4 & E5) Fh Fs. unfold b_share, fl_share. cbv zeta. cbn [s_en worth].
  destruct (is_finite (b_sub (h_en s) h)) eqn:Fx.
  - assert (Vx := sub_agrees fm _ _ _ _ (self_agrees fm (h_en s)) (self_agrees fm h) Fx). rewrite <- Vx.
    destruct (is_finite (b_mul (b_sub (h_en s) h) (b_sub (h_en s) h))) eqn:Fq.
    + intro Fe. rewrite E1; [|unfold finite; rewrite is_finite_Bopp; exact Fq | exact Fe]. f_equal.
      apply (opp_agrees fm _ _ (mul_agrees fm _ _ _ _ (self_agrees fm _) (self_agrees fm _))). unfold finite. rewrite is_finite_Bopp. exact Fq.
    + destruct (square_up (b_sub (h_en s) h)) as [-> L]; [intro F; unfold finite in F; congruence | exact Fx|].
      intros _. cbn [Bopp negb]. rewrite (proj2 E2). symmetry. apply E3. lra.
  - destruct (diff_up (h_en s) h Fs Fh) as [[g ->] L]; [intro F; unfold finite in F; congruence|].
    intros _. replace (Bopp (b_mul (B754_infinity g) (B754_infinity g))) with (B754_infinity true : number fm) by (destruct g; reflexivity).
    rewrite (proj2 E2). symmetry. apply E3. apply Ropp_le_contravar, rnd_large.
    assert (O := largest_1). rewrite <- (Rabs_pos_eq (_ * _)) by nra. rewrite Rabs_mult. nra.
Qed.

Section Library.
Context (bexp : number fm -> number fm) (fexp : R -> R) (bpow : number fm -> nat -> number fm) (fpow : R -> nat -> R)
        (bfact : nat -> number fm) (ffact : nat -> R) (pi tiny : number fm).
Hypothesis He : exponential bexp fexp.
Hypothesis Hp : powers bpow fpow.
Hypothesis Hc : about_pi pi.
Hypothesis Ht : threshold tiny.

Lemma two_rep : represents (b_lit (fm := fm) 2 0) 2. Proof. exact (lit_int fm 2 eq_refl). Qed.
Lemma four_pi : represents (b_mul (b_lit 4 0) pi) (rnd (4 * value pi)).
Proof.
  destruct Hc as [Fp Bp]. destruct (lit_int fm 4 eq_refl) as [F4 V4]. rewrite <- V4. apply (mul_exact fm _ _ F4 Fp).
  assert (F := facts fm). apply Rle_lt_trans with (Raux.bpow radix2 4); [|apply pow_lt_largest; lia].
  apply rnd_bound; [apply bpow_fmt; lia|]. rewrite V4. change (Raux.bpow radix2 4) with 16. rewrite Rabs_pos_eq; lra.
Qed.

(** *** Slater functions *)
Lemma sto_norm_agrees : forall z n, represents (bfact (2 * n)%nat) (ffact (2 * n)%nat) ->
  agrees (b_sto_norm bpow bfact z n) (fl_sto_norm rnd fpow ffact (value z) n).
Proof.
  intros z n Rf F. unfold b_sto_norm in *. unfold fl_sto_norm.
  assert (A2 := mul_agrees fm _ _ _ _ (rep_agrees fm _ _ two_rep) (self_agrees fm z)).
  destruct (mul_finite fm _ _ F) as [Fp Fs]. assert (Fd := sqrt_finite _ Fs).
  destruct (div_finite fm _ _ (proj1 Rf) Fd) as [F2 _].
  refine (mul_agrees fm _ _ _ _ _ _ F).
  - intro F'. rewrite (Hp _ _ F2 F'). rewrite (A2 F2). reflexivity.
  - apply sqrt_agrees, div_agrees; [exact A2 | exact Rf].
Qed.
Lemma sto_agrees : forall z n r, finite z -> finite r -> represents (bfact (2 * n)%nat) (ffact (2 * n)%nat) ->
  agrees (b_sto bexp bpow bfact z n r) (fl_sto rnd fexp fpow ffact (value z) n (value r)).
Proof.
  intros z n r Fz Fr Rf. unfold b_sto, fl_sto. apply mul_agrees; [apply mul_agrees; [apply sto_norm_agrees, Rf | intro F; apply Hp; assumption]|].
  destruct (opp_rep fm z (value z) (self_rep fm z Fz)) as [Fo Vo]. rewrite <- Vo. apply exp_agrees; assumption.
Qed.
Lemma origin_spec : forall r, finite r -> (b_origin tiny r = true <-> Rabs (value r) < value tiny).
Proof.
  intros r Fr. destruct Ht as [Ft _]. unfold b_origin. assert (Fa : finite (Babs r)) by (unfold finite; rewrite is_finite_Babs; exact Fr).
  rewrite (ltb_spec fm (Babs r) tiny Fa Ft). unfold value. rewrite B2R_Babs. reflexivity.
Qed.
Lemma dpref_agrees : forall z n r, finite r -> (Z.of_nat n < 2 ^ 53)%Z ->
  agrees (b_dpref tiny z n r) (fl_dpref rnd (value tiny) (value z) n (value r)).
Proof.
  intros z n r Fr Ln. unfold b_dpref, fl_dpref. assert (O := origin_spec r Fr).
  destruct (b_origin tiny r), (Rlt_dec (Rabs (value r)) (value tiny)) as [L|L].
  - intros _. reflexivity.
  - destruct (L (proj1 O eq_refl)).
  - discriminate (proj2 O L).
  - apply sub_agrees; [|apply self_agrees]. apply div_agrees; [|exact (self_rep fm r Fr)].
    rewrite INR_IZR_INZ, <- minus_IZR. apply rep_agrees, lit_int. lia.
Qed.
Lemma dsto_agrees : forall z n r, finite z -> finite r -> (Z.of_nat n < 2 ^ 53)%Z -> represents (bfact (2 * n)%nat) (ffact (2 * n)%nat) ->
  agrees (b_dsto bexp bpow bfact tiny z n r) (fl_dsto rnd fexp fpow ffact (value tiny) (value z) n (value r)).
Proof. intros z n r Fz Fr Ln Rf. apply mul_agrees; [apply dpref_agrees; assumption | apply sto_agrees; assumption]. Qed.

(** *** Orbitals *)
Section Sums.
Context (fu : subshell -> nat -> bool) (to : subshell -> order) (r : number fm).
Hypothesis Fr : finite r.

Lemma coefs_agree : forall l : list (number fm * number fm * nat),
  Forall2 agrees (map (fun '(c, z, n) => c) l) (map (fun '(c, z, n) => c) (map (fun '(c, z, n) => (value c, value z, n)) l)).
Proof. induction l as [|[[c z] n] l IH]; cbn [map]; [apply Forall2_nil | apply Forall2_cons; [apply self_agrees | exact IH]]. Qed.
Lemma phi_agrees : forall s, proper bfact ffact s -> fusable (fu (worth s)) (to (worth s)) -> lone (fu (worth s)) (to (worth s)) = false ->
  agrees (b_phi bexp bpow bfact fu to s r) (fl_phi rnd fexp fpow ffact fu to (worth s) (value r)).
Proof.
  intros s (_ & _ & P) Fu Lo. unfold b_phi, fl_phi. apply dot_agrees; try assumption; [|apply coefs_agree].
  cbn [s_exp worth]. clear - P He Hp Fr. induction P as [|[[c z] n] l (Fz & Ln & Rf) P IH]; cbn [map]; [apply Forall2_nil|].
  apply Forall2_cons; [apply sto_agrees; assumption | exact IH].
Qed.
Lemma dphi_agrees : forall s, proper bfact ffact s -> fusable (fu (worth s)) (to (worth s)) -> lone (fu (worth s)) (to (worth s)) = false ->
  agrees (b_dphi bexp bpow bfact tiny fu to s r) (fl_dphi rnd fexp fpow ffact (value tiny) fu to (worth s) (value r)).
Proof.
  intros s (_ & _ & P) Fu Lo. unfold b_dphi, fl_dphi. apply dot_agrees; try assumption; [|apply coefs_agree].
  cbn [s_exp worth]. clear - P He Hp Fr Ht. induction P as [|[[c z] n] l (Fz & Ln & Rf) P IH]; cbn [map]; [apply Forall2_nil|].
  apply Forall2_cons; [apply dsto_agrees; assumption | exact IH].
Qed.

Lemma weight_agrees : forall m h s, finite h -> finite (h_en s) -> agrees (b_weight bexp m h s) (fl_weight rnd fexp m (value h) (worth s)).
Proof.
  intros m h s Fh Fs. assert (Sh := share_agrees bexp fexp h s He Fh Fs). destruct m; cbn [b_weight fl_weight].
  - apply self_agrees.
  - apply mul_agrees; [apply self_agrees | exact Sh].
  - apply mul_agrees; [apply self_agrees|]. apply sub_agrees; [apply rep_agrees, (lit_int fm 1 eq_refl) | exact Sh].
Qed.
Lemma last_value : forall L : list (bshell fm), value (last (map h_en L) b_zero) = last (map s_en (map worth L)) 0.
Proof. induction L as [|s [|s' L] IH]; [reflexivity | reflexivity | exact IH]. Qed.
Lemma last_finite : forall L : list (bshell fm), Forall (fun s => finite (h_en s)) L -> finite (last (map h_en L) b_zero).
Proof. intros L F. induction F as [|s L Fs F IH]; [reflexivity|]. destruct L as [|s' L]; [exact Fs | exact IH]. Qed.

Lemma any_shells : forall (g : bshell fm -> number fm) g', (forall s, proper bfact ffact s -> fusable (fu (worth s)) (to (worth s)) ->
    lone (fu (worth s)) (to (worth s)) = false -> agrees (g s) (g' (worth s))) ->
  forall L, Forall (proper bfact ffact) L -> good_sums fu to L -> Forall2 agrees (map g L) (map g' (map worth L)).
Proof.
  intros g g' H L P. induction P as [|s l P PL' IH]; intro G; cbn [map]; [apply Forall2_nil|]. inversion G as [|? ? [Gu Gl] GL' [Es El]].
  apply Forall2_cons; [apply H; assumption | apply IH; assumption].
Qed.

Context (fused : nat -> bool) (t : order) (L : list (bshell fm)).
Hypothesis Fu : fusable fused t.
Hypothesis Lo : lone fused t = false.
Hypothesis PL : Forall (proper bfact ffact) L.
Hypothesis GL : good_sums fu to L.

Lemma over_shells : forall (g : bshell fm -> number fm) g', (forall s, proper bfact ffact s -> fusable (fu (worth s)) (to (worth s)) ->
    lone (fu (worth s)) (to (worth s)) = false -> agrees (g s) (g' (worth s))) ->
  Forall2 agrees (map g L) (map g' (map worth L)).
Proof. intros g g' H. exact (any_shells g g' H L PL GL). Qed.
Lemma density_agrees : forall m, agrees (b_density bexp bpow bfact pi m fu to fused t L r)
  (fl_density rnd fexp fpow ffact (value pi) m fu to fused t (map worth L) (value r)).
Proof.
  intro m. unfold b_density, fl_density. apply div_agrees; [|exact four_pi]. apply dot_agrees; try assumption.
  - apply (over_shells _ (fun s => rnd (fl_phi rnd fexp fpow ffact fu to s (value r) * fl_phi rnd fexp fpow ffact fu to s (value r)))).
    intros s P Gu Gl. apply mul_agrees; apply phi_agrees; assumption.
  - rewrite <- last_value. assert (Fl : finite (last (map h_en L) b_zero)).
    { apply last_finite. eapply Forall_impl; [|exact PL]. intros s P. apply P. }
    apply over_shells. intros s P _ _. apply weight_agrees; [exact Fl | apply P].
Qed.
Lemma occs_agree : Forall2 agrees (map h_occ L) (map s_occ (map worth L)).
Proof. apply over_shells. intros s _ _ _. apply self_agrees. Qed.
Lemma derivative_agrees : agrees (b_derivative bexp bpow bfact pi tiny fu to fused t L r)
  (fl_derivative rnd fexp fpow ffact (value pi) (value tiny) fu to fused t (map worth L) (value r)).
Proof.
  unfold b_derivative, fl_derivative. apply div_agrees; [|exact four_pi]. apply dot_agrees; try assumption; [|exact occs_agree].
  apply (over_shells _ (fun s => rnd (2 * rnd (fl_phi rnd fexp fpow ffact fu to s (value r) * fl_dphi rnd fexp fpow ffact (value tiny) fu to s (value r))))).
  intros s P Gu Gl. apply mul_agrees; [apply rep_agrees, two_rep|]. apply mul_agrees; [apply phi_agrees | apply dphi_agrees]; assumption.
Qed.
Lemma kinetic_term_agrees : forall s, moderate r -> proper bfact ffact s -> fusable (fu (worth s)) (to (worth s)) -> lone (fu (worth s)) (to (worth s)) = false ->
  agrees (b_kinetic_term bexp bpow bfact tiny fu to s r) (fl_kinetic_term rnd fexp fpow ffact (value tiny) fu to (worth s) (value r)).
Proof.
  intros s Mr P Gu Gl. unfold b_kinetic_term, fl_kinetic_term. cbv zeta.
  assert (D := dphi_agrees s P Gu Gl). assert (F := phi_agrees s P Gu Gl). assert (O := origin_spec r Fr).
  apply add_agrees; [apply mul_agrees; assumption|].
  destruct (b_origin tiny r), (Rlt_dec (Rabs (value r)) (value tiny)) as [A|A].
  - intros _. reflexivity.
  - destruct (A (proj1 O eq_refl)).
  - discriminate (proj2 O A).
  - apply div_agrees; [|exact (square_rep fm r Mr)]. apply mul_agrees; [|apply mul_agrees; assumption].
    destruct P as (_ & Pl & _). cbn [s_l worth]. rewrite INR_IZR_INZ, <- plus_IZR, <- mult_IZR. apply rep_agrees, lit_int.
    destruct (h_l s) as [|[|[|[|l]]]]; try reflexivity. lia.
Qed.
Lemma kinetic_agrees : moderate r -> agrees (b_kinetic bexp bpow bfact pi tiny fu to fused t L r)
  (fl_kinetic rnd fexp fpow ffact (value pi) (value tiny) fu to fused t (map worth L) (value r)).
Proof.
  intro Mr. unfold b_kinetic, fl_kinetic. apply div_agrees; [|exact four_pi]. apply div_agrees; [|exact two_rep].
  apply dot_agrees; try assumption; [|exact occs_agree].
  apply (over_shells _ (fun s => fl_kinetic_term rnd fexp fpow ffact (value tiny) fu to s (value r))). intros. apply kinetic_term_agrees; assumption.
Qed.
End Sums.

(** *** Far from the nucleus *)
Lemma far_sto : forall z n r, ~ finite (b_mul (b_sto_norm bpow bfact z n) (bpow r (n - 1))) -> ~ finite (b_sto bexp bpow bfact z n r).
Proof. intros z n r N F. apply N. exact (proj1 (mul_finite fm _ _ F)). Qed.
End Library.
End Format.
