(** C07: normalized basis functions integrate to one; the model to the sum of coefficients. *)
From Coquelicot Require Import Coquelicot.
From Coq Require Import Reals List ZArith Lia Lra Bool.
From Verif Require Import XR SpecDens Lists ModelDens ProofDens ProofDeriv ProofInit GaussInt.
Import ListNotations.
Local Open Scope R_scope.

Lemma Rpower_32 a : 0 < a -> Rpower a (3/2) = a * sqrt a.
Proof.
  intros Ha. replace (3/2) with (1 + / 2) by lra.
  rewrite Rpower_plus, Rpower_1, Rpower_sqrt by auto. reflexivity.
Qed.
Lemma Rpower_52 a : 0 < a -> Rpower a (5/2) = a ^ 2 * sqrt a.
Proof.
  intros Ha. replace (5/2) with (1 + (1 + / 2)) by lra.
  rewrite !Rpower_plus, Rpower_1, Rpower_sqrt by auto. ring.
Qed.

Lemma RInt_gen_ext_R (f g : R -> R) (l l' : R) :
  (forall r, g r = f r) -> l' = l ->
  is_RInt_gen f (at_point 0) (Rbar_locally p_infty) l ->
  is_RInt_gen g (at_point 0) (Rbar_locally p_infty) l'.
Proof.
  intros H -> Hf. apply (is_RInt_gen_ext f); auto.
  apply filter_forall. intros ab r _. symmetry. apply H.
Qed.
Lemma RInt_gen_scal_R (f : R -> R) (k l : R) :
  is_RInt_gen f (at_point 0) (Rbar_locally p_infty) l ->
  is_RInt_gen (fun r => k * f r) (at_point 0) (Rbar_locally p_infty) (k * l).
Proof. intros. apply (is_RInt_gen_scal f k l). auto. Qed.
Lemma RInt_gen_plus_R (f g : R -> R) (l m : R) :
  is_RInt_gen f (at_point 0) (Rbar_locally p_infty) l ->
  is_RInt_gen g (at_point 0) (Rbar_locally p_infty) m ->
  is_RInt_gen (fun r => f r + g r) (at_point 0) (Rbar_locally p_infty) (l + m).
Proof. intros. apply (is_RInt_gen_plus f g l m); auto. Qed.

Lemma basis_integral p a : 0 < a ->
  is_RInt_gen (fun r => 4 * PI * r ^ 2 * basis_fn true p a r)
              (at_point 0) (Rbar_locally p_infty) 1.
Proof.
  intros Ha. pose proof PI_RGT_0 as Hpi. pose proof (sqrt_lt_R0 a Ha) as Hs.
  pose proof (sqrt_lt_R0 PI Hpi) as Hsp.
  destruct p.
  - eapply RInt_gen_ext_R; [| |apply (RInt_gen_scal_R _ (4 * PI * norm_const true a) _ (RInt_gen_G4 a Ha))].
    + intros r. unfold basis_fn. ring.
    + unfold norm_const. rewrite Rpower_32, Rpower_52 by auto. field. lra.
  - eapply RInt_gen_ext_R; [| |apply (RInt_gen_scal_R _ (4 * PI * norm_const false a) _ (RInt_gen_G2 a Ha))].
    + intros r. unfold basis_fn. ring.
    + rewrite norm_const_s, !Rpower_32 by auto. field. lra.
Qed.

(** Model centered at the origin of the radial coordinate, arbitrary mix of types. *)
Lemma gsum_integral tys c e :
  length c = length tys -> length e = length tys -> Forall (fun a => 0 < a) e ->
  is_RInt_gen (fun r => 4 * PI * r ^ 2 * gsum true (map (fun t => (t, r)) tys) c e)
              (at_point 0) (Rbar_locally p_infty) (rsum c).
Proof.
  revert c e; induction tys as [|t tys IH]; intros [|x c] [|a e] Hc He Hp; simpl in Hc, He;
    try discriminate.
  - eapply RInt_gen_ext_R; [| |apply (RInt_gen_scal_R _ 0 _ (basis_integral false 1 Rlt_0_1))].
    + intros r. simpl. ring.
    + unfold rsum; simpl; ring.
  - inversion Hp; subst.
    eapply RInt_gen_ext_R; [| |apply (RInt_gen_plus_R _ _ _ _ (RInt_gen_scal_R _ x _ (basis_integral t a H1))
                                     (IH c e ltac:(lia) ltac:(lia) H2))].
    + intros r. cbn [map gsum]. ring.
    + rewrite rsum_cons. ring.
Qed.

Lemma atom_integral ns np c e :
  length c = (ns + np)%nat -> length e = (ns + np)%nat -> Forall (fun a => 0 < a) e ->
  is_RInt_gen (fun r => 4 * PI * r ^ 2 * gsum true (lay_atom ns np r) c e)
              (at_point 0) (Rbar_locally p_infty) (rsum c).
Proof.
  intros Hc He Hp. unfold lay_atom.
  assert (L : length (types ns np) = (ns + np)%nat).
  { unfold types. now rewrite app_length, !repeat_length. }
  apply gsum_integral; auto; congruence.
Qed.

(** At the API: the values returned on any set of radial points are those of one function
    of the radius whose integral over space is the sum of the coefficients. *)
Lemma api_integral ns np c e :
  (0 < ns + np)%nat -> length c = (ns + np)%nat -> length e = (ns + np)%nat ->
  Forall (fun a => 0 < a) e ->
  exists g : R -> R,
    (forall rs, Forall (fun r => 0 <= r) rs -> exists m,
       atomic_init (VArr (A1 (map Fin rs))) VNone (VInt (Z.of_nat ns)) (VInt (Z.of_nat np)) true
         = Ok m /\
       atomic_evaluate m (A1 (map Fin c)) (A1 (map Fin e)) false = Ok (map Fin (map g rs), None)) /\
    is_RInt_gen (fun r => 4 * PI * r ^ 2 * g r) (at_point 0) (Rbar_locally p_infty) (rsum c).
Proof.
  intros Hn Hc He Hp. exists (fun r => gsum true (lay_atom ns np r) c e). split.
  - intros rs Hr.
    destruct (atomic_value _ _ _ ns np true c e false (geom_1d_default rs) Hn Hc He (fun _ => Hp))
      as (m & dg & Hm & Hv).
    exists m. split; auto.
    pose proof (atomic_flag_gen m (A1 (map Fin c)) (A1 (map Fin e))) as F. rewrite Hv in F.
    destruct (atomic_evaluate m (A1 (map Fin c)) (A1 (map Fin e)) true) as [[g1 [d1|]]|]; try tauto.
    destruct dg; [tauto|]. rewrite Hv. do 3 f_equal. rewrite map_map. apply map_ext_in. intros r Hi.
    rewrite Forall_forall in Hr. rewrite Rabs_right; auto. apply Rle_ge. auto.
  - now apply atom_integral.
Qed.
