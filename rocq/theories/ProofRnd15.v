(** Rounded arithmetic: the derivatives that the Slater properties speak of, and the library of
    correctly rounded functions. *)
From Coquelicot Require Import Coquelicot.
From Coq Require Import Reals List ZArith Lia Lra.
From Verif Require Import XR SpecDens SpecSlater SpecRnd SpecRnd2 SpecRnd3 ModelRnd ModelRnd3 ProofRnd ProofRnd8 ProofRnd13 ProofRnd14.
From Verif Require ProofSlater ProofKin.
From Coq Require Import List.
Import ListNotations.
Local Open Scope R_scope.

Lemma dphi_slope : forall s r, valid s -> r <> 0 -> is_derive (phi s) r (dphi s r).
Proof. exact ProofKin.dphi_derive. Qed.

Lemma rho_slope : forall L r, (forall s, In s L -> valid s) -> r <> 0 -> is_derive (rho L) r (drho L r).
Proof.
  intros L r V Hr. unfold rho, rho_w, drho.
  apply (is_derive_ext (fun x => / (4 * PI) * rsum (map (fun s => s_occ s * phi s x ^ 2) L))); [intro t; unfold Rdiv; apply Rmult_comm|].
  unfold Rdiv. rewrite (Rmult_comm (rsum _)). apply (is_derive_scal (fun x => rsum (map (fun s => s_occ s * phi s x ^ 2) L))).
  induction L as [|s L IH]; [apply (is_derive_const 0)|].
  apply (is_derive_plus (fun x => s_occ s * phi s x ^ 2) (fun x => rsum (map (fun s => s_occ s * phi s x ^ 2) L)) r).
  - apply (is_derive_scal (fun x => phi s x ^ 2)).
    replace (2 * (phi s r * dphi s r)) with (INR 2 * dphi s r * phi s r ^ Nat.pred 2) by (simpl; ring).
    apply is_derive_pow, dphi_slope; [apply V; left; reflexivity | exact Hr].
  - apply IH. intros s' I. apply V. right; exact I.
Qed.

Section Library.
Context (u eta : R) (fmt : R -> Prop) (rnd : R -> R) (H : rounding u eta fmt rnd) (Hu8 : u <= 1 / 8).
Context (lo : R) (Nr : normal u lo rnd) (Hlo : 0 < lo <= 1).

Lemma round_ipow : ipow_error u lo 1 (fun x n => rnd (x ^ n)).
Proof.
  intros x n Hx. assert (P : 0 <= x ^ n) by (apply pow_le, Hx). split; [apply (rnd_pos u eta fmt rnd H), P|]. intros [E|L].
  - rewrite E, (rnd_0 u eta fmt rnd H). split; lra.
  - apply (within_normal _ _ _ _ H Hu8); [exact P|]. apply Nr. rewrite Rabs_pos_eq; assumption.
Qed.
Lemma round_fact : fact_error u 1 (fun n => rnd (INR (fact n))).
Proof.
  intro n. assert (P : 1 <= INR (fact n)) by (change 1 with (INR 1); apply le_INR, lt_O_fact).
  apply (within_normal _ _ _ _ H Hu8); [lra|]. apply Nr. rewrite Rabs_pos_eq; lra.
Qed.
Lemma round_exp1 : fmt 1 -> exp_at_most_1 (fun x => rnd (exp x)).
Proof.
  intros F x L. rewrite <- (rd_id _ _ _ _ H 1 F). apply (rd_mono _ _ _ _ H). rewrite <- exp_0.
  destruct L as [L| ->]; [left; apply exp_increasing, L | lra].
Qed.
End Library.

Lemma signs : forall u eta fmt rnd, rounding u eta fmt rnd -> u <= 1 / 8 ->
  forall lo fpow ffact pi tiny, 0 < lo <= 1 / 2 -> normal u lo rnd -> Rabs (pi - PI) <= u * PI ->
  forall v z fexp, exp_error v z fexp -> exp_at_most_1 fexp ->
  forall fu to fused t L r, Forall (fun s => 0 <= s_occ s) L ->
  (forall m, 0 <= fl_density rnd fexp fpow ffact pi m fu to fused t L r) /\
  0 <= fl_kinetic rnd fexp fpow ffact pi tiny fu to fused t L r.
Proof.
  intros u eta fmt rnd H Hu8 lo fpow ffact pi tiny Hlo Nr Hpi v z fexp X E1 fu to fused t L r F. split.
  - intro m. eapply density_pos; eassumption.
  - eapply kinetic_pos; eassumption.
Qed.
