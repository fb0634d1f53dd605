(** The four steps of README (C97). *)
From Coquelicot Require Import Coquelicot.
From Coq Require Import Reals List ZArith Lia Lra Bool.
From Verif Require Import XR SpecDens SpecMeas SpecGrid ModelDens ModelMeas ModelGrid ModelFit SpecFit SpecSteps ProofSteps.
Import ListNotations.
Local Open Scope R_scope.

(** On every ascending radial grid and for every non-negative density with [r^2 f] of positive integral the fit is
    set up.  A run from positive guesses of the right length returns positive parameters of that length, guesses
    of another length raise ValueError, and with the default mask value a density with a zero gets two updates
    at most. *)
Theorem C97_steps : forall pts f ns np norm sph mask,
  ascending pts -> length f = length pts -> nonneg f -> substantial pts f -> (0 < ns + np)%nat -> 0 <= mask ->
  exists fp, fpi_steps (map Fin pts) (map Fin f) (Z.of_nat ns) (Z.of_nat np) norm sph (Fin mask) = Ok fp /\
    (forall c e oc oe maxiter th, length c = (ns + np)%nat -> length e = (ns + np)%nat -> positive c -> positive e -> oc || oe = true ->
       exists r c' e', fpi_run fp (VArr (A1 (map Fin c))) (VArr (A1 (map Fin e))) oc oe maxiter th = Ok r /\
         r_coeffs r = map Fin c' /\ r_exps r = map Fin e' /\ length c' = (ns + np)%nat /\ length e' = (ns + np)%nat /\ positive c' /\ positive e') /\
    (forall c e oc oe maxiter th, length c <> (ns + np)%nat \/ length e <> (ns + np)%nat ->
       fpi_run fp (VArr (A1 c)) (VArr (A1 e)) oc oe maxiter th = Raise ValueError) /\
    (mask = 0 -> (0 < ns)%nat -> In 0 f ->
     forall c e oc oe maxiter th, length c = (ns + np)%nat -> length e = (ns + np)%nat -> positive c -> positive e -> oc || oe = true ->
       exists r, fpi_run fp (VArr (A1 (map Fin c))) (VArr (A1 (map Fin e))) oc oe maxiter th = Ok r /\
         (length (r_fun r) <= 2)%nat /\ Forall (fun x => x = NaN) (r_fun r) /\ ((2 <= length (r_fun r))%nat -> r_success r = false)).
Proof. exact steps_run. Qed.
Print Assumptions C97_steps.

(** The steps as printed: step 4 gives four coefficients for five functions and raises ValueError for every
    density.  With a fifth coefficient it runs. *)
Theorem C97_readme_refuted : forall f, length f = 100%nat -> nonneg f -> (exists i, (0 < i)%nat /\ 0 < nth i f 0) ->
  exists pts fp, readme_grid = Ok pts /\ fpi_steps pts (map Fin f) 5 0 true false (Fin 0) = Ok fp /\
    (forall oc oe maxiter th, fpi_run fp (VArr (A1 (map Fin readme_c0))) (VArr (A1 (map Fin readme_e0))) oc oe maxiter th = Raise ValueError) /\
    (forall maxiter th, exists r c' e',
       fpi_run fp (VArr (A1 (map Fin (1 :: readme_c0)))) (VArr (A1 (map Fin readme_e0))) true true maxiter th = Ok r /\
       r_coeffs r = map Fin c' /\ r_exps r = map Fin e' /\ length c' = 5%nat /\ length e' = 5%nat /\ positive c' /\ positive e') /\
    (In 0 f -> forall maxiter th, exists r,
       fpi_run fp (VArr (A1 (map Fin (1 :: readme_c0)))) (VArr (A1 (map Fin readme_e0))) true true maxiter th = Ok r /\
       (length (r_fun r) <= 2)%nat /\ Forall (fun x => x = NaN) (r_fun r) /\ ((2 <= length (r_fun r))%nat -> r_success r = false)).
Proof. exact readme_steps. Qed.
Print Assumptions C97_readme_refuted.

Example C97_example :
  ascending [0; 1; 2] /\ nonneg [1; 1; 0] /\ substantial [0; 1; 2] [1; 1; 0] /\
  (exists fp, fpi_steps (map Fin [0; 1; 2]) (map Fin [1; 1; 0]) 1 1 true true (Fin 0) = Ok fp /\
     fpi_run fp (VArr (A1 [Fin 1])) (VArr (A1 [Fin 1; Fin 1])) true true 10 default_thr = Raise ValueError) /\
  length (repeat 1 100) = 100%nat /\ nonneg (repeat 1 100) /\ (exists i, (0 < i)%nat /\ 0 < nth i (repeat 1 100) 0).
Proof.
  assert (A : ascending [0; 1; 2]) by (repeat constructor; lra). assert (N : nonneg [1; 1; 0]) by (repeat constructor; lra).
  assert (S : substantial [0; 1; 2] [1; 1; 0]) by (unfold substantial; cbn; lra).
  split; [exact A|]. split; [exact N|]. split; [exact S|]. split.
  - destruct (C97_steps [0; 1; 2] [1; 1; 0] 1 1 true true 0 A eq_refl N S ltac:(lia) ltac:(lra)) as (fp & E & _ & R & _).
    exists fp. split; [exact E|]. apply R. left. discriminate.
  - split; [reflexivity|]. split; [apply Forall_forall; intros x Hx; apply repeat_spec in Hx; lra|]. exists 1%nat. split; [lia|]. cbn. lra.
Qed.
