(** Property C109: the notebook /repo/examples/greedy_atomic_density.ipynb. *)
From Coquelicot Require Import Coquelicot.
From Coq Require Import String Ascii Reals List ZArith Bool Lia Lra.
From Verif Require Import XR PyStr PyText ModelParse SpecParse SpecDens SpecSlater ModelSlater SpecMeas SpecGrid SpecFit SpecZero SpecGreedy ModelDens ModelMeas ModelGrid ModelFit ModelGreedy ModelLoad
  SpecShipped SpecLoad SpecTar DataTar SpecScript SpecScript4 ProofSlater ProofGreedyEx2 ProofElec ProofShipped ProofTar SpecUgbs ProofUgbs ProofNote1 ProofNote2 ProofNote3 ProofNote4.
Import ListNotations.
Local Open Scope R_scope.

(** ** C109 *)
(** The shipped file of beryllium is read as its two orbitals; the density is positive at every radius and
    4 pi r^2 times the density is at most 2304. *)
Theorem C109_density : forall fl rest fuel, reads_decimals fl -> (100 <= fuel)%nat ->
  exists data e1 e2, slater_atoms fl (archive_files rest) (Some "be"%string) false false fuel = Some (Ok data) /\
    describes (atom_of data) (be_subs e1 e2) /\ Forall valid (be_subs e1 e2) /\
    forall r, 0 <= r -> 0 < rho (be_subs e1 e2) r /\ 4 * PI * r ^ 2 * rho (be_subs e1 e2) r <= 2304.
Proof.
  intros fl rest fuel Hf Hl. destruct (be_loads fl rest fuel Hf Hl) as (data & e1 & e2 & A & B & C). exists data, e1, e2.
  split; [exact A|]. split; [exact B|]. split; [exact C|]. intros r Hr. split; [now apply be_pos|now apply be_bound].
Qed.
Print Assumptions C109_density.

(** GreedyKLFPI on radial grids whose points may repeat, as those of the notebook do: the run returns positive parameters
    as soon as 1022 times the trapezoidal integral [J] of the density is below 10^10. *)
Theorem C109_radial : forall rs f (sph : bool) gt lt li gi mask,
  ascending rs -> nonneg rs -> (exists a b, In a rs /\ In b rs /\ a < b) -> length f = length rs -> positive f -> 0 <= mask ->
  let J := trap rs (if sph then map2 (fun r y => 4 * PI * r ^ 2 * y) rs f else f) in
  exists gk, greedy_kl_init (mkGridArg (Some (A1 (map Fin rs))) (Some (gr_integrate (radial_grid (map Fin rs))))) (map Fin f) "pick-one"
               gt lt li gi (Fin mask) None sph = Ok (gk, PickOne) /\
  (1022 * J < 10 ^ 10 ->
   forall rand ch F d mx extra fuel err, rand_pos (kl_strategy gk rand) -> 0 < F -> d <> NaN ->
   (forall g p, extra = Some g -> exists x, g p = Ok x) -> (5 * (mx - 1) <= Z.of_nat fuel)%Z ->
   exists r ob' c e x, greedy_run (kl_strategy gk rand) ch (mkObject (1, 0)%nat err) (VFloat (Fin F)) d mx extra fuel = Some (Ok (r, ob')) /\
     gr_coeffs r = map Fin c /\ gr_exps r = map Fin e /\ length c = total (gr_cfg r) /\ length e = total (gr_cfg r) /\
     positive c /\ positive e /\ (0 < fst (gr_cfg r))%nat /\ gr_fun r = Fin x /\ x <= 1022 * J).
Proof. exact kl_radial_returns. Qed.
Print Assumptions C109_radial.

(** The cells, for positive random numbers: the run returns at most four functions with positive coefficients and
    exponents.  Without p-type functions the last cell evaluates the model, otherwise it ends with ValueError, because
    the model is built for the s-type functions only. *)
Theorem C109_notebook : forall fl rest rand fuel gfuel, reads_decimals fl ->
  (forall i n, exists l, rand i n = map Fin l /\ length l = n /\ positive l) -> (100 <= fuel)%nat -> (15 <= gfuel)%nat ->
  exists e1 e2 pts data gk r ob c e x,
    clenshaw_init (VInt 4) (VInt 400) (VInt 500) (EList (map Fin [25; 50; 75])) (VBool true) = Ok (map Fin pts) /\
    slater_atoms fl (archive_files rest) (Some "be"%string) false false fuel = Some (Ok data) /\ describes (atom_of data) (be_subs e1 e2) /\
    let f := map (rho (be_subs e1 e2)) pts in
    let J := trap pts (map2 (fun r y => 4 * PI * r ^ 2 * y) pts f) in
    positive f /\ 0 < J <= 172800 /\
    greedy_kl_init (mkGridArg (Some (A1 (map Fin pts))) (Some (gr_integrate (radial_grid (map Fin pts))))) (map Fin f) "pick-one"
      (mkThr (Fin (/ 10 ^ 4)) (Fin (/ 10 ^ 5)) (Fin (/ 10 ^ 10))) (mkThr (Fin (/ 10 ^ 2)) (Fin (/ 10 ^ 3)) (Fin (/ 10 ^ 8)))
      2500 5000 (Fin (/ 10 ^ 12)) None true = Ok (gk, PickOne) /\
    greedy_run (kl_strategy gk rand) PickOne new_object (VFloat (Fin 50)) (Fin (/ 10 ^ 8)) 4 None gfuel = Some (Ok (r, ob)) /\
    gr_coeffs r = map Fin c /\ gr_exps r = map Fin e /\ length c = total (gr_cfg r) /\ length e = total (gr_cfg r) /\ positive c /\ positive e /\
    (0 < fst (gr_cfg r))%nat /\ (total (gr_cfg r) <= 4)%nat /\ gr_fun r = Fin x /\ x <= 1022 * J /\
    greedy_notebook fl (archive_files rest) rand fuel gfuel =
      (if Nat.eqb (snd (gr_cfg r)) 0
       then Some (Ok (Fin J, r, map Fin (values true (map (lay_atom (fst (gr_cfg r)) 0) (map Rabs pts)) c e)))
       else Some (Raise ValueError)).
Proof. exact note_runs. Qed.
Print Assumptions C109_notebook.

Example C109_example : reads_decimals read_number /\ (forall i n, exists l, ones_rand i n = map Fin l /\ length l = n /\ positive l) /\
  ascending [1; 2; 2; 3] /\ nonneg [1; 2; 2; 3] /\ (exists a b, In a [1; 2; 2; 3] /\ In b [1; 2; 2; 3] /\ a < b) /\ 1022 * trap [1; 2; 2; 3] [1; 1; 1; 1] < 10 ^ 10 /\
  exists out, greedy_notebook read_number (archive_files []) ones_rand 100 15 = Some out.
Proof.
  assert (R : forall i n, exists l, ones_rand i n = map Fin l /\ length l = n /\ positive l).
  { intros i n. exists (repeat 1 n). split; [reflexivity|]. split; [apply repeat_length|]. apply Forall_forall. intros x I. apply repeat_spec in I. lra. }
  split; [exact read_number_decimals|]. split; [exact R|]. split; [repeat constructor; lra|]. split; [repeat constructor; lra|].
  split; [exists 1, 2; cbn [In]; repeat split; auto; lra|]. split; [cbn; lra|].
  destruct (C109_notebook read_number [] ones_rand 100 15 read_number_decimals R (Nat.le_refl _) (Nat.le_refl _)) as (e1 & e2 & pts & data & gk & r & ob & c & e & x & _ & _ & _ & H).
  cbv zeta in H. destruct H as (_ & _ & _ & _ & _ & _ & _ & _ & _ & _ & _ & _ & _ & _ & ->). destruct (Nat.eqb _ _); eexists; reflexivity.
Qed.
