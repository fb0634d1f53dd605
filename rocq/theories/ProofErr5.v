(** Errors of the greedy classes on two-dimensional points. *)
From Coq Require Import Reals List ZArith Bool Lia.
From Verif Require Import XR ModelDens ModelMeas ModelGrid ModelFit ModelGreedy ProofGreedy5.
Import ListNotations.

Lemma kl_space gk rand ch ob f d mx extra fuel c rows :
  gr_points (ft_grid (fp_fit (kl_fpi gk))) = A2 c rows -> xleb f (Fin 0) = false ->
  greedy_run (kl_strategy gk rand) ch ob (VFloat f) d mx extra fuel = Some (Raise ValueError).
Proof. intros H F. apply start_raises; auto. unfold greedy_start. cbn [kl_strategy sy_start]. unfold kl_start. now rewrite H. Qed.

(** Shapes that broadcast: [n] weights and an array of [n] rows and [c] columns. *)
Lemma solve_nd_iff c rows dens w : length dens = length rows -> length w = length rows ->
  ((exists p, solve_one_nd c rows dens w = Ok p) <-> length rows = c \/ length rows = 1%nat \/ c = 1%nat) /\
  (~ (length rows = c \/ length rows = 1%nat \/ c = 1%nat) -> solve_one_nd c rows dens w = Raise ValueError).
Proof.
  intros Ld Lw. unfold solve_one_nd, bmul. rewrite map_length, Lw, Ld.
  destruct (Nat.eqb_spec (length rows) c) as [E|E]; [split; [|intros []; auto]; split; [auto|]|].
  - intros _. cbn [bind]. destruct (Nat.eqb_spec c 1) as [E1|E1]; rewrite ?E, ?Nat.eqb_refl; cbn [bind]; eauto.
  - destruct (Nat.eqb_spec (length rows) 1) as [E1|E1]; [split; [|intros []; auto]; split; [auto|]|].
    + intros _. cbn [bind]. destruct (Nat.eqb_spec c 1) as [E2|E2]; [congruence|]. destruct (Nat.eqb _ c); cbn [bind]; eauto.
    + destruct (Nat.eqb_spec c 1) as [E2|E2]; [split; [|intros []; auto]; split; [auto|]|].
      * intros _. cbn [bind]. rewrite Nat.eqb_refl. cbn [bind]. eauto.
      * split; [|reflexivity]. split; [intros (p & H); discriminate|]. intros [H|[H|H]]; congruence.
Qed.

Lemma ls_space gl nnls minimize rand ch ob f d mx extra fuel c rows :
  gr_points (ft_grid (sc_fit (ls_scipy gl))) = A2 c rows -> length (ft_density (sc_fit (ls_scipy gl))) = length rows ->
  ~ (length rows = c \/ length rows = 1%nat \/ c = 1%nat) -> xleb f (Fin 0) = false ->
  greedy_run (ls_strategy gl nnls minimize rand) ch ob (VFloat f) d mx extra fuel = Some (Raise ValueError).
Proof.
  intros H L N F. apply start_raises; auto. unfold greedy_start. cbn [ls_strategy sy_start]. unfold ls_start. rewrite H.
  rewrite (proj2 (solve_nd_iff c rows _ (map (fun _ => Fin 1) rows) L (map_length _ _)) N). reflexivity.
Qed.

(** Every extension of a model on such points fails. *)
Lemma ls_opt_space gl nnls minimize t k p local c rows :
  gr_points (ft_grid (sc_fit (ls_scipy gl))) = A2 c rows -> ls_opt gl nnls minimize t k p local = Raise ValueError.
Proof. intros H. unfold ls_opt. now rewrite H. Qed.

(** The objects made by the constructors. *)
Ltac peel H := repeat match type of H with
  | (do _ <- ?t; _) = Ok _ => let E := fresh "E" in destruct t eqn:E; cbn [bind] in H; [|discriminate]
  | (if ?b then _ else _) = Ok _ => let E := fresh "B" in destruct b eqn:E; try discriminate
  | match ?t with Some _ => _ | None => _ end = Ok _ => let E := fresh "M" in destruct t eqn:E; try discriminate
  end.
Lemma base_init_grid ga dens m me n sph mask ft pts : base_init ga dens m me n sph mask = Ok ft -> ga_points ga = Some pts ->
  gr_points (ft_grid ft) = pts /\ ft_density ft = dens.
Proof. unfold base_init. intros H P. rewrite P in H. peel H; injection H as <-; auto. Qed.

Lemma kl_init_space ga dens chs gt lt li gi mask n sph gk ch c rows :
  greedy_kl_init ga dens chs gt lt li gi mask n sph = Ok (gk, ch) -> ga_points ga = Some (A2 c rows) ->
  forall rand ch' ob f d mx extra fuel, xleb f (Fin 0) = false ->
  greedy_run (kl_strategy gk rand) ch' ob (VFloat f) d mx extra fuel = Some (Raise ValueError).
Proof.
  unfold greedy_kl_init. intros H P. rewrite P in H. peel H. injection H as <- _. unfold fpi_init in E0. peel E0. injection E0 as <-.
  destruct (base_init_grid _ _ _ _ _ _ _ _ _ E2 P) as [G _]. intros. now apply (kl_space _ _ _ _ _ _ _ _ _ c rows).
Qed.
Lemma ls_init_space ga dens chs lt gt method norm n wc li gi sph gl ch c rows :
  greedy_ls_init ga dens chs lt gt method norm n wc li gi sph = Ok (gl, ch) -> ga_points ga = Some (A2 c rows) ->
  forall nnls minimize rand,
  (length rows <> c -> length rows <> 1%nat -> c <> 1%nat ->
   forall ch' ob f d mx extra fuel, xleb f (Fin 0) = false ->
   greedy_run (ls_strategy gl nnls minimize rand) ch' ob (VFloat f) d mx extra fuel = Some (Raise ValueError)) /\
  (forall t k p local, sy_opt (ls_strategy gl nnls minimize rand) t k p local = Raise ValueError).
Proof.
  unfold greedy_ls_init. intros H P. rewrite P in H. peel H. injection H as <- _. unfold scipy_init in E0. rewrite P in E0. peel E0. injection E0 as <-.
  apply negb_false_iff, Nat.eqb_eq in B0. cbn [nlen] in B0.
  destruct (base_init_grid _ _ _ _ _ _ _ _ _ E3 P) as [G D]. intros. split.
  - intros. apply (ls_space _ _ _ _ _ _ _ _ _ _ _ c rows); auto; cbn [ls_scipy sc_fit]; [rewrite D; lia|tauto].
  - intros. cbn [ls_strategy sy_opt]. now apply (ls_opt_space _ _ _ _ _ _ _ c rows).
Qed.
