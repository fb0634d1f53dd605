(** Rounded arithmetic: correctly rounded library functions, and exact arithmetic as a special case. *)
From Coq Require Import Reals List ZArith Lia Lra Permutation.
From Flocq Require Import Core Sterbenz.
From Verif Require Import SpecGrid SpecRnd SpecRnd2 SpecRnd3 SpecRnd4 SpecBin ModelRnd ModelRnd4 ProofRnd ProofRnd3 ProofRnd8.
From Coq Require Import List.
Import ListNotations.
Local Open Scope R_scope.

Section Library.
Context (u eta : R) (fmt : R -> Prop) (rnd : R -> R) (H : rounding u eta fmt rnd) (F1 : fmt 1).

Lemma lib_square : square_error u eta (fun x => rnd (x * x)).
Proof.
  split; [apply (rd_u _ _ _ _ H)|]. split; [apply (rd_eta _ _ _ _ H)|]. split; [rewrite Rmult_0_l; apply (rnd_0 _ _ _ _ H)|].
  intro x. assert (P : 0 <= x * x) by apply Rle_0_sqr. split; [apply (rnd_pos _ _ _ _ H), P|].
  assert (E := rd_err _ _ _ _ H (x * x)). rewrite (Rabs_pos_eq (x * x) P) in E. exact E.
Qed.

Lemma lib_log : log_error u eta (fun x => rnd (ln x)).
Proof.
  split; [apply (rd_u _ _ _ _ H)|]. split; [apply (rd_eta _ _ _ _ H)|]. split; [rewrite ln_1; apply (rnd_0 _ _ _ _ H)|].
  split; [|split].
  - intros x L. apply (rnd_pos _ _ _ _ H). rewrite <- ln_1. destruct L as [L|L]; [left; apply ln_increasing; lra | rewrite L; lra].
  - intros x [P L]. apply (rnd_neg _ _ _ _ H). rewrite <- ln_1. destruct L as [L|L]; [left; apply ln_increasing; lra | rewrite L; lra].
  - intros x _. apply (rd_err _ _ _ _ H).
Qed.

Lemma lib_power : rpower_error u eta (fun x a => if Req_EM_T x 0 then 0 else rnd (Rpower x a)).
Proof.
  split; [apply (rd_u _ _ _ _ H)|]. split; [apply (rd_eta _ _ _ _ H)|]. split; [|split].
  - intro a. destruct (Req_EM_T 1 0); [lra|]. unfold Rpower. rewrite ln_1, Rmult_0_r, exp_0. apply (rd_id _ _ _ _ H), F1.
  - intros a _. destruct (Req_EM_T 0 0); [reflexivity | lra].
  - intros x a P. destruct (Req_EM_T x 0); [lra|]. assert (G : 0 < Rpower x a) by apply exp_pos.
    split; [apply (rnd_pos _ _ _ _ H); lra|]. assert (E := rd_err _ _ _ _ H (Rpower x a)). rewrite (Rabs_pos_eq (Rpower x a)) in E by lra. exact E.
Qed.
End Library.

(** [alpha - 1] is exact for orders between 1/2 and 2. *)
Lemma order_exact : forall emin prec, (1 < prec)%Z -> forall alpha, bin_fmt emin prec 1 -> bin_fmt emin prec alpha -> 1 / 2 <= alpha <= 2 ->
  bin_fmt emin prec (alpha - 1).
Proof.
  intros emin prec P alpha F1 F L. unfold bin_fmt in *.
  assert (Hp : Prec_gt_0 prec) by (unfold Prec_gt_0; lia).
  apply (@sterbenz radix2 (FLT_exp emin prec) (@FLT_exp_valid emin prec Hp) (FLT_exp_monotone emin prec)); [exact F | exact F1 | lra].
Qed.

(** Exact arithmetic. *)
Lemma square_id : forall f g, fl_square (fun x => x) (fun x => x * x) f g = square_loss f g /\ fl_square_slope (fun x => x) f g = -2 * (f - g).
Proof. intros. unfold fl_square, square_loss, fl_square_slope. split; ring. Qed.
Lemma kl_id : forall mask f g,
  fl_kl (fun x => x) ln mask f g = (if Rle_dec g mask then 0 else kl_loss f g) /\
  fl_kl_slope (fun x => x) mask f g = (if Rle_dec g mask then -1 else - (f / g)).
Proof.
  intros. unfold fl_kl, fl_kl_slope, fl_ratio, kl_loss. destruct (Rle_dec g mask); split; try reflexivity; rewrite ln_1; ring.
Qed.
Lemma tsallis_id : forall alpha mask f g, mask < g ->
  fl_tsallis (fun x => x) Rpower alpha mask f g = tsallis_loss alpha f g /\
  fl_tsallis_slope (fun x => x) Rpower alpha mask f g = - Rpower (f / g) alpha.
Proof.
  intros. unfold fl_tsallis, fl_tsallis_slope, fl_ratio0, tsallis_loss. destruct (Rle_dec g mask); [lra|]. split; reflexivity.
Qed.
Lemma mul_id : forall a b, fl_mul (fun x => x) a b = map (fun p => fst p * snd p) (combine a b).
Proof. induction a as [|x a IH]; intros [|y b]; cbn [fl_mul combine map fst snd]; try reflexivity. rewrite IH. reflexivity. Qed.
Lemma objective_id : forall quadr m om f g,
  fl_objective (fun x => x) quadr om (fl_map2 m f g) = quadr (map (fun p => fst p * snd p) (combine om (map (fun p => m (fst p) (snd p)) (combine f g)))).
Proof. intros. unfold fl_objective, fl_map2. rewrite mul_id. reflexivity. Qed.

(** Whether some value of the model is negative. *)
Lemma kl_values_spec : forall rnd flog neg mask f g,
  (Forall (Rle 0) g -> fl_kl_values rnd flog neg mask f g = fl_map2 (fl_kl rnd flog mask) f g) /\
  ((exists b, In b g /\ b < 0) -> fl_kl_values rnd flog neg mask f g = map (fun _ => neg) g).
Proof.
  intros. unfold fl_kl_values. split.
  - intro P. destruct (existsb _ g) eqn:E; [|reflexivity]. apply existsb_exists in E. destruct E as (b & I & E).
    rewrite Forall_forall in P. specialize (P b I). destruct (Rlt_dec b 0); [lra | discriminate].
  - intros (b & I & L). destruct (existsb _ g) eqn:E; [reflexivity|]. exfalso. apply Bool.not_true_iff_false in E. apply E.
    apply existsb_exists. exists b. split; [exact I|]. destruct (Rlt_dec b 0); [reflexivity | lra].
Qed.
