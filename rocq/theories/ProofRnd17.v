(** Rounded arithmetic: objectives, their gradients and the quality of a fit. *)
From Coq Require Import Reals List ZArith Lia Lra Permutation.
From Verif Require Import SpecGrid SpecRnd SpecRnd2 SpecRnd3 SpecRnd4 ModelRnd ModelRnd4 ProofRnd ProofRnd2 ProofRnd3 ProofRnd4 ProofRnd8 ProofRnd13 ProofRnd16.
Import ListNotations.
Local Open Scope R_scope.

Lemma wsum_diff : forall fmt W y' l, values_near fmt y' l -> length W = length l ->
  Rabs (wsum W y' - wsum W (map fst l)) <= wsum (map Rabs W) (map snd l).
Proof.
  intros fmt W y' l C. revert W. induction C as [|a p y' l [_ E] C IH]; intros [|w W] L; try discriminate L; cbn [wsum map].
  - rewrite Rminus_0_r, Rabs_R0. lra.
  - replace (w * a + wsum W y' - (w * fst p + wsum W (map fst l))) with (w * (a - fst p) + (wsum W y' - wsum W (map fst l))) by ring.
    eapply Rle_trans; [apply Rabs_triang|]. apply Rplus_le_compat; [|apply IH; simpl in L; lia].
    rewrite Rabs_mult. apply Rmult_le_compat_l; [apply Rabs_pos | exact E].
Qed.
Lemma wsum_abs : forall fmt W y' l, values_near fmt y' l -> length W = length l ->
  wsum (map Rabs W) (map Rabs y') <= wsum (map Rabs W) (map (fun '(b, d) => Rabs b + d) l).
Proof.
  intros fmt W y' l C. revert W. induction C as [|a [b d] y' l [_ E] C IH]; intros [|w W] L; try discriminate L; cbn [wsum map]; [lra|].
  apply Rplus_le_compat; [|apply IH; simpl in L; lia]. apply Rmult_le_compat_l; [apply Rabs_pos | exact (near_abs _ _ _ E)].
Qed.
Lemma wsum_split : forall W (l : list (R * R)), wsum W (map (fun '(b, d) => Rabs b + d) l) = wsum W (map (fun '(b, d) => Rabs b) l) + wsum W (map snd l).
Proof.
  intros W l. revert W. induction l as [|[b d] l IH]; intros [|w W]; cbn [wsum map snd]; try ring. rewrite IH. ring.
Qed.
Lemma close_length : forall fmt y' l, values_near fmt y' l -> length y' = length l.
Proof. intros fmt y' l C. induction C; simpl; auto. Qed.
Lemma close_fmt : forall fmt y' l, values_near fmt y' l -> Forall fmt y'.
Proof. intros fmt y' l C. induction C as [|a p y' l [F _] C IH]; constructor; assumption. Qed.

Lemma wsum_below : forall W y z, Forall (Rle 0) W -> below y z -> wsum W y <= wsum W z.
Proof.
  intros W y z P B. revert W P. induction B as [|a b y z L B IH]; intros W P; destruct P as [|w W Hw P]; cbn [wsum]; try lra.
  apply Rplus_le_compat; [apply Rmult_le_compat_l; assumption | apply IH, P].
Qed.
Lemma abs_id : forall W, Forall (Rle 0) W -> map Rabs W = W.
Proof. intros W P. induction P as [|w W Hw P IH]; [reflexivity|]. cbn [map]. rewrite IH, Rabs_pos_eq by exact Hw. reflexivity. Qed.

Section Objective.
Context (u eta : R) (fmt : R -> Prop) (rnd : R -> R) (H : rounding u eta fmt rnd) (Hu8 : u <= 1 / 8).
Notation q := (/ (1 - u)).

Lemma quad_near : forall W k e quadr y' l, length l = length W -> values_near fmt y' l ->
  Rabs (quadr - wsum W y') <= (q ^ k - 1) * wsum (map Rabs W) (map Rabs y') + e ->
  Rabs (quadr - wsum W (map fst l)) <= quad_bound u (wsum (map Rabs W)) k e l.
Proof.
  intros W k e quadr y' l L C E. assert (D := wsum_diff fmt W y' l C (eq_sym L)). assert (A := wsum_abs fmt W y' l C (eq_sym L)).
  assert (Q := q_pow1 _ _ _ _ H Hu8 k). unfold quad_bound.
  replace (quadr - wsum W (map fst l)) with ((quadr - wsum W y') + (wsum W y' - wsum W (map fst l))) by ring.
  eapply Rle_trans; [apply Rabs_triang|].
  assert (M : (q ^ k - 1) * wsum (map Rabs W) (map Rabs y') <= (q ^ k - 1) * wsum (map Rabs W) (map (fun '(b, d) => Rabs b + d) l))
    by (apply Rmult_le_compat_l; [lra | exact A]).
  rewrite wsum_split in *. lra.
Qed.

Lemma up_q : forall k, (1 + u) ^ k <= q ^ k.
Proof. intro k. apply pow_incr. generalize (q_ge _ _ _ _ H Hu8), (u0 _ _ _ _ H). lra. Qed.

Lemma radial_sound : forall t x, Forall fmt x -> ascending x -> orders (pred (length x)) t ->
  sound_rule fmt (length x) (fl_trapz rnd t x) (trap x)
    (quad_bound u (trap x) (height t + 4) ((1 + u) ^ height t * (INR (pred (length x)) * (2 * eta)))).
Proof.
  intros t x Fx A O y' l L C. assert (Ly := close_length _ _ _ C). assert (LW := tweights_length x 0).
  assert (P := tweights_pos x 0 A (Rle_refl 0)). assert (T := fun y (E : length x = length y) => trap_wsum x y E).
  assert (E := trapz_error u eta fmt rnd H t x y' ltac:(congruence) Fx (close_fmt _ _ _ C) A O).
  assert (Q := quad_near (tweights x 0) (height t + 4) ((1 + u) ^ height t * (INR (pred (length x)) * (2 * eta))) (fl_trapz rnd t x y') y' l ltac:(congruence) C).
  rewrite (abs_id _ P) in Q. unfold quad_bound in *. rewrite !T in Q by (rewrite ?map_length; congruence). apply Q.
  eapply Rle_trans; [exact E|]. apply Rplus_le_compat_r, Rmult_le_compat_r; [|generalize (up_q (height t + 4)); lra].
  rewrite <- T by (rewrite map_length; congruence). apply wsum_pos; [exact P|]. apply Forall_map, Forall_forall. intros a _. apply Rabs_pos.
Qed.

Lemma cubic_sound : forall t w, orders (length w) t ->
  sound_rule fmt (length w) (fl_cubic rnd t w) (wsum w)
    (quad_bound u (wsum (map Rabs w)) (height t + 1) ((1 + u) ^ height t * (INR (length w) * eta))).
Proof.
  intros t w O y' l L C. assert (Ly := close_length _ _ _ C). apply (quad_near w _ _ _ y' l L C).
  eapply Rle_trans; [apply (cubic_error u eta fmt rnd H); [congruence | exact O]|].
  apply Rplus_le_compat_r, Rmult_le_compat_r; [|generalize (up_q (height t + 1)); lra].
  apply wsum_pos; apply Forall_map, Forall_forall; intros a _; apply Rabs_pos.
Qed.

(** With the weight 4 pi r^2. *)
Lemma sphere_near : forall p r b b' d, Rabs (p - PI) <= u * PI -> Rabs (b' - b) <= d ->
  Rabs (rnd (rnd (rnd (b' * 4) * p) * rnd (r * r)) - b * 4 * PI * (r * r)) <= sphere_bound u eta r b d.
Proof.
  intros p r b b' d P E. unfold sphere_bound. repeat apply (prod_rnd u eta fmt rnd H Hu8); try assumption; [apply near_refl|].
  assert (T := rd_err _ _ _ _ H (r * r)). rewrite (Rabs_pos_eq (r * r)) in T by apply Rle_0_sqr. exact T.
Qed.

Lemma sphere_close : forall p, Rabs (p - PI) <= u * PI -> forall x y' l, length x = length l -> values_near fmt y' l ->
  values_near fmt (fl_sphere rnd p x y') (map (fun '(r, (b, d)) => (b * 4 * PI * (r * r), sphere_bound u eta r b d)) (combine x l)).
Proof.
  intros p P x y' l L C. revert x L. induction C as [|a [b d] y' l [F E] C IH]; intros [|r x] L; try discriminate L; cbn [fl_sphere combine map]; [constructor|].
  constructor; [|apply IH; simpl in L; lia]. split; [apply (rd_fmt _ _ _ _ H) | apply sphere_near; assumption].
Qed.

Lemma spherical_sound : forall p t x, Rabs (p - PI) <= u * PI -> Forall fmt x -> ascending x -> orders (pred (length x)) t ->
  sound_rule fmt (length x) (fl_spherical rnd p t x) (fun y => trap x (map (fun '(r, b) => b * 4 * PI * (r * r)) (combine x y)))
    (fun l => quad_bound u (trap x) (height t + 4) ((1 + u) ^ height t * (INR (pred (length x)) * (2 * eta)))
       (map (fun '(r, (b, d)) => (b * 4 * PI * (r * r), sphere_bound u eta r b d)) (combine x l))).
Proof.
  intros p t x P Fx A O y' l L C. cbv beta. assert (C' := sphere_close p P x y' l (eq_sym L) C).
  assert (S := fun E => radial_sound t x Fx A O _ _ E C'). specialize (S ltac:(rewrite map_length, combine_length, L; apply Nat.min_id)). unfold fl_spherical.
  replace (map (fun '(r, b) => b * 4 * PI * (r * r)) (combine x (map fst l)))
    with (map fst (map (fun '(r, (b, d)) => (b * 4 * PI * (r * r), sphere_bound u eta r b d)) (combine x l))); [exact S|].
  clear. revert l. induction x as [|r x IH]; intros [|[b d] l]; cbn [combine map fst]; try reflexivity. rewrite IH. reflexivity.
Qed.

(** *** Non-negative weights *)
Lemma radial_positive : forall x, ascending x -> positive_rule (length x) (trap x).
Proof.
  intros x A. exists (tweights x 0). split; [apply tweights_length|]. split; [apply tweights_pos; [exact A | lra]|].
  intros y L. symmetry. apply trap_wsum. auto.
Qed.
Lemma cubic_positive : forall w, Forall (Rle 0) w -> positive_rule (length w) (wsum w).
Proof. intros w P. exists w. auto. Qed.
Lemma spherical_positive : forall x, ascending x ->
  positive_rule (length x) (fun y => trap x (map (fun '(r, b) => b * 4 * PI * (r * r)) (combine x y))).
Proof.
  intros x A. destruct (radial_positive x A) as (W & L & P & E). exists (map (fun '(r, w) => w * (4 * PI * (r * r))) (combine x W)).
  split; [rewrite map_length, combine_length, L; lia|]. split.
  - apply Forall_map, Forall_forall. intros [r w] I. apply in_combine_r in I. rewrite Forall_forall in P. specialize (P _ I).
    apply Rmult_le_pos; [exact P|]. apply Rmult_le_pos; [generalize PI_RGT_0; lra | apply Rle_0_sqr].
  - intros y Ly. rewrite E by (rewrite map_length, combine_length; lia). clear E P A.
    revert W L y Ly. induction x as [|r x IH]; intros [|w W] L [|b y] Ly; try discriminate; cbn [combine map wsum]; [reflexivity|].
    rewrite (IH W ltac:(simpl in L; lia) y ltac:(simpl in Ly; lia)). ring.
Qed.

(** *** The objective and its gradient *)
Lemma objective_near : forall n quadr Q B, sound_rule fmt n quadr Q B ->
  forall m' m d (pts : list (R * R * R)), length pts = n ->
  (forall om f g, In (om, f, g) pts -> Rabs (m' f g - m f g) <= d f g) ->
  Rabs (fl_objective rnd quadr (map (fun '(om, f, g) => om) pts)
          (fl_map2 m' (map (fun '(om, f, g) => f) pts) (map (fun '(om, f, g) => g) pts))
        - Q (map (fun '(om, f, g) => om * m f g) pts)) <=
    B (map (fun '(om, f, g) => (om * m f g, weighted_bound u eta om (m f g) (d f g))) pts).
Proof.
  intros n quadr Q B S m' m d pts L E. unfold fl_objective.
  replace (map (fun '(om, f, g) => om * m f g) pts)
    with (map fst (map (fun '(om, f, g) => (om * m f g, weighted_bound u eta om (m f g) (d f g))) pts))
    by (rewrite map_map; apply map_ext; intros [[om f] g]; reflexivity).
  apply S; [rewrite map_length; exact L|]. clear L S. unfold fl_map2.
  induction pts as [|[[om f] g] pts IH]; cbn [map combine fl_mul fst snd]; [constructor|].
  constructor; [|apply IH; intros; eapply E; right; eassumption]. cbn [fst snd]. split; [apply (rd_fmt _ _ _ _ H)|].
  apply (prod_rnd u eta fmt rnd H Hu8); [apply near_refl | apply (E om); left; reflexivity].
Qed.

Lemma gradient_near : forall n quadr Q B, sound_rule fmt n quadr Q B ->
  forall m' m d (pts : list (R * R * R * (R * R * R))), length pts = n ->
  (forall om f g b' b db, In (om, f, g, (b', b, db)) pts -> Rabs (m' f g - m f g) <= d f g /\ Rabs (b' - b) <= db) ->
  Rabs (fl_gradient rnd quadr (map (fun '(om, f, g, _) => om) pts)
          (fl_map2 m' (map (fun '(om, f, g, _) => f) pts) (map (fun '(om, f, g, _) => g) pts))
          (map (fun '(_, (b', b, db)) => b') pts)
        - Q (map (fun '(om, f, g, (b', b, db)) => om * m f g * b) pts)) <=
    B (map (fun '(om, f, g, (b', b, db)) => (om * m f g * b, gradient_bound u eta om (m f g) (d f g) b db)) pts).
Proof.
  intros n quadr Q B S m' m d pts L E. unfold fl_gradient.
  replace (map (fun '(om, f, g, (b', b, db)) => om * m f g * b) pts)
    with (map fst (map (fun '(om, f, g, (b', b, db)) => (om * m f g * b, gradient_bound u eta om (m f g) (d f g) b db)) pts))
    by (rewrite map_map; apply map_ext; intros [[[om f] g] [[b' b] db]]; reflexivity).
  apply S; [rewrite map_length; exact L|]. clear L S. unfold fl_map2.
  induction pts as [|[[[om f] g] [[b' b] db]] pts IH]; cbn [map combine fl_mul fst snd]; [constructor|].
  constructor; [|apply IH; intros; eapply E; right; eassumption]. cbn [fst snd]. split; [apply (rd_fmt _ _ _ _ H)|].
  destruct (E om f g b' b db (or_introl eq_refl)) as [E1 E2].
  apply (prod_rnd u eta fmt rnd H Hu8); [|exact E2]. apply (prod_rnd u eta fmt rnd H Hu8); [apply near_refl | exact E1].
Qed.

(** *** Gibbs inequality *)
Lemma wsum_minus3 : forall (X : Type) W (a b : X -> R) l, wsum W (map a l) - wsum W (map b l) = wsum W (map (fun x => a x - b x) l).
Proof.
  intros X W a b l. revert W. induction l as [|x l IH]; intros [|w W]; cbn [map wsum]; try ring. rewrite <- IH. ring.
Qed.
Lemma gibbs_near : forall n quadr Q B, sound_rule fmt n quadr Q B -> positive_rule n Q ->
  forall w z flog, log_error w z flog -> forall lo mask, normal u lo rnd ->
  forall pts : list (R * R * R), length pts = n ->
  (forall om f g, In (om, f, g) pts -> 0 <= om /\ 0 < f /\ 0 < g /\ mask < g /\ lo <= f / g) ->
  Q (map (fun '(om, f, g) => om * f) pts) - Q (map (fun '(om, f, g) => om * g) pts)
    - B (map (fun '(om, f, g) => (om * kl_loss f g, weighted_bound u eta om (kl_loss f g) (kl_bound u eta w z f g))) pts)
  <= fl_objective rnd quadr (map (fun '(om, f, g) => om) pts)
       (fl_map2 (fl_kl rnd flog mask) (map (fun '(om, f, g) => f) pts) (map (fun '(om, f, g) => g) pts)).
Proof.
  intros n quadr Q B S (W & LW & PW & EQ) w z flog Lg lo mask Nr pts L P.
  assert (N := objective_near n quadr Q B S (fl_kl rnd flog mask) kl_loss (kl_bound u eta w z) pts L).
  assert (N1 := N (fun om f g I => let '(conj _ (conj F (conj G (conj M R)))) := P om f g I in kl_near u eta fmt rnd H Hu8 lo Nr w z flog Lg mask f g F G M R)).
  clear N. set (ob := fl_objective _ _ _ _) in *. set (bb := B _) in *.
  assert (G : Q (map (fun '(om, f, g) => om * f) pts) - Q (map (fun '(om, f, g) => om * g) pts) <= Q (map (fun '(om, f, g) => om * kl_loss f g) pts)).
  { rewrite !EQ by (rewrite map_length; exact L).
    assert (T := wsum_minus3 _ W (fun '(om, f, g) => om * f) (fun '(om, f, g) => om * g) pts). rewrite T. apply wsum_below; [exact PW|].
    clear - P. induction pts as [|[[om f] g] pts IH]; cbn [map]; [constructor|]. constructor; [|apply IH; intros; apply P; right; assumption].
    destruct (P om f g (or_introl eq_refl)) as (Ho & F & G & _). assert (K := kl_loss_low f g F G).
    assert (om * (f - g) <= om * kl_loss f g) by (apply Rmult_le_compat_l; assumption). lra. }
  assert (T := Rle_abs (- (ob - Q (map (fun '(om, f, g) => om * kl_loss f g) pts)))). rewrite Rabs_Ropp in T. lra.
Qed.

(** *** Exact zeros *)
Lemma sum_null : forall t n, fl_sum rnd t (repeat 0 n) = 0.
Proof.
  induction t as [|i|a IHa b IHb]; intro n; cbn [fl_sum]; [reflexivity | |].
  - revert i. induction n as [|n IH]; intros [|i]; simpl; auto.
  - rewrite IHa, IHb, Rplus_0_l. apply (rnd_0 _ _ _ _ H).
Qed.
Lemma terms_null : forall x n, exists k, fl_trap_terms rnd x (repeat 0 n) = repeat 0 k.
Proof.
  induction x as [|x0 x IH]; intro n; [exists 0%nat; reflexivity|]. destruct x as [|x1 x]; [exists 0%nat; destruct n as [|[|n]]; reflexivity|].
  destruct n as [|[|n]]; [exists 0%nat; reflexivity.. |]. destruct (IH (S n)) as [k E]. exists (S k). cbn [repeat] in *.
  change (fl_trap_terms rnd (x0 :: x1 :: x) (0 :: 0 :: repeat 0 n)) with
    (rnd (rnd (rnd (x1 - x0) * rnd (0 + 0)) / 2) :: fl_trap_terms rnd (x1 :: x) (0 :: repeat 0 n)).
  rewrite E, Rplus_0_l. assert (Z := rnd_0 _ _ _ _ H). rewrite Z, Rmult_0_r, Z. unfold Rdiv. rewrite Rmult_0_l, Z. reflexivity.
Qed.
Lemma mul_null : forall om n, length om = n -> fl_mul rnd om (repeat 0 n) = repeat 0 n.
Proof.
  induction om as [|a om IH]; intros n L; subst n; [reflexivity|]. cbn [length repeat fl_mul]. rewrite IH, Rmult_0_r, (rnd_0 _ _ _ _ H) by reflexivity. reflexivity.
Qed.
Lemma mul_null' : forall om n, exists k, fl_mul rnd om (repeat 0 n) = repeat 0 k.
Proof.
  induction om as [|a om IH]; intros [|n]; try (exists 0%nat; reflexivity). destruct (IH n) as [k E]. exists (S k).
  cbn [repeat fl_mul]. rewrite E, Rmult_0_r, (rnd_0 _ _ _ _ H). reflexivity.
Qed.
Lemma sphere_null : forall p x n, exists k, fl_sphere rnd p x (repeat 0 n) = repeat 0 k.
Proof.
  intros p. induction x as [|a x IH]; intros [|n]; try (exists 0%nat; reflexivity). destruct (IH n) as [k E]. exists (S k).
  cbn [repeat fl_sphere]. assert (Z := rnd_0 _ _ _ _ H). rewrite E, Rmult_0_l, Z, Rmult_0_l, Z, Rmult_0_l, Z. reflexivity.
Qed.
Lemma rules_null : (forall t x, null_rule (fl_trapz rnd t x)) /\ (forall t w, null_rule (fl_cubic rnd t w)) /\
  (forall p t x, null_rule (fl_spherical rnd p t x)).
Proof.
  assert (R : forall t x, null_rule (fl_trapz rnd t x)).
  { intros t x n. unfold fl_trapz. destruct (terms_null x n) as [k ->]. apply sum_null. }
  split; [exact R|]. split.
  - intros t w n. unfold fl_cubic. destruct (mul_null' w n) as [k ->]. apply sum_null.
  - intros p t x n. unfold fl_spherical. destruct (sphere_null p x n) as [k ->]. apply R.
Qed.

Lemma map2_null : forall m f, (forall a, In a f -> m a a = 0) -> fl_map2 m f f = repeat 0 (length f).
Proof.
  intros m f. unfold fl_map2. induction f as [|a f IH]; intro E; [reflexivity|]. cbn [combine map length repeat fst snd].
  rewrite IH by (intros b I; apply E; right; exact I). rewrite (E a (or_introl eq_refl)). reflexivity.
Qed.
Lemma objective_null : forall quadr m om f, null_rule quadr -> length om = length f -> (forall a, In a f -> m a a = 0) ->
  fl_objective rnd quadr om (fl_map2 m f f) = 0.
Proof. intros quadr m om f N L E. unfold fl_objective. rewrite map2_null by exact E. rewrite mul_null by exact L. apply N. Qed.

Lemma objective_pos : forall quadr m om f g, (forall y, Forall (Rle 0) y -> 0 <= quadr y) -> Forall (Rle 0) om ->
  (forall a b, 0 <= m a b) -> 0 <= fl_objective rnd quadr om (fl_map2 m f g).
Proof.
  intros quadr m om f g P O M. apply P. assert (K : Forall (Rle 0) (fl_map2 m f g)) by (unfold fl_map2; apply Forall_map, Forall_forall; intros; apply M).
  revert O K. generalize (fl_map2 m f g). intros k O. revert k. induction O as [|a om Ha O IH]; intros [|b k] K; cbn [fl_mul]; try constructor.
  - inversion K. apply (rnd_pos _ _ _ _ H), Rmult_le_pos; assumption.
  - inversion K. apply IH; assumption.
Qed.

(** *** Quality of a fit *)
Lemma max_spec : forall l, l <> [] -> is_max (fl_max l) l.
Proof.
  intros [|a l] N; [congruence|]. clear N. cbn [fl_max]. revert a. induction l as [|b l IH]; intro a; cbn [fold_left].
  - split; [left; reflexivity|]. intros x [<-|[]]. lra.
  - destruct (IH (Rmax a b)) as [I M]. assert (Ma := Rmax_l a b). assert (Mb := Rmax_r a b).
    assert (M1 := M _ (or_introl eq_refl)). split.
    + destruct I as [I|I]; [|right; right; exact I]. rewrite <- I. unfold Rmax. destruct (Rle_dec a b); simpl; auto.
    + intros x [<-|[<-|I']]; [lra | lra | apply M; right; exact I'].
Qed.

Lemma diff_pos : forall f g, Forall (Rle 0) (fl_diff rnd f g).
Proof. intros f g. unfold fl_diff, fl_map2. apply Forall_map, Forall_forall. intros; apply Rabs_pos. Qed.

Lemma goodness_pos : forall w z fsq flog, square_error w z fsq -> forall quadr neg mask f g a b c d e,
  (forall y, Forall (Rle 0) y -> 0 <= quadr y) ->
  fl_goodness rnd fsq flog quadr neg mask f g = [a; b; c; d; e] -> 0 <= b /\ 0 <= c /\ 0 <= d /\ (Forall (Rle 0) g -> 0 <= a).
Proof.
  intros w z fsq flog S quadr neg mask f g a b c d e P E. unfold fl_goodness in E. injection E as <- <- <- <- _.
  split; [apply P, diff_pos|]. split.
  - assert (D := diff_pos f g). destruct (fl_diff rnd f g) as [|x l] eqn:F; [simpl; lra|].
    assert (M := max_spec (x :: l) ltac:(discriminate)). destruct M as [_ M]. rewrite Forall_forall in D.
    eapply Rle_trans; [apply D; left; reflexivity | apply M; left; reflexivity].
  - split; [|auto]. apply P. unfold fl_map2. apply Forall_map, Forall_forall. intros p _. apply (square_pos rnd w z fsq S).
Qed.

Lemma max_null : forall n, fl_max (repeat 0 n) = 0.
Proof.
  intros [|n]; [reflexivity|]. destruct (max_spec (repeat 0 (S n)) ltac:(discriminate)) as [I _]. apply repeat_spec in I. exact I.
Qed.

Lemma goodness_same : forall w z w' z' fsq flog, square_error w z fsq -> log_error w' z' flog -> fmt 1 ->
  forall quadr neg mask f, null_rule quadr -> Forall (Rlt 0) f ->
  fl_goodness rnd fsq flog quadr neg mask f f = [quadr f; 0; 0; 0; 0].
Proof.
  intros w z w' z' fsq flog S Lg F1 quadr neg mask f N P. unfold fl_goodness, fl_diff, fl_kl_values.
  assert (X : existsb (fun b => if Rlt_dec b 0 then true else false) f = false).
  { apply Bool.not_true_iff_false. intro E. apply existsb_exists in E. destruct E as (b & I & E). rewrite Forall_forall in P. specialize (P b I).
    destruct (Rlt_dec b 0); [lra | discriminate]. }
  rewrite X.
  rewrite (map2_null (fun a b => Rabs (rnd (a - b)))).
  2:{ intros a _. rewrite Rminus_diag_eq, (rnd_0 _ _ _ _ H) by reflexivity. apply Rabs_R0. }
  rewrite (map2_null (fl_square rnd fsq)) by (intros a _; apply (square_zero u eta fmt rnd H w z fsq S)).
  rewrite (map2_null (fl_kl rnd flog mask)).
  2:{ intros a I. rewrite Forall_forall in P. specialize (P a I). apply (kl_same u eta fmt rnd H w' z' flog Lg F1). lra. }
  rewrite !N, max_null. reflexivity.
Qed.

(** The largest deviation is computed up to one rounding. *)
Lemma linf_near : forall f g, f <> [] -> length f = length g -> Forall fmt f -> Forall fmt g ->
  forall e, is_max e (map (fun p => Rabs (fst p - snd p)) (combine f g)) ->
  Rabs (fl_max (fl_diff rnd f g) - e) <= u * e.
Proof.
  intros f g N L Ff Fg e (Ie & Me). assert (N' : fl_diff rnd f g <> []).
  { destruct f as [|a f]; [congruence|]. destruct g as [|b g]; discriminate. }
  destruct (max_spec _ N') as [I M]. set (m := fl_max _) in *. unfold fl_diff, fl_map2 in *.
  assert (U := u0 _ _ _ _ H).
  assert (E : forall p, In p (combine f g) -> Rabs (Rabs (rnd (fst p - snd p)) - Rabs (fst p - snd p)) <= u * Rabs (fst p - snd p)).
  { intros [a b] Ip. rewrite Forall_forall in Ff, Fg. eapply Rle_trans; [apply Rabs_triang_inv2|].
    apply (minus_err u eta fmt rnd H); [apply Ff; eapply in_combine_l, Ip | apply Fg; eapply in_combine_r, Ip]. }
  apply in_map_iff in I. destruct I as (p & Em & Ip). apply in_map_iff in Ie. destruct Ie as (p' & Ee & Ip').
  assert (M1 := M _ (in_map (fun p => Rabs (rnd (fst p - snd p))) _ _ Ip')). assert (M2 := Me _ (in_map (fun p => Rabs (fst p - snd p)) _ _ Ip)).
  cbv beta in M1, M2. assert (E1 := E p Ip). assert (E2 := E p' Ip'). cbv beta in Em, Ee. rewrite Em in E1. rewrite Ee in E2.
  assert (P : 0 <= Rabs (fst p - snd p)) by apply Rabs_pos.
  assert (E1a := Rle_abs (m - Rabs (fst p - snd p))). assert (E2a := Rle_abs (- (Rabs (rnd (fst p' - snd p')) - e))). rewrite Rabs_Ropp in E2a. assert (u * Rabs (fst p - snd p) <= u * e) by (apply Rmult_le_compat_l; lra). apply Rabs_le. lra.
Qed.
(** The integrals of [goodness_of_fit]. *)
Lemma abs_fmt : forall x, fmt x -> fmt (Rabs x).
Proof. intros x F. unfold Rabs. destruct (Rcase_abs x); [apply (rd_opp _ _ _ _ H), F | exact F]. Qed.

Lemma pairs_near : forall n quadr Q B, sound_rule fmt n quadr Q B ->
  forall (m' m d : R -> R -> R) (pts : list (R * R)), length pts = n ->
  (forall f g, In (f, g) pts -> fmt (m' f g) /\ Rabs (m' f g - m f g) <= d f g) ->
  Rabs (quadr (fl_map2 m' (map fst pts) (map snd pts)) - Q (map (fun '(f, g) => m f g) pts)) <= B (map (fun '(f, g) => (m f g, d f g)) pts).
Proof.
  intros n quadr Q B S m' m d pts L E.
  replace (map (fun '(f, g) => m f g) pts) with (map fst (map (fun '(f, g) => (m f g, d f g)) pts))
    by (rewrite map_map; apply map_ext; intros [f g]; reflexivity).
  apply S; [rewrite map_length; exact L|]. clear L S. unfold fl_map2.
  induction pts as [|[f g] pts IH]; cbn [map combine fst snd]; [constructor|].
  constructor; [apply (E f g); left; reflexivity | apply IH; intros; apply E; right; assumption].
Qed.

Lemma goodness_near : forall n quadr Q B, sound_rule fmt n quadr Q B ->
  forall w z fsq w' z' flog, square_error w z fsq -> (forall x, fmt (fsq x)) -> log_error w' z' flog ->
  forall lo neg mask, normal u lo rnd -> 0 <= mask ->
  forall (pts : list (R * R)), length pts = n -> (forall f g, In (f, g) pts -> fmt f /\ fmt g) ->
  forall a b c d e, fl_goodness rnd fsq flog quadr neg mask (map fst pts) (map snd pts) = [a; b; c; d; e] ->
  Rabs (a - Q (map snd pts)) <= B (map (fun '(f, g) => (g, 0)) pts) /\
  Rabs (b - Q (map (fun '(f, g) => Rabs (f - g)) pts)) <= B (map (fun '(f, g) => (Rabs (f - g), u * Rabs (f - g))) pts) /\
  Rabs (d - Q (map (fun '(f, g) => square_loss f g) pts)) <= B (map (fun '(f, g) => (square_loss f g, square_bound u w z f g)) pts) /\
  ((forall f g, In (f, g) pts -> 0 < f /\ mask < g /\ lo <= f / g) ->
   Rabs (e - Q (map (fun '(f, g) => kl_loss f g) pts)) <= B (map (fun '(f, g) => (kl_loss f g, kl_bound u eta w' z' f g)) pts)).
Proof.
  intros n quadr Q B S w z fsq w' z' flog Sq Fs Lg lo neg mask Nr Hm pts L F a b c d e G.
  unfold fl_goodness in G. injection G as Ga Gb _ Gd Ge. split; [|split; [|split]].
  - rewrite <- Ga. replace (map snd pts) with (map fst (map (fun '(f, g) => (g, 0)) pts)) at 2
      by (rewrite map_map; apply map_ext; intros [f g]; reflexivity).
    apply S; [rewrite map_length; exact L|]. clear - F. induction pts as [|[f g] pts IH]; cbn [map snd]; [constructor|].
    constructor; [|apply IH; intros; apply F; right; assumption]. cbn [fst snd]. split; [apply (F f g); left; reflexivity | apply near_refl].
  - rewrite <- Gb. apply (pairs_near n quadr Q B S (fun a b => Rabs (rnd (a - b))) (fun f g => Rabs (f - g)) (fun f g => u * Rabs (f - g)) pts L).
    intros f g I. destruct (F f g I) as [Ff Fg]. split; [apply abs_fmt, (rd_fmt _ _ _ _ H)|].
    eapply Rle_trans; [apply Rabs_triang_inv2 | apply (minus_err u eta fmt rnd H f g Ff Fg)].
  - rewrite <- Gd. apply (pairs_near n quadr Q B S (fl_square rnd fsq) square_loss (square_bound u w z) pts L).
    intros f g I. destruct (F f g I) as [Ff Fg]. split; [apply Fs | apply (square_near u eta fmt rnd H w z fsq Sq f g Ff Fg)].
  - intro P. assert (Pg : forall f g, In (f, g) pts -> 0 < g) by (intros f g I; destruct (P f g I) as (_ & M & _); lra).
    rewrite <- Ge. unfold fl_kl_values. destruct (existsb _ _) eqn:X.
    + exfalso. apply existsb_exists in X. destruct X as (x & I & X). apply in_map_iff in I. destruct I as ([f g] & <- & I). cbn [snd] in X.
      specialize (Pg f g I). destruct (Rlt_dec g 0); [lra | discriminate].
    + apply (pairs_near n quadr Q B S (fl_kl rnd flog mask) kl_loss (kl_bound u eta w' z') pts L).
      intros f g I. destruct (P f g I) as (Pf & M & R). split; [apply (rd_fmt _ _ _ _ H)|].
      apply (kl_near u eta fmt rnd H Hu8 lo Nr w' z' flog Lg mask f g Pf (Pg f g I) M R).
Qed.
End Objective.
