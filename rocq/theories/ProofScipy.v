(** Goodness of fit, constructors (C42, C52) and ScipyFit (C49-C51). *)
From Coquelicot Require Import Coquelicot.
From Coq Require Import String.
From Coq Require Import Reals List ZArith Lia Lra Bool.
From Verif Require Import XR PyStr SpecDens SpecMeas SpecGrid ModelDens ModelMeas ModelGrid ModelFit Lists ProofDens
  ProofDeriv ProofMeas SpecFit ProofFitView ProofFit ProofEM ProofFPI ProofFPI2 ProofFPI3.
Import ListNotations.
Local Open Scope R_scope.

(** ** C42 *)
Lemma fit_facts ft W f norm lays mask N : fit_setting ft W f norm lays mask N ->
  exists m, fitok ft W f m mask /\ vfacts m norm lays (nfun lays) /\ lays <> [] /\
            ft_integral ft = Fin N.
Proof.
  intros [(ga & sph & n0 & m & me & Hi & Hv & Hb & Ht) Hf Hl Hne Hm]. exists m.
  destruct (base_fitok _ _ _ _ _ _ _ _ _ Hi Hf Hb) as (H1 & H2 & H3).
  assert (Hn : lays <> []).
  { intros ->. destruct W; [congruence|discriminate]. }
  destruct (views_facts _ _ _ Hv) as [nb Hb'].
  assert (E : nfun lays = nb).
  { unfold nfun. apply (vf_len _ _ _ _ Hb'). destruct lays; [congruence|now left]. }
  rewrite E. repeat split; auto; try apply H1.
  all: try (apply Hb').
  rewrite H3. destruct n0; cbn [target] in Ht; subst; auto.
Qed.

Lemma integrate_meaning ft W f norm lays mask N y : fit_setting ft W f norm lays mask N ->
  length y = length W -> fit_integrate ft (map Fin y) = Ok (Fin (quad W y)).
Proof. intros Hs Hy. destruct (fit_facts _ _ _ _ _ _ _ Hs) as (m & H & _). now apply (fo_int _ _ _ _ _ H). Qed.

Lemma goodness_meaning ft W f norm lays mask N c e : fit_setting ft W f norm lays mask N ->
  sized lays c e -> (norm = true -> positive e) -> positive f -> nonneg (values norm lays c e) ->
  let g := values norm lays c e in
  exists mx v, length v = length f /\
    goodness ft (map Fin c) (map Fin e) =
      Ok (map Fin [quad W g; quad W (map2 (fun x y => Rabs (x - y)) f g); mx; quad W (map2 sq_fn f g); quad W v]) /\
    is_max (map2 (fun x y => Rabs (x - y)) f g) mx /\
    (forall i, (i < length f)%nat ->
       (kept mask (nth i f 0) (nth i g 0) -> nth i v 0 = kl_fn (nth i f 0) (nth i g 0)) /\
       (~ kept mask (nth i f 0) (nth i g 0) -> nth i v 0 = 0)).
Proof.
  intros Hs [Hc He] Hpe Hpf Hg. destruct (fit_facts _ _ _ _ _ _ _ Hs) as (m & Hft & Hv & Hne & _).
  pose proof (bs_lenl _ _ _ _ _ _ _ Hs) as Hl. pose proof (bs_mask _ _ _ _ _ _ _ Hs) as Hm.
  pose proof (fo_len _ _ _ _ _ Hft) as Hf. cbv zeta.
  assert (HL : length (values norm lays c e) = length W) by (unfold values; rewrite map_length; auto).
  destruct (kl_value mask (Fin 100000) f (values norm lays c e) false Hm ltac:(lia) Hpf Hg) as (v & q & Ev & L1 & L2 & HI).
  destruct (goodness_gen ft W f m mask norm lays (nfun lays) c e v Hft Hv Hl Hne Hc He Hpe Ev L1) as (mx & H1 & H2).
  exists mx, v. repeat split; auto; try apply H1; intros K; now apply (HI i).
Qed.

(** A negative model value anywhere makes the last entry 100000 times the total weight. *)
Lemma goodness_negative ft W f norm lays mask N c e : fit_setting ft W f norm lays mask N ->
  sized lays c e -> (norm = true -> positive e) -> Exists (fun x => x < 0) (values norm lays c e) ->
  exists r, goodness ft (map Fin c) (map Fin e) = Ok (map Fin r) /\ length r = 5%nat /\
            nth 4 r 0 = 100000 * rsum W.
Proof.
  intros Hs [Hc He] Hpe Hg. destruct (fit_facts _ _ _ _ _ _ _ Hs) as (m & Hft & Hv & Hne & _).
  pose proof (bs_lenl _ _ _ _ _ _ _ Hs) as Hl. pose proof (fo_len _ _ _ _ _ Hft) as Hf.
  assert (HL : length (values norm lays c e) = length W) by (unfold values; rewrite map_length; auto).
  pose proof (kl_negative (Fin mask) (Fin 100000) f (values norm lays c e) false ltac:(lia) Hg) as Ev.
  replace (repeat (Fin 100000) (length f)) with (map Fin (repeat 100000 (length f))) in Ev
    by (clear; induction (length f) as [|n IH]; cbn; congruence).
  destruct (goodness_gen ft W f m mask norm lays (nfun lays) c e _ Hft Hv Hl Hne Hc He Hpe Ev) as (mx & _ & H2);
    [apply repeat_length|].
  unfold measures in H2. eexists. split; [exact H2|]. split; [reflexivity|]. cbn [nth].
  unfold quad. rewrite Hf. clear. induction W as [|x W IH]; cbn [length repeat]; [cbn; ring|].
  unfold rdot in *. cbn [map2]. rewrite !rsum_cons, IH. ring.
Qed.

Lemma map2_forall (P : R -> Prop) op (f g : list R) : (forall x y, P (op x y)) -> Forall P (map2 op f g).
Proof. intros H. revert g; induction f; intros [|]; cbn [map2]; constructor; auto. Qed.
Lemma map2_self (op : R -> R -> R) (f : list R) : (forall x, op x x = 0) -> map2 op f f = map (fun _ => 0) f.
Proof. intros H. induction f; cbn; f_equal; auto. Qed.
Lemma rdot_zero W f : rdot W (map (fun _ : R => 0) f) = 0.
Proof.
  revert f; induction W as [|x W IH]; intros [|y f]; try reflexivity.
  unfold rdot in *. cbn [map map2]. rewrite rsum_cons, IH. ring.
Qed.

(** Errors are non-negative and vanish for a perfect model. *)
Lemma goodness_signs ft W f norm lays mask N c e : fit_setting ft W f norm lays mask N ->
  sized lays c e -> (norm = true -> positive e) -> positive f -> nonneg (values norm lays c e) ->
  exists r, goodness ft (map Fin c) (map Fin e) = Ok (map Fin r) /\ length r = 5%nat /\
    (nonneg W -> 0 <= nth 0 r 0 /\ 0 <= nth 1 r 0 /\ 0 <= nth 2 r 0 /\ 0 <= nth 3 r 0) /\
    (nonneg W -> all_above mask f (values norm lays c e) -> quad W f - nth 0 r 0 <= nth 4 r 0) /\
    (values norm lays c e = f -> r = [quad W f; 0; 0; 0; 0]).
Proof.
  intros Hs Hsz Hpe Hpf Hg.
  destruct (goodness_meaning _ _ _ _ _ _ _ c e Hs Hsz Hpe Hpf Hg) as (mx & v & Lv & E & Hmx & HI).
  pose proof (bs_lenf _ _ _ _ _ _ _ Hs) as Hf. pose proof (bs_lenl _ _ _ _ _ _ _ Hs) as Hl.
  assert (HL : length (values norm lays c e) = length W) by (unfold values; rewrite map_length; auto).
  eexists. split; [exact E|]. split; [reflexivity|]. cbn [nth]. set (g := values norm lays c e) in *.
  split; [|split].
  - intros HW. split; [now apply rdot_nonneg|]. split; [|split].
    + apply rdot_nonneg; auto. apply map2_forall. intros. apply Rabs_pos.
    + destruct Hmx as [Hin _]. assert (A : nonneg (map2 (fun x y => Rabs (x - y)) f g)) by (apply map2_forall; intros; apply Rabs_pos).
      unfold nonneg in A. rewrite Forall_forall in A. auto.
    + apply rdot_nonneg; auto. apply map2_forall. apply sq_fn_nonneg.
  - intros HW Hk. unfold quad. rewrite <- rdot_sub by lia.
    assert (L2 : length W = length (map2 Rminus f g)) by (rewrite map2_length; lia).
    rewrite !rdot_sumn by lia.
    apply sumn_le. intros i Hi.
    assert (Hki : kept mask (nth i f 0) (nth i g 0)) by (apply Hk; lia).
    apply Rmult_le_compat_l; [apply nonneg_nth; auto|].
    destruct (HI i ltac:(lia)) as [A _]. rewrite A by auto.
    rewrite (nth_map2 Rminus f g i 0 0 0) by lia.
    apply kl_fn_ge; [apply positive_nth; auto; lia|]. eapply kept_nz; eauto. apply (bs_mask _ _ _ _ _ _ _ Hs).
  - intros Eg. rewrite Eg in *. repeat f_equal.
    + unfold quad. rewrite map2_self by (intros; rewrite Rminus_diag_eq, Rabs_R0; auto). apply rdot_zero.
    + destruct Hmx as [Hin _]. rewrite map2_self in Hin by (intros; rewrite Rminus_diag_eq, Rabs_R0; auto).
      apply in_map_iff in Hin. destruct Hin as (? & <- & _). reflexivity.
    + unfold quad. rewrite map2_self by (intros; unfold sq_fn; ring). apply rdot_zero.
    + unfold quad. replace v with (map (fun _ : R => 0) v); [apply rdot_zero|].
      apply nth_ext with (d := 0) (d' := 0); [now rewrite map_length|]. intros i Hi. rewrite map_length in Hi.
      rewrite (map_nth (fun _ : R => 0) v 0). symmetry.
      destruct (HI i ltac:(lia)) as [A B]. destruct (Rlt_dec mask (nth i f 0)) as [H1|H1].
      * destruct (Rlt_dec (Rabs (nth i f 0) * / 2 ^ 1022) (Rabs (nth i f 0))) as [H2|H2].
        -- rewrite A by (split; auto). unfold kl_fn.
           assert (0 < nth i f 0) by (apply positive_nth; auto; lia).
           replace (nth i f 0 / nth i f 0) with 1 by (field; lra). rewrite ln_1. ring.
        -- apply B. intros [_ ?]. auto.
      * apply B. intros [? _]. auto.
Qed.

(** ** C52 *)
Lemma base_accepts ga density model me n0 sph mask :
  (exists ft, base_init ga density model me n0 sph mask = Ok ft) <->
  Forall (fun x => xltb x (Fin 0) = false) density /\
  (exists p I, ga_points ga = Some p /\ ga_integrate ga = Some I /\
     (sph = true -> ndim p = 1%nat) /\
     (n0 = None -> exists x, integrate_with sph (mkGrid p I) density = Ok x)).
Proof.
  assert (HF : existsb (fun x => xltb x (Fin 0)) density = false <-> Forall (fun x => xltb x (Fin 0) = false) density).
  { induction density as [|x l IH]; cbn [existsb]; [split; auto|].
    rewrite orb_false_iff, IH. split; [intros [? ?]; constructor; auto|]. intros H; inversion H; auto. }
  rewrite <- HF. unfold base_init. destruct (existsb _ density).
  { split; [intros [? ?]; discriminate|intros [? _]; discriminate]. }
  split.
  - intros [ft H]. split; auto. destruct ga as [[p|] [I|]]; try discriminate. cbn [ga_points ga_integrate] in *.
    exists p, I. split; auto. split; auto.
    destruct (Nat.eqb_spec (ndim p) 1) as [Hd|Hd]; destruct sph; cbn [negb andb] in H; try discriminate;
      (split; [intros; congruence|intros ->]; destruct (integrate_with _ _ density) as [n|]; [eauto|discriminate]).
  - intros [_ (p & I & E1 & E2 & Hd & Hn)]. rewrite E1, E2.
    assert (G : negb (Nat.eqb (ndim p) 1) && sph = false).
    { destruct sph; [rewrite Hd; auto|apply andb_false_r]. }
    rewrite G. destruct n0 as [x|]; [eexists; reflexivity|]. destruct (Hn eq_refl) as [x ->]. eexists; reflexivity.
Qed.

Lemma base_raises ga density model me n0 sph mask :
  (Exists (fun x => xltb x (Fin 0) = true) density -> base_init ga density model me n0 sph mask = Raise ValueError) /\
  (Forall (fun x => xltb x (Fin 0) = false) density ->
   (ga_points ga = None \/ ga_integrate ga = None -> base_init ga density model me n0 sph mask = Raise AttributeError) /\
   (forall p I, ga_points ga = Some p -> ga_integrate ga = Some I -> ndim p <> 1%nat -> sph = true ->
      base_init ga density model me n0 sph mask = Raise ValueError)).
Proof.
  split; [|intros HF; split].
  - intros H. unfold base_init. replace (existsb _ density) with true; auto. symmetry. apply existsb_exists.
    apply Exists_exists in H. exact H.
  - assert (E : existsb (fun x => xltb x (Fin 0)) density = false).
    { clear -HF. induction HF as [|x l H HF IH]; cbn [existsb]; auto. now rewrite H, IH. }
    intros H. unfold base_init. rewrite E. destruct ga as [[p|] [I|]]; cbn [ga_points ga_integrate] in *; auto.
    destruct H; discriminate.
  - assert (E : existsb (fun x => xltb x (Fin 0)) density = false).
    { clear -HF. induction HF as [|x l H HF IH]; cbn [existsb]; auto. now rewrite H, IH. }
    intros p I E1 E2 Hd ->. unfold base_init. rewrite E, E1, E2.
    destruct (Nat.eqb_spec (ndim p) 1); [congruence|]. reflexivity.
Qed.

(** The fixed-point class also rejects a zero or undefined multiplier. *)
Lemma fpi_accepts ga density model mask n0 sph ft i :
  base_init ga density model (MKL mask (Fin 100000)) n0 sph mask = Ok ft ->
  fit_integrate ft density = Ok i ->
  let lm := xdiv i (ft_integral ft) in
  (lm = Fin 0 \/ lm = NaN -> fpi_init ga density model mask n0 sph = Raise RuntimeError) /\
  (lm <> Fin 0 -> lm <> NaN -> fpi_init ga density model mask n0 sph = Ok (mkFpi ft lm)).
Proof.
  intros Hb Hi. cbv zeta. unfold fpi_init. rewrite Hb. cbn [bind]. rewrite Hi.
  cbv beta iota zeta delta [bind]. set (lm := xdiv i (ft_integral ft)). split.
  - intros [-> | ->]; [|reflexivity]. cbn [xeqb]. rewrite reqb_true by auto. reflexivity.
  - intros H1 H2. destruct lm as [x| | |] eqn:E; try reflexivity; [|congruence].
    cbn [xeqb xisnan]. rewrite reqb_false by congruence. reflexivity.
Qed.
Lemma fpi_base_fails ga density model mask n0 sph x :
  base_init ga density model (MKL mask (Fin 100000)) n0 sph mask = Raise x ->
  fpi_init ga density model mask n0 sph = Raise x.
Proof. intros H. unfold fpi_init. now rewrite H. Qed.
