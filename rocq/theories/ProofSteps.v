(** The four steps of README (C97). *)
From Coquelicot Require Import Coquelicot.
From Coq Require Import Reals List ZArith Lia Lra Bool Sorted.
From Verif Require Import XR SpecDens SpecMeas SpecGrid ModelDens ModelMeas ModelGrid ModelFit Lists ProofDens ProofInit
  ProofDeriv ProofMeas ProofGrid SpecFit ProofFitView ProofFit ProofEM ProofFPI ProofFPI2 ProofFPI3 ProofFPI4 ProofScipy SpecZero ProofZero SpecSteps.
Import ListNotations.
Local Open Scope R_scope.

Lemma rdot_pos_ex w y : length w = length y -> nonneg w -> 0 < rdot w y -> exists i, (i < length w)%nat /\ 0 < nth i w 0 /\ 0 < nth i y 0.
Proof.
  revert y. induction w as [|a w IH]; intros [|b y] L Hw H; try discriminate; [unfold rdot, rsum in H; cbn in H; lra|].
  inversion Hw as [|? ? Ha Hw']; subst. unfold rdot in H. cbn [map2] in H. rewrite rsum_cons in H.
  destruct (Rlt_dec 0 (a * b)) as [P|P].
  - exists 0%nat. cbn. split; [lia|]. assert (a <> 0) by (intros ->; lra). split; [lra|]. destruct (Rlt_dec 0 b) as [|Q]; [assumption|]. assert (0 < a) by lra. nra.
  - destruct (IH y) as (i & A & B & C); [cbn in L; lia|exact Hw'|unfold rdot; lra|]. exists (S i). cbn. split; [lia|]. now split.
Qed.
Lemma away_atom ns np r k : (k < ns + np)%nat -> away (lay_atom ns np r) k = r.
Proof.
  intros H. unfold away. rewrite lay_atom_split. unfold lay_one.
  destruct (Nat.lt_ge_cases k ns) as [A|A].
  - rewrite app_nth1 by (rewrite repeat_length; auto). rewrite (nth_indep _ _ (false, r)) by (rewrite repeat_length; auto). now rewrite nth_repeat.
  - rewrite app_nth2, repeat_length by (rewrite repeat_length; auto). rewrite (nth_indep _ _ (true, r)) by (rewrite repeat_length; lia). now rewrite nth_repeat.
Qed.

Record ready (fp : fpi) (W f : list R) norm lays mask (nb : nat) : Prop := {
  rd_set : fpi_setting fp W f norm lays mask (rdot W f);
  rd_pos : 0 < rdot W f;
  rd_w : nonneg W;
  rd_sup : supported W f lays (nfun lays);
  rd_nan : nan_passes (fp_fit fp) (length W);
  rd_nb : nfun lays = nb }.

Lemma steps_ready pts f ns np norm sph mask :
  ascending pts -> length f = length pts -> nonneg f -> substantial pts f -> (0 < ns + np)%nat -> 0 <= mask ->
  exists fp W, fpi_steps (map Fin pts) (map Fin f) (Z.of_nat ns) (Z.of_nat np) norm sph (Fin mask) = Ok fp /\
    ready fp W f norm (map (lay_atom ns np) (map Rabs pts)) mask (ns + np) /\
    (sph = true -> rdot W f = 4 * PI * trap pts (map2 (fun r y => r ^ 2 * y) pts f)).
Proof.
  intros Asc L Hf S Hn Hm. set (lays := map (lay_atom ns np) (map Rabs pts)).
  destruct (radial_integrator pts) as (w & Lw & Hw & Hq & I1 & I2). specialize (Hw Asc).
  set (W := if sph then map2 (fun w r => w * (4 * PI * r ^ 2)) w pts else w).
  assert (Int : integrator (arg_of (radial_grid (map Fin pts))) sph W) by (unfold W; destruct sph; assumption).
  assert (LW : length W = length pts) by (unfold W; destruct sph; [rewrite map2_length; lia|exact Lw]).
  destruct (rdot_pos_ex w (map2 (fun r y => r ^ 2 * y) pts f)) as (i & Hi & P1 & P2); [rewrite map2_length; lia|exact Hw|rewrite Hq by (rewrite map2_length; lia); exact S|].
  rewrite (nth_map2 _ pts f i 0 0) in P2 by lia.
  assert (R0 : nth i pts 0 <> 0). { intros E. rewrite E in P2. lra. }
  assert (R2 : 0 < nth i pts 0 ^ 2) by (apply pow2_gt_0; exact R0).
  assert (F0 : 0 < nth i f 0). { pose proof (nonneg_nth f i Hf) as Q. destruct (Rlt_dec 0 (nth i f 0)) as [|Q2]; [assumption|]. nra. }
  assert (NW : nonneg W).
  { unfold W. destruct sph; [|exact Hw]. clear -Hw Lw. pose proof PI_RGT_0. revert pts Lw. induction Hw as [|a l Ha Hl IH]; intros [|b p] Lp; try discriminate; constructor.
    - apply Rmult_le_pos; [exact Ha|]. pose proof (pow2_ge_0 b). nra.
    - apply IH. cbn in Lp. lia. }
  assert (PW : 0 < nth i W 0).
  { unfold W. destruct sph; [|exact P1]. rewrite (nth_map2 _ w pts i 0 0) by lia. pose proof PI_RGT_0. apply Rmult_lt_0_compat; nra. }
  assert (Nf : nfun lays = (ns + np)%nat).
  { unfold nfun, lays. destruct pts as [|p pts']; [cbn in Lw; lia|]. cbn [map hd]. apply lay_atom_length. }
  assert (Sup : supported W f lays (nfun lays)).
  { intros k Hk. rewrite Nf in Hk. exists i. split; [lia|]. split; [exact PW|]. split; [exact F0|]. unfold lays.
    rewrite (nth_indep _ [] (lay_atom ns np (Rabs 0))) by (rewrite !map_length; lia). rewrite map_nth, map_nth, away_atom by exact Hk. now apply Rabs_no_R0. }
  assert (LP : length lays = length W) by (unfold lays; rewrite !map_length; lia).
  assert (Pos : 0 < rdot W f) by (apply (supported_dot W f lays (nfun lays)); auto; [lia|rewrite Nf; exact Hn]).
  destruct (atomic_init_ok (A1 (map Fin pts)) VNone (map Rabs pts) ns np norm (geom_1d_default pts) Hn) as (m & Em & _).
  assert (V : views (GAtom m) norm lays) by (apply (views_atom (A1 (map Fin pts)) VNone _ ns np norm m); [apply geom_1d_default|exact Hn|exact Em]).
  assert (B : exists ft, base_init (arg_of (radial_grid (map Fin pts))) (map Fin f) (GAtom m) (MKL (Fin mask) (Fin 100000)) None sph (Fin mask) = Ok ft).
  { apply base_accepts. split.
    - rewrite Forall_map. apply Forall_forall. intros x Hx. cbn [xltb]. apply rltb_false. pose proof (proj1 (Forall_forall _ _) Hf x Hx) as Q. cbv beta in Q. lra.
    - exists (A1 (map Fin pts)), (gr_integrate (radial_grid (map Fin pts))). repeat split; auto. intros _. eexists.
      apply (integrate_with_fin (arg_of (radial_grid (map Fin pts))) sph W); [exact Int|reflexivity|lia]. }
  destruct B as [ft B]. destruct (base_fitok _ _ _ _ _ _ _ _ _ Int (eq_trans L (eq_sym LW)) B) as (FO & _ & T).
  assert (E : fpi_init (arg_of (radial_grid (map Fin pts))) (map Fin f) (GAtom m) (Fin mask) None sph = Ok (mkFpi ft (Fin 1))).
  { destruct (fpi_accepts (arg_of (radial_grid (map Fin pts))) (map Fin f) (GAtom m) (Fin mask) None sph ft (Fin (rdot W f)) B) as [_ H].
    - apply (fo_int _ _ _ _ _ FO). lia.
    - rewrite T in H. cbv zeta in H. rewrite xdiv_fin in H by lra. replace (rdot W f / rdot W f) with 1 in H by (field; lra). apply H; [|discriminate].
      intros C. injection C. lra. }
  exists (mkFpi ft (Fin 1)), W. split; [unfold fpi_steps; rewrite Em; exact E|].
  split.
  2:{ intros ->. rewrite <- Hq by (rewrite map2_length; lia). unfold W. clear -Lw L. unfold rdot. revert pts f Lw L. induction w as [|a w IH]; intros [|p pts] [|y f] Lw L; cbn [map2 length] in *; try discriminate; [unfold rsum; cbn; ring|].
      rewrite !rsum_cons, (IH pts f) by lia. ring. }
  constructor; auto.
  - constructor; auto; [|lia|lra]. exists (arg_of (radial_grid (map Fin pts))), sph, None, (GAtom m). split; [exact Int|]. split; [exact V|]. split; [exact E|reflexivity].
  - cbn [fp_fit]. rewrite LW, <- (map_length Fin pts). apply radial_passes.
    + destruct (base_init_inv _ _ _ _ _ _ _ _ B) as (p & I & n & G & -> & _). cbn [ft_grid]. injection G as <- <-. reflexivity.
    + rewrite map_length. destruct pts as [|p0 [|p1 pts']]; [cbn in Lw; lia| |cbn; lia]. unfold substantial in S. destruct f; cbn in S; lra.
Qed.

Lemma steps_run pts f ns np norm sph mask :
  ascending pts -> length f = length pts -> nonneg f -> substantial pts f -> (0 < ns + np)%nat -> 0 <= mask ->
  exists fp, fpi_steps (map Fin pts) (map Fin f) (Z.of_nat ns) (Z.of_nat np) norm sph (Fin mask) = Ok fp /\
    (forall c e oc oe maxiter th, length c = (ns + np)%nat -> length e = (ns + np)%nat -> positive c -> positive e -> oc || oe = true ->
       exists r c' e', fpi_run fp (VArr (A1 (map Fin c))) (VArr (A1 (map Fin e))) oc oe maxiter th = Ok r /\
         r_coeffs r = map Fin c' /\ r_exps r = map Fin e' /\ length c' = (ns + np)%nat /\ length e' = (ns + np)%nat /\ positive c' /\ positive e') /\
    (forall c e oc oe maxiter th, length c <> (ns + np)%nat \/ length e <> (ns + np)%nat ->
       fpi_run fp (VArr (A1 c)) (VArr (A1 e)) oc oe maxiter th = Raise ValueError) /\
    (mask = 0 -> (0 < ns)%nat -> In 0 f ->
     forall c e oc oe maxiter th, length c = (ns + np)%nat -> length e = (ns + np)%nat -> positive c -> positive e -> oc || oe = true ->
       exists r, fpi_run fp (VArr (A1 (map Fin c))) (VArr (A1 (map Fin e))) oc oe maxiter th = Ok r /\
         (length (r_fun r) <= 2)%nat /\ Forall (fun x => x = NaN) (r_fun r) /\ ((2 <= length (r_fun r))%nat -> r_success r = false)).
Proof.
  intros Asc L Hf S Hn Hm. destruct (steps_ready pts f ns np norm sph mask Asc L Hf S Hn Hm) as (fp & W & E & [Hs Hp Hw Hsup Hnan Hnb] & _).
  exists fp. split; [exact E|]. split; [|split].
  - intros c e oc oe maxiter th Lc Le Pc Pe Hu.
    destruct (run_zero _ _ _ _ _ _ _ c e oc oe maxiter th Hs Hp Hw Hnan Hsup Hu) as (r & c' & e' & Hr & A & B & [C1 C2] & D & F & _); auto; [split; lia|].
    exists r, c', e'. repeat (split; auto); lia.
  - intros c e oc oe maxiter th Q. destruct (setting_facts _ _ _ _ _ _ _ Hs) as [m [Hft _ _ _ _ Hv]].
    unfold fpi_run. rewrite (fo_model _ _ _ _ _ Hft), (vf_nb _ _ _ _ Hv), Hnb.
    destruct (Z.eqb_spec (Z.of_nat (length c)) (Z.of_nat (ns + np))) as [Q1|Q1]; [|reflexivity]. cbn [negb].
    destruct (Z.eqb_spec (Z.of_nat (length e)) (Z.of_nat (ns + np))) as [Q2|Q2]; [|reflexivity]. lia.
  - intros -> Hns Z c e oc oe maxiter th Lc Le Pc Pe Hu. destruct (In_nth f 0 0 Z) as (i & Hi & Fi).
    apply (zero_default fp W f norm _ (rdot W f) c e oc oe maxiter th i 0 Hs Hp Hw Hnan Hsup Hu); auto; [split; lia|lia|].
    rewrite (nth_indep _ [] (lay_atom ns np (Rabs 0))) by (rewrite !map_length; lia). rewrite map_nth.
    unfold kind. rewrite (nth_indep _ _ (true, 0)) by (rewrite lay_atom_length; lia). now apply ProofModelMisc.nth_lay_atom_s.
Qed.

(** ** README *)
Lemma trap_pos x : forall y, strictly_ascending x -> length y = length x -> (2 <= length x)%nat -> nonneg y -> (exists i, 0 < nth i y 0) -> 0 < trap x y.
Proof.
  induction x as [|x0 x IH]; intros y Hx L L2 Hy Ex; [cbn in L2; lia|]. destruct x as [|x1 x]; [cbn in L2; lia|].
  destruct y as [|y0 [|y1 y]]; [discriminate|discriminate|]. rewrite trap_step. pose proof Hx as HxS. inversion Hx as [|? ? Hs Hd]; subst. inversion Hd as [|? ? Hlt]; subst.
  inversion Hy as [|? ? H0 Hy']; subst. inversion Hy' as [|? ? H1 Hy'']; subst.
  assert (T0 : 0 <= trap (x1 :: x) (y1 :: y)).
  { apply trap_nonneg; [|exact Hy']. clear -Hs. unfold ascending, strictly_ascending in *. induction Hs as [|a l Hs IH Hd]; constructor; auto. inversion Hd; constructor. lra. }
  destruct (Rlt_dec 0 (y0 + y1)) as [P|P]; [assert (0 < (x1 - x0) * (y0 + y1)) by (apply Rmult_lt_0_compat; lra); lra|].
  assert (Z0 : y0 = 0) by lra. assert (Z1 : y1 = 0) by lra. subst. replace ((x1 - x0) * (0 + 0) / 2) with 0 by field. rewrite Rplus_0_l.
  destruct Ex as (i & Hi). destruct i as [|[|i]]; [cbn in Hi; lra|cbn in Hi; lra|]. cbn [nth] in Hi.
  destruct x as [|x2 x]; [destruct y; [destruct i; cbn in Hi; lra|discriminate]|].
  apply IH; [exact Hs|cbn in L |- *; lia|cbn; lia|exact Hy'|]. exists (S i). exact Hi.
Qed.
Lemma readme_points : readme_grid = Ok (map Fin (equispaced 0 50 100)).
Proof. unfold readme_grid. rewrite (uniform_ok 100 (VFloat (Fin 0)) (VFloat (Fin 50)) 0 50); [reflexivity|lia|reflexivity|reflexivity|lra]. Qed.
Lemma readme_steps f : length f = 100%nat -> nonneg f -> (exists i, (0 < i)%nat /\ 0 < nth i f 0) ->
  exists pts fp, readme_grid = Ok pts /\ fpi_steps pts (map Fin f) 5 0 true false (Fin 0) = Ok fp /\
    (forall oc oe maxiter th, fpi_run fp (VArr (A1 (map Fin readme_c0))) (VArr (A1 (map Fin readme_e0))) oc oe maxiter th = Raise ValueError) /\
    (forall maxiter th, exists r c' e',
       fpi_run fp (VArr (A1 (map Fin (1 :: readme_c0)))) (VArr (A1 (map Fin readme_e0))) true true maxiter th = Ok r /\
       r_coeffs r = map Fin c' /\ r_exps r = map Fin e' /\ length c' = 5%nat /\ length e' = 5%nat /\ positive c' /\ positive e') /\
    (In 0 f -> forall maxiter th, exists r,
       fpi_run fp (VArr (A1 (map Fin (1 :: readme_c0)))) (VArr (A1 (map Fin readme_e0))) true true maxiter th = Ok r /\
       (length (r_fun r) <= 2)%nat /\ Forall (fun x => x = NaN) (r_fun r) /\ ((2 <= length (r_fun r))%nat -> r_success r = false)).
Proof.
  intros L Hf (i & Hi & Pi). destruct (equispaced_spec 0 50 100 ltac:(lra)) as (Lp & Sp & Rg & Dp & P0 & _). set (pts := equispaced 0 50 100) in *.
  assert (Hil : (i < 100)%nat). { destruct (Nat.lt_ge_cases i 100) as [|Q]; [assumption|]. rewrite nth_overflow in Pi by lia. lra. }
  assert (Asc : ascending pts).
  { clear -Sp. unfold ascending, strictly_ascending in *. induction Sp as [|a l Hs IH Hd]; constructor; auto. inversion Hd; constructor. lra. }
  assert (R0 : 0 < nth i pts 0).
  { clear -Dp P0 Hi Hil. specialize (P0 ltac:(lia)). assert (K : forall j, (j < 100)%nat -> nth j pts 0 = INR j * ((50 - 0) / INR (100 - 1))).
    { induction j as [|j IH]; intros Hj; [rewrite P0; cbn; lra|]. specialize (Dp j ltac:(lia)). specialize (IH ltac:(lia)). rewrite S_INR. lra. }
    rewrite K by lia. apply Rmult_lt_0_compat; [apply lt_0_INR; lia|]. apply Rdiv_lt_0_compat; [lra|apply lt_0_INR; lia]. }
  assert (Sub : substantial pts f).
  { apply trap_pos; [exact Sp|rewrite map2_length; lia|lia| |].
    - clear -Hf. clearbody pts. revert pts. induction Hf as [|a l Ha Hl IH]; intros [|b p]; try (cbn [map2]; constructor; fail). cbn [map2]. constructor; [|apply IH]. pose proof (pow2_ge_0 b). now apply Rmult_le_pos.
    - exists i. rewrite (nth_map2 _ pts f i 0 0) by lia. apply Rmult_lt_0_compat; [nra|exact Pi]. }
  destruct (steps_run pts f 5 0 true false 0 Asc ltac:(lia) Hf Sub ltac:(lia) ltac:(lra)) as (fp & E & A & B & C).
  assert (Pc : positive (1 :: readme_c0)) by (repeat constructor; lra). assert (Pe : positive readme_e0) by (repeat constructor; lra).
  exists (map Fin pts), fp. split; [exact readme_points|]. split; [exact E|]. split; [|split].
  - intros. apply B. left. cbn. lia.
  - intros maxiter th. apply (A (1 :: readme_c0) readme_e0 true true maxiter th); auto.
  - intros Z maxiter th. apply C; auto; lia.
Qed.
