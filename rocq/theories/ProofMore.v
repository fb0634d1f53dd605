(** Points of the Clenshaw grid, guesses of a greedy pass, rejected Tsallis orders. *)
From Coq Require Import Reals List ZArith Bool Lia Lra Permutation.
From Verif Require Import XR SpecDens SpecMeas SpecGrid SpecFit SpecGreedy SpecPts ModelDens ModelMeas ModelGrid ModelFit ModelGreedy Lists
  ProofMeas ProofGrid ProofGreedy2 ProofGreedy3.
Import ListNotations.
Local Open Scope R_scope.

Lemma core_point_eq z n inc : core_points z n inc = map (core_point (IZR z) (2 * INR n)) (seq (if inc then 0 else 1) n).
Proof.
  destruct n as [|n]; [now destruct inc|]. unfold core_points, core_point. apply map_ext. intros p.
  assert (0 < INR (S n)) by (apply lt_0_INR; lia).
  replace (PI * INR p / (2 * INR (S n))) with (5 / 10 * PI * INR p / INR (S n)) by (field; lra). unfold Rdiv. ring.
Qed.
Lemma diffuse_point_eq n : diffuse_points n = map (diffuse_point (2 * INR n)) (seq 1 n).
Proof.
  destruct n as [|n]; [reflexivity|]. unfold diffuse_points, diffuse_point. apply map_ext. intros p.
  assert (0 < INR (S n)) by (apply lt_0_INR; lia).
  replace (PI * INR p / (2 * INR (S n))) with (5 / 10 * PI * INR p / INR (S n)) by (field; lra). reflexivity.
Qed.

Lemma clenshaw_formula z nc nd inc extra : (0 < z)%Z -> (0 <= nc)%Z -> (0 <= nd)%Z ->
  exists pts, clenshaw_init (VInt z) (VInt nc) (VInt nd) (EList (map Fin extra)) (VBool inc) = Ok (map Fin pts) /\
    ascending pts /\
    Permutation pts (map (core_point (IZR z) (2 * IZR nc)) (seq (if inc then 0 else 1) (Z.to_nat nc)) ++
                     map (diffuse_point (2 * IZR nd)) (seq 1 (Z.to_nat nd)) ++ extra).
Proof.
  intros Hz Hc Hd. eexists. split; [now apply clenshaw_ok|]. split.
  - destruct (clenshaw_points z nc nd inc extra Hz Hc Hd) as (pts & E & A & _). rewrite clenshaw_ok in E by assumption.
    injection E as E. apply (map_Fin_inj _ _) in E. now rewrite E.
  - assert (Ic : IZR nc = INR (Z.to_nat nc)) by (rewrite INR_IZR_INZ, Z2Nat.id; auto).
    assert (Id : IZR nd = INR (Z.to_nat nd)) by (rewrite INR_IZR_INZ, Z2Nat.id; auto).
    rewrite Ic, Id, <- core_point_eq, <- diffuse_point_eq. apply rsort_perm.
Qed.

(** The last diffuse point. *)
Lemma diffuse_last n : (0 < n)%nat -> diffuse_point (2 * INR n) n = 25.
Proof.
  intros H. unfold diffuse_point. assert (0 < INR n) by (apply lt_0_INR; lia).
  replace (PI * INR n / (2 * INR n)) with (PI / 2) by (field; lra). rewrite cos_PI2. lra.
Qed.

(** As documented for 200 core points and 300 diffuse points, except for one more point. *)
Lemma clenshaw_documented z extra : (0 < z)%Z ->
  exists pts, clenshaw_init (VInt z) (VInt 200) (VInt 300) (EList (map Fin extra)) (VBool true) = Ok (map Fin pts) /\
    Permutation pts (map (core_point (IZR z) 400) (seq 0 200) ++ map (diffuse_point 600) (seq 1 299) ++ [25] ++ extra).
Proof.
  intros Hz. destruct (clenshaw_formula z 200 300 true extra Hz) as (pts & E & _ & P); try lia. exists pts. split; [exact E|].
  replace (2 * 200) with 400 in P by lra. replace (2 * 300) with 600 in P by lra.
  change (Z.to_nat 200) with 200%nat in P. change (Z.to_nat 300) with (S 299) in P. rewrite (seq_S 299 1), map_app in P.
  assert (M1 : map (diffuse_point 600) [(1 + 299)%nat] = [diffuse_point 600 (1 + 299)]) by reflexivity. rewrite M1 in P.
  assert (L : diffuse_point 600 (1 + 299) = 25).
  { pose proof (diffuse_last 300 ltac:(lia)) as D. replace (2 * INR 300) with 600 in D by (rewrite INR_IZR_INZ; simpl; lra). exact D. }
  rewrite L, <- app_assoc in P. exact P.
Qed.

Lemma cos_acute a b : 0 <= a -> a < b -> b <= PI -> cos b < cos a.
Proof. intros. apply cos_decreasing_1; lra. Qed.

(** One core point besides the origin of hydrogen: half way, not at the documented 1/400. *)
Lemma clenshaw_undocumented : exists pts,
  clenshaw_init (VInt 1) (VInt 2) (VInt 0) (EList (map Fin [])) (VBool true) = Ok (map Fin pts) /\
  ~ In (core_point 1 400 1) pts /\ ~ In (diffuse_point 400 1) pts.
Proof.
  destruct (clenshaw_formula 1 2 0 true [] ltac:(lia) ltac:(lia) ltac:(lia)) as (pts & E & _ & P). exists pts. split; [exact E|].
  assert (HP : 0 < PI <= 4) by (split; [apply PI_RGT_0|apply PI_4]).
  assert (V : forall x, In x pts -> x = 0 \/ x = 1 / 2 * (1 - cos (PI / 4))).
  { intros x H. apply (Permutation_in _ P) in H. change (Z.to_nat 2) with 2%nat in H. change (Z.to_nat 0) with 0%nat in H. cbn [seq map app In] in H.
    destruct H as [H|[H|[]]]; subst x; unfold core_point; cbn [INR].
    - left. replace (PI * 0 / (2 * 2)) with 0 by lra. rewrite cos_0. lra.
    - right. replace (PI * 1 / (2 * 2)) with (PI / 4) by lra. lra. }
  assert (C1 : cos (PI / 4) < cos (PI / 400)) by (apply cos_acute; lra).
  assert (C0 : cos (PI / 400) < 1) by (rewrite <- cos_0; apply cos_acute; lra).
  split; intros H; apply V in H; unfold core_point, diffuse_point in H; cbn [INR] in H; replace (PI * 1 / 400) with (PI / 400) in H by lra.
  - destruct H; lra.
  - destruct H as [H|H]; [lra|].
    (* 25 (1 - cos (PI/400)) = (1 - cos (PI/4)) / 2 : too small *)
    assert (S : 1 - cos (PI / 400) = 2 * sin (PI / 800) ^ 2).
    { replace (PI / 400) with (2 * (PI / 800)) by lra. rewrite cos_2a_sin. ring. }
    assert (B : 0 <= sin (PI / 800) <= 4 / 800).
    { split; [apply sin_ge_0; lra|]. assert (sin (PI / 800) < PI / 800) by (apply sin_lt_x; lra). lra. }
    assert (Q : cos (PI / 4) < 99 / 100).
    { rewrite cos_PI4. assert (1 < sqrt 2). { rewrite <- sqrt_1. apply sqrt_lt_1; lra. }
      assert (sqrt 2 * sqrt 2 = 2) by (apply sqrt_sqrt; lra).
      assert (T : 1 / sqrt 2 * sqrt 2 = 1) by (field; lra). nra. }
    nra.
Qed.

(** Guesses. *)
Lemma next_pairs_of ch f c e : length c = length e -> exists gs, pairs_of (length c + increase ch) (next_params ch f c e) gs.
Proof.
  intros H. exists (map (fun x => (firstn (length c + increase ch) x, skipn (length c + increase ch) x)) (next_params ch f c e)). split.
  - rewrite map_map. rewrite <- (map_id (next_params ch f c e)) at 1. apply map_ext. intros x. cbn [fst snd]. symmetry. apply firstn_skipn.
  - apply Forall_forall. intros g Hg. apply in_map_iff in Hg. destruct Hg as (x & <- & Hx). cbn [fst snd].
    apply guess_shape in Hx; [|lia]. destruct Hx as (c' & e' & -> & L1 & L2).
    destruct (firstn_exact c' e' (length c + increase ch)%nat) as [-> ->]; lia.
Qed.
Lemma pairs_map n xs gs (F : list xr -> list xr -> list xr) : pairs_of n xs gs ->
  map (fun x => F (firstn n x) (skipn n x)) xs = map (fun g => F (fst g) (snd g)) gs.
Proof.
  intros [-> L]. rewrite map_map. apply map_ext_in. intros g Hg. rewrite Forall_forall in L. destruct (L g Hg) as [L1 _].
  destruct (firstn_exact (fst g) (snd g) n L1) as [-> ->]. reflexivity.
Qed.
Lemma app_inj_length {A} (a b c d : list A) : a ++ b = c ++ d -> length a = length c -> a = c /\ b = d.
Proof.
  revert c. induction a as [|x a IH]; intros [|y c] H L; try discriminate; [auto|]. injection H as -> H. injection L as L.
  destruct (IH c H L) as [-> ->]. auto.
Qed.
Lemma split_four k cs cp es ep : length cs = fst k -> length cp = snd k -> length es = fst k -> length ep = snd k ->
  split_s k (layout cs cp es ep) = (cs, es) /\ split_p k (layout cs cp es ep) = (cp, ep).
Proof.
  intros L1 L2 L3 L4. assert (F : SpecGreedy.fits k (layout cs cp es ep)) by (unfold SpecGreedy.fits, total, layout; rewrite !app_length; lia).
  destruct (four _ _ F) as (cs' & cp' & es' & ep' & E & M1 & M2 & M3 & M4 & S1 & S2). rewrite S1, S2. unfold layout in E. rewrite <- app_assoc in E.
  apply app_inj_length in E; [|lia]. destruct E as [<- E]. apply app_inj_length in E; [|lia]. destruct E as [<- E]. apply app_inj_length in E; [|lia]. destruct E as [<- <-]. auto.
Qed.
Lemma guesses_layout sy ch s cs cp es ep : let m := fst (gs_cfg s) in let n := snd (gs_cfg s) in let i := increase ch in
  length cs = m -> length cp = n -> length es = m -> length ep = n -> gs_params s = layout cs cp es ep -> rand_sized sy ->
  (exists gs, pairs_of (m + i) (next_params ch (gs_factor s) cs es) gs /\
     s_choices sy ch s = map (fun g => layout (fst g) cp (snd g) ep) gs) /\
  (n <> 0%nat -> exists gs, pairs_of (n + i) (next_params ch (gs_factor s) cp ep) gs /\
     p_choices sy ch s = map (fun g => layout cs (fst g) es (snd g)) gs) /\
  (n = 0%nat -> exists u0 v0 u1 v1 u2 v2,
     sy_rand sy (gs_t s) (2 * i) = u0 ++ v0 /\ sy_rand sy (S (gs_t s)) (2 * i) = u1 ++ v1 /\ sy_rand sy (S (S (gs_t s))) (2 * i) = u2 ++ v2 /\
     Forall (fun l => length l = i) [u0; v0; u1; v1; u2; v2] /\
     p_choices sy ch s = [layout cs u0 es v0; layout cs (moved_to 1 9 u1) es (moved_to 1 9 v1); layout cs (moved_to 10 90 u2) es (moved_to 10 90 v2)]).
Proof.
  intros m n i L1 L2 L3 L4 E R. destruct (split_four (gs_cfg s) cs cp es ep L1 L2 L3 L4) as [S1 S2].
  unfold s_choices, p_choices. rewrite E, S1, S2. cbn [fst snd]. fold m n i. split; [|split].
  - destruct (next_pairs_of ch (gs_factor s) cs es) as (gs & G); [congruence|]. rewrite L1 in G. fold i in G. exists gs. split; [exact G|].
    exact (pairs_map _ _ _ (fun a b => layout a cp b ep) G).
  - intros N. apply Nat.eqb_neq in N. rewrite N. destruct (next_pairs_of ch (gs_factor s) cp ep) as (gs & G); [congruence|]. rewrite L2 in G. fold i in G. exists gs. split; [exact G|].
    exact (pairs_map _ _ _ (fun a b => layout cs a es b) G).
  - intros N. rewrite N. cbn [Nat.eqb map Nat.add].
    exists (firstn i (sy_rand sy (gs_t s) (2 * i))), (skipn i (sy_rand sy (gs_t s) (2 * i))),
      (firstn i (sy_rand sy (S (gs_t s)) (2 * i))), (skipn i (sy_rand sy (S (gs_t s)) (2 * i))),
      (firstn i (sy_rand sy (S (S (gs_t s))) (2 * i))), (skipn i (sy_rand sy (S (S (gs_t s))) (2 * i))).
    rewrite !firstn_skipn. split; [reflexivity|]. split; [reflexivity|]. split; [reflexivity|]. split.
    + repeat constructor; rewrite ?firstn_length, ?skipn_length, ?R; lia.
    + rewrite !Nat.add_0_r, !Nat.add_1_r. replace (gs_t s + 2)%nat with (S (S (gs_t s))) by lia.
      rewrite !firstn_map, !skipn_map. reflexivity.
Qed.

(** Rejected orders. *)
Lemma tsallis_rejects alpha mask : ~ (0 <= alpha /\ 1 / 10 ^ 10 <= Rabs (alpha - 1)) -> tsallis_init alpha mask = Raise ValueError.
Proof.
  intros H. unfold tsallis_init, rltb. destruct (Rlt_dec alpha 0); [reflexivity|]. destruct (Rlt_dec _ _); [reflexivity|]. exfalso. apply H. split; lra.
Qed.
