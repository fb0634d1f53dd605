(** Properties C107 and C108: points of the Clenshaw grid (grid.py:122-254), guesses of a greedy pass (greedy.py:522-549). *)
From Coq Require Import Reals List ZArith Lia Lra Permutation.
From Verif Require Import XR SpecDens SpecGrid SpecGreedy SpecPts ModelGrid ModelFit ModelGreedy ProofGreedy3 ProofMore.
Import ListNotations.
Local Open Scope R_scope.

(** ** C107 *)
(** With [m] core and [n] diffuse points the angles are [PI p / 2m] and [PI p / 2n]. *)
Theorem C107_points : forall z nc nd inc extra, (0 < z)%Z -> (0 <= nc)%Z -> (0 <= nd)%Z ->
  exists pts, clenshaw_init (VInt z) (VInt nc) (VInt nd) (EList (map Fin extra)) (VBool inc) = Ok (map Fin pts) /\
    ascending pts /\
    Permutation pts (map (core_point (IZR z) (2 * IZR nc)) (seq (if inc then 0 else 1) (Z.to_nat nc)) ++
                     map (diffuse_point (2 * IZR nd)) (seq 1 (Z.to_nat nd)) ++ extra).
Proof. exact clenshaw_formula. Qed.
Print Assumptions C107_points.

(** The documented formulas, angles [PI p / 400] for p = 0, ..., m - 1 and [PI p / 600] for p = 1, ..., n - 1, are met
    for 200 core and 300 diffuse points, apart from one more point at 25.  Missing: other numbers, see the next theorem. *)
Theorem C107_documented_partial : forall z extra, (0 < z)%Z ->
  exists pts, clenshaw_init (VInt z) (VInt 200) (VInt 300) (EList (map Fin extra)) (VBool true) = Ok (map Fin pts) /\
    Permutation pts (map (core_point (IZR z) 400) (seq 0 200) ++ map (diffuse_point 600) (seq 1 299) ++ [25] ++ extra).
Proof. exact clenshaw_documented. Qed.
Print Assumptions C107_documented_partial.

(** With two core points of hydrogen the documented point p = 1 is not among them, nor is the one of the formula of [_get_points] (grid.py:199-212). *)
Theorem C107_documented_refuted : exists pts,
  clenshaw_init (VInt 1) (VInt 2) (VInt 0) (EList (map Fin [])) (VBool true) = Ok (map Fin pts) /\
  ~ In (core_point 1 400 1) pts /\ ~ In (diffuse_point 400 1) pts.
Proof. exact clenshaw_undocumented. Qed.
Print Assumptions C107_documented_refuted.

(** The last diffuse point is at 25, for every number of them. *)
Theorem C107_last : forall n, (0 < n)%nat -> diffuse_point (2 * INR n) n = 25.
Proof. exact diffuse_last. Qed.
Print Assumptions C107_last.

Example C107_example : (0 < 4)%Z /\ (0 <= 3)%Z /\ (0 <= 2)%Z /\ core_point 4 (2 * 3) 3 = 1 / 8 /\ diffuse_point (2 * 2) 2 = 25.
Proof.
  split; [lia|]. split; [lia|]. split; [lia|]. unfold core_point, diffuse_point. cbn [INR].
  replace (PI * (1 + 1 + 1) / (2 * 3)) with (PI / 2) by field. replace (PI * (1 + 1) / (2 * 2)) with (PI / 2) by field. rewrite cos_PI2. split; lra.
Qed.

(** ** C108 *)
(** The new functions are s-type or p-type only: the parameters of the other type are kept; without p-type functions
    three random guesses are made, in [0, 1), [1, 10) and [10, 100) for draws from [0, 1). *)
Theorem C108_guesses : forall sy ch s cs cp es ep,
  let m := fst (gs_cfg s) in let n := snd (gs_cfg s) in let i := increase ch in
  length cs = m -> length cp = n -> length es = m -> length ep = n -> gs_params s = layout cs cp es ep -> rand_sized sy ->
  (exists gs, pairs_of (m + i) (next_params ch (gs_factor s) cs es) gs /\
     s_choices sy ch s = map (fun g => layout (fst g) cp (snd g) ep) gs) /\
  (n <> 0%nat -> exists gs, pairs_of (n + i) (next_params ch (gs_factor s) cp ep) gs /\
     p_choices sy ch s = map (fun g => layout cs (fst g) es (snd g)) gs) /\
  (n = 0%nat -> exists u0 v0 u1 v1 u2 v2,
     sy_rand sy (gs_t s) (2 * i) = u0 ++ v0 /\ sy_rand sy (S (gs_t s)) (2 * i) = u1 ++ v1 /\ sy_rand sy (S (S (gs_t s))) (2 * i) = u2 ++ v2 /\
     Forall (fun l => length l = i) [u0; v0; u1; v1; u2; v2] /\
     p_choices sy ch s = [layout cs u0 es v0; layout cs (moved_to 1 9 u1) es (moved_to 1 9 v1); layout cs (moved_to 10 90 u2) es (moved_to 10 90 v2)]).
Proof. exact guesses_layout. Qed.
Print Assumptions C108_guesses.

(** Two s-type functions and one p-type function: the parts are found. *)
Example C108_example : forall k, k = (2, 1)%nat -> let p := layout [Fin 1; Fin 2] [Fin 3] [Fin 4; Fin 5] [Fin 6] in
  split_s k p = ([Fin 1; Fin 2], [Fin 4; Fin 5]) /\ split_p k p = ([Fin 3], [Fin 6]).
Proof. intros k ->. now apply split_four. Qed.
