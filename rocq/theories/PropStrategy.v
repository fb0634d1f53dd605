(** Properties C86, C87 and C93: constructors, optimization routines and results of the two greedy
    classes (greedy.py:653-968). *)
From Coquelicot Require Import Coquelicot.
From Coq Require Import String Reals List ZArith Lia Lra Bool.
From Verif Require Import XR SpecDens SpecMeas SpecGrid SpecFit SpecStop ModelDens ModelMeas ModelGrid ModelFit ModelGreedy SpecGreedy SpecSettings Lists
  ProofFPI ProofFPI4 ProofFit ProofNorm ProofFitEx ProofGreedy5 ProofGreedy6 ProofGreedy8 ProofGreedy9 ProofGreedyEx ProofGreedyEx2 ProofErr5 ProofErr6 ProofErr7 SpecLs ProofLs.
Import ListNotations.
Local Open Scope R_scope.

(** ** C86 *)
(** When GreedyKLFPI is constructed, and with what. *)
Theorem C86_built : forall ga f chs g l lm gm mask n0 sph gk ch,
  greedy_kl_init ga f chs g l lm gm mask n0 sph = Ok (gk, ch) <->
  (exists pts a, ga_points ga = Some pts /\ atomic_init (VArr pts) VNone (VInt 1) (VInt 0) true = Ok a /\
     fpi_init ga f (GAtom a) mask n0 sph = Ok (kl_fpi gk)) /\
  named chs ch /\ kl_local gk = l /\ kl_global gk = g /\ kl_lmaxiter gk = lm /\ kl_gmaxiter gk = gm.
Proof. exact kl_built. Qed.
Print Assumptions C86_built.

Theorem C86_rejects : forall ga f chs g l lm gm mask n0 sph,
  let out := greedy_kl_init ga f chs g l lm gm mask n0 sph in
  (ga_points ga = None -> out = Raise AttributeError) /\
  (forall pts, ga_points ga = Some pts ->
     (forall x, atomic_init (VArr pts) VNone (VInt 1) (VInt 0) true = Raise x -> out = Raise x) /\
     forall a, atomic_init (VArr pts) VNone (VInt 1) (VInt 0) true = Ok a ->
       (forall x, fpi_init ga f (GAtom a) mask n0 sph = Raise x -> out = Raise x) /\
       ((exists fp, fpi_init ga f (GAtom a) mask n0 sph = Ok fp) -> (forall ch, ~ named chs ch) -> out = Raise ValueError)).
Proof. exact kl_rejects. Qed.
Print Assumptions C86_rejects.

(** An optimization is the fixed point iteration from the given parameters, under the local or the global settings. *)
Theorem C86_routine : forall gk t k p b q, kl_opt gk t k p b = Ok q ->
  let limit := if b then kl_lmaxiter gk else kl_gmaxiter gk in
  let th := if b then kl_local gk else kl_global gk in
  let c0 := firstn (length p / 2) p in let e0 := skipn (length p / 2) p in
  exists ft n c e, at_cfg (fp_fit (kl_fpi gk)) k = Ok ft /\
    let f := mkFpi ft (fp_lm (kl_fpi gk)) in
    iterate f true true n c0 e0 = Ok (c, e) /\ q = c ++ e /\ (Z.of_nat n <= Z.max limit 0)%Z /\
    (forall j, (j < n)%nat -> exists dc de dd, moved f true true c0 e0 j dc de dd /\ unfinished th dc de dd) /\
    ((Z.of_nat n < limit)%Z -> exists dc de dd, moved f true true c0 e0 n dc de dd /\ ~ unfinished th dc de dd).
Proof. exact kl_routine. Qed.
Print Assumptions C86_routine.

(** Every accepted fit after the first comes from a guess by a local and then a global optimization. *)
Theorem C86_origin : forall sy ch ob factor d mx extra fuel r ob',
  greedy_run sy ch ob factor d mx extra fuel = Some (Ok (r, ob')) ->
  exists p0 ps, gr_params r = p0 :: ps /\ sy_start sy (ob_cfg ob) = Ok p0 /\ Forall (refined sy) ps.
Proof. exact run_origin. Qed.
Print Assumptions C86_origin.

(** A first GreedyKLFPI run returns the one-function start, which holds [N] electrons, or the
    documented self-consistent equations at positive parameters; its density integrates over
    space to the sum of its coefficients, [N] if those parameters masked no point. *)
Theorem C86_result : forall gk sph w f rs mask N, kl_setting gk sph w f rs mask N ->
  nonneg w -> positive f -> off_origin w rs ->
  forall rand ch F d mx extra fuel err r ob',
  rand_pos (kl_strategy gk rand) -> 0 < F -> (1 <= kl_gmaxiter gk)%Z -> some_limit (kl_global gk) ->
  greedy_run (kl_strategy gk rand) ch (mkObject (1, 0)%nat err) (VFloat (Fin F)) d mx extra fuel = Some (Ok (r, ob')) ->
  exists c e, gr_coeffs r = map Fin c /\ gr_exps r = map Fin e /\
    length c = total (gr_cfg r) /\ length e = total (gr_cfg r) /\ positive c /\ positive e /\
    is_RInt_gen (fun x => 4 * PI * x ^ 2 * fitted (gr_cfg r) c e x) (at_point 0) (Rbar_locally p_infty) (rsum c) /\
    ((gr_cfg r = (1, 0)%nat /\ rsum c = N /\ gr_params r = [map Fin c ++ map Fin e]) \/
     updated_from mask (fit_weights sph w rs) f N (gr_cfg r) rs c e).
Proof. exact kl_result_integral. Qed.
Print Assumptions C86_result.

(** One global optimization of two s-type functions on a grid of one point: 1 and 3 for a total of 1. *)
Definition limit_kl : greedy_kl := mkKL (kl_fpi kl_one_pt) no_th no_th 0 1.
Lemma limit_init : greedy_kl_init (sum_arg [one_r]) (map Fin [1]) "pick-one"%string no_th no_th 0 1 (Fin nan_mask) (Some (Fin 1)) false = Ok (limit_kl, PickOne).
Proof.
  destruct one_pt_setting as [(I & n0 & chs & ch & g & l & lm & gm & _) _ _ _ _].
  apply kl_built. split; [|split; [left; auto|repeat split]].
  pose proof (sum_kl_init false [1] [one_r] 1 eq_refl) as E. apply kl_built in E.
  - exact (proj1 E).
  - repeat constructor; lra.
  - lra.
  - unfold rdot, rsum. cbn. lra.
Qed.
Lemma limit_setting : kl_setting limit_kl false [1] [1] [one_r] nan_mask 1.
Proof.
  constructor; auto; try lra; [|apply mask_nonneg].
  exists sum_I, (Some (Fin 1)), "pick-one"%string, PickOne, no_th, no_th, 0%Z, 1%Z. split; [exact (sum_spec 1)|]. split; [exact limit_init|reflexivity].
Qed.
Example C86_example :
  kl_setting limit_kl false [1] [1] [one_r] nan_mask 1 /\ nonneg [1] /\ positive [1] /\ off_origin [1] [one_r] /\
  rand_pos (kl_strategy limit_kl ones_rand) /\ (1 <= kl_gmaxiter limit_kl)%Z /\ some_limit (kl_global limit_kl) /\
  (exists q, kl_opt limit_kl 0 (2, 0)%nat (map Fin [1; 3] ++ map Fin [1; 2]) false = Ok q /\ length q = 4%nat) /\
  (forall ch, ~ named "pick-three"%string ch).
Proof.
  split; [exact limit_setting|]. split; [repeat constructor; lra|]. split; [exact one_pos1|]. split; [exact one_off|].
  split; [now apply ones_rand_pos|]. split; [cbn; lia|]. split; [repeat split; left; reflexivity|]. split.
  - destruct (kl_opt_pos limit_kl false [1] [1] [one_r] nan_mask 1 limit_setting) with (t := 0%nat) (k := (2, 0)%nat) (p := map Fin [1; 3] ++ map Fin [1; 2]) (b := false)
      as (q & A & (c & e & -> & Lc & Le & _)); auto; try (repeat constructor; lra).
    + exact one_off.
    + exists [1; 3], [1; 2]. repeat split; repeat constructor; lra.
    + exists (map Fin c ++ map Fin e). split; auto. rewrite app_length, !map_length, Lc, Le. reflexivity.
  - intros ch [[E _]|[[E _]|[E _]]]; discriminate.
Qed.

(** ** C87 *)
Theorem C87_built : forall ga f chs lt gt method norm n0 wc lm gm sph gl ch,
  greedy_ls_init ga f chs lt gt method norm n0 wc lm gm sph = Ok (gl, ch) <->
  (exists pts a, ga_points ga = Some pts /\ atomic_init (VArr pts) VNone (VInt 1) (VInt 0) norm = Ok a /\
     scipy_init ga f (GAtom a) (MInst MSq) method None n0 sph (Fin (1 / 10 ^ 18)) = Ok (ls_scipy gl)) /\
  named chs ch /\ ls_local_tol gl = lt /\ ls_global_tol gl = gt /\ ls_lmaxiter gl = lm /\ ls_gmaxiter gl = gm /\ ls_constraint gl = wc.
Proof. exact ls_built. Qed.
Print Assumptions C87_built.

Theorem C87_rejects : forall ga f chs lt gt method norm n0 wc lm gm sph,
  let out := greedy_ls_init ga f chs lt gt method norm n0 wc lm gm sph in
  (ga_points ga = None -> out = Raise AttributeError) /\
  (forall pts, ga_points ga = Some pts ->
     (forall x, atomic_init (VArr pts) VNone (VInt 1) (VInt 0) norm = Raise x -> out = Raise x) /\
     forall a, atomic_init (VArr pts) VNone (VInt 1) (VInt 0) norm = Ok a ->
       (forall x, scipy_init ga f (GAtom a) (MInst MSq) method None n0 sph (Fin (1 / 10 ^ 18)) = Raise x -> out = Raise x) /\
       ((exists s, scipy_init ga f (GAtom a) (MInst MSq) method None n0 sph (Fin (1 / 10 ^ 18)) = Ok s) ->
        (forall ch, ~ named chs ch) -> out = Raise ValueError)).
Proof. exact ls_rejects. Qed.
Print Assumptions C87_rejects.

(** An optimization: coefficients by non-negative least squares at the given exponents, then the
    minimizer on coefficients and exponents, under the local or the global settings. *)
Theorem C87_routine : forall gl nnls minimize t k p b q, ls_opt gl nnls minimize t k p b = Ok q ->
  let e0 := skipn (length p / 2) p in
  exists rs m c0 ft pb o,
    gr_points (ft_grid (sc_fit (ls_scipy gl))) = A1 rs /\ cofactor_matrix (A1 rs) k e0 = Ok m /\
    nnls t m (ft_density (sc_fit (ls_scipy gl))) = Ok c0 /\
    at_cfg (sc_fit (ls_scipy gl)) k = Ok ft /\
    let s := mkScipy ft (sc_slsqp (ls_scipy gl)) (sc_weights (ls_scipy gl)) in
    pb_x0 pb = c0 ++ e0 /\
    (forall x, pb_fun pb x = scipy_func s x SBoth) /\
    pb_maxiter pb = (if b then ls_lmaxiter gl else ls_gmaxiter gl) /\
    pb_tol pb = (if b then ls_local_tol gl else ls_global_tol gl) /\
    pb_lower pb = repeat (1 / 10 ^ 12) (2 * Z.to_nat (g_nbasis (ft_model ft))) /\
    pb_cons pb = (if ls_constraint gl then [fun x => const_norm s x SBoth] else []) /\
    minimize t pb = Ok o /\ q = o_x o.
Proof. exact ls_routine. Qed.
Print Assumptions C87_routine.

Example C87_example :
  greedy_ls_init (sum_arg [0; 1]) (map Fin gauss2) "pick-one"%string (Fin 1) (Fin 1) "slsqp"%string true (Some (Fin 1)) false 5 5 false =
    Ok (sum_ls gauss2 [0; 1] true, PickOne) /\
  (exists q, ls_opt (sum_ls gauss2 [0; 1] false) no_nnls two_minimize 0 (2, 0)%nat (map Fin [1; 1] ++ map Fin [1; 2]) true = Ok q).
Proof.
  split; [apply sum_ls_init; [reflexivity|apply positive_nonneg, gauss2_pos]|].
  exists ls_two. apply ls_two_opt. auto.
Qed.

(** ** C93 *)
(** Both classes fit densities on radial grids (the least squares class needs a density that falls
    outwards, see C78).  Missing: cubic grids. *)
Theorem C93_kl_radial_partial : forall rs f, strictly_ascending rs -> nonneg rs -> (2 <= length rs)%nat ->
  length rs = length f -> positive f -> forall gt lt li gi mask sph, 0 <= mask ->
  exists gk, greedy_kl_init (mkGridArg (Some (A1 (map Fin rs))) (Some (fun y => radial_integrate (map Fin rs) (A1 y))))
               (map Fin f) "pick-one" gt lt li gi (Fin mask) None sph = Ok (gk, PickOne) /\
  forall rand ch F d mx extra fuel err, rand_pos (kl_strategy gk rand) -> 0 < F -> d <> NaN ->
  (forall g p, extra = Some g -> exists x, g p = Ok x) -> (5 * (mx - 1) <= Z.of_nat fuel)%Z ->
  let out := greedy_run (kl_strategy gk rand) ch (mkObject (1, 0)%nat err) (VFloat (Fin F)) d mx extra fuel in
  (exists r ob' c e x, out = Some (Ok (r, ob')) /\ gr_coeffs r = map Fin c /\ gr_exps r = map Fin e /\
     length c = total (gr_cfg r) /\ length e = total (gr_cfg r) /\ positive c /\ positive e /\ gr_fun r = Fin x) \/
  (out = Some (Raise TypeError) /\
   exists k p x, fits_pos k p /\ sy_obj (kl_strategy gk rand) k p = Ok (Fin x) /\ 10 ^ 10 <= x).
Proof. exact kl_radial. Qed.
Print Assumptions C93_kl_radial_partial.

Theorem C93_ls_radial_partial : forall rs f, strictly_ascending rs -> nonneg rs -> (2 <= length rs)%nat ->
  length rs = length f -> positive f -> forall lt gt norm n0 wc li gi sph, strictly_ascending (rev f) ->
  exists gl, greedy_ls_init (mkGridArg (Some (A1 (map Fin rs))) (Some (fun y => radial_integrate (map Fin rs) (A1 y))))
               (map Fin f) "pick-one" lt gt "slsqp" norm n0 wc li gi sph = Ok (gl, PickOne) /\
  forall nnls minimize rand ch F d mx extra fuel err, nnls_returns nnls -> minimize_returns minimize ->
  rand_pos (ls_strategy gl nnls minimize rand) -> 0 < F -> d <> NaN ->
  (forall g p, extra = Some g -> exists x, g p = Ok x) -> (5 * (mx - 1) <= Z.of_nat fuel)%Z ->
  let out := greedy_run (ls_strategy gl nnls minimize rand) ch (mkObject (1, 0)%nat err) (VFloat (Fin F)) d mx extra fuel in
  (exists r ob' c e x, out = Some (Ok (r, ob')) /\ gr_coeffs r = map Fin c /\ gr_exps r = map Fin e /\
     length c = total (gr_cfg r) /\ length e = total (gr_cfg r) /\ positive c /\ positive e /\ gr_fun r = Fin x) \/
  (out = Some (Raise TypeError) /\
   exists k p x, fits_pos k p /\ sy_obj (ls_strategy gl nnls minimize rand) k p = Ok (Fin x) /\ 10 ^ 10 <= x).
Proof. exact ls_radial. Qed.
Print Assumptions C93_ls_radial_partial.

(** On a cubic grid with a positive density the objects are built, but no run gets past the first
    function: the points are used as if they were distances. *)
Theorem C93_kl_cubic_refuted : forall o axes (n0 n1 n2 : nat) g f,
  cubic_init o axes (Z.of_nat n0) (Z.of_nat n1) (Z.of_nat n2) = Ok g -> det3 axes <> 0 ->
  positive f -> length f = (n0 * n1 * n2)%nat -> f <> [] -> forall gt lt li gi mask,
  exists gk, greedy_kl_init (mkGridArg (Some (gr_points (cubic_grid g))) (Some (gr_integrate (cubic_grid g))))
               (map Fin f) "pick-one" gt lt li gi mask None false = Ok (gk, PickOne) /\
  forall rand ch ob F d mx extra fuel, 0 < F ->
  greedy_run (kl_strategy gk rand) ch ob (VFloat (Fin F)) d mx extra fuel = Some (Raise ValueError).
Proof. exact kl_cubic. Qed.
Print Assumptions C93_kl_cubic_refuted.

(** Grids of one or three points are not covered: there the shapes happen to fit. *)
Theorem C93_ls_cubic_refuted : forall o axes (n0 n1 n2 : nat) g f,
  cubic_init o axes (Z.of_nat n0) (Z.of_nat n1) (Z.of_nat n2) = Ok g ->
  positive f -> length f = (n0 * n1 * n2)%nat -> forall lt gt norm n wc li gi,
  exists gl, greedy_ls_init (mkGridArg (Some (gr_points (cubic_grid g))) (Some (gr_integrate (cubic_grid g))))
               (map Fin f) "pick-one" lt gt "slsqp" norm (Some n) wc li gi false = Ok (gl, PickOne) /\
  forall nnls minimize rand, length f <> 1%nat -> length f <> 3%nat ->
  forall ch ob F d mx extra fuel, 0 < F ->
  greedy_run (ls_strategy gl nnls minimize rand) ch ob (VFloat (Fin F)) d mx extra fuel = Some (Raise ValueError).
Proof. exact ls_cubic. Qed.
Print Assumptions C93_ls_cubic_refuted.

(** Whatever the number of points, no second function is found. *)
Theorem C93_ls_extend_refuted : forall ga dens chs lt gt method norm n wc li gi sph gl ch c rows,
  greedy_ls_init ga dens chs lt gt method norm n wc li gi sph = Ok (gl, ch) -> ga_points ga = Some (A2 c rows) ->
  forall nnls minimize rand t k p local, sy_opt (ls_strategy gl nnls minimize rand) t k p local = Raise ValueError.
Proof.
  intros until 2. intros nnls minimize rand. exact (proj2 (ls_init_space _ _ _ _ _ _ _ _ _ _ _ _ _ _ _ _ H H0 nnls minimize rand)).
Qed.
Print Assumptions C93_ls_extend_refuted.

(** Which point arrays the first function of least squares accepts. *)
Theorem C93_ls_shapes : forall c rows dens w, length dens = length rows -> length w = length rows ->
  ((exists p, solve_one_nd c rows dens w = Ok p) <-> length rows = c \/ length rows = 1%nat \/ c = 1%nat) /\
  (~ (length rows = c \/ length rows = 1%nat \/ c = 1%nat) -> solve_one_nd c rows dens w = Raise ValueError).
Proof. exact solve_nd_iff. Qed.
Print Assumptions C93_ls_shapes.

(** What it computes from them: the sums pair the weight and the density of point [j] with coordinate [j] of every point. *)
Theorem C93_ls_solution : forall n d m rows f w, places n d m -> length rows = n -> Forall (fun r => length r = d) rows ->
  length f = n -> length w = n -> positive f ->
  let a := sum_w w in let b := sum_wx2 n m rows w in let c := sum_wl w f in let e := sum_wx4 n m rows w in
  let g := sum_wx2l n m rows w f in
  b * b <> a * e ->
  solve_one_nd d (map (map Fin) rows) (map Fin f) (map Fin w) = Ok (map Fin (start_of a b c e g)).
Proof. exact solve_nd_fin. Qed.
Print Assumptions C93_ls_solution.

(** Hence not the fit: at these three points the density is exp(-r^2), the exponent found is -1/2. *)
Theorem C93_ls_exact_refuted :
  three_dens = map (fun p => exp (- (nth 0 p 0 ^ 2 + nth 1 p 0 ^ 2 + nth 2 p 0 ^ 2))) three_points /\
  solve_one_nd 3 (map (map Fin) three_points) (map Fin three_dens) (map Fin [1; 1; 1]) = Ok (map Fin [exp (-3); -1/2]).
Proof.
  split; [|exact three_solution]. unfold three_dens, three_points. cbn [map nth]. repeat f_equal; lra.
Qed.
Print Assumptions C93_ls_exact_refuted.

(** The start is the solution with the smallest objective for the weights one, density and density squared. *)
Theorem C93_ls_best : forall gl k d rows f p,
  let ft := sc_fit (ls_scipy gl) in
  gr_points (ft_grid ft) = A2 d rows -> ft_density ft = map Fin f -> length f = length rows ->
  ls_start gl k = Ok p ->
  exists w v, In w [repeat 1 (length f); f; map (fun x => x ^ 2) f] /\
    solve_one_nd d rows (map Fin f) (map Fin w) = Ok p /\ obj_at ft k p = Ok v /\
    forall w', In w' [repeat 1 (length f); f; map (fun x => x ^ 2) f] ->
      exists p' v', solve_one_nd d rows (map Fin f) (map Fin w') = Ok p' /\ obj_at ft k p' = Ok v' /\ xltb v' v = false.
Proof. exact ls_start_space. Qed.
Print Assumptions C93_ls_best.

Example C93_ls_example : let w := [1; 1; 1] in
  places 3 3 3 /\ Forall (fun r => length r = 3%nat) three_points /\ positive three_dens /\
  sum_wx2 3 3 three_points w * sum_wx2 3 3 three_points w <> sum_w w * sum_wx4 3 3 three_points w.
Proof.
  cbv zeta. split; [left; auto|]. split; [repeat constructor|]. split; [repeat constructor; apply exp_pos|].
  unfold sum_w, sum_wx2, sum_wx4, double_sum, three_points, rsum, entry. cbn [seq map nth fold_right]. lra.
Qed.

(** Three radial points; the eight corners of a cube; three points in space. *)
Example C93_example :
  (strictly_ascending [0; 1; 2] /\ nonneg [0; 1; 2] /\ positive [3; 2; 1] /\ strictly_ascending (rev [3; 2; 1])) /\
  (exists g, cubic_init (0, 0, 0) ((1, 0, 0), (0, 1, 0), (0, 0, 1)) 2 2 2 = Ok g /\ det3 ((1, 0, 0), (0, 1, 0), (0, 0, 1)) <> 0 /\
     positive (repeat 1 8) /\ length (repeat 1 8) = 8%nat) /\
  (exists p, solve_one_nd 3 [[Fin 0; Fin 0; Fin 1]; [Fin 0; Fin 1; Fin 0]; [Fin 2; Fin 0; Fin 0]] (map Fin [1; 2; 3]) (map Fin [1; 1; 1]) = Ok p).
Proof.
  split; [|split].
  - split; [repeat constructor; lra|]. split; [repeat constructor; lra|]. split; [repeat constructor; lra|]. cbn. repeat constructor; lra.
  - eexists. split; [reflexivity|]. split; [cbn; lra|]. split; [repeat constructor; lra|reflexivity].
  - apply solve_nd_iff; auto.
Qed.
