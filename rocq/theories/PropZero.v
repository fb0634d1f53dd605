(** Fits of densities that vanish at some grid points (C96). *)
From Coquelicot Require Import Coquelicot.
From Coq Require Import Reals List ZArith Lia Lra Bool.
From Verif Require Import XR SpecDens SpecMeas SpecGrid ModelDens ModelMeas ModelGrid ModelFit SpecFit ProofFitEx SpecZero ProofZero.
Import ListNotations.
Local Open Scope R_scope.

(** A radial grid of at least two points, with or without the factor [4 pi r^2], and a cubic grid hand a NaN
    value of the integrand on to the integral. *)
Theorem C96_grids : forall ft,
  (forall pts, ft_grid ft = radial_grid pts -> (2 <= length pts)%nat -> nan_passes ft (length pts)) /\
  (forall o axes (n0 n1 n2 : nat) g, cubic_init o axes (Z.of_nat n0) (Z.of_nat n1) (Z.of_nat n2) = Ok g ->
     ft_grid ft = cubic_grid g -> ft_spherical ft = false -> nan_passes ft (n0 * n1 * n2)).
Proof. intros ft. split; [exact (radial_passes ft)|intros o axes n0 n1 n2 g; exact (cubic_passes ft o axes n0 n1 n2 g)]. Qed.
Print Assumptions C96_grids.

(** Every run from positive parameters returns positive parameters, also for a density with zeros.  The entry of
    [fun] for an update is NaN if at the new parameters the model exceeds the mask value at a zero of the
    density, and a number otherwise. *)
Theorem C96_run : forall fp W f norm lays mask N c e oc oe maxiter th,
  fpi_setting fp W f norm lays mask N -> 0 < N -> nonneg W -> nan_passes (fp_fit fp) (length W) ->
  supported W f lays (nfun lays) -> oc || oe = true ->
  sized lays c e -> positive c -> positive e ->
  exists r c' e',
    fpi_run fp (VArr (A1 (map Fin c))) (VArr (A1 (map Fin e))) oc oe maxiter th = Ok r /\
    r_coeffs r = map Fin c' /\ r_exps r = map Fin e' /\ sized lays c' e' /\ positive c' /\ positive e' /\
    forall j, (j < length (r_fun r))%nat -> exists cj ej,
      iterate fp oc oe (S j) (map Fin c) (map Fin e) = Ok (map Fin cj, map Fin ej) /\
      ((exists i, bare_zero mask f (values norm lays cj ej) i) -> nth j (r_fun r) PInf = NaN) /\
      ((forall i, ~ bare_zero mask f (values norm lays cj ej) i) -> exists x, nth j (r_fun r) PInf = Fin x).
Proof. exact run_zero. Qed.
Print Assumptions C96_run.

(** A NaN entry ends the run: no update follows, except that a second one may follow the first, and after two or
    more updates the result is reported as a failure.  For all arguments of [run]. *)
Theorem C96_nan_stops : forall f c0 e0 oc oe maxiter th r j, fpi_run f c0 e0 oc oe maxiter th = Ok r ->
  (j < length (r_fun r))%nat -> nth j (r_fun r) NaN = NaN ->
  (length (r_fun r) <= Nat.max 2 (S j))%nat /\ ((2 <= length (r_fun r))%nat -> r_success r = false).
Proof. exact nan_stops. Qed.
Print Assumptions C96_nan_stops.

(** So with the default mask value 0 and an s-type function in the model, a density that is zero at one grid
    point is never fitted: the run ends after at most two updates with only NaN in [fun]. *)
Theorem C96_default : forall fp W f norm lays N c e oc oe maxiter th i k,
  fpi_setting fp W f norm lays 0 N -> 0 < N -> nonneg W -> nan_passes (fp_fit fp) (length W) ->
  supported W f lays (nfun lays) -> oc || oe = true -> sized lays c e -> positive c -> positive e ->
  (i < length f)%nat -> nth i f 0 = 0 -> (k < nfun lays)%nat -> kind (nth i lays []) k = false ->
  exists r, fpi_run fp (VArr (A1 (map Fin c))) (VArr (A1 (map Fin e))) oc oe maxiter th = Ok r /\
    (length (r_fun r) <= 2)%nat /\ Forall (fun x => x = NaN) (r_fun r) /\
    ((2 <= length (r_fun r))%nat -> r_success r = false).
Proof. exact zero_default. Qed.
Print Assumptions C96_default.

(** Density 1, 0 on the radial grid 1/2, 1, two s-type functions, mask value 0: all hypotheses hold, and a run with
    500 iterations allowed makes two. *)
Example C96_example :
  fpi_setting zero_fpi two_W [1; 0] true two_lays 0 (1/4) /\ nan_passes zero_fit (length two_W) /\
  supported two_W [1; 0] two_lays (nfun two_lays) /\
  bare_zero 0 [1; 0] (values true two_lays [1/3; 2/3] [PI; PI]) 1 /\
  exists r, fpi_run zero_fpi (VArr (A1 (map Fin [1/3; 2/3]))) (VArr (A1 (map Fin [PI; PI]))) true true 500 default_thr = Ok r /\
    r_fun r = [NaN; NaN] /\ r_success r = false.
Proof.
  split; [apply zero_setting|]. split; [apply zero_passes|]. split; [apply zero_supported|]. split; [|apply zero_run].
  split; [cbn; lia|]. split; [reflexivity|]. rewrite two_value by lia.
  pose proof (two_large PI 1 ltac:(now left) ltac:(lia)). pose proof (exp_pos (- (4))). lra.
Qed.
