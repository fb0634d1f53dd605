(** What the properties on constructed greedy objects and their optimizations say. *)
From Coq Require Import String Reals List ZArith Bool.
From Verif Require Import XR SpecDens SpecMeas SpecFit ModelDens ModelFit ModelGreedy SpecGreedy.
Import ListNotations.
Local Open Scope string_scope.
Local Open Scope R_scope.

(** The fit was obtained from a guess by an optimization with the local settings followed by one
    with the global settings, for the same numbers of functions (greedy.py:386-413, 551-563). *)
Definition refined (sy : strategy) (p : list xr) : Prop :=
  exists t t' k g lp, sy_opt sy t k g true = Ok lp /\ sy_opt sy t' k lp false = Ok p.

(** The limits let at least one iteration happen. *)
Definition some_limit (th : thresholds) : Prop :=
  xltb (th_d th) PInf = true /\ (xltb (th_c th) PInf = true \/ xltb (th_e th) PInf = true).

(** [c], [e] are given by the documented self-consistent equations (fit.py:203-216) evaluated at
    positive parameters; if those mask no point, the coefficients sum to [N]. *)
Definition updated_from (mask : R) (W f : list R) (N : R) (k : cfg) (rs c e : list R) : Prop :=
  let lays := lays_of k rs in
  exists c0 e0, length c0 = total k /\ length e0 = total k /\ positive c0 /\ positive e0 /\
    (forall j, (j < total k)%nat ->
       nth j c 0 = nth j c0 0 * avg1 mask W f true lays c0 e0 j / (quad W f / N)) /\
    (forall j, (j < total k)%nat ->
       nth j e 0 = half_power (Nat.leb (fst k) j) * avg1 mask W f true lays c0 e0 j / avg2 mask W f true lays c0 e0 j) /\
    (all_above mask f (values true lays c0 e0) -> rsum c = N).

(** The names of the ways to make guesses (greedy.py:290-301). *)
Definition named (s : string) (ch : choice) : Prop :=
  (s = "pick-one" /\ ch = PickOne) \/ (s = "pick-two" /\ ch = PickTwo) \/ (s = "pick-two-lose-one" /\ ch = PickTwoLoseOne).

(** The density of the fit at radius [r], for parameters [c], [e]. *)
Definition fitted (k : cfg) (c e : list R) (r : R) : R :=
  gsum true (lay_atom (fst k) (snd k) r) c e.
