(** Property C112: the class TsallisDivergence of /repo/bfit/measure.py with any order, also NaN and infinity. *)
From Coq Require Import Reals List ZArith Bool Lia Lra.
From Verif Require Import XR SpecMeas ModelMeas ModelMeas2 SpecMeas2 Lists ProofMeas ProofMeas2.
Import ListNotations.
Local Open Scope R_scope.

(** The constructor accepts NaN and infinity besides the orders of C17; everything else is a ValueError. *)
Theorem C112_accepts : forall alpha mask,
  (tsallis_new alpha mask = Ok (alpha, mask) <->
    alpha = NaN \/ alpha = PInf \/ exists a, alpha = Fin a /\ 0 <= a /\ 1 / 10 ^ 10 <= Rabs (a - 1)) /\
  (tsallis_new alpha mask <> Ok (alpha, mask) -> tsallis_new alpha mask = Raise ValueError).
Proof. exact new_iff. Qed.
Print Assumptions C112_accepts.

(** With a finite order the object computes what C17-C19 and C71 are about. *)
Theorem C112_finite : forall a mask d m b, tsallis_evaluate (Fin a, mask) d m b = measure_evaluate (MTs a mask) d m b.
Proof. exact evaluate_finite. Qed.
Print Assumptions C112_finite.

(** Order infinity: no value differs from 0 and NaN. *)
Theorem C112_infinite : forall mask f g b, 0 <= mask -> length f = length g ->
  exists v q, tsallis_evaluate (PInf, Fin mask) (VArr (A1 (map Fin f))) (VArr (A1 (map Fin g))) (VBool b) = Ok (v, if b then Some q else None) /\
    length v = length f /\ length q = length f /\
    forall i, (i < length f)%nat -> inf_value mask (nth i f 0) (nth i g 0) (nth i v NaN) /\ inf_deriv mask (nth i f 0) (nth i g 0) (nth i q NaN).
Proof. exact infinite_order. Qed.
Print Assumptions C112_infinite.

(** Order NaN: every value is NaN, for any density and model. *)
Theorem C112_nan : forall mask f g b, length f = length g ->
  exists q, tsallis_evaluate (NaN, mask) (VArr (A1 f)) (VArr (A1 g)) (VBool b) = Ok (repeat NaN (length f), if b then Some q else None) /\
    length q = length f /\
    forall m i, mask = Fin m -> 0 <= m -> forall u v, nth_error f i = Some (Fin u) -> nth_error g i = Some (Fin v) -> nan_deriv m u v (nth i q PInf).
Proof. exact nan_order. Qed.
Print Assumptions C112_nan.

(** Density (3, 1, 2), model (2, 2, 2), mask 0: kept everywhere; above, below and on the model. *)
Example C112_example : (forall i, (i < 3)%nat -> kept 0 (nth i [3; 1; 2] 0) (nth i [2; 2; 2] 0)) /\
  (Rabs 2 < Rabs 3 /\ Rabs 1 < Rabs 2 /\ Rabs 2 = Rabs 2) /\
  tsallis_new PInf (Fin 0) = Ok (PInf, Fin 0) /\ tsallis_new NInf (Fin 0) = Raise ValueError.
Proof.
  assert (T : / 2 ^ 1022 <= / 2 ^ 4) by (apply Rinv_le_contravar; [apply pow_lt; lra|apply Rle_pow; [lra|lia]]).
  assert (P : 0 < / 2 ^ 1022) by (apply Rinv_0_lt_compat, pow_lt; lra). replace (2 ^ 4) with 16 in T by ring.
  split; [|split; [rewrite !Rabs_pos_eq by lra; lra|split; reflexivity]].
  intros [|[|[|i]]] H; cbn [nth]; [| | |lia]; (split; [lra|rewrite !Rabs_pos_eq by lra; lra]).
Qed.
