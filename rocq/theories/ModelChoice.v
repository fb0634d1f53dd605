(** Model of the generation of guesses in /repo/bfit/greedy.py for arrays of integers or floats. *)
From Coq Require Import Reals List ZArith Bool.
From Verif Require Import XR ModelGreedy.
Import ListNotations.
Local Open Scope R_scope.

(** A one-dimensional array or number and whether its dtype is an integer one. *)
Notation narr := (bool * list xr)%type.
Notation nnum := (bool * xr)%type.

(** Conversion of a float to an integer, toward zero.  What NumPy makes of NaN and infinity
    depends on version and platform: any function [junk].  Simplified: integers are unbounded, and
    the exception raised for a Python NaN or infinity is not modelled. *)
Definition trunc (r : R) : Z := if Rle_dec 0 r then Int_part r else (- Int_part (- r))%Z.
Definition to_int (junk : xr -> xr) (x : xr) : xr :=
  match x with Fin r => Fin (IZR (trunc r)) | _ => junk x end.

(** [np.insert(a, i, x)] keeps the dtype of [a] and converts [x] to it; [np.append(a, b)] gives
    floats unless both are integers.  greedy.py:125-137. *)
Definition np_insert (junk : xr -> xr) (i : nat) (x : xr) (a : narr) : narr :=
  (fst a, insert_at i (if fst a then to_int junk x else x) (snd a)).
Definition np_append (a b : narr) : narr := (fst a && fst b, snd a ++ snd b).
Definition np_delete (i : nat) (a : narr) : narr := (fst a, delete_at i (snd a)).

(** The choices as pairs: greedy.py:120-139, 176-197.  The quotients [exp / factor] and
    [(a + b) / 2] are floats, the product [exp * factor] is an integer when both are. *)
Definition typed_pairs (junk : xr -> xr) (factor : nnum) (coeffs exps : narr) (coeff_val : nnum)
  : list (narr * narr) :=
  let size := length (snd exps) in
  flat_map (fun i =>
      (np_insert junk i (snd coeff_val) coeffs,
       np_insert junk i (new_exponent (snd factor) (snd exps) i) exps) ::
      (if Nat.eqb i (size - 1)
       then [(np_append coeffs (fst coeff_val, [snd coeff_val]),
              np_append exps (fst exps && fst factor, [xmul (nth i (snd exps) NaN) (snd factor)]))]
       else []))
    (seq 0 size).

(** get_next_choices: greedy.py:91-139. *)
Definition typed_next (junk : xr -> xr) (factor : nnum) (coeffs fparams : narr) (coeff_val : nnum)
  : list narr :=
  map (fun p => np_append (fst p) (snd p)) (typed_pairs junk factor coeffs fparams coeff_val).

(** get_two_next_choices: greedy.py:142-224. *)
Definition typed_two_pairs (junk : xr -> xr) (factor : nnum) (coeffs fparams : narr) (coeff_val : nnum)
  : list (narr * narr) :=
  let size := length (snd fparams) in
  flat_map (fun i =>
      skipn i (typed_pairs junk factor (np_insert junk i (snd coeff_val) coeffs)
                 (np_insert junk i (new_exponent (snd factor) (snd fparams) i) fparams) coeff_val) ++
      (if Nat.eqb i (size - 1)
       then last_two (typed_pairs junk factor (np_append coeffs (fst coeff_val, [snd coeff_val]))
                        (np_append fparams (fst fparams && fst factor,
                                            [xmul (nth i (snd fparams) NaN) (snd factor)])) coeff_val)
       else []))
    (seq 0 size).
Definition typed_two_next (junk : xr -> xr) (factor : nnum) (coeffs fparams : narr) (coeff_val : nnum)
  : list narr :=
  map (fun p => np_append (fst p) (snd p)) (typed_two_pairs junk factor coeffs fparams coeff_val).

(** pick_two_lose_one: greedy.py:227-262. *)
Definition typed_lose_one (junk : xr -> xr) (factor : nnum) (coeffs exps : narr) (coeff_val : nnum)
  : list narr :=
  flat_map (fun p => map (fun j => np_append (np_delete j (fst p, half1 (snd p)))
                                             (np_delete j (fst p, half2 (snd p))))
                         (seq 0 (length (snd p) / 2)))
    (typed_two_next junk factor coeffs exps coeff_val).
