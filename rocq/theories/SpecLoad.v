(** The subshells of a data file, and decimal numbers. *)
From Coq Require Import Reals String Ascii List ZArith.
From Verif Require Import XR PyText SpecParse SpecSlater.
Import ListNotations.

(** [s] is orbital [k] of block [B], with the electrons of the configuration [ps]. *)
Definition sub_of (ps : list piece) (B : block) (k : nat) (s : subshell) : Prop :=
  s_l s = bl_l B /\
  (exists c, electrons ps (bl_l B + 1 + k) (bl_l B) c /\ s_occ s = INR c) /\
  nth k (bl_energy B) NaN = Fin (s_en s) /\
  map (fun '(c, z, n) => (Fin c, Fin z, n)) (s_exp s) =
    map (fun r => (nth k (row_coef r) NaN, row_exp r, row_n r)) (bl_rows B).
(** Subshells of a file, in order. *)
Definition places (Bs : list block) : list (block * nat) :=
  flat_map (fun B => map (fun k => (B, k)) (seq 0 (length (bl_energy B)))) Bs.
Definition file_subs (C : contents) (ps : list piece) (L : list subshell) : Prop :=
  Forall2 (fun p s => sub_of ps (fst p) (snd p) s) (places (ct_blocks C)) L.

(** All numbers of the blocks are finite. *)
Definition finite (x : xr) : Prop := exists r, x = Fin r.
Definition finite_blocks (C : contents) : Prop :=
  forall B, In B (ct_blocks C) -> Forall finite (bl_energy B) /\
    forall r, In r (bl_rows B) -> finite (row_exp r) /\ Forall finite (row_coef r).
(** Positive exponents and quantum numbers. *)
Definition positive_blocks (C : contents) : Prop :=
  forall B r z, In B (ct_blocks C) -> In r (bl_rows B) -> row_exp r = Fin z -> (0 < z)%R /\ (1 <= row_n r)%nat.

(** Value of a sequence of decimal digits, most significant first. *)
Fixpoint digits (l : list ascii) : Z :=
  match l with
  | [] => 0%Z
  | c :: r => ((Z.of_nat (nat_of_ascii c) - 48) * 10 ^ Z.of_nat (length r) + digits r)%Z
  end.
(** [fl] gives decimal numbers their value: "12.345" is 12345 / 10^3. *)
Definition reads_decimals (fl : list ascii -> res xr) : Prop :=
  forall d e, e <> [] -> (forall c, In c (d ++ e) -> digit c) ->
    fl (d ++ str "." ++ e) = Ok (Fin (IZR (digits (d ++ e)) / 10 ^ length e)) /\
    fl (str "-" ++ d ++ str "." ++ e) = Ok (Fin (- (IZR (digits (d ++ e)) / 10 ^ length e))).
