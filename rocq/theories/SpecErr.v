(** What is malformed in a data file, and whole numbers as text; independent of the parser. *)
From Coq Require Import String Ascii List Bool Arith ZArith.
From Verif Require Import XR SpecParse.
Import ListNotations.
Local Open Scope list_scope.

(** ** Whole numbers *)

(** Value of a run of digits. *)
Definition run_value (ds : list ascii) : Z :=
  fold_left (fun a c => 10 * a + Z.of_nat (nat_of_ascii c - 48))%Z ds 0%Z.
(** Groups of digits with "_" between them. *)
Inductive grouped : list ascii -> list ascii -> Prop :=
| grouped_one g : g <> [] -> (forall c, In c g -> digit c) -> grouped g g
| grouped_more g s ds : g <> [] -> (forall c, In c g -> digit c) -> grouped s ds ->
    grouped (g ++ str "_" ++ s) (g ++ ds).
(** White space, a sign or none, groups of digits, white space. *)
Definition whole_number (s : list ascii) (z : Z) : Prop :=
  exists a g d ds b, s = a ++ g ++ d ++ b /\ blank a /\ blank b /\ grouped d ds /\
    (((g = [] \/ g = str "+") /\ z = run_value ds) \/ (g = str "-" /\ z = (- run_value ds)%Z)).

(** ** Lines *)

(** The text before the first "=", or the whole line, is an "E" between white space. *)
Definition energy_key (s r : list ascii) : Prop :=
  exists x y, s = x ++ str "E" ++ y ++ r /\ blank x /\ blank y /\ (r = [] \/ exists t, r = "="%char :: t).
(** A line with [k] numbers such as "-12.5" and no other digits. *)
Inductive numbered : nat -> list ascii -> Prop :=
| numbered_end s : no_digit s -> numbered 0 s
| numbered_next k s t r : is_number t -> before s t -> (r = [] \/ exists c r', r = c :: r' /\ ~ digit c) ->
    numbered k r -> numbered (S k) (s ++ t ++ r).

(** The lines of a file up to the line [le] of the energy. *)
Definition preamble (heavy : bool) (p : list (list ascii)) (le : list ascii) : Prop :=
  exists l0 b1 more conf ps, p = l0 :: b1 ++ more /\ first_line conf l0 /\ all_blank b1 /\
    (if heavy then length more = 6%nat /\ ~ blank (hd [] more) /\
       exists qs, Forall piece_ok qs /\
         ((conf = str "[XE]" ++ show_all qs /\ ps = xe_pieces ++ qs) \/
          (conf = str "[RN]" ++ show_all qs /\ ps = rn_pieces ++ qs))
     else more = [] /\ ~ blank le).
