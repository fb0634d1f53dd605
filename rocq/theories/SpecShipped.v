(** Numbers of electrons of the atoms and ions with data files. *)
From Coq Require Import String Ascii List ZArith.
From Verif Require Import PyText SpecParse ModelParse.
Import ListNotations.
Local Open Scope string_scope.

(** Decimal numbers such as "-12.5" and ".5". *)
Definition is_decimal (t : list ascii) : Prop :=
  exists g d e, t = (g ++ d ++ str "." ++ e)%list /\ (g = [] \/ g = str "-") /\ e <> [] /\ (forall c, In c (d ++ e)%list -> digit c).

(** Atomic numbers. *)
Definition atomic_numbers : list (string * Z) :=
  [("h", 1); ("he", 2); ("li", 3); ("be", 4); ("b", 5); ("c", 6); ("ne", 10); ("p", 15); ("cl", 17); ("k", 19); ("cr", 24);
   ("ag", 47); ("i", 53); ("xe", 54); ("cs", 55); ("ce", 58); ("dy", 66); ("rn", 86); ("lr", 103)]%Z.
(** Electrons of the neutral atom, the cation with charge +1 and the anion with charge -1. *)
Definition electron_number (d : folder) (e : string) : Z :=
  match List.find (fun x => String.eqb (fst x) e) atomic_numbers with
  | Some x => (snd x + match d with Neutral => 0 | Anion => 1 | Cation => -1 end)%Z
  | None => 0%Z
  end.
