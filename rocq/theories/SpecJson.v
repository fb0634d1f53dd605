(** The JSON format as far as the fitted models in bfit/data use it, without reference to a reader. *)
From Coq Require Import Ascii String List ZArith.
From Verif Require Import PyText SpecParse SpecLoad.
Import ListNotations.

(** Values: whole numbers, decimal numbers m * 10^e, texts, lists, objects. *)
Inductive json :=
| JInt (z : Z)
| JDec (m e : Z)
| JStr (s : list ascii)
| JArr (l : list json)
| JObj (l : list (list ascii * json)).

(** Spaces, tabs and line ends. *)
Definition blank (s : list ascii) : Prop := forall c, In c s -> In (nat_of_ascii c) [32; 9; 10; 13]%nat.
(** Characters between quotes: printable ASCII, no quote or backslash. *)
Definition plain (s : list ascii) : Prop :=
  forall c, In c s -> (32 <= nat_of_ascii c < 127)%nat /\ ~ In (nat_of_ascii c) [34; 92]%nat.

(** "0" or digits that do not begin with 0. *)
Definition whole (d : list ascii) : Prop :=
  d = str "0" \/ exists c r, d = c :: r /\ c <> "0"%char /\ (forall x, In x d -> digit x).
Definition sign (g : list ascii) (z : Z) : Prop := g = [] /\ z = 1%Z \/ g = str "-" /\ z = (-1)%Z.
(** Nothing or ".digits". *)
Definition fraction (t f : list ascii) : Prop :=
  t = [] /\ f = [] \/ f <> [] /\ (forall x, In x f -> digit x) /\ t = str "." ++ f.
(** Nothing or "e-07". *)
Definition exponent (t : list ascii) (k : Z) : Prop :=
  t = [] /\ k = 0%Z \/
  exists c g d z, (c = "e"%char \/ c = "E"%char) /\ (sign g z \/ g = str "+" /\ z = 1%Z) /\
    d <> [] /\ (forall x, In x d -> digit x) /\ t = c :: g ++ d /\ k = (z * digits d)%Z.
Inductive number : list ascii -> json -> Prop :=
| number_int g z d : sign g z -> whole d -> number (g ++ d) (JInt (z * digits d))
| number_dec g z d t f x k : sign g z -> whole d -> fraction t f -> exponent x k -> t ++ x <> [] ->
    number (g ++ d ++ t ++ x) (JDec (z * digits (d ++ f)) (k - Z.of_nat (length f))).

(** The text of a value, of the values in a list, of the entries in an object. *)
Inductive value : list ascii -> json -> Prop :=
| value_num s j : number s j -> value s j
| value_str s : plain s -> value (str """" ++ s ++ str """") (JStr s)
| value_nil w : blank w -> value (str "[" ++ w ++ str "]") (JArr [])
| value_arr s l : items s l -> value (str "[" ++ s ++ str "]") (JArr l)
| value_none w : blank w -> value (str "{" ++ w ++ str "}") (JObj [])
| value_obj s l : members s l -> value (str "{" ++ s ++ str "}") (JObj l)
with items : list ascii -> list json -> Prop :=
| items_one w s w' j : blank w -> blank w' -> value s j -> items (w ++ s ++ w') [j]
| items_more w s w' j t l : blank w -> blank w' -> value s j -> items t l ->
    items (w ++ s ++ w' ++ str "," ++ t) (j :: l)
with members : list ascii -> list (list ascii * json) -> Prop :=
| members_one w k w1 w2 s w' j : blank w -> plain k -> blank w1 -> blank w2 -> blank w' -> value s j ->
    members (w ++ (str """" ++ k ++ str """") ++ w1 ++ str ":" ++ w2 ++ s ++ w') [(k, j)]
| members_more w k w1 w2 s w' j t l : blank w -> plain k -> blank w1 -> blank w2 -> blank w' -> value s j ->
    members t l ->
    members (w ++ (str """" ++ k ++ str """") ++ w1 ++ str ":" ++ w2 ++ s ++ w' ++ str "," ++ t) ((k, j) :: l).
(** The text of a file. *)
Definition document (s : list ascii) (j : json) : Prop :=
  exists w t w', blank w /\ blank w' /\ value t j /\ s = w ++ t ++ w'.
