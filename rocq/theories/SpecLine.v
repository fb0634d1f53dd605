(** Meaning of the regular expressions and string methods that bfit/_slater.py applies to a line,
    independent of the parser.  Text is ASCII. *)
From Coq Require Import String Ascii List Bool Arith.
From Verif Require Import SpecParse.
Import ListNotations.
Local Open Scope list_scope.

(** ** Regular expressions *)
(** A character of a class, one or more of them (greedy), any number of them (lazy). *)
Inductive item := One (p : ascii -> bool) | Many (p : ascii -> bool) | Lazy (p : ascii -> bool).

(** Length of the longest beginning in the class. *)
Fixpoint run (p : ascii -> bool) (s : list ascii) : nat :=
  match s with [] => 0 | c :: t => if p c then S (run p t) else 0 end.

(** All ways in which a pattern matches at the beginning of a text, in the order in which a backtracking
    matcher tries them: the text of each item and what follows the match. *)
Fixpoint readings (ps : list item) (s : list ascii) : list (list (list ascii) * list ascii) :=
  match ps with
  | [] => [([], s)]
  | One p :: r =>
      match s with
      | c :: t => if p c then map (fun x => ([c] :: fst x, snd x)) (readings r t) else []
      | [] => []
      end
  | Many p :: r =>
      flat_map (fun n => map (fun x => (firstn n s :: fst x, snd x)) (readings r (skipn n s))) (rev (seq 1 (run p s)))
  | Lazy p :: r =>
      flat_map (fun n => map (fun x => (firstn n s :: fst x, snd x)) (readings r (skipn n s))) (seq 0 (S (run p s)))
  end.

(** [re.match], the items of the match; [re.search], the leftmost one; [re.findall]. *)
Definition matches (ps : list item) (s : list ascii) : option (list (list ascii)) :=
  match readings ps s with x :: _ => Some (fst x) | [] => None end.
Fixpoint search (ps : list item) (s : list ascii) : option (list (list ascii)) :=
  match matches ps s, s with
  | Some m, _ => Some m
  | None, _ :: t => search ps t
  | None, [] => None
  end.
Inductive found (ps : list item) : list ascii -> list (list (list ascii)) -> Prop :=
| found_end : readings ps [] = [] -> found ps [] []
| found_skip c t l : readings ps (c :: t) = [] -> found ps t l -> found ps (c :: t) l
| found_match s m rest more l : readings ps s = (m, rest) :: more -> length rest < length s -> found ps rest l -> found ps s (m :: l).

(** Classes: one of the listed characters, [\d], and [.], which is anything but a line break. *)
Definition among (l : string) (c : ascii) : bool := existsb (Ascii.eqb c) (str l).
Definition decimal_digit (c : ascii) : bool := among "0123456789" c.
Definition line_break : ascii := ascii_of_nat 10.
Definition anything (c : ascii) : bool := negb (Ascii.eqb c line_break).
Definition literally (s : list ascii) : list item := map (fun a => One (Ascii.eqb a)) s.

(** [[= -]\d+.\d+], _slater.py:207. *)
Definition number_re : list item := [One (among "= -"); Many decimal_digit; One anything; Many decimal_digit].
(** [  [S|P|D|F]  ], _slater.py:224. *)
Definition header_re : list item := literally (str "  ") ++ [One (among "S|P|D|F")] ++ literally (str "  ").
(** [\A^\d] followed by the subshell, _slater.py:242. *)
Definition row_re (sub : list ascii) : list item := One decimal_digit :: literally sub.
(** orbital followed by [\((.*?)\)], _slater.py:132; the group is the item at place [length o + 1]. *)
Definition count_re (o : list ascii) : list item := literally o ++ literally (str "(") ++ [Lazy anything] ++ literally (str ")").

(** ** String methods *)
(** [s.strip()] is [t]. *)
Definition stripped (s t : list ascii) : Prop :=
  exists a b, s = a ++ t ++ b /\ blank a /\ blank b /\
    (forall c r, t = c :: r -> ~ white c) /\ (forall c r, t = r ++ [c] -> ~ white c).
(** The pieces of [s.split(c)]. *)
Fixpoint joined (c : ascii) (ps : list (list ascii)) : list ascii :=
  match ps with [] => [] | [p] => p | p :: r => p ++ c :: joined c r end.
(** [p] occurs first after [a] in [a ++ p ++ b]. *)
Definition first_in (p a b : list ascii) : Prop :=
  forall a' b', a ++ p ++ b = a' ++ p ++ b' -> length a <= length a'.
Definition missing (p s : list ascii) : Prop := forall a b, s <> a ++ p ++ b.
(** [t] is [s.split(p)[1]]. *)
Definition second_part (p s t : list ascii) : Prop :=
  exists a r, s = a ++ p ++ r /\ first_in p a r /\
    ((missing p r /\ t = r) \/ exists q, r = t ++ p ++ q /\ first_in p t q).
(** Place of a character in a text. *)
Fixpoint place (c : ascii) (s : list ascii) : option nat :=
  match s with [] => None | a :: t => if Ascii.eqb c a then Some 0 else option_map S (place c t) end.
