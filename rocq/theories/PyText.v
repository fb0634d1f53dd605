(** Python string methods on ASCII text, as lists of characters. *)
From Coq Require Import String Ascii List Bool Arith ZArith.
From Verif Require Import XR.
Import ListNotations.

Definition text := list ascii.
Definition txt : string -> text := list_ascii_of_string.

Fixpoint text_eqb (s t : text) : bool :=
  match s, t with
  | [], [] => true
  | a :: s, b :: t => Ascii.eqb a b && text_eqb s t
  | _, _ => false
  end.

(** Characters removed by [strip] and separating the words of [split()]. *)
Definition is_space (c : ascii) : bool :=
  let n := nat_of_ascii c in
  ((9 <=? n)%nat && (n <=? 13)%nat) || ((28 <=? n)%nat && (n <=? 32)%nat).
(** [\d] in a regular expression. *)
Definition is_digit (c : ascii) : bool :=
  let n := nat_of_ascii c in (48 <=? n)%nat && (n <=? 57)%nat.
(** Letters, for [isalpha]. *)
Definition is_alpha (c : ascii) : bool :=
  let n := nat_of_ascii c in
  ((65 <=? n)%nat && (n <=? 90)%nat) || ((97 <=? n)%nat && (n <=? 122)%nat).

(** [s.lstrip()] and [s.strip()]. *)
Fixpoint lstrip (s : text) : text :=
  match s with
  | [] => []
  | c :: t => if is_space c then lstrip t else s
  end.
Definition strip (s : text) : text := rev (lstrip (rev (lstrip s))).

(** [s.split()]; [cur] is the word read so far. *)
Fixpoint words_from (cur : text) (s : text) : list text :=
  let done := match cur with [] => [] | _ => [cur] end in
  match s with
  | [] => done
  | c :: t => if is_space c then done ++ words_from [] t else words_from (cur ++ [c]) t
  end.
Definition words (s : text) : list text := words_from [] s.

(** [s.split(c)] for a single character. *)
Fixpoint split_char (c : ascii) (cur : text) (s : text) : list text :=
  match s with
  | [] => [cur]
  | a :: t => if Ascii.eqb a c then cur :: split_char c [] t else split_char c (cur ++ [a]) t
  end.

(** [s.startswith(p)]. *)
Fixpoint starts (p s : text) : bool :=
  match p, s with
  | [], _ => true
  | a :: p, b :: s => Ascii.eqb a b && starts p s
  | _, _ => false
  end.
(** Least index at which [p] occurs ([s.index(p)]), and [p in s]. *)
Fixpoint find (p s : text) : option nat :=
  if starts p s then Some 0%nat
  else match s with [] => None | _ :: t => option_map S (find p t) end.
Definition occurs (p s : text) : bool := match find p s with Some _ => true | None => false end.

(** [s.split(p)[1]] for a non-empty text [p] that occurs in [s]. *)
Definition split_second (p s : text) : text :=
  match find p s with
  | None => []
  | Some i => let rest := skipn (i + length p) s in
              match find p rest with Some j => firstn j rest | None => rest end
  end.

(** [s.replace(c, "")]. *)
Definition remove_char (c : ascii) (s : text) : text := filter (fun a => negb (Ascii.eqb a c)) s.

(** Value of a digit. *)
Definition digit_val (c : ascii) : Z := Z.of_nat (nat_of_ascii c - 48).
(** Digits with single underscores between them; [after] tells whether a digit precedes. *)
Fixpoint digits (acc : Z) (after : bool) (s : text) : option Z :=
  match s with
  | [] => if after then Some acc else None
  | c :: t =>
      if is_digit c then digits (10 * acc + digit_val c)%Z true t
      else if Ascii.eqb c "_" && after then digits acc false t else None
  end.
(** [int(s)]. *)
Definition py_int (s : text) : res Z :=
  let s := strip s in
  let r := match s with
           | "-"%char :: t => option_map Z.opp (digits 0 false t)
           | "+"%char :: t => digits 0 false t
           | _ => digits 0 false s
           end in
  match r with Some z => Ok z | None => Raise ValueError end.

(** [l[i]] with Python's negative indices. *)
Definition py_get {A} (l : list A) (i : Z) : res A :=
  let j := if (i <? 0)%Z then (i + Z.of_nat (length l))%Z else i in
  if (j <? 0)%Z then Raise IndexError
  else match nth_error l (Z.to_nat j) with Some x => Ok x | None => Raise IndexError end.

(** Dictionaries with text keys, in insertion order. *)
Definition dict (A : Type) := list (text * A).
Fixpoint dget {A} (k : text) (d : dict A) : option A :=
  match d with
  | [] => None
  | (k', v) :: t => if text_eqb k k' then Some v else dget k t
  end.
Fixpoint dset {A} (k : text) (v : A) (d : dict A) : dict A :=
  match d with
  | [] => [(k, v)]
  | (k', v') :: t => if text_eqb k k' then (k, v) :: t else (k', v') :: dset k v t
  end.
Definition dlookup {A} (k : text) (d : dict A) : res A :=
  match dget k d with Some v => Ok v | None => Raise KeyError end.

(** [for x in l: s = f(s, x)] with exceptions. *)
Fixpoint foldM {A S} (f : S -> A -> res S) (l : list A) (s : S) : res S :=
  match l with
  | [] => Ok s
  | x :: t => do s' <- f s x; foldM f t s'
  end.
