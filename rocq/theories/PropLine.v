(** Property C106: regular expressions and string methods of the parser (_slater.py:126-250). *)
From Coq Require Import String Ascii List Bool Arith ZArith Lia.
From Verif Require Import XR PyStr PyText ModelParse SpecParse SpecLine ProofLine.
Import ListNotations.
Local Open Scope list_scope.
Local Open Scope nat_scope.

(** ** C106 *)
(** [re.findall(r"[= -]\d+.\d+", s)], _slater.py:207. *)
Theorem C106_numbers : forall s, ~ In line_break s ->
  exists l, found number_re s l /\ find_numbers 0 s = map (@concat _) l.
Proof. exact find_numbers_re. Qed.
Print Assumptions C106_numbers.
Theorem C106_numbers_only : forall s l, ~ In line_break s -> found number_re s l -> find_numbers 0 s = map (@concat _) l.
Proof. exact find_numbers_found. Qed.
Print Assumptions C106_numbers_only.

(** [re.search(r"  [S|P|D|F]  ", line)], _slater.py:224. *)
Theorem C106_header : forall s, is_header s = match search header_re s with Some _ => true | None => false end.
Proof. exact header_search. Qed.
Print Assumptions C106_header.

(** [re.match(r"\A^\d" + subshell, line.lstrip())], _slater.py:242. *)
Theorem C106_row : forall sub line, is_row sub line = match matches (row_re sub) (lstrip line) with Some _ => true | None => false end.
Proof. exact row_matches. Qed.
Print Assumptions C106_row.

(** [re.search(orbital + r"\((.*?)\)", configuration).group(1)], _slater.py:132; no match is an AttributeError. *)
Theorem C106_count : forall o s, ~ In line_break s ->
  search_count o s = match search (count_re o) s with Some m => Ok (nth (length o + 1) m []) | None => Raise AttributeError end.
Proof. exact count_search. Qed.
Print Assumptions C106_count.

(** [strip()], [split()] and [split(c)]. *)
Theorem C106_strip : forall s t, strip s = t <-> stripped s t.
Proof. exact strip_stripped. Qed.
Print Assumptions C106_strip.
Theorem C106_words : forall s ws, words s = ws <-> spaced ws s.
Proof. exact words_iff. Qed.
Print Assumptions C106_words.
Theorem C106_split : forall c s ps, split_char c [] s = ps <-> ps <> [] /\ joined c ps = s /\ Forall (fun p => ~ In c p) ps.
Proof. exact split_joined. Qed.
Print Assumptions C106_split.

(** The configuration of a heavy element: the part between the first core and the next one, or the end, _slater.py:168-182. *)
Theorem C106_heavy : forall conf t, heavy_configuration conf = Ok t <->
  (exists r, second_part (str "[XE]") conf r /\ t = show_all xe_pieces ++ r) \/
  (missing (str "[XE]") conf /\ exists r, second_part (str "[RN]") conf r /\ t = show_all rn_pieces ++ r).
Proof. exact heavy_parts. Qed.
Print Assumptions C106_heavy.

(** The column of an orbital, _slater.py:139-166, whatever the text is. *)
Theorem C106_column : forall o,
  get_column o = match o with
                 | a :: c :: _ => match place c (str "SPDF") with
                                  | Some l => if decimal_digit a then Ok (Z.of_nat (nat_of_ascii a - 48) + 1 - Z.of_nat l)%Z else Raise ValueError
                                  | None => Raise ValueError
                                  end
                 | _ => Raise IndexError
                 end.
Proof. exact get_column_any. Qed.
Print Assumptions C106_column.

(** List indices, counted from the end when negative. *)
Theorem C106_index : forall {A} (l : list A) i, py_get l i =
  match (if (0 <=? i)%Z then nth_error l (Z.to_nat i) else nth_error (rev l) (Z.to_nat (- i - 1))) with
  | Some x => Ok x | None => Raise IndexError end.
Proof. exact @py_get_any. Qed.
Print Assumptions C106_index.

Local Open Scope string_scope.
Example C106_numbers_example :
  ~ In line_break (str "E=-14.57 T= 14.5 x") /\
  found number_re (str "E=-14.57 T= 14.5 x") [[str "-"; str "14"; str "."; str "57"]; [str " "; str "14"; str "."; str "5"]].
Proof.
  split; [intros H; cbv in H; intuition discriminate|].
  do 2 (apply found_skip; [reflexivity|]). eapply found_match; [reflexivity|cbn; lia|].
  do 3 (apply found_skip; [reflexivity|]). eapply found_match; [reflexivity|cbn; lia|].
  do 2 (apply found_skip; [reflexivity|]). now apply found_end.
Qed.
Example C106_line_example :
  search header_re (str "  P   2P") <> None /\ matches (row_re (str "P")) (str "2P 0.5") <> None /\
  search (count_re (str "4F")) (str "4S(2)4F(14)5S(1)") = Some [str "4"; str "F"; str "("; str "14"; str ")"] /\
  search_count (str "4F") (str "4S(2)4F(14)5S(1)") = Ok (str "14").
Proof. split; [discriminate|]. split; [discriminate|]. split; reflexivity. Qed.
Example C106_text_example :
  stripped (str "  a b ") (str "a b") /\ joined "/" [str "a"; str ""; str "b"] = str "a//b" /\
  second_part (str "[XE]") (str "[XE]6S(2)") (str "6S(2)") /\ get_column (str "3D") = Ok 2%Z /\ py_get [1; 2; 3] (-1) = Ok 3.
Proof.
  split; [now apply strip_stripped|]. split; [reflexivity|]. split; [|split; reflexivity].
  apply split_second_part; [|reflexivity]. exists [], (str "6S(2)"). reflexivity.
Qed.
