(** Model of /repo/bfit/_slater.py, of SlaterAtoms.__init__ (/repo/bfit/density.py:83-101) and of
    /repo/bfit/parse_ugbs.py.  Text is ASCII.  A file is the list of its lines without the
    newline characters (no operation below depends on them); [readline] at the end of the file
    returns the empty string, as in Python. *)
From Coq Require Import String Ascii List Bool Arith ZArith.
From Verif Require Import XR PyStr PyText.
Import ListNotations.
Local Open Scope list_scope.

Definition file := list text.
Definition readline (f : file) : text * file :=
  match f with [] => ([], []) | l :: r => (l, r) end.

(** ** Electron configurations *)

(** The label such as "2P". *)
Definition orb (n : nat) (l : ascii) : text := [ascii_of_nat (48 + n); l].
(** The list [orbitals]: _slater.py:101-102. *)
Definition all_orbitals : list text :=
  map (fun n => orb n "S") (seq 1 7) ++ map (fun n => orb n "P") (seq 2 6) ++
  map (fun n => orb n "D") (seq 3 5) ++ map (fun n => orb n "F") (seq 4 4).

(** Closed shells: _slater.py:108-124. *)
Definition shell_fill (x : ascii) : list (text * Z) :=
  if Ascii.eqb x "K" then [(orb 1 "S", 2%Z)]
  else if Ascii.eqb x "L" then [(orb 2 "S", 2%Z); (orb 2 "P", 6%Z)]
  else if Ascii.eqb x "M" then [(orb 3 "S", 2%Z); (orb 3 "P", 6%Z); (orb 3 "D", 10%Z)]
  else if Ascii.eqb x "N" then [(orb 4 "S", 2%Z); (orb 4 "P", 6%Z); (orb 4 "D", 10%Z); (orb 4 "F", 14%Z)]
  else [].
Definition closed_shells (conf : text) (out : dict Z) : dict Z :=
  fold_left (fun o x => if occurs [x] conf
                        then fold_left (fun o' p => dset (fst p) (snd p) o') (shell_fill x) o
                        else o) ["K"; "L"; "M"; "N"]%char out.

(** [re.search(orbital + r"\((.*?)\)", conf).group(1)]: the text between the first "orbital("
    followed by a ")" and that ")"; without a match the attribute [group] of None
    (_slater.py:132).  The text has no line break. *)
Fixpoint until_close (s : text) : option text :=
  match s with
  | [] => None
  | c :: t => if Ascii.eqb c ")" then Some [] else option_map (cons c) (until_close t)
  end.
Fixpoint search_count (o s : text) : res text :=
  match (if starts (o ++ ["("%char]) s then until_close (skipn (length o + 1) s) else None) with
  | Some g => Ok g
  | None => match s with [] => Raise AttributeError | _ :: t => search_count o t end
  end.

(** Body of the loop over orbitals: _slater.py:126-135 ([orbital] is [x]). *)
Definition count_orbital (conf : text) (out : dict Z) (x : text) : res (dict Z) :=
  match find x conf with
  | None => Ok out
  | Some i =>
      let l := nth 1 x "?"%char in
      do n <- (if Ascii.eqb l "D" || Ascii.eqb l "F"
               then do g <- search_count x conf; py_int g
               else py_int (firstn 1 (skipn (i + 3) conf)));
      Ok (dset x n out)
  end.

(** _get_number_of_electrons_per_orbital: _slater.py:82-137. *)
Definition occupations (conf : text) : res (dict Z) :=
  do out <- foldM (count_orbital conf) all_orbitals
              (closed_shells conf (map (fun o => (o, 0%Z)) all_orbitals));
  Ok (filter (fun p => negb (snd p =? 0)%Z) out).

(** _configuration_exact_for_heavy_elements: _slater.py:168-183. *)
Definition xe_core : text := txt "K(2)L(8)M(18)4S(2)4P(6)5S(2)4D(10)5P(6)".
Definition rn_core : text := xe_core ++ txt "4F(14)6S(2)5D(10)6P(6)".
Definition heavy_configuration (conf : text) : res text :=
  if occurs (txt "[XE]") conf then Ok (xe_core ++ split_second (txt "[XE]") conf)
  else if occurs (txt "[RN]") conf then Ok (rn_core ++ split_second (txt "[RN]") conf)
  else Raise ValueError.

(** _get_column: _slater.py:139-166. *)
Definition get_column (o : text) : res Z :=
  match nth_error o 1 with
  | None => Raise IndexError
  | Some l =>
      let off := if Ascii.eqb l "S" then Some 1%Z else if Ascii.eqb l "P" then Some 0%Z
                 else if Ascii.eqb l "D" then Some (-1)%Z else if Ascii.eqb l "F" then Some (-2)%Z
                 else None in
      match off with
      | None => Raise ValueError
      | Some k => do n <- py_int (firstn 1 o); Ok (n + k)%Z
      end
  end.

(** ** Regular expressions on lines *)

(** [re.findall(r"[= -]\d+.\d+", s)]: _slater.py:205.  A match at the head of [s]: one of the
    three characters, then the longest run of digits [d]; then either any character and a
    further run of digits, or (backtracking) [d] itself when it has three digits or more. *)
Fixpoint take_digits (s : text) : text :=
  match s with [] => [] | c :: t => if is_digit c then c :: take_digits t else [] end.
Definition match_number (s : text) : option text :=
  match s with
  | [] => None
  | c :: t =>
      if Ascii.eqb c "=" || Ascii.eqb c " " || Ascii.eqb c "-" then
        let d := take_digits t in
        if Nat.eqb (length d) 0 then None else
        let r := skipn (length d) t in
        let e := take_digits (skipn 1 r) in
        if negb (Nat.eqb (length r) 0) && negb (Nat.eqb (length e) 0)
        then Some (c :: d ++ firstn 1 r ++ e)
        else if Nat.leb 3 (length d) then Some (c :: d) else None
      else None
  end.
(** [skip] characters belong to the previous match. *)
Fixpoint find_numbers (skip : nat) (s : text) : list text :=
  match s with
  | [] => []
  | _ :: t =>
      match skip with
      | S k => find_numbers k t
      | O => match match_number s with
             | Some m => m :: find_numbers (length m - 1) t
             | None => find_numbers 0 t
             end
      end
  end.

(** [re.search(r'  [S|P|D|F]  ', line)]: _slater.py:222. *)
Definition shell_char (c : ascii) : bool :=
  Ascii.eqb c "S" || Ascii.eqb c "|" || Ascii.eqb c "P" || Ascii.eqb c "D" || Ascii.eqb c "F".
Definition header_here (s : text) : bool :=
  match s with
  | a :: b :: c :: d :: e :: _ =>
      Ascii.eqb a " " && Ascii.eqb b " " && shell_char c && Ascii.eqb d " " && Ascii.eqb e " "
  | _ => false
  end.
Fixpoint is_header (s : text) : bool :=
  header_here s || match s with [] => false | _ :: t => is_header t end.

(** [re.match(r'\A^\d' + subshell, line.lstrip())]: _slater.py:240.  The subshell is taken
    literally (simplified: in the code a regular expression, the same for S, P, D and F). *)
Definition is_row (subshell line : text) : bool :=
  match lstrip line with [] => false | c :: t => is_digit c && starts subshell t end.

(** ** The file *)

(** The lists filled by the main loop: _slater.py:210-215. *)
Record pstate := mkP {
  ps_orbs : list text;
  ps_basis : dict (list text);
  ps_cusp : list xr;
  ps_energy : list xr;
  ps_exp : dict (list xr);
  ps_coeff : dict (list xr) }.
Definition letters : list text := [["S"]; ["P"]; ["D"]; ["F"]]%char.
Definition empty_state : pstate :=
  mkP [] (map (fun l => (l, [])) letters) [] [] (map (fun l => (l, [])) letters) [].

(** The returned dictionary: _slater.py:254-274 (columns as lists). *)
Record slater_data := mkData {
  sd_conf : text;
  sd_E : xr;
  sd_T : xr;
  sd_V : xr;
  sd_orbs : list text;
  sd_energy : list xr;
  sd_cusp : list xr;
  sd_basis : dict (list text);
  sd_exp : dict (list xr);
  sd_coeff : dict (list xr);
  sd_occ : list Z;
  sd_nums : dict (list Z) }.

(** Loops may not end: [None] when [fuel] rounds are not enough. *)
Definition bindo {A B} (r : option (res A)) (k : A -> option (res B)) : option (res B) :=
  match r with None => None | Some (Raise e) => Some (Raise e) | Some (Ok a) => k a end.
Notation "'doo' x <- r ; k" := (bindo r (fun x => k))
  (at level 200, x name, r at level 100, k at level 200).

Section Parse.
(** [float] on text without surrounding white space, which [float] ignores. *)
Context (fl : text -> res xr).
Definition float (s : text) : res xr := fl (strip s).

Definition is_blank (s : text) : bool := Nat.eqb (length (strip s)) 0.

(** [while len(line.strip()) == 0: line = f.readline()]: _slater.py:193-194, 218-219. *)
Fixpoint skip_blank (fuel : nat) (line : text) (f : file) : option (text * file) :=
  if is_blank line then
    match fuel with O => None | S k => let '(l, r) := readline f in skip_blank k l r end
  else Some (line, f).

(** [n] times readline, keeping the last line: _slater.py:197-198. *)
Fixpoint read_more (n : nat) (line : text) (f : file) : text * file :=
  match n with O => (line, f) | S k => let '(l, r) := readline f in read_more k l r end.

(** One row of a block: _slater.py:242-247. *)
Definition read_row (sub : text) (orbs : list text) (line : text) (s : pstate) : res pstate :=
  let ws := words line in
  do es <- dlookup sub (ps_exp s);
  do w1 <- py_get ws 1;
  do e <- float w1;
  do bs <- dlookup sub (ps_basis s);
  do w0 <- py_get ws 0;
  do co <- foldM (fun co x =>
             do l <- dlookup x co;
             do j <- get_column x;
             do w <- py_get ws j;
             do v <- float w;
             Ok (dset x (l ++ [v]) co)) orbs (ps_coeff s);
  Ok (mkP (ps_orbs s) (dset sub (bs ++ [w0]) (ps_basis s)) (ps_cusp s) (ps_energy s)
          (dset sub (es ++ [e]) (ps_exp s)) co).

(** The inner loop: _slater.py:240-248. *)
Fixpoint read_rows (fuel : nat) (sub : text) (orbs : list text) (line : text) (f : file) (s : pstate)
  : option (res (text * file * pstate)) :=
  if is_row sub line then
    match fuel with
    | O => None
    | S k => match read_row sub orbs line s with
             | Raise e => Some (Raise e)
             | Ok s' => let '(l, r) := readline f in read_rows k sub orbs l r s'
             end
    end
  else Some (Ok (line, f, s)).

(** A block: _slater.py:223-248. *)
Definition read_block (heavy : bool) (fuel : nat) (line : text) (f : file) (s : pstate)
  : option (res (text * file * pstate)) :=
  doo sub <- Some (py_get (words line) 0);
  let orbs := tl (words line) in
  let co := fold_left (fun d x => dset x [] d) orbs (ps_coeff s) in
  let '(l1, f1) := readline f in
  doo en <- Some (mapM float (tl (words l1)));
  let '(l2, f2) := if heavy then (l1, f1) else readline f1 in
  doo cu <- Some (if heavy then Ok [] else mapM float (tl (words l2)));
  let '(l3, f3) := readline f2 in
  read_rows fuel sub orbs l3 f3
    (mkP (ps_orbs s ++ orbs) (ps_basis s) (ps_cusp s ++ cu) (ps_energy s ++ en) (ps_exp s) co).

(** The main loop: _slater.py:220-252. *)
Fixpoint read_blocks (heavy : bool) (fuel : nat) (line : text) (f : file) (s : pstate)
  : option (res pstate) :=
  if is_blank line then Some (Ok s) else
  match fuel with
  | O => None
  | S k =>
      if is_header line then
        doo x <- read_block heavy k line f s;
        let '(l, r, s') := x in read_blocks heavy k l r s'
      else let '(l, r) := readline f in read_blocks heavy k l r s
  end.

(** The dictionary: _slater.py:254-274.  The first character of a basis label is a digit. *)
Definition make_data (conf : text) (e t v : xr) (s : pstate) : res slater_data :=
  do occ <- mapM (fun k => do d <- occupations conf; dlookup k d) (ps_orbs s);
  do nums <- mapM (fun p => do ns <- mapM (fun x : text => py_int (firstn 1 x)) (snd p); Ok (fst p, ns))
               (filter (fun p => negb (Nat.eqb (length (snd p)) 0)) (ps_basis s));
  Ok (mkData conf e t v (ps_orbs s) (ps_energy s) (ps_cusp s) (ps_basis s)
        (filter (fun p => negb (Nat.eqb (length (snd p)) 0)) (ps_exp s))
        (filter (fun p => negb (Nat.eqb (length (snd p)) 0)) (ps_coeff s)) occ nums).

(** Reading an opened file: _slater.py:185-276. *)
Definition parse_slater (heavy : bool) (fuel : nat) (f : file) : option (res slater_data) :=
  let '(l0, f0) := readline f in
  doo w <- Some (py_get (words l0) 1);
  let conf0 := remove_char "," w in
  doo conf <- Some (if heavy then heavy_configuration conf0 else Ok conf0);
  let '(l1, f1) := readline f0 in
  match skip_blank fuel l1 f1 with
  | None => None
  | Some (l2, f2) =>
      let '(le, fe) := if heavy then read_more 6 l2 f2 else (l2, f2) in
      let parts := split_char "=" [] le in
      if negb (text_eqb (strip (nth 0 parts [])) ["E"%char]) then Some (Raise RuntimeError) else
      doo w1 <- Some (py_get parts 1);
      doo e <- Some (float w1);
      let '(lt, ft) := readline fe in
      match find_numbers 0 lt with
      | [a; b; _] =>
          doo t <- Some (float a);
          doo v <- Some (float b);
          let '(l3, f3) := readline ft in
          match skip_blank fuel l3 f3 with
          | None => None
          | Some (l4, f4) =>
              doo s <- read_blocks heavy fuel l4 f4 empty_state;
              Some (make_data conf e t v s)
          end
      | _ => Some (Raise AssertionError)
      end
  end.

(** ** Choice of the file *)

(** The three lists: _slater.py:46-60. *)
Definition heavy_atoms : list string :=
  ["cs"; "ba"; "la"; "ce"; "pr"; "nd"; "pm"; "sm"; "eu"; "gd"; "tb"; "dy"; "ho"; "er"; "tm"; "yb";
   "lu"; "hf"; "ta"; "w"; "re"; "os"; "ir"; "pt"; "au"; "hg"; "tl"; "pb"; "bi"; "po"; "at"; "rn";
   "fr"; "ra"; "ac"; "th"; "pa"; "u"; "np"; "pu"; "am"; "cm"; "bk"; "cf"; "es"; "fm"; "md"; "no"; "lr"]%string.
Definition anion_atoms : list string :=
  ["ag"; "al"; "as"; "b"; "br"; "c"; "cl"; "co"; "cr"; "cu"; "f"; "fe"; "ga"; "ge"; "h"; "i"; "in";
   "k"; "li"; "mn"; "mo"; "n"; "na"; "nb"; "ni"; "o"; "p"; "pd"; "rb"; "rh"; "ru"; "s"; "sb"; "sc";
   "se"; "si"; "sn"; "tc"; "te"; "ti"; "v"; "y"; "zr"]%string.
Definition cation_atoms : list string :=
  ["ag"; "al"; "ar"; "as"; "b"; "be"; "br"; "c"; "ca"; "cd"; "cl"; "co"; "cr"; "cs"; "cu"; "f"; "fe";
   "ga"; "ge"; "i"; "in"; "k"; "kr"; "li"; "mg"; "mn"; "mo"; "n"; "na"; "nb"; "ne"; "ni"; "o"; "p";
   "pd"; "rb"; "rh"; "ru"; "s"; "sb"; "sc"; "se"; "si"; "sn"; "sr"; "tc"; "te"; "ti"; "v"; "xe"; "y";
   "zn"; "zr"]%string.

(** The directory of a data file. *)
Inductive folder := Anion | Cation | Neutral.

(** load_slater_wfn: _slater.py:62-80, 185.  [fs] gives the contents of the data files, None
    when there is no such file. *)
Definition load_slater_wfn (fs : folder -> string -> option file) (element : string)
           (anion cation : bool) (fuel : nat) : option (res slater_data) :=
  let e := lower element in
  doo d <- Some (if anion then if str_in e anion_atoms then Ok Anion else Raise ValueError
                 else if cation then if str_in e cation_atoms then Ok Cation else Raise ValueError
                 else Ok Neutral);
  match fs d e with
  | None => Some (Raise FileNotFoundError)
  | Some f => parse_slater (str_in e heavy_atoms) fuel f
  end.

(** SlaterAtoms.__init__: density.py:83-101; the argument is None when it is not a string. *)
Definition slater_atoms (fs : folder -> string -> option file) (element : option string)
           (anion cation : bool) (fuel : nat) : option (res slater_data) :=
  match element with
  | None => Some (Raise TypeError)
  | Some s =>
      if String.eqb s "" || negb (forallb is_alpha (txt s)) then Some (Raise TypeError)
      else if anion && cation then Some (Raise ValueError)
      else load_slater_wfn fs s anion cation fuel
  end.

(** ** parse_ugbs.py *)

(** Loop over the lines: parse_ugbs.py:49-56.  [f.readline()] takes the line after the header. *)
Fixpoint ugbs_loop (element : text) (f : file) (out : dict (list xr)) : res (dict (list xr)) :=
  match f with
  | [] => Ok out
  | line :: r =>
      match words line with
      | w0 :: ws =>
          if text_eqb (map lower_char w0) (map lower_char element) then
            match r with
            | [] => do k <- py_get (w0 :: ws) 1; do l <- dlookup k out; do w <- py_get (words []) 0; Ok out
            | next :: r' =>
                do k <- py_get (w0 :: ws) 1;
                do l <- dlookup k out;
                do w <- py_get (words next) 0;
                do v <- float w;
                ugbs_loop element r' (dset k (l ++ [v]) out)
            end
          else ugbs_loop element r out
      | [] => ugbs_loop element r out
      end
  end.

(** get_ugbs_exponents: parse_ugbs.py:31-57; the argument is None when it is not a string. *)
Definition get_ugbs_exponents (f : file) (element : option string) : res (dict (list xr)) :=
  match element with
  | None => Raise AssertionError
  | Some s => ugbs_loop (txt s) f (map (fun l => (l, [])) letters)
  end.
End Parse.
