(** Electron configurations and data files, independent of the parser. *)
From Coq Require Import String Ascii List Bool Arith ZArith DecimalString.
From Verif Require Import XR.
Import ListNotations.
Local Open Scope list_scope.

Notation str := list_ascii_of_string.

(** Letter of angular momentum 0..3, label such as "2P", decimal numbers. *)
Definition l_char (l : nat) : ascii := nth l ["S"; "P"; "D"; "F"]%char "?"%char.
Definition decimal (n : nat) : list ascii := str (NilZero.string_of_uint (Nat.to_uint n)).
Definition label (n l : nat) : list ascii := decimal n ++ [l_char l].

(** ** Configurations *)

(** "K(2)", "L(8)", "M(18)", "N(32)" for [Closed 1..4]; "nL(count)" for [Sub n l count]. *)
Inductive piece := Closed (k : nat) | Sub (n l count : nat).
Definition show (p : piece) : list ascii :=
  match p with
  | Closed k => nth (k - 1) ["K"; "L"; "M"; "N"]%char "?"%char :: str "(" ++ decimal (2 * k * k) ++ str ")"
  | Sub n l c => label n l ++ str "(" ++ decimal c ++ str ")"
  end.
Definition show_all (ps : list piece) : list ascii := concat (map show ps).

(** Subshells that exist up to the seventh shell; S and P counts have one digit. *)
Definition subshell_ok (n l : nat) : Prop := (l <= 3 /\ l < n <= 7)%nat.
Definition piece_ok (p : piece) : Prop :=
  match p with
  | Closed k => (1 <= k <= 4)%nat
  | Sub n l c => subshell_ok n l /\ ((l <= 1)%nat -> (c <= 9)%nat)
  end.
(** No subshell is listed twice. *)
Definition distinct (ps : list piece) : Prop :=
  forall i j n l c c', nth_error ps i = Some (Sub n l c) -> nth_error ps j = Some (Sub n l c') -> i = j.

(** [c] electrons in subshell [n l]: as listed, else by a closed shell, else none. *)
Definition electrons (ps : list piece) (n l c : nat) : Prop :=
  In (Sub n l c) ps \/
  ((forall c', ~ In (Sub n l c') ps) /\ In (Closed n) ps /\ c = (2 * (2 * l + 1))%nat) \/
  ((forall c', ~ In (Sub n l c') ps) /\ ~ In (Closed n) ps /\ c = 0%nat).

(** ** Lines *)

(** ASCII white space. *)
Definition white (c : ascii) : Prop :=
  let n := nat_of_ascii c in (9 <= n <= 13 \/ 28 <= n <= 32)%nat.
Definition blank (s : list ascii) : Prop := forall c, In c s -> white c.
Definition word (s : list ascii) : Prop := s <> [] /\ forall c, In c s -> ~ white c.
(** The line [s] consists of the words [ws], separated by white space. *)
Inductive spaced : list (list ascii) -> list ascii -> Prop :=
| spaced_end s : blank s -> spaced [] s
| spaced_word s w r ws : blank s -> word w -> (r = [] \/ exists c r', r = c :: r' /\ white c) ->
    spaced ws r -> spaced (w :: ws) (s ++ w ++ r).

(** Electrons of a configuration, and configurations that count no subshell twice. *)
Definition size (p : piece) : nat := match p with Closed k => 2 * k * k | Sub _ _ c => c end.
Definition total (ps : list piece) : nat := list_sum (map size ps).
Definition separate (ps : list piece) : Prop :=
  NoDup (flat_map (fun p => match p with Closed k => [k] | _ => [] end) ps) /\
  forall n l c, In (Sub n l c) ps -> ~ In (Closed n) ps.

(** Cores of xenon and radon. *)
Definition xe_pieces : list piece :=
  [Closed 1; Closed 2; Closed 3; Sub 4 0 2; Sub 4 1 6; Sub 5 0 2; Sub 4 2 10; Sub 5 1 6].
Definition rn_pieces : list piece :=
  xe_pieces ++ [Sub 4 3 14; Sub 6 0 2; Sub 5 2 10; Sub 6 1 6].

(** ** Data files *)

(** Entry of a table: the words of a line and their values. *)
Definition value_of (fl : list ascii -> res xr) (t : list ascii) (v : xr) : Prop := word t /\ fl t = Ok v.
Definition values_of (fl : list ascii -> res xr) (ts : list (list ascii)) (vs : list xr) : Prop :=
  Forall2 (value_of fl) ts vs.

(** A block of orbitals with angular momentum [bl_l]; the orbitals are (l+1)L, (l+2)L, ..., one
    per energy.  A row is a basis function: principal number, exponent, coefficients. *)
Record block := mkB {
  bl_l : nat;
  bl_energy : list xr;
  bl_cusp : list xr;
  bl_rows : list (nat * xr * list xr) }.
Definition row_n (r : nat * xr * list xr) : nat := fst (fst r).
Definition row_exp (r : nat * xr * list xr) : xr := snd (fst r).
Definition row_coef (r : nat * xr * list xr) : list xr := snd r.
(** Principal numbers of the orbitals, their labels, the labels of the basis functions. *)
Definition bl_ns (B : block) : list nat := seq (bl_l B + 1) (length (bl_energy B)).
Definition bl_labels (B : block) : list (list ascii) := map (fun n => label n (bl_l B)) (bl_ns B).
Definition bl_basis (B : block) : list (list ascii) := map (fun r => label (row_n r) (bl_l B)) (bl_rows B).

Definition block_ok (heavy : bool) (B : block) : Prop :=
  (bl_l B <= 3)%nat /\ (bl_l B + length (bl_energy B) <= 7)%nat /\
  (if heavy then bl_cusp B = [] else length (bl_cusp B) = length (bl_energy B)) /\
  bl_rows B <> [] /\
  forall r, In r (bl_rows B) -> (row_n r <= 9)%nat /\ length (row_coef r) = length (bl_energy B).

(** The line of a row, the line that names the orbitals of a block, and the block. *)
Definition row_line (fl : list ascii -> res xr) (l : nat) (r : nat * xr * list xr) (s : list ascii) : Prop :=
  exists te tc, spaced (label (row_n r) l :: te :: tc) s /\
    value_of fl te (row_exp r) /\ values_of fl tc (row_coef r).
Definition head_line (B : block) (s : list ascii) : Prop :=
  spaced ([l_char (bl_l B)] :: bl_labels B) s /\
  exists a b, s = a ++ str "  " ++ [l_char (bl_l B)] ++ str "  " ++ b.
Definition value_line (fl : list ascii -> res xr) (vs : list xr) (s : list ascii) : Prop :=
  exists w ts, spaced (w :: ts) s /\ values_of fl ts vs.
Definition block_lines (fl : list ascii -> res xr) (heavy : bool) (B : block) (ls : list (list ascii)) : Prop :=
  exists h e c rows, ls = h :: e :: c ++ rows /\
    head_line B h /\ value_line fl (bl_energy B) e /\
    (if heavy then c = [] else exists s, c = [s] /\ value_line fl (bl_cusp B) s) /\
    Forall2 (row_line fl (bl_l B)) (bl_rows B) rows.

(** "E = number", possibly followed by "=" and more. *)
Definition energy_line (fl : list ascii -> res xr) (v : xr) (s : list ascii) : Prop :=
  exists a b c t d r, s = a ++ str "E" ++ b ++ str "=" ++ c ++ t ++ d ++ r /\
    blank a /\ blank b /\ blank c /\ blank d /\ value_of fl t v /\ ~ In "="%char t /\
    (r = [] \/ exists r', r = "="%char :: r').

(** Decimal digits; numbers such as "-12.5".  The text before a number that has no sign ends
    in a space. *)
Definition digit (c : ascii) : Prop := (48 <= nat_of_ascii c <= 57)%nat.
Definition is_number (t : list ascii) : Prop :=
  exists g d e, t = g ++ d ++ str "." ++ e /\ (g = [] \/ g = str "-") /\ d <> [] /\ e <> [] /\
    (forall c, In c (d ++ e) -> digit c).
Definition no_digit (s : list ascii) : Prop := forall c, In c s -> ~ digit c.
Definition before (s t : list ascii) : Prop :=
  no_digit s /\ ((exists t', t = str "-" ++ t') \/ exists s', s = s' ++ str " ").
(** "T = number  V = number  V/T = number". *)
Definition ratio_line (fl : list ascii -> res xr) (t v : xr) (s : list ascii) : Prop :=
  exists s1 t1 s2 t2 s3 t3 s4, s = s1 ++ t1 ++ s2 ++ t2 ++ s3 ++ t3 ++ s4 /\
    is_number t1 /\ is_number t2 /\ is_number t3 /\
    before s1 t1 /\ before s2 t2 /\ before s3 t3 /\ no_digit s4 /\ s2 <> [] /\ s3 <> [] /\
    fl t1 = Ok t /\ fl t2 = Ok v.

(** Title lines between the energies and the blocks. *)
Definition title_line (s : list ascii) : Prop :=
  ~ blank s /\ forall c, In c (str "SPDF|") -> forall a b, s <> a ++ str "  " ++ [c] ++ str "  " ++ b.

(** First line: a name, the configuration with commas, and more. *)
Definition first_line (conf : list ascii) (s : list ascii) : Prop :=
  exists w0 w1 ws, spaced (w0 :: w1 :: ws) s /\ filter (fun c => negb (Ascii.eqb c ",")) w1 = conf.

(** A file: light elements, or heavy elements with six further lines before the energy. *)
Record contents := mkC {
  ct_word : list ascii;
  ct_E : xr;
  ct_T : xr;
  ct_V : xr;
  ct_blocks : list block }.
Definition all_blank (ls : list (list ascii)) : Prop := forall s, In s ls -> blank s.
Definition file_lines (fl : list ascii -> res xr) (heavy : bool) (C : contents) (f : list (list ascii)) : Prop :=
  exists l0 b1 more le lt b2 titles bls tail,
    f = l0 :: b1 ++ more ++ le :: lt :: b2 ++ titles ++ concat bls ++ tail /\
    first_line (ct_word C) l0 /\ all_blank b1 /\
    (if heavy then length more = 6%nat /\ ~ blank (hd [] more) else more = []) /\
    energy_line fl (ct_E C) le /\ ratio_line fl (ct_T C) (ct_V C) lt /\ all_blank b2 /\
    Forall title_line titles /\ Forall2 (block_lines fl heavy) (ct_blocks C) bls /\
    (tail = [] \/ exists s r, tail = s :: r /\ blank s).

(** The blocks have distinct letters and the right shape; there is at least one. *)
Definition blocks_ok (heavy : bool) (Bs : list block) : Prop :=
  Bs <> [] /\ Forall (block_ok heavy) Bs /\ NoDup (map bl_l Bs).

(** Column [k] of the coefficients of a block. *)
Definition column (k : nat) (B : block) : list xr := map (fun r => nth k (row_coef r) NaN) (bl_rows B).

(** ** Names *)

(** Equal up to case: the same after a-z are replaced by A-Z. *)
Definition upper_code (c : ascii) : nat :=
  let n := nat_of_ascii c in if Nat.leb 97 n then if Nat.leb n 122 then n - 32 else n else n.
Definition same_name (s t : list ascii) : Prop := map upper_code s = map upper_code t.
Definition same_nameb (s t : list ascii) : bool :=
  if list_eq_dec Nat.eq_dec (map upper_code s) (map upper_code t) then true else false.

(** ** The file of universal Gaussian exponents *)

(** Entries (element, l, exponent), each on two lines "element L" and "exponent ...", among other
    lines; [other] holds of the first words of the other lines and of the exponents. *)
Inductive exponent_table (fl : list ascii -> res xr) (other : list ascii -> Prop)
  : list (list ascii * nat * xr) -> list (list ascii) -> Prop :=
| table_end : exponent_table fl other [] []
| table_entry w l v ws t ts h x es f : (l <= 3)%nat ->
    spaced (w :: [l_char l] :: ws) h -> spaced (t :: ts) x -> fl t = Ok v -> other t ->
    exponent_table fl other es f -> exponent_table fl other ((w, l, v) :: es) (h :: x :: f)
| table_other ws s es f : spaced ws s -> (forall w ws', ws = w :: ws' -> other w) ->
    exponent_table fl other es f -> exponent_table fl other es (s :: f).
(** Exponents of element [el] and angular momentum [l], in order. *)
Definition chosen (el : list ascii) (l : nat) (es : list (list ascii * nat * xr)) : list xr :=
  map snd (filter (fun e => same_nameb (fst (fst e)) el && Nat.eqb (snd (fst e)) l) es).

(** Letters only. *)
Definition alphabetic (s : list ascii) : Prop := forall c, In c s -> let n := nat_of_ascii c in (65 <= n <= 90 \/ 97 <= n <= 122)%nat.

(** Sum of integers. *)
Definition zsum (l : list Z) : Z := fold_right Z.add 0%Z l.

(** Files for which the reader waits for a line that is not blank: none after the first line, or
    none after the line of the ratio. *)
Definition stuck (heavy : bool) (f : list (list ascii)) : Prop :=
  all_blank (tl f) \/
  exists b x r, tl f = b ++ x :: r /\ all_blank b /\ ~ blank x /\ all_blank (skipn (if heavy then 7 else 1) r).
