(** Model of reading the fitted models: [json.load] as in /repo/README.md:121-134. *)
From Coq Require Import Reals Ascii String List ZArith Bool.
From Verif Require Import XR PyText SpecJson.
Import ListNotations.
Local Open Scope char_scope.

(** The white space of the decoder. *)
Definition is_blank (c : ascii) : bool :=
  let n := nat_of_ascii c in Nat.eqb n 32 || Nat.eqb n 9 || Nat.eqb n 10 || Nat.eqb n 13.
Fixpoint skip (s : text) : text := match s with c :: t => if is_blank c then skip t else s | [] => [] end.

(** The digits at the beginning and the rest. *)
Fixpoint span (s : text) : text * text :=
  match s with
  | c :: t => if is_digit c then let (d, r) := span t in (c :: d, r) else ([], s)
  | [] => ([], [])
  end.
(** [int] of digits. *)
Definition nat_value (d : text) : Z := fold_left (fun a c => 10 * a + digit_val c)%Z d 0%Z.

(** The rest after the character [c]. *)
Definition eat (c : ascii) (s : text) : option text :=
  match s with a :: t => if Ascii.eqb a c then Some t else None | [] => None end.

(** Numbers match (-?(?:0|[1-9]\d* ))(\.\d+)?([eE][-+]?\d+)?; those without the optional parts are
    read by [int], the others by [float], here as decimal numbers.  README.md:127. *)
Definition read_fraction (s : text) : text * text :=
  match eat "." s with
  | Some t => let (d, r) := span t in match d with [] => ([], s) | _ => (d, r) end
  | None => ([], s)
  end.
Definition read_sign (s : text) : Z * text :=
  match eat "-" s with Some t => ((-1)%Z, t) | None => (1%Z, s) end.
Definition read_exponent (s : text) : option Z * text :=
  match s with
  | c :: t =>
      if Ascii.eqb c "e" || Ascii.eqb c "E" then
        let (z, u) := match eat "+" t with Some u => (1%Z, u) | None => read_sign t end in
        let (d, r) := span u in
        match d with [] => (None, s) | _ => (Some (z * nat_value d)%Z, r) end
      else (None, s)
  | [] => (None, s)
  end.
Definition read_json_number (s : text) : option (json * text) :=
  let (z, t) := read_sign s in
  let (d, r) := match eat "0" t with Some r => (["0"], r) | None => span t end in
  match d with
  | [] => None
  | _ =>
      let (f, r1) := read_fraction r in
      let (x, r2) := read_exponent r1 in
      match f, x with
      | [], None => Some (JInt (z * nat_value d), r2)
      | _, _ => Some (JDec (z * nat_value (d ++ f))
                           (match x with Some k => k | None => 0%Z end - Z.of_nat (length f)), r2)
      end
  end.

(** The characters up to the closing quote.  Simplified: escapes and characters outside ASCII,
    which the files do not contain, are refused.  README.md:127. *)
Fixpoint read_text (s : text) : option (text * text) :=
  match s with
  | [] => None
  | c :: t =>
      if Ascii.eqb c """" then Some ([], t)
      else if Nat.leb 32 (nat_of_ascii c) && Nat.ltb (nat_of_ascii c) 127 && negb (Ascii.eqb c "\") then
        match read_text t with Some (k, r) => Some (c :: k, r) | None => None end
      else None
  end.

(** Values, the rest of a list, the rest of an object; [n] bounds the depth of the calls.
    Simplified: true, false, null, NaN and Infinity are refused.  README.md:127. *)
Fixpoint read_value (n : nat) (s : text) {struct n} : option (json * text) :=
  match n with
  | O => None
  | S n =>
      match s with
      | [] => None
      | c :: t =>
          if Ascii.eqb c """" then
            match read_text t with Some (k, r) => Some (JStr k, r) | None => None end
          else if Ascii.eqb c "[" then
            match eat "]" (skip t) with
            | Some r => Some (JArr [], r)
            | None => match read_items n (skip t) with Some (l, r) => Some (JArr l, r) | None => None end
            end
          else if Ascii.eqb c "{" then
            match eat "}" (skip t) with
            | Some r => Some (JObj [], r)
            | None => match read_members n (skip t) with Some (l, r) => Some (JObj l, r) | None => None end
            end
          else read_json_number s
      end
  end
with read_items (n : nat) (s : text) {struct n} : option (list json * text) :=
  match n with
  | O => None
  | S n =>
      match read_value n s with
      | None => None
      | Some (j, r) =>
          match eat "," (skip r) with
          | Some u => match read_items n (skip u) with Some (l, r') => Some (j :: l, r') | None => None end
          | None => match eat "]" (skip r) with Some u => Some ([j], u) | None => None end
          end
      end
  end
with read_members (n : nat) (s : text) {struct n} : option (list (text * json) * text) :=
  match n with
  | O => None
  | S n =>
      match eat """" s with
      | None => None
      | Some t =>
          match read_text t with
          | None => None
          | Some (k, r) =>
              match eat ":" (skip r) with
              | None => None
              | Some u =>
                  match read_value n (skip u) with
                  | None => None
                  | Some (j, r1) =>
                      match eat "," (skip r1) with
                      | Some u => match read_members n (skip u) with
                                  | Some (l, r') => Some ((k, j) :: l, r') | None => None end
                      | None => match eat "}" (skip r1) with Some u => Some ([(k, j)], u) | None => None end
                      end
                  end
              end
          end
      end
  end.

(** json.load: README.md:127. *)
Definition json_load (s : text) : option json :=
  match read_value (2 * length s + 1) (skip s) with
  | Some (j, r) => match skip r with [] => Some j | _ => None end
  | None => None
  end.

(** data[k]: the last entry of that name wins.  README.md:128-133. *)
Definition json_index (j : json) (k : string) : res json :=
  match j with
  | JObj l => match List.find (fun p => text_eqb (fst p) (list_ascii_of_string k)) (rev l) with
              | Some p => Ok (snd p) | None => Raise KeyError end
  | _ => Raise TypeError
  end.

(** np.array of a list of numbers, [fl m e] being the float read from m * 10^e: README.md:132-133. *)
Definition np_number (fl : Z -> Z -> R) (j : json) : res xr :=
  match j with
  | JInt z => Ok (Fin (IZR z))
  | JDec m e => Ok (Fin (fl m e))
  | _ => Raise TypeError
  end.
Definition np_array (fl : Z -> Z -> R) (j : json) : res (list xr) :=
  match j with JArr l => mapM (np_number fl) l | _ => Raise TypeError end.

(** The example: README.md:125-133.  Returns num_s, num_p, the coefficients and the exponents.  An
    invalid file raises JSONDecodeError, a ValueError. *)
Definition load_fit (fl : Z -> Z -> R) (file : text) (element : string) : res (json * json * list xr * list xr) :=
  match json_load file with
  | None => Raise ValueError
  | Some data =>
      do d <- json_index data element;
      do ns <- json_index d "num_s"%string;
      do np <- json_index d "num_p"%string;
      do cs <- json_index d "coeffs"%string;
      do c <- np_array fl cs;
      do es <- json_index d "exps"%string;
      do e <- np_array fl es;
      Ok (ns, np, c, e)
  end.
