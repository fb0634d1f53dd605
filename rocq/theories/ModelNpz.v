(** Model of reading an .npz file as in /repo/README.md:104-118: [np.load] (the zip archive and the .npy
    members inside it) and indexing.  NumPy and zipfile are libraries; their part used here is given for
    archives as [np.savez] writes them: no archive comment, no compression or encryption, no Zip64 records,
    arrays of 64-bit integers or floats with no or one axis.  [None] stands for every other file. *)
From Coq Require Import Reals NArith ZArith List Bool Ascii String.
From Verif Require Import XR PyText.
Import ListNotations.
Local Open Scope N_scope.
Local Open Scope bool_scope.

(** A byte string: numbers below 256. *)
Definition bytes := list N.
(** The bytes of a text in ASCII. *)
Definition of_text (t : text) : bytes := map N_of_ascii t.
Definition raw (s : string) : bytes := of_text (list_ascii_of_string s).

Fixpoint bytes_eqb (a b : bytes) : bool :=
  match a, b with
  | [], [] => true
  | x :: a, y :: b => (x =? y) && bytes_eqb a b
  | _, _ => false
  end.

(** [struct.unpack("<H")], ["<L"], ["<Q"]: the least significant byte first. *)
Fixpoint le (b : bytes) : N := match b with [] => 0 | x :: b => x + 256 * le b end.

(** [fp.read(n)] where all n bytes are needed; the rest follows. *)
Fixpoint take (n : nat) (s : bytes) : option (bytes * bytes) :=
  match n, s with
  | O, _ => Some ([], s)
  | S n, x :: s => match take n s with Some (a, r) => Some (x :: a, r) | None => None end
  | S _, [] => None
  end.
(** An unsigned number of k bytes. *)
Definition num (k : nat) (s : bytes) : option (N * bytes) :=
  match take k s with Some (a, r) => Some (le a, r) | None => None end.
(** A fixed prefix. *)
Fixpoint expect (p s : bytes) : option bytes :=
  match p, s with
  | [], _ => Some s
  | x :: p, y :: s => if x =? y then expect p s else None
  | _ :: _, [] => None
  end.

Local Notation "'let!' x := r 'in' k" := (match r with Some x => k | None => None end)
  (at level 200, x pattern, r at level 100, k at level 200).

(** [zlib.crc32]: bit by bit, the low bit first. *)
Definition crc_bit (c : N) : N := if N.odd c then N.lxor (N.div2 c) 3988292384 else N.div2 c.
Definition crc_byte (c x : N) : N := Nat.iter 8 crc_bit (N.lxor c x).
Definition crc32 (s : bytes) : N := N.lxor (fold_left crc_byte s 4294967295) 4294967295.

(** One record of the central directory (zipfile.ZipInfo). *)
Record entry := mkEntry { e_name : bytes; e_crc : N; e_size : N; e_offset : N }.

(** A central directory record: zipfile.ZipFile._RealGetContents.  Flags and method must be 0. *)
Definition directory_entry (s : bytes) : option (entry * bytes) :=
  let! s := expect (raw "PK" ++ [1; 2]) s in
  let! (_, s) := num 4 s in
  let! (flags, s) := num 2 s in
  let! (method, s) := num 2 s in
  let! (_, s) := num 4 s in
  let! (crc, s) := num 4 s in
  let! (csize, s) := num 4 s in
  let! (size, s) := num 4 s in
  let! (n, s) := num 2 s in
  let! (x, s) := num 2 s in
  let! (c, s) := num 2 s in
  let! (_, s) := num 8 s in
  let! (offset, s) := num 4 s in
  let! (name, s) := take (N.to_nat n) s in
  let! (_, s) := take (N.to_nat x + N.to_nat c) s in
  if (flags =? 0) && (method =? 0) && (csize =? size) then Some (mkEntry name crc size offset, s) else None.

(** The whole central directory; [fuel] bounds the number of records. *)
Fixpoint directory (fuel : nat) (s : bytes) : option (list entry) :=
  match s with
  | [] => Some []
  | _ => match fuel with
         | O => None
         | S fuel => let! (e, s) := directory_entry s in
                     let! l := directory fuel s in Some (e :: l)
         end
  end.

(** The end record in the last 22 bytes, then the directory: zipfile._EndRecData, _RealGetContents. *)
Definition npz_open (s : bytes) : option (list entry) :=
  if Nat.ltb (List.length s) 22 then None else
  let at_end := (List.length s - 22)%nat in
  let! e := expect (raw "PK" ++ [5; 6; 0; 0; 0; 0]) (skipn at_end s) in
  let! (here, e) := num 2 e in
  let! (total, e) := num 2 e in
  let! (size, e) := num 4 e in
  let! (offset, e) := num 4 e in
  let! (comment, e) := num 2 e in
  if negb ((comment =? 0) && (here =? total) && (size + offset =? N.of_nat at_end)) then None else
  let! (d, _) := take (N.to_nat size) (skipn (N.to_nat offset) s) in
  let! l := directory (List.length d) d in
  if N.of_nat (List.length l) =? total then Some l else None.

(** The bytes of a member: zipfile.ZipFile.open and read, with the check of the name and of the CRC. *)
Definition member (s : bytes) (e : entry) : option bytes :=
  let! s := expect (raw "PK" ++ [3; 4]) (skipn (N.to_nat (e_offset e)) s) in
  let! (_, s) := num 2 s in
  let! (flags, s) := num 2 s in
  let! (method, s) := num 2 s in
  let! (_, s) := num 16 s in
  let! (n, s) := num 2 s in
  let! (x, s) := num 2 s in
  let! (name, s) := take (N.to_nat n) s in
  let! (_, s) := take (N.to_nat x) s in
  let! (d, _) := take (N.to_nat (e_size e)) s in
  if (flags =? 0) && (method =? 0) && bytes_eqb name (e_name e) && (crc32 d =? e_crc e) then Some d else None.

(** An array: its kind, whether it has an axis, its 64-bit words. *)
Inductive kind := Int64 | Float64.
Record nparray := mkArray { a_kind : kind; a_axis : bool; a_words : list N }.

(** Decimal digits at the beginning of a text. *)
Fixpoint digits (acc : N) (s : bytes) : N * bytes :=
  match s with
  | x :: r => if (48 <=? x) && (x <=? 57) then digits (10 * acc + (x - 48)) r else (acc, s)
  | [] => (acc, s)
  end.

(** [count] words of 8 bytes. *)
Fixpoint words (count : nat) (s : bytes) : option (list N * bytes) :=
  match count with
  | O => Some ([], s)
  | S count => let! (w, s) := num 8 s in
               let! (l, s) := words count s in Some (w :: l, s)
  end.

(** The dictionary of the header, as numpy.lib.format writes it. *)
Definition header (s : bytes) : option (kind * bool * nat) :=
  let! s := expect (raw "{'descr': '<") s in
  let! (k, s) := match expect (raw "f8") s with
                 | Some s => Some (Float64, s)
                 | None => match expect (raw "i8") s with Some s => Some (Int64, s) | None => None end
                 end in
  let! s := expect (raw "', 'fortran_order': False, 'shape': (") s in
  let! (ax, n, s) := match expect (raw ")") s with
                     | Some s => Some (false, 1, s)
                     | None => let (n, s) := digits 0 s in
                               let! s := expect (raw ",)") s in Some (true, n, s)
                     end in
  let! s := expect (raw ", }") s in
  if forallb (fun x => (x =? 32) || (x =? 10)) s then Some (k, ax, N.to_nat n) else None.

(** numpy.lib.format.read_array, version 1.0. *)
Definition npy_read (s : bytes) : option nparray :=
  let! s := expect (147 :: raw "NUMPY" ++ [1; 0]) s in
  let! (n, s) := num 2 s in
  let! (h, s) := take (N.to_nat n) s in
  let! (k, ax, count) := header h in
  let! (l, s) := words count s in
  match s with [] => Some (mkArray k ax l) | _ => None end.

(** [results[key]]: the member [key] or [key].npy, the last of the name; KeyError without one. *)
Definition find_entry (l : list entry) (key : text) : option entry :=
  match List.find (fun e => bytes_eqb (e_name e) (of_text key)) (rev l) with
  | Some e => Some e
  | None => List.find (fun e => bytes_eqb (e_name e) (of_text key ++ raw ".npy")) (rev l)
  end.
Definition npz_get (s : bytes) (l : list entry) (key : text) : option (res nparray) :=
  match find_entry l key with
  | None => Some (Raise KeyError)
  | Some e => let! d := member s e in
              let! a := npy_read d in Some (Ok a)
  end.

(** The number a word stands for: numpy int64 and float64. *)
Definition int64 (w : N) : Z := if w <? 2 ^ 63 then Z.of_N w else (Z.of_N w - 2 ^ 64)%Z.
Definition float64 (w : N) : xr :=
  let sign := if N.testbit w 63 then (-1)%R else 1%R in
  let ex := N.land (N.shiftr w 52) 2047 in
  let fr := N.land w 4503599627370495 in
  if ex =? 2047 then (if fr =? 0 then (if N.testbit w 63 then NInf else PInf) else NaN)
  else if ex =? 0 then Fin (sign * IZR (Z.of_N fr) * powerRZ 2 (-1074))
  else Fin (sign * IZR (Z.of_N (fr + 4503599627370496)) * powerRZ 2 (Z.of_N ex - 1075)).

(** The four arrays of the example, README.md:107-112, with the element in the place of "be": num_s, num_p,
    the coefficients and the exponents. *)
Definition load_npz (s : bytes) (element : string) : option (res (nparray * nparray * nparray * nparray)) :=
  let! l := npz_open s in
  let get k := npz_get s l (list_ascii_of_string (element ++ k)) in
  match get "_num_s"%string with
  | Some (Ok a) =>
      match get "_num_p"%string with
      | Some (Ok b) =>
          match get "_coeffs"%string with
          | Some (Ok c) =>
              match get "_exps"%string with
              | Some (Ok e) => Some (Ok (a, b, c, e))
              | Some (Raise x) => Some (Raise x)
              | None => None
              end
          | Some (Raise x) => Some (Raise x)
          | None => None
          end
      | Some (Raise x) => Some (Raise x)
      | None => None
      end
  | Some (Raise x) => Some (Raise x)
  | None => None
  end.
