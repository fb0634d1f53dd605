(** What an .npz file is: the bytes that [np.savez] writes (as in /repo/examples/atomdb_db.py:115) for
    named arrays of 64-bit integers or floats with no or one axis. *)
From Coq Require Import NArith ZArith List Bool Ascii String.
From Verif Require Import PyText ModelNpz.
Import ListNotations.
Local Open Scope N_scope.

(** A number in k bytes, the least significant first. *)
Fixpoint enc (k : nat) (n : N) : bytes :=
  match k with O => [] | S k => n mod 256 :: enc k (n / 256) end.
(** The decimal digits of a number; [fuel] is at least their number. *)
Fixpoint decimal_digits (fuel : nat) (n : N) : bytes :=
  match fuel with
  | O => []
  | S fuel => if n <? 10 then [48 + n] else decimal_digits fuel (n / 10) ++ [48 + n mod 10]
  end.
Definition decimal (n : N) : bytes := decimal_digits (S (N.to_nat (N.log2 n))) n.
Definition count {A} (l : list A) : N := N.of_nat (List.length l).

(** The .npy file: a header padded to a multiple of 64 bytes, then the words. *)
Definition npy_header (a : nparray) : bytes :=
  raw "{'descr': '<" ++ raw (match a_kind a with Int64 => "i8" | Float64 => "f8" end) ++
  raw "', 'fortran_order': False, 'shape': (" ++ (if a_axis a then decimal (count (a_words a)) ++ raw "," else []) ++ raw "), }".
Definition npy (a : nparray) : bytes :=
  let h := npy_header a in
  let pad := (64 - (List.length h + 11) mod 64)%nat in
  147 :: raw "NUMPY" ++ [1; 0] ++ enc 2 (count h + N.of_nat pad + 1) ++ h ++ repeat 32 pad ++ [10] ++
  List.concat (map (enc 8) (a_words a)).

(** The member, its directory record and the end record of the zip archive. *)
Definition file_name (t : text) : bytes := of_text t ++ raw ".npy".
Definition fields (n d : bytes) (x : N) : bytes :=
  [20; 0; 0; 0; 0; 0; 0; 0; 33; 0] ++ enc 4 (crc32 d) ++ enc 4 (count d) ++ enc 4 (count d) ++ enc 2 (count n) ++ enc 2 x.
Definition zip_member (v : text * nparray) : bytes :=
  let n := file_name (fst v) in let d := npy (snd v) in
  raw "PK" ++ [3; 4] ++ fields n d 20 ++ n ++ [1; 0; 16; 0] ++ enc 8 (count d) ++ enc 8 (count d) ++ d.
Definition zip_record (offset : N) (v : text * nparray) : bytes :=
  let n := file_name (fst v) in
  raw "PK" ++ [1; 2; 20; 3] ++ fields n (npy (snd v)) 0 ++ [0; 0; 0; 0; 0; 0; 0; 0; 128; 1] ++ enc 4 offset ++ n.
Fixpoint zip_directory (offset : N) (l : list (text * nparray)) : bytes :=
  match l with
  | [] => []
  | v :: l => zip_record offset v ++ zip_directory (offset + count (zip_member v)) l
  end.
Definition zip_end (n size offset : N) : bytes :=
  raw "PK" ++ [5; 6; 0; 0; 0; 0] ++ enc 2 n ++ enc 2 n ++ enc 4 size ++ enc 4 offset ++ [0; 0].
Definition savez (l : list (text * nparray)) : bytes :=
  let files := List.concat (map zip_member l) in let dir := zip_directory 0 l in
  files ++ dir ++ zip_end (count l) (count dir) (count files).

(** Arrays of 64-bit words; one without an axis has a single word. *)
Definition proper (a : nparray) : Prop :=
  (a_axis a = false -> List.length (a_words a) = 1%nat) /\ Forall (fun w => w < 2 ^ 64) (a_words a).
(** What [np.savez] is given: different names, none of which is another one with ".npy" behind it; sizes
    for which zip needs no 64-bit records. *)
Definition savable (l : list (text * nparray)) : Prop :=
  NoDup (map fst l) /\
  (forall n, In n (map fst l) -> ~ In (n ++ list_ascii_of_string ".npy") (map fst l)) /\
  Forall (fun v => proper (snd v) /\ count (fst v) < 65000) l /\ count l < 2 ^ 16 /\ count (savez l) < 2 ^ 32.
