(** Archives of stored files with extra fields and comments (the ZIP format of PKWARE, without encryption, compression,
    data descriptors and 64-bit records). *)
From Coq Require Import NArith ZArith List Bool Ascii String.
From Verif Require Import PyText ModelNpz SpecNpz.
Import ListNotations.
Local Open Scope N_scope.

(** A stored file: name and bytes; versions (2 and 4 bytes), date and time, what the header of the file says of sum and
    sizes (12 bytes, not used), attributes (8 bytes); extra fields in the header of the file and in the directory; comment. *)
Record stored := mkStored {
  z_name : bytes; z_data : bytes;
  z_needed : bytes; z_made : bytes; z_time : bytes; z_sums : bytes; z_attr : bytes;
  z_extra : bytes; z_extra2 : bytes; z_comment : bytes }.
Definition stored_file (z : stored) : bytes :=
  raw "PK" ++ [3; 4] ++ z_needed z ++ [0; 0; 0; 0] ++ z_time z ++ z_sums z ++ enc 2 (count (z_name z)) ++ enc 2 (count (z_extra z)) ++
  z_name z ++ z_extra z ++ z_data z.
Definition stored_record (offset : N) (z : stored) : bytes :=
  raw "PK" ++ [1; 2] ++ z_made z ++ [0; 0; 0; 0] ++ z_time z ++ enc 4 (crc32 (z_data z)) ++ enc 4 (count (z_data z)) ++ enc 4 (count (z_data z)) ++
  enc 2 (count (z_name z)) ++ enc 2 (count (z_extra2 z)) ++ enc 2 (count (z_comment z)) ++ z_attr z ++ enc 4 offset ++
  z_name z ++ z_extra2 z ++ z_comment z.
Fixpoint stored_directory (offset : N) (l : list stored) : bytes :=
  match l with
  | [] => []
  | z :: l => stored_record offset z ++ stored_directory (offset + count (stored_file z)) l
  end.
Definition archive (l : list stored) : bytes :=
  let files := List.concat (map stored_file l) in let dir := stored_directory 0 l in
  files ++ dir ++ zip_end (count l) (count dir) (count files).
(** Fields of the right sizes. *)
Definition stored_ok (z : stored) : Prop :=
  List.length (z_needed z) = 2%nat /\ List.length (z_made z) = 4%nat /\ List.length (z_time z) = 4%nat /\ List.length (z_sums z) = 12%nat /\
  List.length (z_attr z) = 8%nat /\ count (z_name z) < 2 ^ 16 /\ count (z_extra z) < 2 ^ 16 /\ count (z_extra2 z) < 2 ^ 16 /\ count (z_comment z) < 2 ^ 16 /\
  Forall (fun x => x < 256) (z_data z).
Definition archive_fits (l : list stored) : Prop := Forall stored_ok l /\ count l < 2 ^ 16 /\ count (archive l) < 2 ^ 32.
