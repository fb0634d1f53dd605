(** A damaged .npz file, and the numbers that words of 64 bits stand for. *)
From Coq Require Import NArith ZArith List Bool Ascii String Reals.
From Flocq Require Import IEEE754.Binary IEEE754.Bits.
From Verif Require Import XR PyText ModelNpz SpecNpz.
Import ListNotations.
Local Open Scope N_scope.

(** The bytes of a member before its .npy file. *)
Definition member_start (v : text * nparray) : bytes :=
  let n := file_name (fst v) in let d := npy (snd v) in
  raw "PK" ++ [3; 4] ++ fields n d 20 ++ n ++ [1; 0; 16; 0] ++ enc 8 (count d) ++ enc 8 (count d).
(** The archive of [l1 ++ v :: l2] with the bytes [d] in the place of the .npy file of [v]. *)
Definition with_data (l1 : list (text * nparray)) (v : text * nparray) (d : bytes) (l2 : list (text * nparray)) : bytes :=
  let l := (l1 ++ v :: l2)%list in let dir := zip_directory 0 l in
  (List.concat (map zip_member l1) ++ member_start v ++ d ++ List.concat (map zip_member l2)) ++
  dir ++ zip_end (count l) (count dir) (count (List.concat (map zip_member l))).
(** Two byte strings that differ in one byte. *)
Definition one_byte_apart (u w : bytes) : Prop :=
  exists p x y q, u = p ++ x :: q /\ w = p ++ y :: q /\ x <> y /\ x < 256 /\ y < 256.

(** The extended real number of a double. *)
Definition double_value (x : binary64) : xr :=
  match x with
  | B754_infinity _ _ s => if s then NInf else PInf
  | B754_nan _ _ _ _ _ => NaN
  | _ => Fin (B2R 53 1024 x)
  end.
