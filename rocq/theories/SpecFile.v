(** What reading a data file should return. *)
From Coq Require Import String Ascii List Bool Arith ZArith.
From Verif Require Import XR PyText SpecParse ModelParse.
Import ListNotations.
Local Open Scope list_scope.

(** The configuration of a file: as written, or a noble-gas core and further subshells. *)
Definition config_of (heavy : bool) (w : list ascii) (ps : list piece) : Prop :=
  if heavy then exists qs, Forall piece_ok qs /\
    ((w = str "[XE]" ++ show_all qs /\ ps = xe_pieces ++ qs) \/
     (w = str "[RN]" ++ show_all qs /\ ps = rn_pieces ++ qs))
  else w = show_all ps.

(** Orbitals of the file in order, as pairs (n, l). *)
Definition orbital_nl (Bs : list block) : list (nat * nat) :=
  flat_map (fun B => map (fun n => (n, bl_l B)) (bl_ns B)) Bs.

(** The returned dictionary [d] lists the contents [C], with configuration [ps]. *)
Record returned (C : contents) (ps : list piece) (d : slater_data) : Prop := {
  rt_conf : sd_conf d = show_all ps;
  rt_E : sd_E d = ct_E C;
  rt_T : sd_T d = ct_T C;
  rt_V : sd_V d = ct_V C;
  rt_orbs : sd_orbs d = map (fun nl => label (fst nl) (snd nl)) (orbital_nl (ct_blocks C));
  rt_energy : sd_energy d = flat_map bl_energy (ct_blocks C);
  rt_cusp : sd_cusp d = flat_map bl_cusp (ct_blocks C);
  rt_occ : Forall2 (fun nl z => exists c, electrons ps (fst nl) (snd nl) c /\ z = Z.of_nat c)
             (orbital_nl (ct_blocks C)) (sd_occ d);
  rt_block : forall B, In B (ct_blocks C) ->
    dget [l_char (bl_l B)] (sd_basis d) = Some (bl_basis B) /\
    dget [l_char (bl_l B)] (sd_exp d) = Some (map row_exp (bl_rows B)) /\
    dget [l_char (bl_l B)] (sd_nums d) = Some (map (fun r => Z.of_nat (row_n r)) (bl_rows B)) /\
    forall k, (k < length (bl_energy B))%nat ->
      dget (label (bl_l B + 1 + k) (bl_l B)) (sd_coeff d) = Some (column k B);
  rt_absent : forall l, (l <= 3)%nat -> ~ In l (map bl_l (ct_blocks C)) ->
    dget [l_char l] (sd_basis d) = Some [] /\ dget [l_char l] (sd_exp d) = None /\ dget [l_char l] (sd_nums d) = None;
  rt_keys : forall x, dget x (sd_coeff d) <> None -> In x (sd_orbs d) }.

(** Every orbital of the file is occupied in the configuration. *)
Definition all_occupied (C : contents) (ps : list piece) : Prop :=
  forall nl, In nl (orbital_nl (ct_blocks C)) -> ~ electrons ps (fst nl) (snd nl) 0.

(** Directory of the file of an atom or ion. *)
Definition place (anion cation : bool) : folder := if anion then Anion else if cation then Cation else Neutral.
