(** The periodic table, and the ions and layouts by atomic number. *)
From Coq Require Import String Ascii List.
From Verif Require Import PyText SpecParse.
Import ListNotations.
Local Open Scope string_scope.

Definition symbols : list string :=
  ["H"; "He";
   "Li"; "Be"; "B"; "C"; "N"; "O"; "F"; "Ne";
   "Na"; "Mg"; "Al"; "Si"; "P"; "S"; "Cl"; "Ar";
   "K"; "Ca"; "Sc"; "Ti"; "V"; "Cr"; "Mn"; "Fe"; "Co"; "Ni"; "Cu"; "Zn"; "Ga"; "Ge"; "As"; "Se"; "Br"; "Kr";
   "Rb"; "Sr"; "Y"; "Zr"; "Nb"; "Mo"; "Tc"; "Ru"; "Rh"; "Pd"; "Ag"; "Cd"; "In"; "Sn"; "Sb"; "Te"; "I"; "Xe";
   "Cs"; "Ba"; "La"; "Ce"; "Pr"; "Nd"; "Pm"; "Sm"; "Eu"; "Gd"; "Tb"; "Dy"; "Ho"; "Er"; "Tm"; "Yb"; "Lu";
   "Hf"; "Ta"; "W"; "Re"; "Os"; "Ir"; "Pt"; "Au"; "Hg"; "Tl"; "Pb"; "Bi"; "Po"; "At"; "Rn";
   "Fr"; "Ra"; "Ac"; "Th"; "Pa"; "U"; "Np"; "Pu"; "Am"; "Cm"; "Bk"; "Cf"; "Es"; "Fm"; "Md"; "No"; "Lr"].
Local Open Scope nat_scope.

(** [s], in any case, is the symbol of element number [Z]. *)
Definition element (s : string) (Z : nat) : Prop :=
  1 <= Z /\ exists t, nth_error symbols (Z - 1) = Some t /\ same_name (str s) (str t).

(** The layout of heavy elements: from cesium on. *)
Definition heavy_element (s : string) : Prop := exists Z, element s Z /\ 55 <= Z.
(** Cations: from lithium to cesium. *)
Definition cation_offered (s : string) : Prop := exists Z, element s Z /\ 3 <= Z <= 55.
(** Anions: up to iodine, but for the noble gases and the groups of beryllium and zinc. *)
Definition anion_offered (s : string) : Prop :=
  exists Z, element s Z /\ Z <= 53 /\ ~ In Z ([2; 10; 18; 36] ++ [4; 12; 20; 38] ++ [30; 48]).
