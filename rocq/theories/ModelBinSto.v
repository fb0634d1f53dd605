(** IEEE 754 arithmetic with overflow: Slater densities, the parts of the program in [ModelRnd3.v], in any
    binary format at least as wide as doubles. *)
From Coq Require Import Reals List ZArith Bool Lia.
From Flocq Require Import Core IEEE754.BinarySingleNaN.
From Verif Require Import SpecSlater SpecRnd SpecRnd3 SpecBin64 SpecBinModel SpecBinSto ModelBin64 ModelBinModel.
Import ListNotations.

Section Format.
Context {fm : format}.
(** [bexp], [bpow] and [bfact] are [np.exp], [np.power] and [scipy.special.factorial], [pi] is [np.pi] and
    [tiny] the number [1e-10], bfit/density.py:246-249,404-405. *)
Context (bexp : number fm -> number fm) (bpow : number fm -> nat -> number fm) (bfact : nat -> number fm) (pi tiny : number fm).

(** [np.sqrt], correctly rounded, bfit/density.py:246. *)
Definition b_sqrt : number fm -> number fm := @Bsqrt (digits fm) (top fm) (digits_pos fm) (digits_top fm) mode_NE.
(** [norm] of [radial_slater_orbital], bfit/density.py:246. *)
Definition b_sto_norm (z : number fm) (n : nat) : number fm :=
  b_mul (bpow (b_mul (b_lit 2 0) z) n) (b_sqrt (b_div (b_mul (b_lit 2 0) z) (bfact (2 * n)%nat))).
(** One entry of [slater], bfit/density.py:247-249. *)
Definition b_sto (z : number fm) (n : nat) (r : number fm) : number fm :=
  b_mul (b_mul (b_sto_norm z n) (bpow r (n - 1))) (bexp (b_mul (Bopp z) r)).
(** [np.abs(points) < 1e-10], bfit/density.py:405,443. *)
Definition b_origin (r : number fm) : bool := Bltb (Babs r) tiny.
(** One entry of [deriv_pref] and of [deriv], bfit/density.py:403-407. *)
Definition b_dpref (z : number fm) (n : nat) (r : number fm) : number fm :=
  if b_origin r then b_zero else b_sub (b_div (b_lit (Z.of_nat n - 1) 0) r) z.
Definition b_dsto (z : number fm) (n : nat) (r : number fm) : number fm := b_mul (b_dpref z n r) (b_sto z n r).

(** One entry of [phi_matrix], bfit/density.py:291-299; the order of the products may depend on the
    subshell. *)
Definition b_phi (fu : subshell -> nat -> bool) (to : subshell -> order) (s : bshell fm) (r : number fm) : number fm :=
  b_dot (fu (worth s)) (to (worth s)) (map (fun '(c, z, n) => b_sto z n r) (h_exp s)) (map (fun '(c, z, n) => c) (h_exp s)).
Definition b_dphi (fu : subshell -> nat -> bool) (to : subshell -> order) (s : bshell fm) (r : number fm) : number fm :=
  b_dot (fu (worth s)) (to (worth s)) (map (fun '(c, z, n) => b_dsto z n r) (h_exp s)) (map (fun '(c, z, n) => c) (h_exp s)).

(** [orb_homo] and [orb_occs], bfit/density.py:350-356; [x ** 2] is the product [x * x]. *)
Definition b_share (h : number fm) (s : bshell fm) : number fm :=
  let x := b_sub (h_en s) h in bexp (Bopp (b_mul x x)).
Definition b_weight (m : part) (h : number fm) (s : bshell fm) : number fm :=
  match m with
  | Total => h_occ s
  | Valence => b_mul (h_occ s) (b_share h s)
  | Core => b_mul (h_occ s) (b_sub (b_lit 1 0) (b_share h s))
  end.

(** [atomic_density] at one point, bfit/density.py:346-359. *)
Definition b_density (m : part) (fu : subshell -> nat -> bool) (to : subshell -> order)
    (fused : nat -> bool) (t : order) (L : list (bshell fm)) (r : number fm) : number fm :=
  b_div (b_dot fused t (map (fun s => b_mul (b_phi fu to s r) (b_phi fu to s r)) L)
           (map (b_weight m (last (map h_en L) b_zero)) L)) (b_mul (b_lit 4 0) pi).

(** [derivative_density] at one point, bfit/density.py:466-468. *)
Definition b_derivative (fu : subshell -> nat -> bool) (to : subshell -> order)
    (fused : nat -> bool) (t : order) (L : list (bshell fm)) (r : number fm) : number fm :=
  b_div (b_dot fused t (map (fun s => b_mul (b_lit 2 0) (b_mul (b_phi fu to s r) (b_dphi fu to s r))) L) (map h_occ L)) (b_mul (b_lit 4 0) pi).

(** One entry of [phi_matrix] of [positive_definite_kinetic_energy], bfit/density.py:430-445. *)
Definition b_kinetic_term (fu : subshell -> nat -> bool) (to : subshell -> order) (s : bshell fm) (r : number fm) : number fm :=
  let d := b_dphi fu to s r in
  let p := b_phi fu to s r in
  let g := if b_origin r then b_zero
           else b_div (b_mul (b_lit (Z.of_nat (h_l s) * (Z.of_nat (h_l s) + 1)) 0) (b_mul p p)) (b_mul r r) in
  b_add (b_mul d d) g.
(** [positive_definite_kinetic_energy] at one point, bfit/density.py:447-449. *)
Definition b_kinetic (fu : subshell -> nat -> bool) (to : subshell -> order)
    (fused : nat -> bool) (t : order) (L : list (bshell fm)) (r : number fm) : number fm :=
  b_div (b_div (b_dot fused t (map (fun s => b_kinetic_term fu to s r) L) (map h_occ L)) (b_lit 2 0)) (b_mul (b_lit 4 0) pi).
End Format.

(** Powers and factorials that are correctly rounded, in place of those of bfit/density.py:246-247. *)
Definition ideal_ipow (fm : format) (x : number fm) (n : nat) : number fm := nearest fm (value x ^ n).
Definition ideal_fact (fm : format) (n : nat) : number fm := nearest fm (INR (fact n)).
