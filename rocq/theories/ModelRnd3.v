(** Rounded arithmetic: what [SlaterAtoms] computes when every operation on reals is followed by a
    rounding [rnd].  There is no overflow.  Numbers of occupied orbitals, energies and expansions
    are those of the record [subshell]; the arrays have fitting shapes. *)
From Coq Require Import Reals List ZArith.
From Verif Require Import SpecSlater SpecRnd SpecRnd3 ModelRnd.
Import ListNotations.
Local Open Scope R_scope.

Section Rounded.
(** [fexp], [fpow] and [ffact] are [np.exp], [np.power] and [scipy.special.factorial], [pi] is
    [np.pi] and [tiny] the number [1e-10]; square roots are correctly rounded (IEEE 754). *)
Context (rnd fexp : R -> R) (fpow : R -> nat -> R) (ffact : nat -> R) (pi tiny : R).

(** [norm] of [radial_slater_orbital], bfit/density.py:246. *)
Definition fl_sto_norm (z : R) (n : nat) : R :=
  rnd (fpow (rnd (2 * z)) n * rnd (sqrt (rnd (rnd (2 * z) / ffact (2 * n)%nat)))).
(** One entry of [slater], bfit/density.py:247-249. *)
Definition fl_sto (z : R) (n : nat) (r : R) : R :=
  rnd (rnd (fl_sto_norm z n * fpow r (n - 1)) * fexp (rnd (- z * r))).
(** One entry of [deriv_pref] and of [deriv], bfit/density.py:403-407; [number - 1] is a small
    integer and not rounded. *)
Definition fl_dpref (z : R) (n : nat) (r : R) : R :=
  if Rlt_dec (Rabs r) tiny then 0 else rnd (rnd ((INR n - 1) / r) - z).
Definition fl_dsto (z : R) (n : nat) (r : R) : R := rnd (fl_dpref z n r * fl_sto z n r).

(** One entry of [phi_matrix], bfit/density.py:291-299; the order of the products of the orbital [s]
    is [to s]. *)
Definition fl_phi (fu : subshell -> nat -> bool) (to : subshell -> order) (s : subshell) (r : R) : R :=
  fl_dot rnd (fu s) (to s) (map (fun '(c, z, n) => fl_sto z n r) (s_exp s)) (map (fun '(c, z, n) => c) (s_exp s)).
Definition fl_dphi (fu : subshell -> nat -> bool) (to : subshell -> order) (s : subshell) (r : R) : R :=
  fl_dot rnd (fu s) (to s) (map (fun '(c, z, n) => fl_dsto z n r) (s_exp s)) (map (fun '(c, z, n) => c) (s_exp s)).

(** [orb_homo], the energy of the last orbital, and [orb_occs], bfit/density.py:350-356. *)
Definition fl_share (h : R) (s : subshell) : R :=
  let x := rnd (s_en s - h) in fexp (- rnd (x * x)).
Definition fl_weight (m : part) (h : R) (s : subshell) : R :=
  match m with
  | Total => s_occ s
  | Valence => rnd (s_occ s * fl_share h s)
  | Core => rnd (s_occ s * rnd (1 - fl_share h s))
  end.

(** [atomic_density] at one point, bfit/density.py:346-359. *)
Definition fl_density (m : part) (fu : subshell -> nat -> bool) (to : subshell -> order)
    (fused : nat -> bool) (t : order) (L : list subshell) (r : R) : R :=
  rnd (fl_dot rnd fused t (map (fun s => rnd (fl_phi fu to s r * fl_phi fu to s r)) L)
         (map (fl_weight m (last (map s_en L) 0)) L) / rnd (4 * pi)).

(** [derivative_density] at one point, bfit/density.py:466-468. *)
Definition fl_derivative (fu : subshell -> nat -> bool) (to : subshell -> order)
    (fused : nat -> bool) (t : order) (L : list subshell) (r : R) : R :=
  rnd (fl_dot rnd fused t (map (fun s => rnd (2 * rnd (fl_phi fu to s r * fl_dphi fu to s r))) L)
         (map s_occ L) / rnd (4 * pi)).

(** One entry of [phi_matrix] of [positive_definite_kinetic_energy], bfit/density.py:430-445; the
    table [angular] has l (l + 1). *)
Definition fl_kinetic_term (fu : subshell -> nat -> bool) (to : subshell -> order) (s : subshell) (r : R) : R :=
  let d := fl_dphi fu to s r in
  let p := fl_phi fu to s r in
  let g := if Rlt_dec (Rabs r) tiny then 0
           else rnd (rnd (INR (s_l s) * (INR (s_l s) + 1) * rnd (p * p)) / rnd (r * r)) in
  rnd (rnd (d * d) + g).
(** [positive_definite_kinetic_energy] at one point, bfit/density.py:447-449. *)
Definition fl_kinetic (fu : subshell -> nat -> bool) (to : subshell -> order)
    (fused : nat -> bool) (t : order) (L : list subshell) (r : R) : R :=
  rnd (rnd (fl_dot rnd fused t (map (fun s => fl_kinetic_term fu to s r) L) (map s_occ L) / 2) / rnd (4 * pi)).

End Rounded.
