(** Model of /repo/bfit/density.py (SlaterAtoms). *)
From Coq Require Import Reals List ZArith Bool.
From Verif Require Import XR.
Import ListNotations.
Local Open Scope R_scope.

(** Subshell letters "S", "P", "D", "F" (second character of an orbital label). *)
Inductive shell := LS | LP | LD | LF.
(** Orbital label such as "2P": digit and letter (density.py:292-293). *)
Definition label := (nat * shell)%type.

(** The parsed data used by the methods: density.py:89-101.  A dictionary is a function
    returning None for a missing key.  Columns of shape (M, 1) are lists; numbers in the file
    are finite. *)
Record atom := mkAtom {
  at_orbitals : list label;
  at_occ : list R;
  at_energy : list R;
  at_exps : shell -> option (list R);
  at_nums : shell -> option (list nat);
  at_coeff : label -> option (list R) }.

(** Norm: density.py:246. *)
Definition slater_norm (z : R) (n : nat) : xr :=
  xmul (xpow (Fin (2 * z)) (INR n)) (xsqrt (xdiv (Fin (2 * z)) (Fin (INR (fact (2 * n)))))).

(** One entry of radial_slater_orbital: density.py:246-249. *)
Definition slater (z : R) (n : nat) (r : xr) : xr :=
  xmul (xmul (slater_norm z n) (xpow r (IZR (Z.of_nat n - 1)))) (xexp (xmul (Fin (- z)) r)).

(** One entry of derivative_radial_slater_type_orbital: density.py:401-408. *)
Definition slater_deriv (z : R) (n : nat) (r : xr) : xr :=
  let pref := if xltb (xabs r) (Fin (/ 10 ^ 10)) then Fin 0
              else xsub (xdiv (Fin (INR n - 1)) r) (Fin z) in
  xmul pref (slater z n r).

(** NumPy broadcasting of two columns: equal lengths, or a column of length one is repeated;
    otherwise ValueError (density.py:246-249, 353, 356). *)
Definition stretch {A B} (l : list A) (m : list B) : res (list A * list B) :=
  if Nat.eqb (length l) (length m) then Ok (l, m)
  else match l, m with
       | [x], _ => Ok (repeat x (length m), m)
       | _, [y] => Ok (l, repeat y (length l))
       | _, _ => Raise ValueError
       end.

(** radial_slater_orbital and derivative_radial_slater_type_orbital on arrays, one row per
    point: density.py:243-250, 401-408. *)
Definition slater_matrix (deriv : bool) (zs : list R) (ns : list nat) (points : ndarray)
  : res (list (list xr)) :=
  match points with
  | A2 _ _ => Raise ValueError
  | A1 pts =>
      do p <- stretch zs ns;
      Ok (map (fun r => map2 (fun z n => if deriv then slater_deriv z n r else slater z n r)
                             (fst p) (snd p)) pts)
  end.

(** Dictionary access raises KeyError. *)
Definition lookup {A} (o : option A) : res A :=
  match o with Some a => Ok a | None => Raise KeyError end.

(** One column of phi_matrix: density.py:293-298.  [np.dot] compares the number of columns with
    the number of coefficients. *)
Definition phi_column (a : atom) (deriv : bool) (o : label) (points : ndarray) : res (list xr) :=
  do zs <- lookup (at_exps a (snd o));
  do ns <- lookup (at_nums a (snd o));
  do m <- slater_matrix deriv zs ns points;
  do c <- lookup (at_coeff a o);
  do p <- stretch zs ns;
  if Nat.eqb (length (fst p)) (length c)
  then Ok (map (fun row => xdot row (map Fin c)) m)
  else Raise ValueError.

(** phi_matrix: density.py:291-299, kept as the list of its columns. *)
Definition phi_matrix (a : atom) (points : ndarray) (deriv : bool) : res (list (list xr)) :=
  mapM (fun o => phi_column a deriv o points) (at_orbitals a).

(** Number of rows, [len(points)]. *)
Definition nrows (points : ndarray) : nat :=
  match points with A1 l => length l | A2 _ l => length l end.

(** [np.dot(m, occ).ravel()] with [m] given by columns of length [n]. *)
Definition cols_dot (n : nat) (cols : list (list xr)) (occ : list xr) : res (list xr) :=
  if Nat.eqb (length cols) (length occ)
  then Ok (fold_right (map2 xadd) (repeat (Fin 0) n)
             (map2 (fun col w => map (fun x => xmul x w) col) cols occ))
  else Raise ValueError.

(** The argument mode. *)
Inductive dmode := MTotal | MValence | MCore | MOther.

(** [energy[len(occ) - 1]]: density.py:352, 355 (index -1 is the last entry). *)
Definition homo (a : atom) : res R :=
  let i := match length (at_occ a) with O => pred (length (at_energy a)) | S k => k end in
  match nth_error (at_energy a) i with Some e => Ok e | None => Raise IndexError end.

(** Occupation numbers scaled by mode: density.py:350-356. *)
Definition scaled_occ (a : atom) (mode : dmode) : res (list xr) :=
  match mode with
  | MTotal => Ok (map Fin (at_occ a))
  | MOther => Raise ValueError
  | _ =>
      do h <- homo a;
      do p <- stretch (at_occ a) (at_energy a);
      Ok (map2 (fun n e =>
            let w := exp (- (e - h) ^ 2) in
            Fin (n * match mode with MValence => w | _ => 1 - w end))
          (fst p) (snd p))
  end.

(** atomic_density: density.py:346-359. *)
Definition atomic_density (a : atom) (points : ndarray) (mode : dmode) : res (list xr) :=
  do occ <- scaled_occ a mode;
  do phi <- phi_matrix a points false;
  do s <- cols_dot (nrows points) (map (map xsq) phi) occ;
  Ok (map (fun x => xdiv x (Fin (4 * PI))) s).

(** derivative_density: density.py:466-468. *)
Definition derivative_density (a : atom) (points : ndarray) : res (list xr) :=
  do phi <- phi_matrix a points false;
  do dphi <- phi_matrix a points true;
  do s <- cols_dot (nrows points)
            (map2 (map2 (fun x y => xmul (Fin 2) (xmul x y))) phi dphi) (map Fin (at_occ a));
  Ok (map (fun x => xdiv x (Fin (4 * PI))) s).

(** l(l+1) table: density.py:426-428. *)
Definition angular (l : shell) : R :=
  match l with LS => 0 | LP => 2 | LD => 6 | LF => 12 end.

(** One column of the kinetic energy loop: density.py:430-445. *)
Definition kinetic_column (a : atom) (o : label) (points : ndarray) : res (list xr) :=
  do d <- phi_column a true o points;
  do p <- phi_column a false o points;
  let pts := match points with A1 l => l | A2 _ _ => [] end in
  Ok (map2 (fun '(x, y) r =>
        xadd (xsq x)
             (if xltb (xabs r) (Fin (/ 10 ^ 10)) then Fin 0
              else xdiv (xmul (Fin (angular (snd o))) (xsq y)) (xsq r)))
      (combine d p) pts).

(** positive_definite_kinetic_energy: density.py:425-449. *)
Definition kinetic_energy (a : atom) (points : ndarray) : res (list xr) :=
  do m <- mapM (fun o => kinetic_column a o points) (at_orbitals a);
  do s <- cols_dot (nrows points) m (map Fin (at_occ a));
  Ok (map (fun x => xdiv (xdiv x (Fin 2)) (Fin (4 * PI))) s).
