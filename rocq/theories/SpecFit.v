(** What the fit properties say, without reference to the fitting code. *)
From Coq Require Import Reals List ZArith Bool.
From Verif Require Import XR SpecDens SpecMeas ModelDens ModelMeas ModelFit.
Import ListNotations.
Local Open Scope R_scope.

(** [integrator ga spherical W]: integration by a fit on this grid is the weighted sum with
    weights [W] (with [spherical] the factor 4 pi r^2 is part of the weights). *)
Inductive integrator : grid_arg -> bool -> list R -> Prop :=
| int_plain p I W :
    (forall y, length y = length W -> I (map Fin y) = Ok (Fin (rdot W y))) ->
    integrator (mkGridArg (Some p) (Some I)) false W
| int_sph rs I W :
    length rs = length W ->
    (forall y, length y = length W -> I (map Fin y) = Ok (Fin (rdot W y))) ->
    integrator (mkGridArg (Some (A1 (map Fin rs))) (Some I)) true
               (map2 (fun w r => w * (4 * PI * r ^ 2)) W rs).

(** [views m norm lays]: [m] is a model object whose layout (types of the basis functions and
    distances to their centers) at the i-th grid point is the i-th entry of [lays]. *)
Inductive views : gmodel -> bool -> list (list (bool * R)) -> Prop :=
| views_atom pts ctr rs ns np norm m :
    geom pts ctr rs -> (0 < ns + np)%nat ->
    atomic_init (VArr pts) ctr (VInt (Z.of_nat ns)) (VInt (Z.of_nat np)) norm = Ok m ->
    views (GAtom m) norm (map (lay_atom ns np) rs)
| views_resized pts ctr rs ns np norm m ns' np' m' :
    geom pts ctr rs -> (0 < ns + np)%nat -> (0 < ns' + np')%nat ->
    atomic_init (VArr pts) ctr (VInt (Z.of_nat ns)) (VInt (Z.of_nat np)) norm = Ok m ->
    change_numb m (VInt (Z.of_nat ns')) (VInt (Z.of_nat np')) = Ok m' ->
    views (GAtom m') norm (map (lay_atom ns' np') rs)
| views_mol pts d coords rss basis norm m :
    mgeom pts d coords rss -> length coords = length basis -> basis <> [] ->
    Forall (fun b => (0 < fst b + snd b)%nat) basis ->
    mol_init pts (VArr (A2 d (map (map Fin) coords))) (B2 (basis_rows basis)) norm = Ok m ->
    views (GMol m) norm
      (map (fun i => lay_mol (combine basis (dists_at rss i))) (seq 0 (nlen pts))).

(** Model values at all points. *)
Definition values (norm : bool) (lays : list (list (bool * R))) (c e : list R) : list R :=
  map (fun lay => gsum norm lay c e) lays.

(** Sum over indices. *)
Definition sumn (n : nat) (F : nat -> R) : R := rsum (map F (seq 0 n)).

(** Grid KL divergence. *)
Definition kl_sum (W f g : list R) : R := quad W (map2 kl_fn f g).

(** Quotient density / model, one where it is masked (measure.py:215-219). *)
Definition kl_ratio (mask f g : R) : R :=
  if Rlt_dec mask g then
    if Rlt_dec (Rabs f * / 2 ^ 1022) (Rabs g) then f / g else 1
  else 1.

(** Type and distance of the k-th basis function in a layout; the number 3/2 or 5/2. *)
Definition kind (lay : list (bool * R)) (k : nat) : bool := fst (nth k lay (false, 0)).
Definition away (lay : list (bool * R)) (k : nat) : R := snd (nth k lay (false, 0)).
Definition half_power (p : bool) : R := if p then 5/2 else 3/2.

(** Averages of the documented self-consistent equations: [A_k = int (f/g) b_k] and
    [B_k = int (f/g) b_k r^2] with the masked quotient. *)
Definition avg1 (mask : R) (W f : list R) norm lays (c e : list R) (k : nat) : R :=
  sumn (length W) (fun i =>
    let lay := nth i lays [] in
    nth i W 0 * (kl_ratio mask (nth i f 0) (gsum norm lay c e) *
                 basis_fn norm (kind lay k) (nth k e 0) (away lay k))).
Definition avg2 (mask : R) (W f : list R) norm lays (c e : list R) (k : nat) : R :=
  sumn (length W) (fun i =>
    let lay := nth i lays [] in
    nth i W 0 * (kl_ratio mask (nth i f 0) (gsum norm lay c e) *
                 basis_fn norm (kind lay k) (nth k e 0) (away lay k) * away lay k ^ 2)).

(** Positive, non-negative vectors. *)
Definition positive (l : list R) : Prop := Forall (fun x => 0 < x) l.
Definition nonneg (l : list R) : Prop := Forall (fun x => 0 <= x) l.

(** Every basis function sees a point of positive weight and positive density away from its
    center. *)
Definition supported (W f : list R) (lays : list (list (bool * R))) (nb : nat) : Prop :=
  forall k, (k < nb)%nat -> exists i, (i < length W)%nat /\
    0 < nth i W 0 /\ 0 < nth i f 0 /\ away (nth i lays []) k <> 0.

(** No point is masked. *)
Definition all_above (mask : R) (f g : list R) : Prop :=
  forall i, (i < length f)%nat -> kept mask (nth i f 0) (nth i g 0).

(** Parameters after [n] updates. *)
Fixpoint iterate (fp : fpi) (uc ue : bool) (n : nat) (c e : list xr) : res (list xr * list xr) :=
  match n with
  | O => Ok (c, e)
  | S k => do p <- iterate fp uc ue k c e; update_params fp (fst p) (snd p) uc ue
  end.

(** The integral the model is constrained to: argument [integral_dens] or the integral of the
    density. *)
Definition target (n0 : option xr) (W f : list R) (N : R) : Prop :=
  match n0 with None => N = rdot W f | Some x => x = Fin N end.

(** Largest entry. *)
Definition is_max (l : list R) (x : R) : Prop := In x l /\ forall y, In y l -> y <= x.

(** [fp] is the KLDivergenceFPI object built for density [f] on a grid integrating with
    weights [W] and for a model with layouts [lays]; the coefficients are to sum to [N]. *)
Record fpi_setting (fp : fpi) (W f : list R) (norm : bool) (lays : list (list (bool * R)))
       (mask N : R) : Prop := {
  fs_fit : exists ga sph n0 m, integrator ga sph W /\ views m norm lays /\
             fpi_init ga (map Fin f) m (Fin mask) n0 sph = Ok fp /\ target n0 W f N;
  fs_lenf : length f = length W;
  fs_lenl : length lays = length W;
  fs_mask : 0 <= mask;
  fs_N : N <> 0 }.

(** Number of basis functions of a layout list; parameter vectors of that length. *)
Definition nfun (lays : list (list (bool * R))) : nat := length (hd [] lays).
Definition sized (lays : list (list (bool * R))) (c e : list R) : Prop :=
  length c = nfun lays /\ length e = nfun lays.

(** [ft] is a fit object built by the common constructor for density [f], weights [W], a model
    with layouts [lays] and the mask value [mask]. *)
Record fit_setting (ft : fit) (W f : list R) (norm : bool) (lays : list (list (bool * R)))
       (mask N : R) : Prop := {
  bs_fit : exists ga sph n0 m me, integrator ga sph W /\ views m norm lays /\
             base_init ga (map Fin f) m me n0 sph (Fin mask) = Ok ft /\ target n0 W f N;
  bs_lenf : length f = length W;
  bs_lenl : length lays = length W;
  bs_ne : W <> [];
  bs_mask : 0 <= mask }.

(** Pointwise integrand of a measure, and where it is smooth (unmasked points). *)
Definition dev (me : measure) (f g : R) : R :=
  match me with MSq => sq_fn f g | MKL _ _ => kl_fn f g | MTs a _ => ts_fn a f g end.
Definition smooth_at (me : measure) (f g : R) : Prop :=
  match me with
  | MSq => True
  | MKL (Fin mk) _ => 0 <= mk /\ 0 < f /\ kept mk f g
  | MTs a (Fin mk) => tsallis_init a (Fin mk) = Ok me /\ 0 <= mk /\ 0 < f /\ kept mk f g
  | _ => False
  end.
Definition all_smooth (me : measure) (f g : list R) : Prop :=
  forall i, (i < length f)%nat -> smooth_at me (nth i f 0) (nth i g 0).

(** The three optimization modes: which vector is optimized and the parameters it stands for. *)
Inductive mode : sargs -> list R -> list R -> list R -> Prop :=
| mode_both c e : mode SBoth (c ++ e) c e
| mode_coeffs c e : mode (SFixExpons (map Fin e)) c c e
| mode_expons c e : mode (SFixCoeffs (map Fin c)) e c e.

(** [s] is the ScipyFit object built for these data; [w] are the objective weights. *)
Record scipy_setting (s : scipy) (me : measure) (W w f : list R) (norm : bool)
       (lays : list (list (bool * R))) (N : R) : Prop := {
  ss_fit : exists ga sph n0 m wopt method mask, integrator ga sph W /\ views m norm lays /\
             scipy_init ga (map Fin f) m (MInst me) method wopt n0 sph (Fin mask) = Ok s /\
             target n0 W f N /\
             match wopt with None => w = repeat 1 (length f) | Some v => v = map Fin w end;
  ss_lenf : length f = length W;
  ss_lenw : length w = length W;
  ss_lenl : length lays = length W;
  ss_ne : W <> [] }.

(** Largest absolute change between two parameter vectors. *)
Definition change (u v : list xr) (d : xr) : Prop :=
  exists l, abs_diff u v = Ok l /\ np_max l = Ok d.

(** Defaults of run: fit.py:304-305. *)
Definition default_thr : thresholds := mkThr (Fin (1 / 10 ^ 6)) (Fin (1 / 10 ^ 6)) (Fin (1 / 10 ^ 6)).

(** The arguments handed over in each mode. *)
Definition args_of (oc oe : bool) (c e : list xr) : sargs :=
  if oc && oe then SBoth else if oc then SFixExpons e else SFixCoeffs c.
Definition start_of (oc oe : bool) (c e : list xr) : list xr :=
  if oc && oe then c ++ e else if oc then c else e.

(** ** Arrays of different shapes *)
(** Sizes NumPy combines, the size of the result, and the entry used at position [i]. *)
Definition agree (m n : nat) : Prop := m = n \/ m = 1%nat \/ n = 1%nat.
Definition extent (m n : nat) : nat := if Nat.eqb m 1 then n else m.
Definition slot (n i : nat) : nat := if Nat.eqb n 1 then 0%nat else i.
(** Rows and columns of an array; one-dimensional arrays are single rows. *)
Definition shape2 (p : ndarray) : nat * nat :=
  match p with A1 u => (1%nat, length u) | A2 d rows => (length rows, d) end.
Definition entry (p : ndarray) (i j : nat) : xr :=
  match p with
  | A1 u => nth (slot (length u) j) u NaN
  | A2 d rows => nth (slot d j) (nth (slot (length rows) i) rows []) NaN
  end.
Definition rectangular (p : ndarray) : Prop :=
  match p with A1 _ => True | A2 d rows => Forall (fun r => length r = d) rows end.
