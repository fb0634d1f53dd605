(** Errors: molecules of the wrong shape, radial points, indices of basis functions. *)
From Coq Require Import Reals List ZArith Bool Lia.
From Verif Require Import XR ModelDens ModelGrid SpecDens Lists ProofInit ProofMol.
Import ListNotations.

(** As many rows of [basis] as of [coords], and as many columns of [coords] as of [points]. *)
Lemma mol_init_mismatch pts d cs bs norm : length cs <> length bs \/ (exists d' rows, pts = A2 d' rows /\ d' <> d) ->
  mol_init pts (VArr (A2 d cs)) (B2 bs) norm = Raise ValueError.
Proof.
  intros H. unfold mol_init. destruct (Nat.eqb_spec (length cs) (length bs)) as [E|_]; [|reflexivity].
  destruct H as [H|(d' & rows & -> & N)]; [congruence|]. cbn [negb]. destruct (Nat.eqb_spec d' d); [congruence|reflexivity].
Qed.

(** Radial points. *)
Lemma radial_init_iff v l : (radial_init v = Ok l <-> v = VArr (A1 l)) /\ ((forall m, v <> VArr (A1 m)) -> radial_init v = Raise TypeError).
Proof.
  split.
  - split; [|intros ->; reflexivity]. destruct v as [| | | | |[m|d m]| |]; cbn; congruence.
  - intros N. destruct v as [| | | | |[m|d m]| |]; cbn; try reflexivity. now destruct (N m).
Qed.

(** A molecule without centers. *)
Lemma assign_empty pts d norm m index : mol_init pts (VArr (A2 d [])) (B2 []) norm = Ok m ->
  assign_basis_to_center m index = Raise (if (index <? 0)%Z then IndexError else ValueError).
Proof.
  unfold mol_init. cbn [length Nat.eqb negb]. destruct (match pts with A2 d' _ => _ | A1 _ => _ end); [discriminate|]. cbn [mol_centers bind map].
  intros H. injection H as <-. unfold assign_basis_to_center, m_nbasis. cbn [m_basis map zsum fold_right cumsum_from first_ge].
  destruct (Z.leb_spec 0 index), (Z.ltb_spec index 0); try reflexivity; lia.
Qed.

(** What change_numb_s_and_numb_p does for arbitrary arguments. *)
Lemma change_iff m s p m' : change_numb m s p = Ok m' <->
  int_arg s (a_ns m') /\ int_arg p (a_np m') /\
  a_points m' = a_points m /\ a_coord m' = a_coord m /\ a_radii m' = a_radii m /\ a_norm m' = a_norm m.
Proof.
  assert (I : forall v n, as_int v = Some n <-> int_arg v n).
  { intros v n. unfold int_arg. destruct v as [|[|]|k| | | | |]; cbn; (split; [intros X; try discriminate; injection X as <-; auto|
      intros [X|[[X Y]|[X Y]]]; try discriminate; try (injection X as ->); subst; reflexivity]). }
  unfold change_numb. split.
  - destruct (as_int s) eqn:S; [|discriminate]. destruct (as_int p) eqn:P; [|discriminate].
    intros X. injection X as <-. cbn. apply I in S, P. auto 10.
  - intros (S & P & A & B & C & D). apply I in S, P. rewrite S, P. destruct m, m'. cbn in *. subst. reflexivity.
Qed.

Lemma change_raises m s p e : change_numb m s p = Raise e <->
  e = TypeError /\ ~ (exists ns np, int_arg s ns /\ int_arg p np).
Proof.
  assert (O : forall m', change_numb m s p = Ok m' -> exists ns np, int_arg s ns /\ int_arg p np).
  { intros m' H. apply change_iff in H. destruct H as (S & P & _). eauto. }
  assert (X : (exists ns np, int_arg s ns /\ int_arg p np) -> exists m', change_numb m s p = Ok m').
  { intros (ns & np & S & P). exists (mkAtomic (a_points m) (a_coord m) (a_radii m) ns np (a_norm m)).
    apply change_iff. cbn. auto 10. }
  split.
  - intros H. split.
    + unfold change_numb in H. destruct (as_int s); [destruct (as_int p)|]; congruence.
    + intros Y. apply X in Y. destruct Y as (m' & Y). congruence.
  - intros (-> & N). destruct (change_numb m s p) as [m'|e] eqn:E; [exfalso; eauto|].
    unfold change_numb in E. destruct (as_int s); [destruct (as_int p)|]; congruence.
Qed.
