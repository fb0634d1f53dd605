(** List lemmas used by the proofs. *)
From Coq Require Import Reals List ZArith Lia Lra.
From Verif Require Import XR SpecDens.
Import ListNotations.
Local Open Scope R_scope.

Lemma map2_length {A B C} (f : A -> B -> C) l m :
  length (map2 f l m) = Nat.min (length l) (length m).
Proof. revert m; induction l as [|x l IH]; intros [|y m]; simpl; auto. Qed.

Lemma map2_map {A B A' B' C} (f : A' -> B' -> C) (g : A -> A') (h : B -> B') l m :
  map2 f (map g l) (map h m) = map2 (fun x y => f (g x) (h y)) l m.
Proof. revert m; induction l as [|x l IH]; intros [|y m]; simpl; auto. now rewrite IH. Qed.

Lemma map_map2 {A B C D} (g : C -> D) (f : A -> B -> C) l m :
  map g (map2 f l m) = map2 (fun x y => g (f x y)) l m.
Proof. revert m; induction l as [|x l IH]; intros [|y m]; simpl; auto. now rewrite IH. Qed.

Lemma map2_same {A C} (f : A -> A -> C) l : map2 f l l = map (fun x => f x x) l.
Proof. induction l as [|x l IH]; simpl; auto. now rewrite IH. Qed.

Lemma map2_map_same {A B C D} (f : B -> C -> D) (g : A -> B) (h : A -> C) l :
  map2 f (map g l) (map h l) = map (fun x => f (g x) (h x)) l.
Proof. rewrite map2_map, map2_same. reflexivity. Qed.

Lemma map2_ext_len {A B C} (f g : A -> B -> C) l m :
  (forall x y, In x l -> In y m -> f x y = g x y) -> map2 f l m = map2 g l m.
Proof.
  revert m; induction l as [|x l IH]; intros [|y m] H; simpl; auto.
  rewrite H, IH; simpl; auto. intros; apply H; simpl; auto.
Qed.

Lemma map2_app {A B C} (f : A -> B -> C) l1 l2 m1 m2 :
  length l1 = length m1 -> map2 f (l1 ++ l2) (m1 ++ m2) = map2 f l1 m1 ++ map2 f l2 m2.
Proof.
  revert m1; induction l1 as [|x l IH]; intros [|y m] H; simpl in *; try discriminate; auto.
  rewrite IH; auto.
Qed.

Lemma nth_map2 {A B C} (f : A -> B -> C) l m i da db dc :
  (i < length l)%nat -> (i < length m)%nat ->
  nth i (map2 f l m) dc = f (nth i l da) (nth i m db).
Proof.
  revert m i; induction l as [|x l IH]; intros [|y m] [|i] H1 H2; simpl in *; try lia; auto.
  apply IH; lia.
Qed.

(** Python slices with in-range bounds. *)
Lemma py_slice_to {A} (k : nat) (l : list A) :
  py_slice None (Some (Z.of_nat k)) l = firstn k l.
Proof.
  unfold py_slice, py_bound.
  destruct (Z.ltb_spec (Z.of_nat k) 0); [lia|].
  rewrite Z.sub_0_r. change (Z.to_nat 0) with 0%nat. rewrite skipn_O.
  destruct (Nat.le_ge_cases k (length l)) as [Hk|Hk].
  - rewrite Z.min_l by lia. now rewrite Nat2Z.id.
  - rewrite Z.min_r by lia. rewrite Nat2Z.id. rewrite !firstn_all2; auto; lia.
Qed.

Lemma py_slice_from {A} (k : nat) (l : list A) :
  py_slice (Some (Z.of_nat k)) None l = skipn k l.
Proof.
  unfold py_slice, py_bound.
  destruct (Z.ltb_spec (Z.of_nat k) 0); [lia|].
  destruct (Nat.le_ge_cases k (length l)) as [Hk|Hk].
  - rewrite Z.min_l by lia. rewrite Nat2Z.id.
    rewrite firstn_all2; auto. rewrite skipn_length; lia.
  - rewrite Z.min_r by lia. rewrite Z.sub_diag. simpl.
    now rewrite skipn_all2.
Qed.

Lemma py_slice_mid {A} (a b : nat) (l : list A) :
  (a <= b)%nat -> (b <= length l)%nat ->
  py_slice (Some (Z.of_nat a)) (Some (Z.of_nat b)) l = firstn (b - a) (skipn a l).
Proof.
  intros. unfold py_slice, py_bound.
  destruct (Z.ltb_spec (Z.of_nat a) 0); [lia|].
  destruct (Z.ltb_spec (Z.of_nat b) 0); [lia|].
  rewrite !Z.min_l by lia. rewrite Nat2Z.id.
  replace (Z.to_nat (Z.of_nat b - Z.of_nat a)) with (b - a)%nat by lia. reflexivity.
Qed.

Lemma upd_length {A} (l : list A) k x : length (upd l k x) = length l.
Proof. revert k; induction l as [|y l IH]; intros [|k]; simpl; auto. Qed.

Lemma upd_app_l {A} (l m : list A) k x :
  (k < length l)%nat -> upd (l ++ m) k x = upd l k x ++ m.
Proof.
  revert k; induction l as [|y l IH]; intros [|k] H; simpl in *; try lia; auto.
  rewrite IH; auto; lia.
Qed.

Lemma upd_app_r {A} (l m : list A) k x :
  (length l <= k)%nat -> upd (l ++ m) k x = l ++ upd m (k - length l) x.
Proof.
  revert k; induction l as [|y l IH]; intros k H; simpl in *.
  - now rewrite Nat.sub_0_r.
  - destruct k as [|k]; [lia|]. simpl. rewrite IH; auto; lia.
Qed.

Lemma nth_upd {A} (l : list A) k j x d :
  (k < length l)%nat -> nth j (upd l k x) d = if Nat.eqb j k then x else nth j l d.
Proof.
  revert k j; induction l as [|y l IH]; intros [|k] [|j] H; simpl in *; try lia; auto.
  apply IH; lia.
Qed.

Lemma upd_same {A} (l : list A) k d : (k < length l)%nat -> upd l k (nth k l d) = l.
Proof.
  revert k; induction l as [|y l IH]; intros [|k] H; simpl in *; try lia; auto.
  rewrite IH; auto; lia.
Qed.

(** Real comparisons as booleans. *)
Lemma rltb_true x y : x < y -> rltb x y = true.
Proof. unfold rltb; destruct (Rlt_dec x y); tauto. Qed.
Lemma rltb_false x y : ~ x < y -> rltb x y = false.
Proof. unfold rltb; destruct (Rlt_dec x y); tauto. Qed.
Lemma rleb_true x y : x <= y -> rleb x y = true.
Proof. unfold rleb; destruct (Rle_dec x y); tauto. Qed.
Lemma rleb_false x y : ~ x <= y -> rleb x y = false.
Proof. unfold rleb; destruct (Rle_dec x y); tauto. Qed.
Lemma reqb_true x y : x = y -> reqb x y = true.
Proof. unfold reqb; destruct (Req_EM_T x y); tauto. Qed.
Lemma reqb_false x y : x <> y -> reqb x y = false.
Proof. unfold reqb; destruct (Req_EM_T x y); tauto. Qed.
Lemma rltb_iff x y : rltb x y = true <-> x < y.
Proof. unfold rltb; destruct (Rlt_dec x y); split; auto; discriminate. Qed.
Lemma rleb_iff x y : rleb x y = true <-> x <= y.
Proof. unfold rleb; destruct (Rle_dec x y); split; auto; discriminate. Qed.

(** Sums and dot products of finite vectors. *)

Lemma xsum_fin l : xsum (map Fin l) = Fin (rsum l).
Proof. induction l as [|x l IH]; simpl; auto. unfold xsum in *; simpl. now rewrite IH. Qed.

Lemma xdot_fin u v : xdot (map Fin u) (map Fin v) = Fin (rdot u v).
Proof.
  unfold xdot, rdot. rewrite map2_map. simpl. rewrite <- (xsum_fin (map2 Rmult u v)), map_map2.
  reflexivity.
Qed.

Lemma rsum_app l m : rsum (l ++ m) = rsum l + rsum m.
Proof. induction l as [|x l IH]; simpl; [lra|]. unfold rsum in *; simpl. rewrite IH. lra. Qed.

Lemma rsum_cons x l : rsum (x :: l) = x + rsum l.
Proof. reflexivity. Qed.

Lemma rsum_nonneg l : Forall (fun x => 0 <= x) l -> 0 <= rsum l.
Proof. induction 1; unfold rsum in *; simpl; lra. Qed.
