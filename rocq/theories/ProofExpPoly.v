(** Zeros of sums of polynomials times exponentials (C99). *)
From Coquelicot Require Import Coquelicot.
From Coq Require Import Reals List ZArith Lia Lra Bool Sorted.
From Verif Require Import XR SpecDens SpecGrid Lists.
Import ListNotations.
Local Open Scope R_scope.

(** ** Polynomials as lists of coefficients *)
Fixpoint peval (p : list R) (x : R) : R := match p with [] => 0 | a :: q => a + x * peval q x end.
Fixpoint pder (k : R) (p : list R) : list R := match p with [] => [] | a :: q => k * a :: pder (k + 1) q end.
Lemma pder_length p : forall k, length (pder k p) = length p.
Proof. induction p as [|a p IH]; intros k; cbn; auto. Qed.
Fixpoint dval (p : list R) (x : R) : R := match p with [] => 0 | a :: q => peval q x + x * dval q x end.
Lemma dval_derive p x : is_derive (peval p) x (dval p x).
Proof.
  induction p as [|a p IH]; cbn [dval].
  - apply (is_derive_ext (fun _ => 0)); [reflexivity|]. apply @is_derive_const.
  - apply (is_derive_ext (fun y => plus a (mult y (peval p y)))); [reflexivity|].
    replace (peval p x + x * dval p x) with (plus zero (plus (mult 1 (peval p x)) (mult x (dval p x)))) by (unfold plus, mult, zero; cbn; ring).
    apply (is_derive_plus (fun _ => a) (fun y => mult y (peval p y))); [apply @is_derive_const|].
    apply (is_derive_mult (fun y => y) (peval p) x); [apply @is_derive_id|exact IH|intros; apply Rmult_comm].
Qed.
Lemma peval_pder p : forall k x, peval (pder k p) x = k * peval p x + x * dval p x.
Proof. induction p as [|a p IH]; intros k x; cbn [pder peval dval]; [ring|]. rewrite IH. ring. Qed.
Lemma peval_derive p x : is_derive (peval p) x (peval (pder 1 (tl p)) x).
Proof.
  replace (peval (pder 1 (tl p)) x) with (dval p x); [apply dval_derive|]. destruct p as [|a p]; [reflexivity|]. cbn [tl dval]. rewrite peval_pder. ring.
Qed.
(** [p' + d p]. *)
Fixpoint padd (p q : list R) : list R := match p, q with [], _ => q | _, [] => p | a :: p, b :: q => a + b :: padd p q end.
Lemma peval_padd p : forall q x, peval (padd p q) x = peval p x + peval q x.
Proof. induction p as [|a p IH]; intros [|b q] x; cbn [padd peval]; try ring. rewrite IH. ring. Qed.
Definition pstep (d : R) (p : list R) : list R := padd (pder 1 (tl p)) (map (Rmult d) p).
Lemma peval_scale d p x : peval (map (Rmult d) p) x = d * peval p x.
Proof. induction p as [|a p IH]; cbn [map peval]; [ring|]. rewrite IH. ring. Qed.
Lemma peval_pstep d p x : peval (pstep d p) x = peval (pder 1 (tl p)) x + d * peval p x.
Proof. unfold pstep. now rewrite peval_padd, peval_scale. Qed.
Lemma padd_length p : forall q, length (padd p q) = Nat.max (length p) (length q).
Proof. induction p as [|a p IH]; intros [|b q]; cbn [padd length]; auto. rewrite IH. lia. Qed.
Lemma pstep_length d p : length (pstep d p) = length p.
Proof. unfold pstep. rewrite padd_length, pder_length, map_length. destruct p; cbn; lia. Qed.

Definition pzero (p : list R) : Prop := Forall (fun a => a = 0) p.
Lemma pzero_nth p : pzero p <-> forall i, nth i p 0 = 0.
Proof.
  split.
  - intros H i. destruct (Nat.lt_ge_cases i (length p)) as [L|L]; [|now apply nth_overflow]. exact (proj1 (Forall_forall _ _) H _ (nth_In p 0 L)).
  - intros H. apply Forall_forall. intros a I. destruct (In_nth p a 0 I) as (i & _ & <-). apply H.
Qed.
Lemma nth_pder p : forall k i, nth i (pder k p) 0 = (k + INR i) * nth i p 0.
Proof.
  induction p as [|a p IH]; intros k [|i]; cbn [pder nth]; try (cbn; ring). rewrite IH. rewrite S_INR. ring.
Qed.
Lemma nth_padd p : forall q i, nth i (padd p q) 0 = nth i p 0 + nth i q 0.
Proof. induction p as [|a p IH]; intros [|b q] [|i]; cbn [padd nth]; try ring. apply IH. Qed.
Lemma nth_pstep d p i : nth i (pstep d p) 0 = (1 + INR i) * nth (S i) p 0 + d * nth i p 0.
Proof.
  unfold pstep. rewrite nth_padd, nth_pder. f_equal.
  - f_equal. destruct p; [now destruct i|reflexivity].
  - rewrite <- (Rmult_0_r d) at 1. apply map_nth.
Qed.
Lemma pstep_zero d p : d <> 0 -> pzero (pstep d p) -> pzero p.
Proof.
  intros D H. rewrite pzero_nth in *.
  assert (K : forall m i, (length p <= i + m)%nat -> nth i p 0 = 0).
  { induction m as [|m IH]; intros i L; [apply nth_overflow; lia|]. specialize (H i). rewrite nth_pstep, (IH (S i)) in H by lia. rewrite Rmult_0_r, Rplus_0_l in H. apply Rmult_integral in H. tauto. }
  intros i. apply (K (length p)). lia.
Qed.
Lemma pder_zero p : pzero (pder 1 (tl p)) -> exists c, forall x, peval p x = c.
Proof.
  intros H. destruct p as [|a p]; [exists 0; auto|]. exists a. intros x. cbn [tl peval] in *.
  assert (Z : forall i, nth i p 0 = 0).
  { rewrite pzero_nth in H. intros i. specialize (H i). rewrite nth_pder in H. apply Rmult_integral in H. destruct H as [H|H]; auto. pose proof (pos_INR i). lra. }
  assert (E : peval p x = 0). { clear -Z. induction p as [|b p IH]; [reflexivity|]. cbn [peval]. rewrite IH; [|intros i; exact (Z (S i))]. specialize (Z 0%nat). cbn in Z. subst. ring. }
  rewrite E. ring.
Qed.
Lemma peval_zero p x : pzero p -> peval p x = 0.
Proof. induction 1 as [|a p H _ IH]; cbn [peval]; [reflexivity|]. subst. rewrite IH. ring. Qed.

(** ** Exponential polynomials *)
Definition eval (F : list (list R * R)) (x : R) : R := rsum (map (fun g => peval (fst g) x * exp (- snd g * x)) F).
Definition dim (F : list (list R * R)) : nat := list_sum (map (fun g => length (fst g)) F).
(** [F' + z F]. *)
Definition tstep (z : R) (F : list (list R * R)) : list (list R * R) := map (fun g => (pstep (z - snd g) (fst g), snd g)) F.
Lemma rsum_cons' a l : rsum (a :: l) = a + rsum l.
Proof. reflexivity. Qed.
Lemma eval_cons g F x : eval (g :: F) x = peval (fst g) x * exp (- snd g * x) + eval F x.
Proof. reflexivity. Qed.
Lemma eval_derive F x z : is_derive (fun y => exp (z * y) * eval F y) x (exp (z * x) * eval (tstep z F) x).
Proof.
  assert (D : is_derive (eval F) x (eval (tstep z F) x - z * eval F x)).
  { induction F as [|g F IH].
    - replace (eval (tstep z []) x - z * eval [] x) with 0 by (unfold eval; cbn; ring). apply (is_derive_const 0 x).
    - change (tstep z (g :: F)) with ((pstep (z - snd g) (fst g), snd g) :: tstep z F). rewrite !eval_cons. cbn [fst snd].
      apply (is_derive_ext (fun y => plus (mult (peval (fst g) y) (exp (- snd g * y))) (eval F y))); [reflexivity|].
      assert (D1 : is_derive (fun y => mult (peval (fst g) y) (exp (- snd g * y))) x (plus (mult (peval (pder 1 (tl (fst g))) x) (exp (- snd g * x))) (mult (peval (fst g) x) (- snd g * exp (- snd g * x))))).
      { apply (is_derive_mult (peval (fst g)) (fun y => exp (- snd g * y)) x); [apply peval_derive| |intros; apply Rmult_comm]. auto_derive; [exact I|ring]. }
      assert (D2 := is_derive_plus _ _ _ _ _ D1 IH).
      match type of D2 with is_derive _ _ ?d => match goal with |- is_derive _ _ ?e => replace e with d; [exact D2|] end end.
      rewrite peval_pstep. unfold plus, mult. cbn. ring. }
  replace (exp (z * x) * eval (tstep z F) x) with ((z * exp (z * x)) * eval F x + exp (z * x) * (eval (tstep z F) x - z * eval F x)) by ring.
  apply (is_derive_mult (fun y => exp (z * y)) (eval F) x); [auto_derive; [exact I|ring]|exact D|intros; apply Rmult_comm].
Qed.

(** Rolle: one zero fewer for [F' + z F]. *)
Lemma rolle_list F z x xs : StronglySorted Rlt (x :: xs) -> Forall (fun r => eval F r = 0) (x :: xs) ->
  exists ys, length ys = length xs /\ StronglySorted Rlt ys /\ Forall (fun y => x < y) ys /\ Forall (fun r => eval (tstep z F) r = 0) ys.
Proof.
  revert x. induction xs as [|x1 xs IH]; intros x S Zs; [exists []; repeat constructor|].
  inversion S as [|? ? S1 H1]; subst. inversion Zs as [|? ? Z0 Z1]; subst. inversion H1 as [|? ? Lt Hs]; subst. inversion Z1 as [|? ? Z1' _]; subst.
  destruct (IH x1 S1 Z1) as (ys & L & Sy & Gy & Zy).
  destruct (MVT_cor2 (fun y => exp (z * y) * eval F y) (fun y => exp (z * y) * eval (tstep z F) y) x x1 Lt) as (c & E & Hc).
  { intros c _. apply is_derive_Reals. apply eval_derive. }
  rewrite Z0, Z1', !Rmult_0_r, Rminus_0_r in E. assert (E0 : eval (tstep z F) c = 0).
  { assert (exp (z * c) * eval (tstep z F) c = 0) by (apply (Rmult_eq_reg_r (x1 - x)); lra). pose proof (exp_pos (z * c)). apply Rmult_integral in H. destruct H; lra. }
  exists (c :: ys). cbn [length]. split; [lia|]. split; [constructor; auto|split; [|constructor; auto]].
  - eapply Forall_impl; [|exact Gy]. intros a Ha. cbv beta in Ha. lra.
  - constructor; [lra|]. eapply Forall_impl; [|exact Gy]. intros a Ha. cbv beta in Ha. lra.
Qed.

Lemma dim_cons g F : dim (g :: F) = (length (fst g) + dim F)%nat.
Proof. reflexivity. Qed.
Lemma eval_pzero F x : Forall (fun g => pzero (fst g)) F -> eval F x = 0.
Proof. induction 1 as [|g F H _ IH]; [reflexivity|]. rewrite eval_cons, IH, (peval_zero _ _ H). ring. Qed.
Lemma tstep_dim z F : dim (tstep z F) = dim F.
Proof. unfold dim, tstep. rewrite map_map. cbn [fst]. f_equal. apply map_ext. intros g. apply pstep_length. Qed.

(** As many zeros as coefficients: all coefficients are zero. *)
Lemma exp_poly_zero : forall m F xs, (dim F <= m)%nat -> NoDup (map snd F) -> StronglySorted Rlt xs -> (dim F <= length xs)%nat ->
  Forall (fun r => eval F r = 0) xs -> Forall (fun g => pzero (fst g)) F.
Proof.
  induction m as [|m IH].
  - intros F xs D _ _ _ _. induction F as [|g F IHF]; constructor.
    + rewrite dim_cons in D. destruct (fst g); [constructor|cbn in D; lia].
    + apply IHF. rewrite dim_cons in D. lia.
  - intros F xs. induction F as [|[p z] F IHF]; intros D N S L Zs; [constructor|].
    destruct p as [|a p].
    { constructor; [constructor|]. inversion N; subst. apply IHF; auto. eapply Forall_impl; [|exact Zs]. intros r Hr. cbv beta in *. rewrite eval_cons in Hr. cbn [fst peval] in Hr. lra. }
    assert (Dm : dim ((a :: p, z) :: F) = Datatypes.S (length p + dim F)) by reflexivity.
    destruct xs as [|x xs]; [cbn in L; lia|]. destruct (rolle_list _ z x xs S Zs) as (ys & Ly & Sy & _ & Zy).
    set (G := (pder 1 p, z) :: tstep z F).
    assert (DG : dim G = (length p + dim F)%nat) by (unfold G, dim; cbn [map list_sum fold_right fst]; rewrite pder_length; change (fold_right Nat.add 0%nat) with list_sum; fold (dim (tstep z F)); now rewrite tstep_dim).
    assert (Hz : Forall (fun g => pzero (fst g)) G).
    { apply (IH G ys); auto; [lia| |rewrite Dm in L; cbn [length] in L; lia|].
      - unfold G, tstep. cbn [map snd]. rewrite map_map. cbn [snd]. exact N.
      - eapply Forall_impl; [|exact Zy]. intros r Hr. cbv beta in *. unfold G. cbn [tstep map] in Hr. rewrite eval_cons in *. cbn [fst snd] in *. rewrite peval_pstep in Hr. cbn [tl] in Hr. fold (tstep z F) in Hr.
        rewrite <- Hr. ring. }
    unfold G in Hz. inversion Hz as [|? ? Hp HF]; subst. cbn [fst] in Hp.
    assert (ZF : Forall (fun g => pzero (fst g)) F).
    { inversion N as [|? ? Ni _]; subst. cbn [snd] in Ni. clear -HF Ni. induction F as [|[q w] F IHF]; constructor.
      - cbn [fst]. inversion HF as [|? ? Hq _]; subst. cbn [fst snd] in Hq. apply (pstep_zero (z - w)); auto. intros E. apply Ni. left. cbn. lra.
      - inversion HF; subst. apply IHF; auto. intros I. apply Ni. now right. }
    constructor; auto. cbn [fst]. destruct (pder_zero (a :: p) Hp) as (c & Hc). inversion Zs as [|? ? Z0 _]; subst. rewrite eval_cons, (eval_pzero F x ZF), Rplus_0_r in Z0. cbn [fst snd] in Z0.
    rewrite Hc in Z0. pose proof (exp_pos (- z * x)). assert (c = 0) by (apply Rmult_integral in Z0; destruct Z0; lra). subst c.
    constructor; [specialize (Hc 0); cbn [peval] in Hc; lra|]. rewrite pzero_nth. rewrite pzero_nth in Hp. intros i. specialize (Hp i). rewrite nth_pder in Hp. pose proof (pos_INR i). apply Rmult_integral in Hp. destruct Hp; lra.
Qed.

(** ** Sums of terms [a x^k e^(-z x)] *)
Fixpoint put (a : R) (k : nat) (p : list R) : list R :=
  match k, p with O, [] => [a] | O, b :: q => a + b :: q | Datatypes.S k, [] => 0 :: put a k [] | Datatypes.S k, b :: q => b :: put a k q end.
Lemma peval_put a k : forall p x, peval (put a k p) x = a * x ^ k + peval p x.
Proof. induction k as [|k IH]; intros [|b q] x; cbn [put peval pow]; try ring; rewrite IH; cbn [peval]; ring. Qed.
Lemma put_length a k : forall p, (length (put a k p) <= length p + Datatypes.S k)%nat.
Proof. induction k as [|k IH]; intros [|b q]; cbn [put length]; try lia; [specialize (IH []); cbn in IH; lia|specialize (IH q); lia]. Qed.
Lemma nth_put a k : forall p i, nth i (put a k p) 0 = (if Nat.eqb i k then a else 0) + nth i p 0.
Proof.
  induction k as [|k IH]; intros [|b q] [|i]; cbn [put nth Nat.eqb]; try ring; try (destruct i; ring); rewrite IH; [destruct i; cbn; ring|reflexivity].
Qed.
Fixpoint gather (t : R * R * nat) (F : list (list R * R)) : list (list R * R) :=
  let '(a, z, k) := t in
  match F with
  | [] => [(put a k [], z)]
  | (p, w) :: G => if Req_EM_T z w then (put a k p, w) :: G else (p, w) :: gather t G
  end.
Lemma eval_gather a z k F x : eval (gather (a, z, k) F) x = a * x ^ k * exp (- z * x) + eval F x.
Proof.
  induction F as [|[p w] F IH]; cbn [gather].
  - rewrite eval_cons. cbn [fst snd]. rewrite peval_put. cbn [peval]. ring.
  - destruct (Req_EM_T z w) as [->|N]; rewrite !eval_cons; cbn [fst snd]; [rewrite peval_put; ring|]. rewrite IH. ring.
Qed.
Lemma dim_gather a z k F : (dim (gather (a, z, k) F) <= dim F + Datatypes.S k)%nat.
Proof.
  induction F as [|[p w] F IH]; cbn [gather].
  - rewrite dim_cons. pose proof (put_length a k []). cbn in *. lia.
  - destruct (Req_EM_T z w); rewrite !dim_cons; cbn [fst]; [pose proof (put_length a k p); lia|lia].
Qed.
Lemma keys_gather a z k F v : In v (map snd (gather (a, z, k) F)) <-> v = z \/ In v (map snd F).
Proof.
  induction F as [|[p w] F IH]; cbn [gather map snd In]; [intuition|]. destruct (Req_EM_T z w) as [->|N]; cbn [map snd In]; [intuition|]. rewrite IH. intuition.
Qed.
Lemma nodup_gather t F : NoDup (map snd F) -> NoDup (map snd (gather t F)).
Proof.
  destruct t as [[a z] k]. induction F as [|[p w] F IH]; intros N; cbn [gather]; [constructor; [easy|constructor]|]. inversion N; subst.
  destruct (Req_EM_T z w) as [->|E]; cbn [map snd]; [now constructor|]. constructor; auto. rewrite keys_gather. intros [->|I]; auto.
Qed.
(** Coefficient of [x^k e^(-z x)]. *)
Fixpoint coef (z : R) (k : nat) (F : list (list R * R)) : R :=
  match F with [] => 0 | (p, w) :: G => if Req_EM_T z w then nth k p 0 else coef z k G end.
Lemma coef_gather a z k z' k' F : coef z' k' (gather (a, z, k) F) = (if Req_EM_T z' z then if Nat.eqb k' k then a else 0 else 0) + coef z' k' F.
Proof.
  induction F as [|[p w] F IH]; cbn [gather coef].
  - destruct (Req_EM_T z' z); [|ring]. rewrite nth_put. destruct k'; cbn; ring.
  - destruct (Req_EM_T z w) as [->|N]; cbn [coef].
    + destruct (Req_EM_T z' w); [apply nth_put|ring].
    + destruct (Req_EM_T z' w) as [E|E]; [|apply IH]. destruct (Req_EM_T z' z); [congruence|ring].
Qed.
Lemma coef_zero z k F : Forall (fun g => pzero (fst g)) F -> coef z k F = 0.
Proof. induction 1 as [|[p w] F H _ IH]; cbn [coef]; auto. destruct (Req_EM_T z w); auto. now apply pzero_nth. Qed.

Definition term (t : R * R * nat) (x : R) : R := let '(a, z, k) := t in a * x ^ k * exp (- z * x).
Definition gathered (ts : list (R * R * nat)) : list (list R * R) := fold_right gather [] ts.
Lemma eval_gathered ts x : eval (gathered ts) x = rsum (map (fun t => term t x) ts).
Proof. induction ts as [|[[a z] k] ts IH]; [reflexivity|]. cbn [gathered fold_right map]. fold (gathered ts). rewrite eval_gather, rsum_cons', IH. reflexivity. Qed.
Lemma dim_gathered ts : (dim (gathered ts) <= list_sum (map (fun t => Datatypes.S (snd t)) ts))%nat.
Proof. induction ts as [|[[a z] k] ts IH]; [cbn; lia|]. cbn [gathered fold_right map list_sum snd]. fold (gathered ts). pose proof (dim_gather a z k (gathered ts)). change (fold_right Nat.add 0%nat) with list_sum. lia. Qed.
Lemma nodup_gathered ts : NoDup (map snd (gathered ts)).
Proof. induction ts as [|t ts IH]; [constructor|]. cbn [gathered fold_right]. now apply nodup_gather. Qed.
Lemma coef_gathered_absent z k ts : ~ In (z, k) (map (fun '(a, z, k) => (z, k)) ts) -> coef z k (gathered ts) = 0.
Proof.
  induction ts as [|[[a w] j] ts IH]; intros N; [reflexivity|]. cbn [gathered fold_right]. fold (gathered ts). rewrite coef_gather, IH by (intros I; apply N; now right).
  destruct (Req_EM_T z w) as [->|]; [|ring]. destruct (Nat.eqb_spec k j) as [->|]; [|ring]. exfalso. apply N. now left.
Qed.
Lemma coef_gathered ts1 a z k ts2 : ~ In (z, k) (map (fun '(a, z, k) => (z, k)) (ts1 ++ ts2)) -> coef z k (gathered (ts1 ++ (a, z, k) :: ts2)) = a.
Proof.
  induction ts1 as [|[[b w] j] ts IH]; intros N; cbn [app gathered fold_right].
  - fold (gathered ts2). rewrite coef_gather, (coef_gathered_absent z k ts2 N). destruct (Req_EM_T z z); [|congruence]. rewrite Nat.eqb_refl. ring.
  - fold (gathered (ts ++ (a, z, k) :: ts2)). rewrite coef_gather, IH by (intros I; apply N; now right).
    destruct (Req_EM_T z w) as [->|]; [|ring]. destruct (Nat.eqb_spec k j) as [->|]; [|ring]. exfalso. apply N. now left.
Qed.
Lemma terms_zero ts1 a z k ts2 xs : a <> 0 -> ~ In (z, k) (map (fun '(a, z, k) => (z, k)) (ts1 ++ ts2)) -> StronglySorted Rlt xs ->
  Forall (fun x => rsum (map (fun t => term t x) (ts1 ++ (a, z, k) :: ts2)) = 0) xs ->
  (length xs < list_sum (map (fun t => Datatypes.S (snd t)) (ts1 ++ (a, z, k) :: ts2)))%nat.
Proof.
  intros Ha N S Zs. set (ts := ts1 ++ (a, z, k) :: ts2) in *. destruct (Nat.lt_ge_cases (length xs) (list_sum (map (fun t => Datatypes.S (snd t)) ts))) as [|L]; auto. exfalso. apply Ha.
  rewrite <- (coef_gathered ts1 a z k ts2 N). apply coef_zero. apply (exp_poly_zero (dim (gathered ts)) _ xs); auto; [apply nodup_gathered|exact (Nat.le_trans _ _ _ (dim_gathered ts) L)|].
  eapply Forall_impl; [|exact Zs]. intros r Hr. cbv beta in *. now rewrite eval_gathered.
Qed.
