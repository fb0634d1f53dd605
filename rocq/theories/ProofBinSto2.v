(** Slater densities in floating-point formats: overflow, accuracy and sign. *)
From Coq Require Import Reals List ZArith Bool Lia Lra Permutation.
From Flocq Require Import Core IEEE754.BinarySingleNaN.
From Verif Require Import SpecSlater SpecRnd SpecRnd3 SpecBin SpecBin64 SpecBinModel SpecBinSto ModelRnd ModelRnd3 ModelBin64 ModelBinModel ModelBinSto
  ProofRnd ProofBin64 ProofBin64b ProofBinModel ProofBinModel2 ProofBinSto.
From Coq Require Import List.
Import ListNotations.
Local Open Scope R_scope.

Section Format.
Variable fm : format.
Implicit Types a b r : number fm.
Local Notation rnd := (near fm).
Local Notation pow2 := (Raux.bpow radix2).

(** *** Finite sums have finite parts *)
Lemma dot_finite : forall fused t (m c : list (number fm)), finite (b_dot fused t m c) ->
  forall i, In i (leaves t) -> finite (nth i m b_zero) /\ finite (nth i c b_zero).
Proof.
  intros fused t m c. induction t as [|j|l IHl q IHr]; cbn [b_dot leaves]; intros F i I.
  - destruct I.
  - destruct I as [<-|[]]. exact (mul_finite fm _ _ F).
  - apply in_app_iff in I. destruct (lone fused l) eqn:El; [|destruct (lone fused q) eqn:Er].
    + destruct (lone_leaf _ _ El) as (j & -> & _). cbn [leaf leaves] in *. destruct (fma_finite fm _ _ _ F) as (A & B & C).
      destruct I as [[<-|[]]|I]; [split; assumption | exact (IHr C i I)].
    + destruct (lone_leaf _ _ Er) as (j & -> & _). cbn [leaf leaves] in *. destruct (fma_finite fm _ _ _ F) as (A & B & C).
      destruct I as [I|[<-|[]]]; [exact (IHl C i I) | split; assumption].
    + destruct (add_finite fm _ _ F) as [A B]. destruct I as [I|I]; [exact (IHl A i I) | exact (IHr B i I)].
Qed.
Lemma dot_parts : forall (A : Type) (f g : A -> number fm) fused t l, orders (length l) t -> finite (b_dot fused t (map f l) (map g l)) ->
  Forall (fun x => finite (f x) /\ finite (g x)) l.
Proof.
  intros A f g fused t l O F. apply Forall_forall. intros x I. destruct (In_nth l x x I) as (i & Li & <-).
  assert (Il : In i (leaves t)) by (apply (Permutation_in i (Permutation_sym O)), in_seq; lia).
  destruct (dot_finite fused t _ _ F i Il) as [P Q].
  rewrite (nth_indep _ b_zero (f x)) in P by (rewrite map_length; exact Li). rewrite (nth_indep _ b_zero (g x)) in Q by (rewrite map_length; exact Li).
  rewrite map_nth in P, Q. split; assumption.
Qed.
(** A finite density needs finite normalization constants, coefficients, occupations and powers of the
    distance. *)
Lemma finite_parts : forall bexp bpow bfact (pi : number fm) m fu to fused t (L : list (bshell fm)) r, about_pi pi ->
  Forall (fun s => orders (length (h_exp s)) (to (worth s))) L -> orders (length L) t ->
  finite (b_density bexp bpow bfact pi m fu to fused t L r) ->
  Forall (fun s => finite (h_occ s) /\
    Forall (fun '(c, z, n) => finite c /\ finite (b_sto_norm bpow bfact z n) /\ finite (bpow r (n - 1)%nat)) (h_exp s)) L.
Proof.
  intros bexp bpow bfact pi m fu to fused t L r Hc Os Ot F. unfold b_density in F.
  apply div_finite in F; [|exact (proj1 (four_pi fm pi Hc))]. destruct F as [F _].
  apply (dot_parts _ _ _ fused t L Ot) in F. rewrite Forall_forall in *. intros s I. destruct (F s I) as [Fp Fw]. split.
  - destruct m; cbn [b_weight] in Fw; [exact Fw | exact (proj1 (mul_finite fm _ _ Fw)) | exact (proj1 (mul_finite fm _ _ Fw))].
  - destruct (mul_finite fm _ _ Fp) as [Fq _]. unfold b_phi in Fq.
    apply (dot_parts _ (fun '(c, z, n) => b_sto bexp bpow bfact z n r) (fun '(c, z, n) => c)) in Fq; [|exact (Os s I)].
    eapply Forall_impl; [|exact Fq]. intros [[c z] n] [Fs Fc]. split; [exact Fc|]. unfold b_sto in Fs.
    apply mul_finite in Fs. exact (mul_finite fm _ _ (proj1 Fs)).
Qed.

(** *** Square roots of numbers that are not negative *)
Lemma sqrt_rep : forall (d : number fm) y, represents d y -> 0 <= y -> represents (b_sqrt d) (rnd (sqrt y)).
Proof.
  intros d y [F V] P. assert (G : finite (b_sqrt d)); [|split; [exact G | apply (sqrt_agrees fm d y); [intros _; exact V | exact G]]].
  destruct (Bsqrt_correct (digits fm) (top fm) (digits_pos fm) (digits_top fm) mode_NE d) as (_ & E & _).
  unfold finite, b_sqrt. rewrite E. destruct d as [s|s| |[|] m e H]; try discriminate F; try reflexivity. exfalso. rewrite <- V in P. revert P.
  apply Rlt_not_le. apply (F2R_lt_0 radix2 (Float radix2 (Zneg m) e)). reflexivity.
Qed.

(** *** At the origin *)
Lemma origin_zero : forall bexp bpow bfact (tiny : number fm), threshold tiny ->
  forall z n r, finite r -> Rabs (value r) < value tiny -> finite (b_sto bexp bpow bfact z n r) ->
  represents (b_dsto bexp bpow bfact tiny z n r) 0.
Proof.
  intros bexp bpow bfact tiny Ht z n r Fr L F. unfold b_dsto, b_dpref. rewrite (proj2 (origin_spec fm tiny Ht r Fr) L).
  destruct (b_sto bexp bpow bfact z n r) as [s|s| |s m e H]; try discriminate F; split; reflexivity.
Qed.

(** *** No overflow *)
Lemma exp_rep : forall bexp fexp a b, damping bexp fexp -> finite a -> finite b -> value a * value b <= 0 ->
  represents (bexp (b_mul a b)) (fexp (rnd (value a * value b))) /\ 0 <= fexp (rnd (value a * value b)) <= 1.
Proof.
  intros bexp fexp a b (He & Hf & Hb) Fa Fb S.
  assert (S' : rnd (value a * value b) <= 0) by (rewrite <- (rnd0 fm); apply (rd_mono _ _ _ _ (r64 fm)), S).
  assert (F : finite (bexp (b_mul a b))).
  { destruct (mul_exact fm a b Fa Fb) as [U _]. destruct (Rlt_or_le (Rabs (rnd (value a * value b))) (largest fm)) as [L|L].
    - destruct (U L) as [F V]. apply Hf; [exact F | rewrite V; exact S'].
    - rewrite (mul_drop fm a b Fa Fb S L). apply (proj1 (proj2 He)). }
  split; [|apply Hb, S']. split; [exact F | apply (exp_agrees fm bexp fexp a b He Fa Fb F)].
Qed.
Lemma share_rep : forall bexp fexp h (s : bshell fm), damping bexp fexp -> finite h -> finite (h_en s) ->
  represents (b_share bexp h s) (fl_share rnd fexp (value h) (worth s)) /\ 0 <= fl_share rnd fexp (value h) (worth s) <= 1.
Proof.
  intros bexp fexp h s (He & Hf & Hb) Fh Fs. split.
  - assert (F : finite (b_share bexp h s)); [|split; [exact F | exact (share_agrees fm bexp fexp h s He Fh Fs F)]].
    unfold b_share. cbv zeta. destruct (is_finite (b_sub (h_en s) h)) eqn:Fx.
    + destruct (is_finite (b_mul (b_sub (h_en s) h) (b_sub (h_en s) h))) eqn:Fq.
      * assert (Fo : finite (Bopp (b_mul (b_sub (h_en s) h) (b_sub (h_en s) h)))) by (unfold finite; rewrite is_finite_Bopp; exact Fq).
        apply Hf; [exact Fo|]. rewrite (opp_agrees fm _ _ (mul_agrees fm _ _ _ _ (self_agrees fm _) (self_agrees fm _)) Fo).
        assert (P : 0 <= rnd (value (b_sub (h_en s) h) * value (b_sub (h_en s) h))) by (rewrite <- (rnd0 fm) at 1; apply (rd_mono _ _ _ _ (r64 fm)); nra). lra.
      * destruct (square_up fm (b_sub (h_en s) h)) as [-> _]; [intro F; unfold finite in F; congruence | exact Fx|]. exact (proj1 (proj1 (proj2 He))).
    + destruct (diff_up fm (h_en s) h Fs Fh) as [[g ->] _]; [intro F; unfold finite in F; congruence|].
      replace (Bopp (b_mul (B754_infinity g) (B754_infinity g))) with (B754_infinity true : number fm) by (destruct g; reflexivity). exact (proj1 (proj1 (proj2 He))).
  - unfold fl_share. cbv zeta. apply Hb. set (x := rnd (s_en (worth s) - value h)).
    assert (P : 0 <= rnd (x * x)) by (rewrite <- (rnd0 fm) at 1; apply (rd_mono _ _ _ _ (r64 fm)); nra). lra.
Qed.

Lemma weight_rep : forall bexp fexp, damping bexp fexp -> forall o m h (s : bshell fm), (0 <= o < top fm)%Z -> finite h -> finite (h_en s) -> finite (h_occ s) -> Rabs (value (h_occ s)) <= pow2 o ->
  represents (b_weight bexp m h s) (fl_weight rnd fexp m (value h) (worth s)) /\ Rabs (fl_weight rnd fexp m (value h) (worth s)) <= pow2 o.
Proof.
  intros bexp fexp Hd o m h s Po Fh Fs Fo Bo. assert (Facts := facts fm). destruct (share_rep bexp fexp h s Hd Fh Fs) as [Rs [S0 S1]].
  assert (E1 : pow2 0 = 1) by reflexivity. destruct m; cbn [b_weight fl_weight].
  - split; [exact (self_rep fm _ Fo) | exact Bo].
  - destruct (mul_rep fm _ _ _ _ o 0 (self_rep fm _ Fo) Rs Bo) as [R1 B1]; [rewrite E1, Rabs_pos_eq; lra | lia|]. rewrite Z.add_0_r in B1. split; assumption.
  - assert (B : Rabs (rnd (1 - fl_share rnd fexp (value h) (worth s))) <= pow2 0) by (apply rnd_bound; [apply bpow_fmt; lia | rewrite E1, Rabs_pos_eq; lra]).
    assert (R1 : represents (b_sub (b_lit 1 0) (b_share bexp h s)) (rnd (1 - fl_share rnd fexp (value h) (worth s)))).
    { apply sub_fits; [exact (lit_int fm 1 eq_refl) | exact Rs|]. unfold fits. eapply Rle_lt_trans; [exact B | apply pow_lt_largest; lia]. }
    destruct (mul_rep fm _ _ _ _ o 0 (self_rep fm _ Fo) R1 Bo B) as [R2 B2]; [lia|]. rewrite Z.add_0_r in B2. split; assumption.
Qed.

Section Library.
Context (bexp : number fm -> number fm) (fexp : R -> R) (bpow : number fm -> nat -> number fm) (fpow : R -> nat -> R)
        (bfact : nat -> number fm) (ffact : nat -> R) (pi : number fm).
Hypothesis Hd : damping bexp fexp.
Hypothesis Hp : powers bpow fpow.
Hypothesis Hc : about_pi pi.

Lemma sto_rep : forall z n r k j, finite z -> finite r -> 0 <= value z -> 0 <= value r -> represents (bfact (2 * n)%nat) (ffact (2 * n)%nat) ->
  (0 <= k)%Z -> (0 <= j)%Z -> (k + j < top fm)%Z -> finite (b_sto_norm bpow bfact z n) -> Rabs (value (b_sto_norm bpow bfact z n)) <= pow2 k ->
  finite (bpow r (n - 1)%nat) -> Rabs (value (bpow r (n - 1)%nat)) <= pow2 j ->
  represents (b_sto bexp bpow bfact z n r) (fl_sto rnd fexp fpow ffact (value z) n (value r)) /\
  Rabs (fl_sto rnd fexp fpow ffact (value z) n (value r)) <= pow2 (k + j).
Proof.
  intros z n r k j Fz Fr Pz Pr Rf K J T Fn Bn Fw Bw. assert (Facts := facts fm).
  rewrite (sto_norm_agrees fm bpow fpow bfact ffact Hp z n Rf Fn) in Bn. rewrite (Hp r (n - 1)%nat Fr Fw) in Bw.
  destruct (mul_rep fm _ _ _ _ k j (conj Fn (sto_norm_agrees fm bpow fpow bfact ffact Hp z n Rf Fn)) (conj Fw (Hp r (n - 1)%nat Fr Fw)) Bn Bw) as [R1 B1]; [lia|].
  destruct (opp_rep fm z (value z) (self_rep fm z Fz)) as [Fo Vo].
  destruct (exp_rep bexp fexp (Bopp z) r Hd Fo Fr) as [R2 [E0 E1]]; [rewrite Vo; nra|]. rewrite Vo in R2, E0, E1.
  assert (B2 : Rabs (fexp (rnd (- value z * value r))) <= pow2 0) by (rewrite Rabs_pos_eq; [exact E1 | exact E0]).
  destruct (mul_rep fm _ _ _ _ (k + j) 0 R1 R2 B1 B2) as [R3 B3]; [lia|]. rewrite Z.add_0_r in B3. split; assumption.
Qed.

Section Point.
Context (k j b q o w : Z) (fu : subshell -> nat -> bool) (to : subshell -> order) (r : number fm).
Hypothesis Fr : finite r.
Hypothesis Pr : 0 <= value r.
Hypothesis Pk : (0 <= k)%Z.
Hypothesis Pj : (0 <= j)%Z.
Hypothesis Pb : (0 <= b)%Z.
Hypothesis Pq : (0 <= q <= 52)%Z.
Hypothesis Po : (0 <= o)%Z.
Hypothesis Pw : (0 <= w <= 52)%Z.
Hypothesis Room : (2 * (k + j + b + q) + o + w < top fm)%Z.

Lemma count_bound : forall N p e, (0 <= p)%Z -> (Z.of_nat N <= 2 ^ p)%Z -> INR N * pow2 e <= pow2 (e + p).
Proof.
  intros N p e P L. rewrite Z.add_comm, bpow_plus. apply Rmult_le_compat_r; [apply bpow_ge_0|].
  rewrite INR_IZR_INZ, <- (IZR_Zpower radix2 p) by exact P. apply IZR_le. exact L.
Qed.
Lemma count_digits : forall N p, (0 <= p <= 52)%Z -> (Z.of_nat N <= 2 ^ p)%Z -> (Z.of_nat N < 2 ^ digits fm)%Z.
Proof.
  intros N p P L. assert (F := facts fm). eapply Z.le_lt_trans; [exact L|]. apply Z.pow_lt_mono_r; lia.
Qed.
Lemma phi_rep : forall s, proper bfact ffact s -> fusable (fu (worth s)) (to (worth s)) -> lone (fu (worth s)) (to (worth s)) = false -> small (b_sto_norm bpow bfact) bpow k j b q o to r s ->
  represents (b_phi bexp bpow bfact fu to s r) (fl_phi rnd fexp fpow ffact fu to (worth s) (value r)) /\
  Rabs (fl_phi rnd fexp fpow ffact fu to (worth s) (value r)) <= pow2 (k + j + b + q).
Proof.
  intros s (_ & _ & P) Gu Gl (_ & _ & N & S). assert (Facts := facts fm). unfold b_phi, fl_phi. cbn [s_exp worth] in *.
  assert (C := count_bound _ q (k + j + b) (proj1 Pq) N).
  assert (X : Forall2 represents (map (fun '(c, z, n) => b_sto bexp bpow bfact z n r) (h_exp s))
      (map (fun '(c, z, n) => fl_sto rnd fexp fpow ffact z n (value r)) (map (fun '(c, z, n) => (value c, value z, n)) (h_exp s))) /\
    Forall2 represents (map (fun '(c, z, n) => c) (h_exp s)) (map (fun '(c, z, n) => c) (map (fun '(c, z, n) => (value c, value z, n)) (h_exp s))) /\
    Forall (fun x => Rabs x <= pow2 (k + j)) (map (fun '(c, z, n) => fl_sto rnd fexp fpow ffact z n (value r)) (map (fun '(c, z, n) => (value c, value z, n)) (h_exp s))) /\
    Forall (fun x => Rabs x <= pow2 b) (map (fun '(c, z, n) => c) (map (fun '(c, z, n) => (value c, value z, n)) (h_exp s)))).
  { clear C N Gu Gl. revert P S. generalize (h_exp s). induction l as [|[[c z] n] l IH]; intros P S; cbn [map]; [repeat split; constructor|].
    apply Forall_cons_iff in P. destruct P as [(Fz & _ & Rf) P']. apply Forall_cons_iff in S. destruct S as [(Fc & Bc & Pz & Fn & Bn & Fw & Bw) S'].
    destruct (IH P' S') as (I1 & I2 & I3 & I4).
    destruct (sto_rep z n r k j Fz Fr Pz Pr Rf Pk Pj) as [R1 B1]; try assumption; [lia|].
    split; [|split; [|split]]; constructor; try assumption. exact (self_rep fm c Fc). }
  destruct X as (X1 & X2 & X3 & X4).
  assert (L1 : (bottom fm <= k + j + b)%Z) by lia.
  assert (L2 : INR (length (leaves (to (worth s)))) * pow2 (k + j + b) < largest fm) by (eapply Rle_lt_trans; [exact C | apply pow_lt_largest; lia]).
  destruct (dot_rep fm _ _ _ _ _ _ (k + j) b Gu Gl L1 (count_digits _ q Pq N) L2 X1 X2 X3 X4) as [R1 B1].
  split; [exact R1 | eapply Rle_trans; [exact B1 | exact C]].
Qed.
Lemma density_rep : forall m fused t L, fusable fused t -> lone fused t = false -> (Z.of_nat (length (leaves t)) <= 2 ^ w)%Z ->
  Forall (proper bfact ffact) L -> good_sums fu to L -> Forall (small (b_sto_norm bpow bfact) bpow k j b q o to r) L ->
  represents (b_density bexp bpow bfact pi m fu to fused t L r)
    (fl_density rnd fexp fpow ffact (value pi) m fu to fused t (map worth L) (value r)).
Proof.
  intros m fused t L Fu Lo N P G S. assert (Facts := facts fm). set (p := (k + j + b + q)%Z) in *.
  assert (Fl : finite (last (map h_en L) b_zero)) by (apply last_finite; eapply Forall_impl; [|exact P]; intros s Q; apply Q).
  unfold b_density, fl_density. rewrite <- (last_value fm L). set (h := last (map h_en L) b_zero) in *.
  assert (X : Forall2 represents (map (fun s => b_mul (b_phi bexp bpow bfact fu to s r) (b_phi bexp bpow bfact fu to s r)) L)
      (map (fun s => rnd (fl_phi rnd fexp fpow ffact fu to s (value r) * fl_phi rnd fexp fpow ffact fu to s (value r))) (map worth L)) /\
    Forall2 represents (map (b_weight bexp m h) L) (map (fl_weight rnd fexp m (value h)) (map worth L)) /\
    Forall (fun x => Rabs x <= pow2 (p + p)) (map (fun s => rnd (fl_phi rnd fexp fpow ffact fu to s (value r) * fl_phi rnd fexp fpow ffact fu to s (value r))) (map worth L)) /\
    Forall (fun x => Rabs x <= pow2 o) (map (fl_weight rnd fexp m (value h)) (map worth L))).
  { clearbody h. clear N Fu Lo. induction L as [|s L IH]; cbn [map]; [repeat split; constructor|].
    inversion P as [|? ? Ps P']; subst. inversion G as [|? ? [Gu Gl] G']; subst. inversion S as [|? ? Ss S']; subst.
    destruct (IH P' G' S') as (I1 & I2 & I3 & I4). destruct (phi_rep s Ps Gu Gl Ss) as [R1 B1]. fold p in B1.
    destruct (mul_rep fm _ _ _ _ p p R1 R1 B1 B1) as [R2 B2]; [lia|].
    destruct (weight_rep bexp fexp Hd o m h s ltac:(lia) Fl (proj1 Ps) (proj1 Ss) (proj1 (proj2 Ss))) as [R3 B3].
    split; [|split; [|split]]; constructor; assumption. }
  destruct X as (X1 & X2 & X3 & X4).
  assert (C := count_bound _ w (p + p + o) (proj1 Pw) N).
  assert (L1 : (bottom fm <= p + p + o)%Z) by lia.
  assert (L2 : INR (length (leaves t)) * pow2 (p + p + o) < largest fm) by (eapply Rle_lt_trans; [exact C | apply pow_lt_largest; lia]).
  destruct (dot_rep fm _ _ _ _ _ _ (p + p) o Fu Lo L1 (count_digits _ w Pw N) L2 X1 X2 X3 X4) as [R1 B1].
  assert (Q : 12 <= rnd (4 * value pi)).
  { destruct Hc as [_ Bp]. assert (E : rnd 12 = 12) by (apply (rd_id _ _ _ _ (r64 fm)); destruct (lit_int fm 12 eq_refl) as [_ <-]; apply value_fmt).
    rewrite <- E at 1. apply (rd_mono _ _ _ _ (r64 fm)). lra. }
  apply div_fits; [exact R1 | exact (four_pi fm pi Hc) | lra|]. unfold fits.
  apply Rle_lt_trans with (pow2 (p + p + o + w)); [|apply pow_lt_largest; lia]. apply rnd_bound; [apply bpow_fmt; lia|].
  eapply Rle_trans; [|exact (Rle_trans _ _ _ B1 C)]. unfold Rdiv. rewrite Rabs_mult, Rabs_inv, (Rabs_pos_eq (rnd (4 * value pi))) by lra.
  rewrite <- (Rmult_1_r (Rabs (fl_dot _ _ _ _ _))) at 2. apply Rmult_le_compat_l; [apply Rabs_pos|]. rewrite <- Rinv_1. apply Rinv_le_contravar; lra.
Qed.
End Point.
End Library.
End Format.
