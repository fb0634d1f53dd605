(** Properties C53-C69, C77 and C78: greedy fitting (/repo/bfit/greedy.py). *)
From Coquelicot Require Import Coquelicot.
From Coq Require Import String.
From Coq Require Import Reals List ZArith Lia Lra Bool Sorted.
From Verif Require Import XR PyStr SpecDens SpecMeas SpecFit ModelDens ModelMeas ModelGrid ModelFit ModelGreedy ModelChoice SpecGreedy SpecChoice Lists
  ProofDens ProofFPI ProofFPI4 ProofGreedy1 ProofGreedy2 ProofGreedy3 ProofGreedy4 ProofGreedy5 ProofGreedy6 ProofGreedy7 ProofGreedyEx ProofGreedyEx2 ProofChoice ProofGreedy10.
Import ListNotations.
Local Open Scope R_scope.

(** ** C53 *)
Theorem C53_next_choices : forall factor c e v,
  (0 < length e)%nat -> length c = length e ->
  let L := get_next_choices factor c e v in
  length L = S (length e) /\
  forall i, (i <= length e)%nat -> exists q, extends factor v i (c, e) q /\ nth i L [] = fst q ++ snd q /\
    length (fst q) = S (length e) /\ length (snd q) = S (length e).
Proof. exact next_choices. Qed.
Print Assumptions C53_next_choices.

Example C53_example :
  get_next_choices (Fin 2) [Fin 5; Fin 6] [Fin 1; Fin 3] (Fin 100) =
  [[Fin 100; Fin 5; Fin 6; Fin (1/2); Fin 1; Fin 3]; [Fin 5; Fin 100; Fin 6; Fin 1; Fin 2; Fin 3];
   [Fin 5; Fin 6; Fin 100; Fin 1; Fin 3; Fin 6]].
Proof.
  unfold get_next_choices, next_pairs. cbn. rewrite !(reqb_false 2 0) by lra.
  replace ((1 + 3) / 2) with 2 by field. replace (3 * 2) with 6 by ring. reflexivity.
Qed.

(** Arrays of floats give the choices above. *)
Theorem C53_floats : forall junk factor c e v,
  typed_next junk factor (false, c) (false, e) v = map (pair false) (get_next_choices (snd factor) c e (snd v)) /\
  typed_two_next junk factor (false, c) (false, e) v = map (pair false) (get_two_next_choices (snd factor) c e (snd v)) /\
  typed_lose_one junk factor (false, c) (false, e) v = map (pair false) (pick_two_lose_one (snd factor) c e (snd v)).
Proof. exact typed_floats. Qed.
Print Assumptions C53_floats.

(** Arrays of integers or floats. *)
Theorem C53_types : forall junk factor c e v,
  (0 < length (snd e))%nat -> length (snd c) = length (snd e) ->
  let L := typed_next junk factor c e v in
  length L = S (length (snd e)) /\
  forall i, (i <= length (snd e))%nat -> exists q, grows junk factor v i (c, e) q /\
    nth i L (true, []) = (fst (fst q) && fst (snd q), snd (fst q) ++ snd (snd q)).
Proof. exact typed_next_spec. Qed.
Print Assumptions C53_types.

(** Between the integers [z] and [z+1] the new exponent is [z] again, not the midpoint. *)
Theorem C53_integers_refuted : forall junk factor c v E1 z E2,
  length c = (length E1 + S (S (length E2)))%nat -> (0 <= z)%Z ->
  let num := map (fun k => Fin (IZR k)) in
  exists c', nth (S (length E1)) (typed_next junk factor (false, c) (true, num (E1 ++ z :: (z + 1)%Z :: E2)) v) (true, []) =
    (false, c' ++ num (E1 ++ z :: z :: (z + 1)%Z :: E2)) /\ inserted (S (length E1)) (snd v) c c'.
Proof.
  intros junk factor c v E1 z E2 L Hz num. exists (insert_at (S (length E1)) (snd v) c).
  split; [exact (integer_twice junk factor c false v E1 z E2 L Hz)|apply insert_at_inserted; lia].
Qed.
Print Assumptions C53_integers_refuted.

Example C53_types_example : forall junk,
  nth 1 (typed_next junk (false, Fin 2) (false, [Fin 5; Fin 6]) (true, [Fin 1; Fin 2]) (true, Fin 100)) (true, []) =
    (false, [Fin 5; Fin 100; Fin 6; Fin 1; Fin 1; Fin 2]) /\
  nth 2 (typed_next junk (false, Fin (3/2)) (true, [Fin 5; Fin 6]) (true, [Fin 1; Fin 2]) (true, Fin 100)) (true, []) =
    (false, [Fin 5; Fin 6; Fin 100; Fin 1; Fin 2; Fin 3]) /\
  nth 2 (typed_next junk (true, Fin 2) (true, [Fin 5; Fin 6]) (true, [Fin 1; Fin 2]) (true, Fin 100)) (true, []) =
    (true, [Fin 5; Fin 6; Fin 100; Fin 1; Fin 2; Fin 4]).
Proof.
  intros junk. split; [|split].
  - exact (integer_twice junk (false, Fin 2) [Fin 5; Fin 6] false (true, Fin 100) [] 1 [] eq_refl ltac:(lia)).
  - cbn. replace (2 * (3 / 2)) with 3 by field. reflexivity.
  - cbn. replace (2 * 2) with 4 by ring. reflexivity.
Qed.

(** ** C54 *)
Theorem C54_two_choices : forall factor c e v,
  (0 < length e)%nat -> length c = length e ->
  let n := length e in
  let L := get_two_next_choices factor c e v in
  (length L = n * (n + 5) / 2 + 2)%nat /\
  (forall p, In p L <-> exists i j q1 q2, extends factor v i (c, e) q1 /\ extends factor v j q1 q2 /\
     p = fst q2 ++ snd q2) /\
  (forall p, In p L -> length p = (2 * (n + 2))%nat).
Proof. exact two_choices. Qed.
Print Assumptions C54_two_choices.

Example C54_example :
  length (get_two_next_choices (Fin 2) [Fin 5] [Fin 1] (Fin 100)) = 5%nat /\
  In [Fin 5; Fin 100; Fin 100; Fin 1; Fin 2; Fin 4] (get_two_next_choices (Fin 2) [Fin 5] [Fin 1] (Fin 100)).
Proof.
  split; [apply C54_two_choices; auto|]. apply C54_two_choices; auto.
  exists 1%nat, 2%nat, ([Fin 5; Fin 100], [Fin 1; Fin 2]), ([Fin 5; Fin 100; Fin 100], [Fin 1; Fin 2; Fin 4]). split; [|split; [|reflexivity]].
  - split; [exists [Fin 5], []; auto|]. exists (Fin 2). split; [|exists [Fin 1], []; auto].
    right. right. cbn. split; [lia|]. split; [reflexivity|]. apply (f_equal Fin). ring.
  - split; [exists [Fin 5; Fin 100], []; auto|]. exists (Fin 4). split; [|exists [Fin 1; Fin 2], []; auto].
    right. right. cbn. split; [lia|]. split; [reflexivity|]. apply (f_equal Fin). ring.
Qed.

(** Arrays of integers or floats: appending turns integers into floats, so the order of the two
    steps matters, and only the orders from left to right occur. *)
Theorem C54_types : forall junk factor c e v,
  (0 < length (snd e))%nat -> length (snd c) = length (snd e) ->
  let n := length (snd e) in
  let L := typed_two_next junk factor c e v in
  (length L = n * (n + 5) / 2 + 2)%nat /\
  (forall p, In p L <-> exists i j q1 q2, (i <= j)%nat /\ grows junk factor v i (c, e) q1 /\ grows junk factor v j q1 q2 /\
     p = (fst (fst q2) && fst (snd q2), snd (fst q2) ++ snd (snd q2))).
Proof. exact typed_two_spec. Qed.
Print Assumptions C54_types.

Example C54_types_example : forall junk,
  length (typed_two_next junk (true, Fin 2) (true, [Fin 5]) (true, [Fin 1]) (true, Fin 100)) = 5%nat /\
  In (true, [Fin 5; Fin 100; Fin 100; Fin 1; Fin 2; Fin 4])
     (typed_two_next junk (true, Fin 2) (true, [Fin 5]) (true, [Fin 1]) (true, Fin 100)).
Proof.
  intros junk. destruct (typed_two_spec junk (true, Fin 2) (true, [Fin 5]) (true, [Fin 1]) (true, Fin 100)) as [A B]; [cbn; lia|reflexivity|].
  split; [exact A|]. apply B. exists 1%nat, 2%nat, ((true, [Fin 5; Fin 100]), (true, [Fin 1; Fin 2])), ((true, [Fin 5; Fin 100; Fin 100]), (true, [Fin 1; Fin 2; Fin 4])).
  split; [lia|]. split; [|split; [|reflexivity]].
  - apply grows_eq; [split; cbn; lia|]. split; [cbn; lia|]. unfold text. cbn. replace (1 * 2) with 2 by ring. reflexivity.
  - apply grows_eq; [split; cbn; lia|]. split; [cbn; lia|]. unfold text. cbn. replace (2 * 2) with 4 by ring. reflexivity.
Qed.

(** ** C55 *)
Theorem C55_lose_one : forall factor c e v,
  (0 < length e)%nat -> length c = length e ->
  let n := length e in
  let L := pick_two_lose_one factor c e v in
  (length L = (n * (n + 5) / 2 + 2) * (n + 2))%nat /\
  (forall p, In p L <-> exists i j q1 q2 k c' e', extends factor v i (c, e) q1 /\ extends factor v j q1 q2 /\
     removed k (fst q2) c' /\ removed k (snd q2) e' /\ p = c' ++ e') /\
  (forall p, In p L -> length p = (2 * (n + 1))%nat).
Proof. exact lose_one. Qed.
Print Assumptions C55_lose_one.

Example C55_example :
  length (pick_two_lose_one (Fin 2) [Fin 5] [Fin 1] (Fin 100)) = 15%nat /\
  In [Fin 100; Fin 100; Fin 2; Fin 4] (pick_two_lose_one (Fin 2) [Fin 5] [Fin 1] (Fin 100)).
Proof.
  split; [apply C55_lose_one; auto|]. apply C55_lose_one; auto.
  exists 1%nat, 2%nat, ([Fin 5; Fin 100], [Fin 1; Fin 2]), ([Fin 5; Fin 100; Fin 100], [Fin 1; Fin 2; Fin 4]), 0%nat, [Fin 100; Fin 100], [Fin 2; Fin 4].
  split; [|split; [|split; [|split; [|reflexivity]]]].
  - split; [exists [Fin 5], []; auto|]. exists (Fin 2). split; [|exists [Fin 1], []; auto].
    right. right. cbn. split; [lia|]. split; [reflexivity|]. apply (f_equal Fin). ring.
  - split; [exists [Fin 5; Fin 100], []; auto|]. exists (Fin 4). split; [|exists [Fin 1; Fin 2], []; auto].
    right. right. cbn. split; [lia|]. split; [reflexivity|]. apply (f_equal Fin). ring.
  - exists [], (Fin 5), [Fin 100; Fin 100]. auto.
  - exists [], (Fin 1), [Fin 2; Fin 4]. auto.
Qed.

(** Arrays of integers or floats. *)
Theorem C55_types : forall junk factor c e v,
  (0 < length (snd e))%nat -> length (snd c) = length (snd e) ->
  let n := length (snd e) in
  let L := typed_lose_one junk factor c e v in
  (length L = (n * (n + 5) / 2 + 2) * (n + 2))%nat /\
  (forall p, In p L <-> exists i j q1 q2 k c' e', (i <= j)%nat /\ grows junk factor v i (c, e) q1 /\ grows junk factor v j q1 q2 /\
     removed k (snd (fst q2)) c' /\ removed k (snd (snd q2)) e' /\ p = (fst (fst q2) && fst (snd q2), c' ++ e')).
Proof. exact typed_lose_spec. Qed.
Print Assumptions C55_types.

Example C55_types_example : forall junk,
  length (typed_lose_one junk (true, Fin 2) (true, [Fin 5]) (true, [Fin 1]) (true, Fin 100)) = 15%nat /\
  In (true, [Fin 100; Fin 100; Fin 2; Fin 4])
     (typed_lose_one junk (true, Fin 2) (true, [Fin 5]) (true, [Fin 1]) (true, Fin 100)).
Proof.
  intros junk. destruct (typed_lose_spec junk (true, Fin 2) (true, [Fin 5]) (true, [Fin 1]) (true, Fin 100)) as [A B]; [cbn; lia|reflexivity|].
  split; [exact A|]. apply B. exists 1%nat, 2%nat, ((true, [Fin 5; Fin 100]), (true, [Fin 1; Fin 2])), ((true, [Fin 5; Fin 100; Fin 100]), (true, [Fin 1; Fin 2; Fin 4])), 0%nat, [Fin 100; Fin 100], [Fin 2; Fin 4].
  split; [lia|]. split; [|split; [|split; [|split; [|reflexivity]]]].
  - apply grows_eq; [split; cbn; lia|]. split; [cbn; lia|]. unfold text. cbn. replace (1 * 2) with 2 by ring. reflexivity.
  - apply grows_eq; [split; cbn; lia|]. split; [cbn; lia|]. unfold text. cbn. replace (2 * 2) with 4 by ring. reflexivity.
  - apply delete_at_removed. cbn. lia.
  - apply delete_at_removed. cbn. lia.
Qed.

(** ** C56 *)
(** For all three ways to choose; ascending exponents stay ascending. *)
Theorem C56_positive : forall ch F c E p,
  0 < F -> (0 < length E)%nat -> length c = length E -> positive E ->
  In p (next_params ch (Fin F) c (map Fin E)) ->
  exists c' E', p = c' ++ map Fin E' /\ length c' = length E' /\ length E' = (length E + increase ch)%nat /\
    (forall x, In x c' -> x = Fin 100 \/ In x c) /\ positive E' /\ (1 <= F -> rising E -> rising E').
Proof. exact guesses_positive. Qed.
Print Assumptions C56_positive.

Example C56_example :
  positive [1; 3] /\ rising [1; 3] /\
  In [Fin 100; Fin 5; Fin 6; Fin (1/2); Fin 1; Fin 3] (next_params PickOne (Fin 2) [Fin 5; Fin 6] (map Fin [1; 3])) /\
  positive [1/2; 1; 3] /\ rising [1/2; 1; 3].
Proof.
  split; [repeat constructor; lra|]. split.
  { intros i j Hij. cbn [length] in Hij. assert (i = 0 /\ j = 1)%nat as [-> ->] by lia. cbn. lra. }
  split; [cbn [next_params map]; rewrite C53_example; now left|]. split; [repeat constructor; lra|].
  intros i j Hij. cbn [length] in Hij. destruct i as [|[|i]], j as [|[|[|j]]]; try lia; cbn; lra.
Qed.

(** A first exponent that is an integer below the factor gives a guess with the exponent 0. *)
Theorem C56_integers_refuted : forall junk fi F c v z E,
  length c = S (length E) -> (0 < z)%Z -> IZR z < F ->
  let num := map (fun k => Fin (IZR k)) in
  nth 0 (typed_next junk (fi, Fin F) (false, c) (true, num (z :: E)) v) (true, []) =
    (false, snd v :: c ++ Fin 0 :: num (z :: E)).
Proof. intros junk fi F c v z E L Hz HF num. exact (integer_lost junk fi F c false v z E L Hz HF). Qed.
Print Assumptions C56_integers_refuted.

(** What remains true of positive integers. *)
Theorem C56_integers_partial : forall junk fi F tc c v E p,
  (0 < length E)%nat -> length c = length E -> 1 <= F ->
  Forall (fun z => (0 < z)%Z) E -> rising (map IZR E) ->
  In p (typed_next junk (fi, Fin F) (tc, c) (true, map (fun z => Fin (IZR z)) E) v) ->
  exists c' E', snd p = c' ++ map Fin E' /\ length c' = S (length E) /\ length E' = S (length E) /\
    Forall (fun x => 0 <= x) E' /\ rising E' /\ (F <= IZR (nth 0 E 0%Z) -> positive E').
Proof. exact integer_rising. Qed.
Print Assumptions C56_integers_partial.

Example C56_integers_example : forall junk,
  nth 0 (typed_next junk (true, Fin 2) (false, [Fin 5]) (true, [Fin 1]) (true, Fin 100)) (true, []) =
    (false, [Fin 100; Fin 5; Fin 0; Fin 1]) /\
  IZR 1 < 2 /\ rising (map IZR [3; 7]%Z) /\ Forall (fun z => (0 < z)%Z) [3; 7]%Z /\ 2 <= IZR (nth 0 [3; 7]%Z 0%Z).
Proof.
  intros junk. split; [exact (integer_lost junk true 2 [Fin 5] false (true, Fin 100) 1 [] eq_refl ltac:(lia) ltac:(lra))|].
  split; [lra|]. split; [|split; [repeat constructor|cbn; lra]].
  intros i j H. cbn in H. assert (i = 0 /\ j = 1)%nat as [-> ->] by lia. cbn. lra.
Qed.

(** ** C57 *)
(** What remove_redundancies returns: the entries that are not close to an earlier one, in order, each with the coefficients of all later close entries added. *)
Theorem C57_meaning : forall c e eps,
  length c = length e ->
  exists idx, StronglySorted lt idx /\ (forall i, In i idx <-> (i < length e)%nat /\ first_of_kind eps e i) /\
    remove_redundancies (map Fin c) (map Fin e) (Fin eps) =
    (map Fin (map (fun i => nth i c 0 + later_close eps c e i) idx), map Fin (map (fun i => nth i e 0) idx)).
Proof. exact remove_spec. Qed.
Print Assumptions C57_meaning.

Theorem C57_separated : forall c e eps c' e',
  length c = length e ->
  remove_redundancies (map Fin c) (map Fin e) (Fin eps) = (map Fin c', map Fin e') -> separated eps e'.
Proof. exact remove_separated. Qed.
Print Assumptions C57_separated.

(** Separated input is unchanged, and only separated input keeps its length. *)
Theorem C57_unchanged : forall c e eps,
  length c = length e ->
  (separated eps e -> remove_redundancies (map Fin c) (map Fin e) (Fin eps) = (map Fin c, map Fin e)) /\
  (length (fst (remove_redundancies (map Fin c) (map Fin e) (Fin eps))) = length c <-> separated eps e).
Proof. exact remove_unchanged. Qed.
Print Assumptions C57_unchanged.

(** The total weight is kept if closeness is transitive on the exponents; without this it is not, see the two refutations. *)
Theorem C57_weight_partial : forall c e eps c' e',
  length c = length e -> clustered eps e ->
  remove_redundancies (map Fin c) (map Fin e) (Fin eps) = (map Fin c', map Fin e') -> rsum c' = rsum c.
Proof. exact remove_weight. Qed.
Print Assumptions C57_weight_partial.

(** Third exponent close to the second, not to the first: its coefficient is lost. *)
Theorem C57_weight_lost_refuted : forall c0 c1 c2,
  remove_redundancies (map Fin [c0; c1; c2]) (map Fin [1; 10005/10000; 1001/1000]) (Fin (1/1000)) =
  (map Fin [c0 + c1], map Fin [1]).
Proof. exact chain_loses. Qed.
Print Assumptions C57_weight_lost_refuted.

(** Third exponent close to both others, which are not close: its coefficient counts twice. *)
Theorem C57_weight_doubled_refuted : forall c0 c1 c2,
  remove_redundancies (map Fin [c0; c1; c2]) (map Fin [1; 10015/10000; 10008/10000]) (Fin (1/1000)) =
  (map Fin [c0 + c2; c1 + c2], map Fin [1; 10015/10000]).
Proof. exact double_counts. Qed.
Print Assumptions C57_weight_doubled_refuted.

Example C57_example :
  clustered (1/1000) [1; 10005/10000; 2] /\ ~ separated (1/1000) [1; 10005/10000; 2] /\ separated (1/1000) [1; 2] /\
  exists idx, StronglySorted lt idx /\ (forall i, In i idx <-> i = 0 \/ i = 2)%nat /\
    remove_redundancies (map Fin [5; 6; 7]) (map Fin [1; 10005/10000; 2]) (Fin (1/1000)) =
    (map Fin (map (fun i => nth i [5; 6; 7] 0 + later_close (1/1000) [5; 6; 7] [1; 10005/10000; 2] i) idx),
     map Fin (map (fun i => nth i [1; 10005/10000; 2] 0) idx)).
Proof.
  assert (D : forall x y, Rabs (x - y) = x - y /\ 0 <= x - y \/ Rabs (x - y) = y - x /\ x - y <= 0).
  { intros x y. destruct (Rle_dec 0 (x - y)); [left; rewrite Rabs_right; lra|right; rewrite Rabs_left; lra]. }
  split; [|split; [|split]].
  - intros [|[|[|i]]] [|[|[|j]]] [|[|[|k]]] Hi Hj Hk; cbn [length nth] in *; try lia; intros A B;
    repeat match goal with |- context [Rabs (?x - ?y)] => destruct (D x y) as [[-> ?]|[-> ?]] | H : context [Rabs (?x - ?y)] |- _ => destruct (D x y) as [[ E ?]|[E ?]]; rewrite E in H; clear E end; lra.
  - intros S. specialize (S 0%nat 1%nat ltac:(cbn; lia)). cbn [nth] in S. destruct (D 1 (10005/10000)) as [[ E ?]|[E ?]]; rewrite E in S; lra.
  - intros i j Hij. cbn [length] in Hij. assert (i = 0 /\ j = 1)%nat as [-> ->] by lia. cbn [nth]. destruct (D 1 2) as [[ E ?]|[E ?]]; rewrite E; lra.
  - destruct (C57_meaning [5; 6; 7] [1; 10005/10000; 2] (1/1000) eq_refl) as (idx & S & M & E). exists idx. split; auto. split; [|exact E].
    intros i. rewrite M. cbn [length]. unfold first_of_kind. split.
    + intros [Hi F]. destruct i as [|[|[|i]]]; try lia. specialize (F 0%nat ltac:(lia)). cbn [nth] in F. destruct (D 1 (10005/10000)) as [[ E' ?]|[E' ?]]; rewrite E' in F; lra.
    + intros [-> | ->]; split; try lia; intros j Hj; try lia. destruct j as [|[|j]]; try lia; cbn [nth];
      match goal with |- context [Rabs (?x - ?y)] => destruct (D x y) as [[-> ?]|[-> ?]] end; lra.
Qed.

(** ** C58 *)
(** What the search returns, for every optimizer: nothing below 10^10, or the first least candidate. *)
Theorem C58_best : forall sy t k inc nsc cands v bp b,
  find_best sy t k inc nsc 0 cands (Fin (10 ^ 10), None, false) = Ok (v, bp, b) ->
  (bp = None /\ forall i lp w, evaluated sy t k inc nsc cands i lp w -> xltb w (Fin (10 ^ 10)) = false) \/
  exists i lp, bp = Some lp /\ evaluated sy t k inc nsc cands i lp v /\ b = Nat.ltb i nsc /\
    (forall j lp' w, evaluated sy t k inc nsc cands j lp' w -> xltb w v = false) /\
    (forall j lp' w, (j < i)%nat -> evaluated sy t k inc nsc cands j lp' w -> xleb w v = false).
Proof. exact search_best. Qed.
Print Assumptions C58_best.

Theorem C58_total : forall sy t k inc nsc cands,
  (forall i, (i < length cands)%nat -> exists lp w, evaluated sy t k inc nsc cands i lp w) ->
  exists r, find_best sy t k inc nsc 0 cands (Fin (10 ^ 10), None, false) = Ok r.
Proof. exact search_total. Qed.
Print Assumptions C58_total.

(** When every candidate costs at least 10^10 (or is NaN) none is returned and the run fails with TypeError. *)
Theorem C58_huge_refuted : forall sy ch ob f d mx extra fuel p g v,
  (1 < mx)%Z -> xleb f (Fin 0) = false ->
  sy_start sy (ob_cfg ob) = Ok p -> sy_good sy (ob_cfg ob) p = Ok g -> sy_obj sy (ob_cfg ob) p = Ok (Fin v) ->
  xleb d PInf = true -> (forall f, extra = Some f -> exists x, f p = Ok x) ->
  (forall t k q, exists q', sy_opt sy t k q true = Ok q') ->
  (forall k q, (total (ob_cfg ob) < total k)%nat -> exists c, sy_obj sy k q = Ok c /\ xltb c (Fin (10 ^ 10)) = false) ->
  greedy_run sy ch ob (VFloat f) d mx extra (S fuel) = Some (Raise TypeError).
Proof. exact search_empty_raises. Qed.
Print Assumptions C58_huge_refuted.

(** A strategy whose objective is 0 for the start and 10^10 for anything larger. *)
Definition steep : strategy :=
  mkStrategy (fun k => Ok (toy_params k)) (fun _ k _ _ => Ok (toy_params k))
             (fun k _ => Ok (Fin (if Nat.leb (total k) 1 then 0 else 10 ^ 10)))
             (fun _ _ => Ok [Fin 7]) (fun _ n => map Fin (repeat 1 n)).
Example C58_example :
  find_best pick 0 (1, 0)%nat 1 2 0 [[Fin 3]; [NaN]; [Fin 1]; [Fin 2]] (Fin (10 ^ 10), None, false) =
    Ok (Fin 1, Some [Fin 1], false) /\
  evaluated pick 0 (1, 0)%nat 1 2 [[Fin 3]; [NaN]; [Fin 1]; [Fin 2]] 1 [NaN] NaN /\
  greedy_run steep PickOne new_object (VFloat (Fin 2)) toy_d 5 None 1 = Some (Raise TypeError).
Proof.
  split; [apply pick_search|]. split; [split; [cbn; lia|split; reflexivity]|].
  apply (C58_huge_refuted steep PickOne new_object (Fin 2) toy_d 5 None 0 (toy_params (1, 0)%nat) [Fin 7] 0); try reflexivity; try lia.
  - cbn. now rewrite rleb_false by lra.
  - discriminate.
  - intros t k q. eexists. reflexivity.
  - intros k q Hk. eexists. split; [reflexivity|]. cbn [new_object ob_cfg] in Hk. destruct (Nat.leb_spec (total k) 1); [unfold total in *; cbn in *; lia|].
    cbn [xltb]. apply rltb_false. lra.
Qed.

(** ** C59 *)
(** The run is the same with and without the extra choices. *)
Theorem C59_extra_refuted : forall sy ch ob factor d mx f fuel,
  (forall p, exists x, f p = Ok x) ->
  greedy_run sy ch ob factor d mx (Some f) fuel = greedy_run sy ch ob factor d mx None fuel.
Proof. exact extra_ignored. Qed.
Print Assumptions C59_extra_refuted.

(** Here the extra choice would have been the best one. *)
Example C59_example :
  greedy_run (toy (Fin 0)) PickOne new_object (VFloat (Fin 2)) toy_d 3 (Some (fun p => Ok (p ++ p))) 9 =
  greedy_run (toy (Fin 0)) PickOne new_object (VFloat (Fin 2)) toy_d 3 None 9.
Proof. apply C59_extra_refuted. intros p. exists (p ++ p). reflexivity. Qed.

(** ** C60 *)
(** [h ++ [en]] lists the accepted fits. *)
Theorem C60_history : forall sy ch ob factor d mx extra fuel r ob',
  greedy_run sy ch ob factor d mx extra fuel = Some (Ok (r, ob')) ->
  exists h en, Forall (entry_ok sy) (h ++ [en]) /\ non_increasing (h ++ [en]) /\
    gr_params r = map en_par (h ++ [en]) /\ gr_perf r = ob_err ob ++ map en_err (h ++ [en]) /\
    sy_obj sy (gr_cfg r) (en_par en) = Ok (gr_fun r) /\
    (never_nan sy -> gr_cfg r = en_cfg en /\ gr_fun r = en_val en /\
       forall x, In x (h ++ [en]) -> xleb (gr_fun r) (en_val x) = true).
Proof. exact run_history. Qed.
Print Assumptions C60_history.

Example C60_example fuel : never_nan (toy (Fin 0)) /\
  exists r ob, greedy_run (toy (Fin 0)) PickOne new_object (VFloat (Fin 2)) toy_d 3 None (S fuel) = Some (Ok (r, ob)) /\
    gr_params r = [toy_params (1, 0)%nat; toy_params (2, 0)%nat] /\ gr_fun r = Fin 0.
Proof.
  split; [intros k p; discriminate|]. destruct (toy_run_one fuel) as (r & ob & E & _ & _ & _ & P & _ & F). exists r, ob. auto.
Qed.

(** ** C61 *)
(** At most max(1, limit) functions for a fresh object and ways to choose that add one function; one more for pick-two, see the refutation. *)
Theorem C61_size_partial : forall sy ch ob factor d mx extra fuel r ob',
  greedy_run sy ch ob factor d mx extra fuel = Some (Ok (r, ob')) ->
  (Z.of_nat (total (gr_cfg r)) + 1 <= Z.max 1 (mx - 1 + Z.of_nat (increase ch)) + Z.of_nat (total (ob_cfg ob)))%Z.
Proof. exact run_size. Qed.
Print Assumptions C61_size_partial.

(** pick-two with limit 2 returns three functions. *)
Theorem C61_pick_two_refuted : forall fuel, exists r ob,
  greedy_run (toy (Fin 0)) PickTwo new_object (VFloat (Fin 2)) toy_d 2 None (S fuel) = Some (Ok (r, ob)) /\
  gr_cfg r = (3, 0)%nat /\ gr_success r = true /\ gr_exit r = ExMax 3 /\ gr_coeffs r = [Fin 1; Fin 1; Fin 1].
Proof. exact toy_run_two. Qed.
Print Assumptions C61_pick_two_refuted.

(** One coefficient and one exponent per function. *)
Theorem C61_coefficients : forall sy ch ob factor d mx extra fuel r ob',
  never_nan sy -> rand_sized sy ->
  (forall p, sy_start sy (ob_cfg ob) = Ok p -> fits (ob_cfg ob) p) ->
  (forall t k p b q, fits k p -> sy_opt sy t k p b = Ok q -> fits k q) ->
  greedy_run sy ch ob factor d mx extra fuel = Some (Ok (r, ob')) ->
  length (gr_coeffs r) = total (gr_cfg r) /\ length (gr_exps r) = total (gr_cfg r) /\
  last (gr_params r) [] = gr_coeffs r ++ gr_exps r /\ ob_cfg ob' = gr_cfg r.
Proof. exact run_sizes. Qed.
Print Assumptions C61_coefficients.

Example C61_example fuel : never_nan (toy (Fin 0)) /\ rand_sized (toy (Fin 0)) /\
  (forall p, sy_start (toy (Fin 0)) (1, 0)%nat = Ok p -> fits (1, 0)%nat p) /\
  (forall t k p b q, fits k p -> sy_opt (toy (Fin 0)) t k p b = Ok q -> fits k q) /\
  exists r ob, greedy_run (toy (Fin 0)) PickOne new_object (VFloat (Fin 2)) toy_d 3 None (S fuel) = Some (Ok (r, ob)) /\
    gr_cfg r = (2, 0)%nat /\ gr_coeffs r = [Fin 1; Fin 1].
Proof.
  split; [intros k p; discriminate|]. split; [intros i n; cbn; now rewrite map_length, repeat_length|].
  split; [intros p E; cbn in E; inversion E; apply (toy_fits (1, 0)%nat)|]. split; [intros t k p b q _ E; cbn in E; inversion E; apply toy_fits|].
  destruct (toy_run_one fuel) as (r & ob & E & K & _ & _ & _ & C & _). exists r, ob. auto.
Qed.

(** A new object starts with one s-type function and no rows of errors: the first parameters and the first row of errors are those of the first fit,
    and there is a row for each set of parameters. *)
Theorem C61_fresh : forall sy ch factor d mx extra fuel r ob',
  greedy_run sy ch new_object factor d mx extra fuel = Some (Ok (r, ob')) ->
  (Z.of_nat (total (gr_cfg r)) <= Z.max 1 (mx - 1 + Z.of_nat (increase ch)))%Z /\
  List.length (gr_perf r) = List.length (gr_params r) /\
  exists p g ps gs, gr_params r = p :: ps /\ gr_perf r = g :: gs /\ sy_start sy (1, 0)%nat = Ok p /\ sy_good sy (1, 0)%nat p = Ok g.
Proof. exact run_fresh. Qed.
Print Assumptions C61_fresh.

Example C61_fresh_example fuel : exists r ob, greedy_run (toy (Fin 0)) PickOne new_object (VFloat (Fin 2)) toy_d 3 None (S fuel) = Some (Ok (r, ob)) /\
  List.length (gr_perf r) = 2%nat /\ hd_error (gr_params r) = Some (toy_params (1, 0)%nat) /\ (total (gr_cfg r) <= 3)%nat.
Proof.
  destruct (toy_run_one fuel) as (r & ob & E & _ & _ & _ & P & _). exists r, ob. split; [exact E|].
  destruct (C61_fresh _ _ _ _ _ _ _ _ _ E) as (N & L & _). rewrite L, P. split; [reflexivity|]. split; [reflexivity|]. cbn [increase] in N. lia.
Qed.

(** ** C62 *)
(** At most 5 (limit - 1) rounds, whatever the optimizer does. *)
Theorem C62_terminates : forall sy ch ob factor d mx extra,
  exists out, forall fuel, (5 * (mx - 1) <= Z.of_nat fuel)%Z -> greedy_run sy ch ob factor d mx extra fuel = Some out.
Proof. exact run_terminates. Qed.
Print Assumptions C62_terminates.

(** A factor that is not a float or not positive is refused before anything is computed. *)
Theorem C62_factor : forall sy ch ob factor d mx extra fuel,
  ((forall f, factor <> VFloat f) -> greedy_run sy ch ob factor d mx extra fuel = Some (Raise TypeError)) /\
  (forall f, factor = VFloat f -> xleb f (Fin 0) = true -> greedy_run sy ch ob factor d mx extra fuel = Some (Raise ValueError)).
Proof. exact run_factor. Qed.
Print Assumptions C62_factor.

Example C62_factor_example : forall fuel,
  greedy_run nanny PickTwo new_object (VInt 2) toy_d 10 None fuel = Some (Raise TypeError) /\
  greedy_run nanny PickTwo new_object (VFloat (Fin 0)) toy_d 10 None fuel = Some (Raise ValueError).
Proof.
  intros fuel. split; [apply C62_factor; discriminate|]. apply (proj2 (C62_factor nanny PickTwo new_object (VFloat (Fin 0)) toy_d 10%Z None fuel) (Fin 0) eq_refl).
  cbn. apply rleb_true. lra.
Qed.

Example C62_example : exists out, forall fuel, (45 <= fuel)%nat ->
  greedy_run nanny PickTwo new_object (VFloat (Fin 2)) toy_d 10 None fuel = Some out.
Proof.
  destruct (C62_terminates nanny PickTwo new_object (VFloat (Fin 2)) toy_d 10 None) as (out & H). exists out. intros fuel Hf. apply H. lia.
Qed.

(** ** C63 *)
(** What the flag and the exit information say: not the reason of termination, see the refutations. *)
Theorem C63_flags_partial : forall sy ch ob factor d mx extra fuel r ob',
  greedy_run sy ch ob factor d mx extra fuel = Some (Ok (r, ob')) ->
  let n := (Z.of_nat (total (gr_cfg r)) - Z.of_nat (total (ob_cfg ob)) + 1)%Z in
  (gr_success r = false <-> n = (mx - 1)%Z \/ gr_exit r = ExNoChoice (gr_cfg r)) /\
  (forall m, gr_exit r = ExMax m -> m = n /\ (mx - 1 <= n)%Z) /\
  (forall a b, gr_exit r = ExEps a b -> (n < mx - 1)%Z /\ b = d /\ xltb (xabs a) d = true).
Proof. exact run_success. Qed.
Print Assumptions C63_flags_partial.

(** With limit 1 the run stops by the limit and reports success. *)
Theorem C63_limit_refuted : forall sy ch ob factor d extra fuel r ob',
  greedy_run sy ch ob factor d 1 extra fuel = Some (Ok (r, ob')) -> gr_success r = true /\ gr_exit r = ExMax 1.
Proof. exact run_limit_success. Qed.
Print Assumptions C63_limit_refuted.

(** A run that ends one function below the limit reports failure and the limit as reason. *)
Theorem C63_converged_refuted : forall sy ch ob factor d mx extra fuel r ob',
  greedy_run sy ch ob factor d mx extra fuel = Some (Ok (r, ob')) ->
  (Z.of_nat (total (gr_cfg r)) - Z.of_nat (total (ob_cfg ob)) + 1 = mx - 1)%Z ->
  gr_success r = false /\
  (gr_exit r <> ExNoChoice (gr_cfg r) -> gr_exit r = ExMax (mx - 1)).
Proof. exact run_converged_failure. Qed.
Print Assumptions C63_converged_refuted.

(** Such a run, stopped by convergence: limit 3, two functions. *)
Example C63_example fuel : exists r ob,
  greedy_run (toy (Fin 0)) PickOne new_object (VFloat (Fin 2)) toy_d 3 None (S fuel) = Some (Ok (r, ob)) /\
  gr_cfg r = (2, 0)%nat /\ gr_success r = false /\ gr_exit r = ExMax 2.
Proof. destruct (toy_run_one fuel) as (r & ob & E & K & S & X & _). exists r, ob. auto. Qed.

(** ** C64 *)
(** After a run that added a function a second run raises ValueError. *)
Theorem C64_kl_refuted : forall gk rand ch ob factor d mx extra fuel r ob' sph w f rs mask N f2 d2 mx2 extra2 fuel2,
  kl_setting gk sph w f rs mask N ->
  greedy_run (kl_strategy gk rand) ch ob factor d mx extra fuel = Some (Ok (r, ob')) ->
  total (gr_cfg r) <> 1%nat -> xleb f2 (Fin 0) = false ->
  greedy_run (kl_strategy gk rand) ch ob' (VFloat f2) d2 mx2 extra2 fuel2 = Some (Raise ValueError).
Proof. exact kl_second_run. Qed.
Print Assumptions C64_kl_refuted.

Theorem C64_ls_refuted : forall gl nnls minimize rand ch ob factor d mx extra fuel r ob' a f2 d2 mx2 extra2 fuel2,
  ft_model (sc_fit (ls_scipy gl)) = GAtom a ->
  greedy_run (ls_strategy gl nnls minimize rand) ch ob factor d mx extra fuel = Some (Ok (r, ob')) ->
  total (gr_cfg r) <> 1%nat -> xleb f2 (Fin 0) = false ->
  greedy_run (ls_strategy gl nnls minimize rand) ch ob' (VFloat f2) d2 mx2 extra2 fuel2 = Some (Raise ValueError).
Proof. exact ls_second_run. Qed.
Print Assumptions C64_ls_refuted.

(** A second run that returns also reports the errors of the first. *)
Theorem C64_errors_refuted : forall sy ch ob factor d mx extra fuel r ob' factor2 d2 mx2 extra2 fuel2 r2 ob2,
  greedy_run sy ch ob factor d mx extra fuel = Some (Ok (r, ob')) ->
  greedy_run sy ch ob' factor2 d2 mx2 extra2 fuel2 = Some (Ok (r2, ob2)) ->
  exists rows, gr_perf r2 = gr_perf r ++ rows /\ length rows = length (gr_params r2) /\ gr_perf r <> [].
Proof. exact second_run_errors. Qed.
Print Assumptions C64_errors_refuted.

Example C64_example d fuel : d <> NaN ->
  kl_setting kl_one_pt false [1] [1] [one_r] nan_mask 1 /\
  (exists r ob, greedy_run (kl_strategy kl_one_pt ones_rand) PickOne new_object (VFloat (Fin 2)) d 2 None (S fuel) = Some (Ok (r, ob)) /\
     total (gr_cfg r) = 2%nat) /\
  exists r ob, greedy_run (ls_strategy (sum_ls gauss2 [0; 1] false) no_nnls two_minimize ones_rand) PickOne new_object
     (VFloat (Fin 2)) d 2 None (S fuel) = Some (Ok (r, ob)) /\ total (gr_cfg r) = 2%nat.
Proof. intros H. split; [apply one_pt_setting|]. split; [now apply one_run|now apply ls_two_run]. Qed.

(** ** C65 *)
(** If no objective value is NaN; for NaN see the refutation. *)
Theorem C65_consistent_partial : forall sy ch ob factor d mx extra fuel r ob',
  never_nan sy -> rand_sized sy ->
  (forall p, sy_start sy (ob_cfg ob) = Ok p -> fits (ob_cfg ob) p) ->
  (forall t k p b q, fits k p -> sy_opt sy t k p b = Ok q -> fits k q) ->
  greedy_run sy ch ob factor d mx extra fuel = Some (Ok (r, ob')) ->
  length (gr_coeffs r) = total (gr_cfg r) /\ length (gr_exps r) = total (gr_cfg r) /\
  last (gr_params r) [] = gr_coeffs r ++ gr_exps r /\ ob_cfg ob' = gr_cfg r.
Proof. exact run_sizes. Qed.
Print Assumptions C65_consistent_partial.

(** A NaN objective: the result claims two functions but has the parameters of one. *)
Theorem C65_nan_refuted : forall fuel, exists r ob,
  greedy_run nanny PickOne new_object (VFloat (Fin 2)) toy_d 2 None (S fuel) = Some (Ok (r, ob)) /\
  total (gr_cfg r) = 2%nat /\ total (ob_cfg ob) = 2%nat /\ gr_params r = [toy_params (1, 0)%nat] /\ gr_exps r = [].
Proof. exact nanny_run. Qed.
Print Assumptions C65_nan_refuted.

Example C65_example fuel : never_nan (toy (Fin 0)) /\ exists r ob,
  greedy_run (toy (Fin 0)) PickOne new_object (VFloat (Fin 2)) toy_d 3 None (S fuel) = Some (Ok (r, ob)) /\
  total (gr_cfg r) = 2%nat /\ gr_coeffs r = [Fin 1; Fin 1].
Proof.
  split; [intros k p; discriminate|]. destruct (toy_run_one fuel) as (r & ob & E & K & _ & _ & _ & C & _). exists r, ob. rewrite K. auto.
Qed.

(** ** C66 *)
Theorem C66_optimal : forall w f rs, length f = length w -> length rs = length w -> nonneg w -> positive f -> two_distances w rs ->
  exists A B, solve_one (map Fin rs) (map Fin f) (map Fin w) = [Fin (exp A); Fin (- B)] /\
    forall A' B', log_error w f rs A B <= log_error w f rs A' B' /\
      (log_error w f rs A' B' = log_error w f rs A B -> A' = A /\ B' = B).
Proof. exact solve_one_optimal. Qed.
Print Assumptions C66_optimal.

(** The start is one of the three solutions, none of which has a smaller objective. *)
Theorem C66_best_of_three : forall gl k rs f p,
  let ft := sc_fit (ls_scipy gl) in
  gr_points (ft_grid ft) = A1 (map Fin rs) -> ft_density ft = map Fin f -> length f = length rs ->
  ls_start gl k = Ok p ->
  exists w v, In w [repeat 1 (length f); f; map (fun x => x ^ 2) f] /\
    p = solve_one (map Fin rs) (map Fin f) (map Fin w) /\ obj_at ft k p = Ok v /\
    forall w' v', In w' [repeat 1 (length f); f; map (fun x => x ^ 2) f] ->
      obj_at ft k (solve_one (map Fin rs) (map Fin f) (map Fin w')) = Ok v' -> xltb v' v = false.
Proof. exact ls_start_best. Qed.
Print Assumptions C66_best_of_three.

Example C66_example :
  nonneg [1; 2] /\ positive gauss2 /\ two_distances [1; 2] [0; 1] /\
  solve_one (map Fin [0; 1]) (map Fin gauss2) (map Fin [1; 2]) = [Fin 1; Fin 1] /\
  ls_start (sum_ls gauss2 [0; 1] false) (1, 0)%nat = Ok [Fin 1; Fin 1].
Proof.
  split; [repeat constructor; lra|]. split; [apply gauss2_pos|]. split.
  { exists 0%nat, 1%nat. cbn [length nth]. repeat split; try lia; lra. }
  split; [apply gauss2_start; [repeat constructor; lra|reflexivity]|]. apply gauss2_ls_start.
Qed.

(** ** C67 *)
(** With [spherical]: the best exponent times the ratio of integral_dens and the integral of the density. *)
Theorem C67_value_partial : forall gk w f rs mask N k,
  kl_setting gk true w f rs mask N -> nonneg w -> positive f -> off_origin w rs ->
  let W := fit_weights true w rs in
  let best := 3/2 * rdot W f / sumn (length W) (fun i => nth i W 0 * (nth i f 0 * nth i rs 0 ^ 2)) in
  0 < best /\ kl_start gk k = Ok [Fin N; Fin (N / rdot W f * best)].
Proof. exact kl_start_spherical. Qed.
Print Assumptions C67_value_partial.

(** With [spherical] and coefficients that sum to the integral of the density the start is the unique best one. *)
Theorem C67_best_partial : forall gk w f rs mask N k,
  kl_setting gk true w f rs mask N -> nonneg w -> positive f -> off_origin w rs ->
  N = rdot (fit_weights true w rs) f ->
  exists a, 0 < a /\ kl_start gk k = Ok [Fin N; Fin a] /\
    forall a', 0 < a' -> a' <> a ->
      kl_sum (fit_weights true w rs) f (values true (one_s rs) [N] [a]) <
      kl_sum (fit_weights true w rs) f (values true (one_s rs) [N] [a']).
Proof. exact kl_start_best. Qed.
Print Assumptions C67_best_partial.

(** With another integral_dens it is not. *)
Theorem C67_other_integral_refuted : forall gk w f rs mask N k,
  kl_setting gk true w f rs mask N -> nonneg w -> positive f -> off_origin w rs ->
  N <> rdot (fit_weights true w rs) f ->
  exists a a', 0 < a' /\ kl_start gk k = Ok [Fin N; Fin a] /\
    kl_sum (fit_weights true w rs) f (values true (one_s rs) [N] [a']) <
    kl_sum (fit_weights true w rs) f (values true (one_s rs) [N] [a]).
Proof. exact kl_start_not_best. Qed.
Print Assumptions C67_other_integral_refuted.

(** Without [spherical] it is not, but for one coincidence. *)
Theorem C67_plain_refuted : forall gk w f rs mask N k,
  kl_setting gk false w f rs mask N -> nonneg w -> positive f -> off_origin w rs ->
  N * sumn (length w) (fun i => nth i w 0 * (nth i f 0 * nth i rs 0 ^ 2)) <>
    4 * PI * rdot w f * sumn (length w) (fun i => nth i w 0 * (nth i f 0 * nth i rs 0 ^ 4)) ->
  exists a a', 0 < a' /\ kl_start gk k = Ok [Fin N; Fin a] /\
    kl_sum w f (values true (one_s rs) [N] [a']) < kl_sum w f (values true (one_s rs) [N] [a]).
Proof. exact kl_start_plain_not_best. Qed.
Print Assumptions C67_plain_refuted.

Lemma one_plain_weight (sph : bool) : rdot (fit_weights sph [1] [1]) [1] = (if sph then 4 * PI else 1).
Proof. unfold rdot, rsum. destruct sph; cbn [fit_weights map2 fold_right]; ring. Qed.
Lemma at_one_setting (sph : bool) N : 0 < N -> kl_setting (sum_kl sph [1] [1] N) sph [1] [1] [1] nan_mask N.
Proof.
  intros HN. apply (sum_kl_setting sph [1] [1] N eq_refl); [repeat constructor; lra|auto|].
  change (repeat 1 (length [1])) with [1]. rewrite one_plain_weight. pose proof PI_RGT_0. destruct sph; lra.
Qed.
Example C67_example :
  kl_setting (sum_kl true [1] [1] (4 * PI)) true [1] [1] [1] nan_mask (4 * PI) /\
  kl_setting (sum_kl true [1] [1] 1) true [1] [1] [1] nan_mask 1 /\
  kl_setting (sum_kl false [1] [1] 1) false [1] [1] [1] nan_mask 1 /\
  nonneg [1] /\ positive [1] /\ off_origin [1] [1] /\
  4 * PI = rdot (fit_weights true [1] [1]) [1] /\ 1 <> rdot (fit_weights true [1] [1]) [1] /\
  1 * sumn 1 (fun i => nth i [1] 0 * (nth i [1] 0 * nth i [1] 0 ^ 2)) <>
    4 * PI * rdot [1] [1] * sumn 1 (fun i => nth i [1] 0 * (nth i [1] 0 * nth i [1] 0 ^ 4)).
Proof.
  pose proof PI_RGT_0 as P. pose proof PI2_3_2 as P2. unfold PI2 in P2.
  do 3 (split; [apply at_one_setting; lra|]). split; [repeat constructor; lra|]. split; [repeat constructor; lra|].
  split; [exists 0%nat; cbn [length nth]; split; [lia|split; lra]|]. rewrite one_plain_weight. split; [reflexivity|]. split; [lra|].
  unfold sumn, rdot, rsum. cbn [seq map nth fold_right map2]. intros C. ring_simplify in C. lra.
Qed.

(** ** C68 *)
(** For functions that are not normalized. *)
Theorem C68_matrix_partial : forall rs ns np e m,
  (0 < ns + np)%nat -> length e = (ns + np)%nat ->
  atomic_init (VArr (A1 (map Fin rs))) VNone (VInt (Z.of_nat ns)) (VInt (Z.of_nat np)) false = Ok m ->
  exists rows, cofactor_matrix (A1 (map Fin rs)) (ns, np) (map Fin e) = Ok (map (map Fin) rows) /\
    length rows = length rs /\ Forall (fun row => length row = (ns + np)%nat) rows /\
    forall c, length c = (ns + np)%nat ->
      atomic_evaluate m (A1 (map Fin c)) (A1 (map Fin e)) false = Ok (map (fun row => Fin (rdot row c)) rows, None).
Proof. exact cofactor_matches. Qed.
Print Assumptions C68_matrix_partial.

(** For normalized functions the constants are missing. *)
Theorem C68_normalized_refuted : forall rs a c m,
  rs <> [] -> 0 < a -> a <> PI -> c <> 0 ->
  atomic_init (VArr (A1 (map Fin rs))) VNone (VInt 1) (VInt 0) true = Ok m ->
  exists rows, cofactor_matrix (A1 (map Fin rs)) (1, 0)%nat (map Fin [a]) = Ok (map (map Fin) rows) /\
    atomic_evaluate m (A1 (map Fin [c])) (A1 (map Fin [a])) false <> Ok (map (fun row => Fin (rdot row [c])) rows, None).
Proof. exact cofactor_normalized. Qed.
Print Assumptions C68_normalized_refuted.

Example C68_example :
  cofactor_matrix (A1 (map Fin [1; 2])) (1, 1)%nat (map Fin [0; 0]) = Ok (map (map Fin) [[1; 1]; [1; 4]]) /\
  (exists m, atomic_init (VArr (A1 (map Fin [1; 2]))) VNone (VInt 1) (VInt 1) false = Ok m) /\
  (exists m, atomic_init (VArr (A1 (map Fin [1; 2]))) VNone (VInt 1) (VInt 0) true = Ok m) /\ 1 <> PI.
Proof.
  pose proof PI2_3_2 as P2. unfold PI2 in P2. split; [|split; [|split; [|lra]]].
  - unfold cofactor_matrix. cbn [map firstn skipn fst snd Nat.eqb app]. rewrite !ProofFit.xpow2_fin. cbn [xneg xmul xexp].
    rewrite Ropp_0, !Rmult_0_l, exp_0. do 2 f_equal; [f_equal; f_equal; f_equal; ring|]. repeat f_equal. ring.
  - eexists. reflexivity.
  - eexists. reflexivity.
Qed.

(** ** C69 *)
(** If every objective value is finite and nothing else raises RuntimeError. *)
Theorem C69_finite_partial : forall sy ch ob factor d mx extra fuel,
  d <> NaN ->
  (forall k p v, sy_obj sy k p = Ok v -> exists x, v = Fin x) ->
  (forall k, sy_start sy k <> Raise RuntimeError) ->
  (forall k p, sy_good sy k p <> Raise RuntimeError) ->
  (forall k p, sy_obj sy k p <> Raise RuntimeError) ->
  (forall t k p b, sy_opt sy t k p b <> Raise RuntimeError) ->
  (forall f p, extra = Some f -> f p <> Raise RuntimeError) ->
  greedy_run sy ch ob factor d mx extra fuel <> Some (Raise RuntimeError).
Proof. exact run_no_runtime. Qed.
Print Assumptions C69_finite_partial.

(** If the objective of the start is NaN or infinite, the run ends with RuntimeError. *)
Theorem C69_nan_refuted : forall sy ch ob f d mx extra fuel p g v,
  (2 < mx)%Z -> xleb f (Fin 0) = false ->
  sy_start sy (ob_cfg ob) = Ok p -> sy_good sy (ob_cfg ob) p = Ok g -> sy_obj sy (ob_cfg ob) p = Ok v ->
  v = NaN \/ v = PInf ->
  greedy_run sy ch ob (VFloat f) d mx extra fuel = Some (Raise RuntimeError).
Proof. exact start_nan. Qed.
Print Assumptions C69_nan_refuted.

Example C69_example mx : (2 < mx)%Z ->
  (forall k p v, sy_obj (toy (Fin 0)) k p = Ok v -> exists x, v = Fin x) /\
  greedy_run (toy NaN) PickOne new_object (VFloat (Fin 2)) toy_d mx None 0 = Some (Raise RuntimeError).
Proof.
  intros H. split; [intros k p v E; exists 0; cbn in E; congruence|].
  apply (C69_nan_refuted (toy NaN) PickOne new_object (Fin 2) toy_d mx None 0 (toy_params (1, 0)%nat) [Fin 7] NaN); auto.
  cbn. now rewrite rleb_false by lra.
Qed.

(** ** C77 *)
(** A first GreedyKLFPI run returns finite positive parameters, or fails because some parameters cost 10^10 or more. *)
Theorem C77_kl_run : forall gk sph w f rs mask N, kl_setting gk sph w f rs mask N ->
  nonneg w -> positive f -> off_origin w rs ->
  forall rand ch F d mx extra fuel err, rand_pos (kl_strategy gk rand) -> 0 < F -> d <> NaN ->
  (forall g p, extra = Some g -> exists x, g p = Ok x) -> (5 * (mx - 1) <= Z.of_nat fuel)%Z ->
  let out := greedy_run (kl_strategy gk rand) ch (mkObject (1, 0)%nat err) (VFloat (Fin F)) d mx extra fuel in
  (exists r ob' c e x, out = Some (Ok (r, ob')) /\ gr_coeffs r = map Fin c /\ gr_exps r = map Fin e /\
     length c = total (gr_cfg r) /\ length e = total (gr_cfg r) /\ positive c /\ positive e /\ gr_fun r = Fin x) \/
  (out = Some (Raise TypeError) /\
   exists k p x, fits_pos k p /\ sy_obj (kl_strategy gk rand) k p = Ok (Fin x) /\ 10 ^ 10 <= x).
Proof. exact kl_run. Qed.
Print Assumptions C77_kl_run.

Example C77_example d fuel : d <> NaN ->
  kl_setting kl_one_pt false [1] [1] [one_r] nan_mask 1 /\ nonneg [1] /\ positive [1] /\ off_origin [1] [one_r] /\
  rand_pos (kl_strategy kl_one_pt ones_rand) /\
  exists r ob, greedy_run (kl_strategy kl_one_pt ones_rand) PickOne new_object (VFloat (Fin 2)) d 2 None (S fuel) = Some (Ok (r, ob)) /\
    total (gr_cfg r) = 2%nat.
Proof.
  intros H. split; [apply one_pt_setting|]. split; [repeat constructor; lra|]. split; [apply one_pos1|]. split; [apply one_off|].
  split; [now apply ones_rand_pos|now apply one_run].
Qed.

(** It returns whenever 1022 times the integral of the density is below 10^10; the divergence is then at most that. *)
Theorem C77_kl_returns : forall gk sph w f rs mask N, kl_setting gk sph w f rs mask N ->
  nonneg w -> positive f -> off_origin w rs -> 1022 * rdot (fit_weights sph w rs) f < 10 ^ 10 ->
  forall rand ch F d mx extra fuel err, rand_pos (kl_strategy gk rand) -> 0 < F -> d <> NaN ->
  (forall g p, extra = Some g -> exists x, g p = Ok x) -> (5 * (mx - 1) <= Z.of_nat fuel)%Z ->
  exists r ob' c e x,
    greedy_run (kl_strategy gk rand) ch (mkObject (1, 0)%nat err) (VFloat (Fin F)) d mx extra fuel = Some (Ok (r, ob')) /\
    gr_coeffs r = map Fin c /\ gr_exps r = map Fin e /\ length c = total (gr_cfg r) /\ length e = total (gr_cfg r) /\
    positive c /\ positive e /\ (0 < fst (gr_cfg r))%nat /\ gr_fun r = Fin x /\ x <= 1022 * rdot (fit_weights sph w rs) f.
Proof. intros gk sph w f rs mask N S Hw Pf Ho HB rand ch F d mx extra fuel err R HF Hd HX Hfu. exact (kl_returns gk sph w f rs mask N S Hw Pf Ho rand ch F d mx extra fuel err R HF Hd HX Hfu HB). Qed.
Print Assumptions C77_kl_returns.

Example C77_returns_example d : d <> NaN ->
  1022 * rdot (fit_weights false [1] [one_r]) [1] < 10 ^ 10 /\
  exists r ob c x, greedy_run (kl_strategy kl_one_pt ones_rand) PickTwo (mkObject (1, 0)%nat []) (VFloat (Fin 2)) d 7 None 30 = Some (Ok (r, ob)) /\
    gr_coeffs r = map Fin c /\ positive c /\ gr_fun r = Fin x /\ x <= 1022.
Proof.
  intros H. assert (B : rdot (fit_weights false [1] [one_r]) [1] = 1) by (cbn; unfold rdot, rsum; cbn; ring).
  split; [rewrite B; lra|].
  destruct (C77_kl_returns _ _ _ _ _ _ _ one_pt_setting ltac:(repeat constructor; lra) one_pos1 one_off ltac:(rewrite B; lra) ones_rand PickTwo 2 d 7%Z None 30%nat []) as (r & ob & c & e & x & E & C & _ & _ & _ & P & _ & _ & V & L); auto; try lia; try lra; try discriminate.
  { now apply ones_rand_pos. }
  rewrite B in L. exists r, ob, c, x. repeat split; auto. lra.
Qed.

(** ** C78 *)
(** The same for GreedyLeastSquares and a density that falls outwards, for every pair of optimizers that return values within the bounds. *)
Theorem C78_ls_run_partial : forall gl norm sph w f rs, ls_setting gl norm sph w f rs ->
  positive f -> two_radii rs -> falling f rs ->
  forall nnls minimize rand ch F d mx extra fuel err, nnls_returns nnls -> minimize_returns minimize ->
  rand_pos (ls_strategy gl nnls minimize rand) -> 0 < F -> d <> NaN ->
  (forall g p, extra = Some g -> exists x, g p = Ok x) -> (5 * (mx - 1) <= Z.of_nat fuel)%Z ->
  let out := greedy_run (ls_strategy gl nnls minimize rand) ch (mkObject (1, 0)%nat err) (VFloat (Fin F)) d mx extra fuel in
  (exists r ob' c e x, out = Some (Ok (r, ob')) /\ gr_coeffs r = map Fin c /\ gr_exps r = map Fin e /\
     length c = total (gr_cfg r) /\ length e = total (gr_cfg r) /\ positive c /\ positive e /\ gr_fun r = Fin x) \/
  (out = Some (Raise TypeError) /\
   exists k p x, fits_pos k p /\ sy_obj (ls_strategy gl nnls minimize rand) k p = Ok (Fin x) /\ 10 ^ 10 <= x).
Proof. exact ls_run. Qed.
Print Assumptions C78_ls_run_partial.

(** A density that rises outwards and normalized functions: RuntimeError, whatever the optimizers do. *)
Theorem C78_rising_refuted :
  ls_setting (sum_ls rise2 [0; 1] true) true false [1; 1] rise2 [0; 1] /\ positive rise2 /\
  forall nnls minimize rand ch F d mx extra fuel err, (2 < mx)%Z -> 0 < F ->
  greedy_run (ls_strategy (sum_ls rise2 [0; 1] true) nnls minimize rand) ch (mkObject (1, 0)%nat err) (VFloat (Fin F)) d mx extra fuel =
  Some (Raise RuntimeError).
Proof. exact (conj rise2_setting (conj rise2_pos rise2_run)). Qed.
Print Assumptions C78_rising_refuted.

Example C78_example d fuel : d <> NaN ->
  (forall norm, ls_setting (sum_ls gauss2 [0; 1] norm) norm false [1; 1] gauss2 [0; 1]) /\ positive gauss2 /\ two_radii [0; 1] /\ falling gauss2 [0; 1] /\
  nnls_returns no_nnls /\ minimize_returns low_minimize /\
  rand_pos (ls_strategy (sum_ls gauss2 [0; 1] true) no_nnls low_minimize ones_rand) /\
  exists r ob, greedy_run (ls_strategy (sum_ls gauss2 [0; 1] false) no_nnls two_minimize ones_rand) PickOne new_object
     (VFloat (Fin 2)) d 2 None (S fuel) = Some (Ok (r, ob)) /\ total (gr_cfg r) = 2%nat.
Proof.
  intros H. split; [apply gauss2_setting|]. split; [apply gauss2_pos|]. split; [apply gauss2_radii|]. split; [apply gauss2_falling|].
  split; [apply no_nnls_returns|]. split; [apply low_returns|]. split; [now apply ones_rand_pos|now apply ls_two_run].
Qed.
