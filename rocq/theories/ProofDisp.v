(** Proofs about the printed tables: rows, and the self-consistent method. *)
From Coq Require Import String Ascii Reals List ZArith Bool Lia.
From Verif Require Import XR PyStr PyText ModelDens ModelMeas ModelGrid ModelFit ModelGreedy ModelDisp SpecDisp SpecFit SpecStop Lists ProofFPI2 ProofFPI5.
Import ListNotations.
Local Open Scope list_scope.

Lemma center_centred w t : centred w t (center w t).
Proof.
  unfold centred, center. set (k := (w - length t)%nat). exists (k / 2)%nat, (k - k / 2)%nat. split; [reflexivity|].
  assert (D := Nat.div_mod k 2 ltac:(lia)). assert (M := Nat.mod_upper_bound k 2 ltac:(lia)). split; [lia|].
  rewrite !app_length, !repeat_length. lia.
Qed.

Definition names (hs : list (nat * string)) : list text := map (fun h => txt (snd h)) hs.
Lemma header_row hs : table_row (map fst hs) (names hs) (format_header hs).
Proof.
  unfold format_header. induction hs as [|[w n] hs IH]; cbn [map names concat fst snd]; [constructor|].
  replace (bar :: (center w (txt n) ++ [bar]) ++ concat (map (fun h => center (fst h) (txt (snd h)) ++ [bar]) hs))
    with (bar :: center w (txt n) ++ (bar :: concat (map (fun h => center (fst h) (txt (snd h)) ++ [bar]) hs))) by (rewrite <- app_assoc; reflexivity).
  apply (row_cell w (txt n) (center w (txt n))); [apply center_centred | exact IH].
Qed.

Lemma dashes_rule n : rule_of n (dashes n).
Proof. split; [apply repeat_length | intros c I; symmetry; symmetry; apply repeat_spec in I; exact I]. Qed.

Lemma row_width ws ts u : table_row ws ts u -> fit_columns ws ts -> length u = (list_sum ws + length ws + 1)%nat.
Proof.
  intros T. induction T as [|w t u ws ts r (a & b & _ & _ & L) T IH]; intros F; [reflexivity|].
  inversion F; subst. cbn [list_sum fold_right length]. rewrite app_length, L, IH by assumption. unfold list_sum. lia.
Qed.

Section Shown.
Variable show_int : Z -> text.
Variables show_fix show_exp show_num : xr -> text.
Variable show_arr : list xr -> text.
Variable show_exit : exit_info -> text.
Let conv_ := convert show_int show_fix show_exp.

(** Fields in order with their converted arguments. *)
Lemma format_ok fs args ts : Forall2 (fun f t => exists a, nth_error args (fst (fst f)) = Some a /\ conv_ (snd f) a = Ok t) fs ts ->
  exists u, format_row show_int show_fix show_exp fs args = Ok u /\ table_row (map (fun f => snd (fst f)) fs) ts u.
Proof.
  unfold format_row. intros F. induction F as [|[[i w] c] t fs ts (a & N & C) F (u & E & T)]; cbn [format_fields map fst snd].
  - exists [bar]. split; [reflexivity | constructor].
  - cbn [fst snd] in N, C. rewrite N. unfold conv_ in C. rewrite C. cbn [bind].
    destruct (format_fields show_int show_fix show_exp fs args) as [r|x]; [|discriminate E]. cbn [bind] in *. injection E as <-.
    exists (bar :: center w t ++ bar :: r). split; [reflexivity|]. apply row_cell; [apply center_centred | exact T].
Qed.

Lemma goodness_five ft c e g : goodness ft c e = Ok g -> exists i l1 linf ls kl, g = [i; l1; linf; ls; kl].
Proof.
  unfold goodness. intros H.
  repeat match type of H with bind ?m _ = Ok _ => destruct m eqn:?; [cbn [bind] in H | discriminate H] end.
  injection H as <-. do 5 eexists. reflexivity.
Qed.

Ltac one := eexists; split; [reflexivity | reflexivity].

Lemma fpi_format n g dc de dd : (exists i l1 linf ls kl, g = [i; l1; linf; ls; kl]) ->
  exists u, format_row show_int show_fix show_exp fpi_fields (AInt n :: map ANum g ++ map ANum [dc; de; dd]) = Ok u /\
    fpi_row show_int show_fix show_exp n g dc de dd u.
Proof.
  intros (i & l1 & linf & ls & kl & ->).
  destruct (format_ok fpi_fields (AInt n :: map ANum [i; l1; linf; ls; kl] ++ map ANum [dc; de; dd])
    [show_int n; show_fix i; show_exp l1; show_fix linf; show_exp ls; show_exp kl; show_exp dc; show_exp de; show_exp dd]) as (u & E & T).
  - unfold fpi_fields. repeat (apply Forall2_cons; [one|]). constructor.
  - exists u. split; [exact E|]. exists [show_fix i; show_exp l1; show_fix linf; show_exp ls; show_exp kl]. split; [do 5 eexists; split; reflexivity | exact T].
Qed.
Lemma slsqp_format g : (exists i l1 linf ls kl, g = [i; l1; linf; ls; kl]) ->
  exists u, format_row show_int show_fix show_exp scipy_fields (map ANum g) = Ok u /\ slsqp_row show_fix show_exp g u.
Proof.
  intros (i & l1 & linf & ls & kl & ->).
  destruct (format_ok scipy_fields (map ANum [i; l1; linf; ls; kl]) [show_fix i; show_exp l1; show_fix linf; show_exp ls; show_exp kl]) as (u & E & T).
  - unfold scipy_fields. repeat (apply Forall2_cons; [one|]). constructor.
  - exists u. split; [exact E|]. exists [show_fix i; show_exp l1; show_fix linf; show_exp ls; show_exp kl]. split; [do 5 eexists; split; reflexivity | exact T].
Qed.
Lemma greedy_format n k g d : (exists i l1 linf ls kl, g = [i; l1; linf; ls; kl]) ->
  exists u, format_row show_int show_fix show_exp greedy_fields (greedy_args n k g d) = Ok u /\ greedy_row show_int show_fix show_exp n k g d u.
Proof.
  intros (i & l1 & linf & ls & kl & ->).
  destruct (format_ok greedy_fields (greedy_args n k [i; l1; linf; ls; kl] d)
    ([show_int n; show_int (Z.of_nat (fst k)); show_int (Z.of_nat (snd k))] ++ [show_fix i; show_exp l1; show_exp linf; show_exp ls; show_exp kl] ++ [show_exp d])) as (u & E & T).
  - unfold greedy_fields. cbn [app]. repeat (apply Forall2_cons; [one|]). constructor.
  - exists u. split; [exact E|]. exists [show_fix i; show_exp l1; show_exp linf; show_exp ls; show_exp kl]. split; [do 5 eexists; split; reflexivity | exact T].
Qed.

(** *** The self-consistent method *)
Lemma step_five f oc oe s s' : fpi_step f oc oe s = Ok s' -> exists g, last (st_perf s') [] = g /\ exists i l1 linf ls kl, g = [i; l1; linf; ls; kl].
Proof.
  unfold fpi_step. intros H. destruct (if oc && oe then _ else _) as [[cs es]|] eqn:?; [|discriminate]. cbn [bind] in H.
  repeat match type of H with bind ?m _ = Ok _ => destruct m eqn:?; [cbn [bind] in H | discriminate H] end.
  injection H as <-. cbn [st_perf]. rewrite last_last. eexists. split; [reflexivity|]. eapply goodness_five; eassumption.
Qed.

Notation loopd := (fpi_loop_disp show_int show_fix show_exp).
Lemma loop_same f oc oe th maxiter fuel : forall s, snd (loopd f oc oe th maxiter fuel s) = fpi_loop f oc oe th maxiter fuel s.
Proof.
  induction fuel as [|k IH]; intros s; cbn [fpi_loop_disp fpi_loop]; [reflexivity|].
  destruct (go_on th maxiter s); [|reflexivity]. destruct (fpi_step f oc oe s) as [s'|x] eqn:E; [|reflexivity].
  destruct (step_five _ _ _ _ _ E) as (g & G & Five). rewrite G.
  destruct (fpi_format (st_niter s') g (st_dc s') (st_de s') (st_dd s') Five) as (u & F & _). rewrite F. cbn [bind]. rewrite <- IH.
  destruct (loopd f oc oe th maxiter k s') as [ls r]. reflexivity.
Qed.

(** Row [j] belongs to iteration [j + 1]. *)
Definition good_row f oc oe c e (j : nat) (u : text) : Prop :=
  exists cj ej g dc de dd, iterate f oc oe (S j) c e = Ok (cj, ej) /\ goodness (fp_fit f) cj ej = Ok g /\
    moved f oc oe c e (S j) dc de dd /\ fpi_row show_int show_fix show_exp (Z.of_nat (S j)) g dc de dd u.
Lemma loop_rows f oc oe th maxiter c e fuel : forall s n, trace_ok f oc oe c e s n ->
  let rows := fst (loopd f oc oe th maxiter fuel s) in
  (forall j, (j < length rows)%nat -> good_row f oc oe c e (n + j) (nth j rows [])) /\
  (forall s', fpi_loop f oc oe th maxiter fuel s = Ok s' -> length (st_fun s') = (n + length rows)%nat /\
     exists sf, trace_ok f oc oe c e sf (n + length rows) /\ s' = sf).
Proof.
  induction fuel as [|k IH]; intros s n T; cbn [fpi_loop_disp fpi_loop]; cbv zeta.
  - split; [intros j Hj; cbn in Hj; lia|]. intros s' H. injection H as <-. cbn [fst length]. rewrite Nat.add_0_r. split; [apply (to_fun _ _ _ _ _ _ _ T) | exists s; auto].
  - destruct (go_on th maxiter s).
    2:{ split; [intros j Hj; cbn in Hj; lia|]. intros s' H. injection H as <-. cbn [fst length]. rewrite Nat.add_0_r. split; [apply (to_fun _ _ _ _ _ _ _ T) | exists s; auto]. }
    destruct (fpi_step f oc oe s) as [s1|x] eqn:E; [|split; [intros j Hj; cbn in Hj; lia | discriminate]].
    assert (T1 := step_trace _ _ _ _ _ _ _ _ T E). destruct (step_five _ _ _ _ _ E) as (g & G & Five). rewrite G.
    destruct (fpi_format (st_niter s1) g (st_dc s1) (st_de s1) (st_dd s1) Five) as (u & F & Row). rewrite F. cbn [bind].
    destruct (IH s1 (S n) T1) as [A B]. destruct (loopd f oc oe th maxiter k s1) as [ls r]. cbn [fst] in *. split.
    + intros [|j] Hj; cbn [nth length] in *.
      * rewrite Nat.add_0_r. destruct (to_rows _ _ _ _ _ _ _ T1 n ltac:(lia)) as (cj & ej & I1 & I2 & _).
        exists cj, ej, g, (st_dc s1), (st_de s1), (st_dd s1). split; [exact I1|]. split.
        { rewrite I2. f_equal. rewrite <- G. assert (L := to_perf _ _ _ _ _ _ _ T1). clear - L.
          rewrite last_nth. f_equal. lia. }
        split; [apply trace_moved, T1|]. rewrite <- (to_iter _ _ _ _ _ _ _ T1). exact Row.
      * replace (n + S j)%nat with (S n + j)%nat by lia. apply A. lia.
    + intros s' H. cbn [length]. replace (n + S (length ls))%nat with (S n + length ls)%nat by lia. apply B, H.
Qed.
End Shown.
