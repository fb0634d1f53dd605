(** Property C85: the shipped file of universal Gaussian exponents
    (/repo/bfit/parse_ugbs.py, /repo/bfit/data/ygbs).  [fl] is the reading of numbers. *)
From Coq Require Import Reals String Ascii List Bool Arith ZArith Lia Sorted.
From Verif Require Import XR PyStr PyText ModelParse SpecParse SpecLoad SpecUgbs DataUgbs ProofUgbs.
Import ListNotations.
Local Open Scope nat_scope.

(** Every element of the file: as many exponents per shell as the title of the element says, all
    positive, from the largest to the smallest. *)
Theorem C85_shipped_exponents : forall fl e ns s, reads_decimals fl -> reads_scientific fl ->
  In (e, ns) ugbs_sizes -> same_name (str s) (str e) ->
  exists d, get_ugbs_exponents fl (map str ygbs) (Some s) = Ok d /\ map fst d = letters /\ length ns = 4 /\
    forall l, l <= 3 -> exists v, dget [l_char l] d = Some (map Fin v) /\ length v = nth l ns 0 /\
      Forall (fun x => 0 < x)%R v /\ StronglySorted Rgt v.
Proof. intros fl e ns s Hd Hs. exact (shipped_exponents fl Hd Hs (map str ygbs) ugbs_checked e ns s). Qed.
Print Assumptions C85_shipped_exponents.

(** Other names made of letters give empty lists, except the words BASIS and END. *)
Theorem C85_other_names : forall fl s, reads_decimals fl -> reads_scientific fl ->
  alphabetic (str s) -> s <> ""%string -> ~ same_name (str s) (str "BASIS") -> ~ same_name (str s) (str "END") ->
  (forall e ns, In (e, ns) ugbs_sizes -> ~ same_name (str s) (str e)) ->
  get_ugbs_exponents fl (map str ygbs) (Some s) = Ok (map (fun l => (l, [])) letters).
Proof. intros fl s Hd Hs. exact (absent_exponents fl Hd Hs (map str ygbs) ugbs_checked s). Qed.
Print Assumptions C85_other_names.

(** The header of the file names cerium, but there is no exponent for it and no error. *)
Theorem C85_header_refuted : forall fl, reads_decimals fl -> reads_scientific fl ->
  In (str "Ce") (words (str (nth 2 ygbs ""%string))) /\
  get_ugbs_exponents fl (map str ygbs) (Some "Ce"%string) = Ok (map (fun l => (l, [])) letters).
Proof. exact cerium. Qed.
Print Assumptions C85_header_refuted.

(** Silver, and a reading of numbers as assumed. *)
Example C85_example : In ("Ag"%string, [31; 21; 17; 0]) ugbs_sizes /\ same_name (str "AG") (str "Ag") /\
  reads_decimals read_number /\ reads_scientific read_number /\ length ygbs = 9198.
Proof.
  split; [unfold ugbs_sizes; cbn [In]; tauto|]. split; [reflexivity|]. split; [exact read_number_decimals|]. split; [exact read_number_scientific|]. vm_compute. reflexivity.
Qed.
