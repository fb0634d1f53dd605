(** Property C85: get_ugbs_exponents on any lines (/repo/bfit/parse_ugbs.py).  [fl] is the reading of numbers. *)
From Coq Require Import Reals String Ascii List Bool Arith ZArith Lia.
From Verif Require Import XR PyStr PyText ModelParse SpecParse SpecLoad SpecUgbs SpecUgbs2 ProofCheck ProofUgbs ProofUgbs2.
Import ListNotations.
Local Open Scope nat_scope.

(** Every file has a reading in the sense of [ugbs_run], and the function returns what it finds: the
    exponents of the four shells in the order of the file, or the exception that ends it. *)
Theorem C85_any_file : forall fl s f, (exists es e, ugbs_run fl (str s) f es e) /\ forall es e, ugbs_run fl (str s) f es e ->
  match e with
  | Some x => get_ugbs_exponents fl f (Some s) = Raise x
  | None => exists d, get_ugbs_exponents fl f (Some s) = Ok d /\ map fst d = letters /\
      forall l, l <= 3 -> dget [l_char l] d = Some (of_shell l es)
  end.
Proof. exact any_file. Qed.
Print Assumptions C85_any_file.

(** An argument that is not a string is refused. *)
Theorem C85_not_text : forall fl f, get_ugbs_exponents fl f None = Raise AssertionError.
Proof. exact not_text. Qed.
Print Assumptions C85_not_text.

(** Two exponents of helium, then a line of helium at the end of the file; a shell named G; a line
    with a title and no letter; an exponent that is a word. *)
Example C85_any_example : forall v w, read_number (str "1.5") = Ok v -> read_number (str "0.25") = Ok w ->
  ugbs_run read_number (str "he") (map str ["title"; ""; "HE S"; " 1.5 x"; "Li S"; "0.5"; "He P 1"; "0.25"]%string) [(0, v); (1, w)] None /\
  ugbs_run read_number (str "he") (map str ["HE S"; " 1.5 x"; "He P"]%string) [(0, v)] (Some IndexError) /\
  ugbs_run read_number (str "he") (map str ["he G"; " 1.5 x"]%string) [] (Some KeyError) /\
  ugbs_run read_number (str "he") (map str ["he"; " 1.5 x"]%string) [] (Some IndexError) /\
  ugbs_run read_number (str "he") (map str ["he S"; " "]%string) [] (Some IndexError).
Proof.
  intros v w V W.
  assert (S : forall s, spaced (words (str s)) (str s)) by (intros s; apply spaced_words).
  repeat split.
  - cbn [map]. eapply run_other; [exact (S "title"%string)|discriminate|]. eapply run_blank; [exact (S ""%string)|].
    eapply (run_entry _ _ (str "HE") 0 []); [exact (S "HE S"%string)|reflexivity|lia|exact (S " 1.5 x"%string)|exact V|].
    eapply run_other; [exact (S "Li S"%string)|discriminate|]. eapply run_other; [exact (S "0.5"%string)|discriminate|].
    eapply (run_entry _ _ (str "He") 1 [str "1"]); [exact (S "He P 1"%string)|reflexivity|lia|exact (S "0.25"%string)|exact W|]. constructor.
  - cbn [map]. eapply (run_entry _ _ (str "HE") 0 []); [exact (S "HE S"%string)|reflexivity|lia|exact (S " 1.5 x"%string)|exact V|].
    eapply (run_last _ _ (str "He") 1 []); [exact (S "He P"%string)|reflexivity|lia].
  - cbn [map]. eapply (run_letter _ _ (str "he") (str "G") []); [exact (S "he G"%string)|reflexivity|]. intros [|[|[|[|l]]]] Hl; try discriminate; lia.
  - cbn [map]. eapply (run_bare _ _ (str "he")); [exact (S "he"%string)|reflexivity].
  - cbn [map]. eapply (run_missing _ _ (str "he") 0 []); [exact (S "he S"%string)|reflexivity|lia|exact (S " "%string)].
Qed.
