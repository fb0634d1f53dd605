(** What get_ugbs_exponents does with the lines of any file (C85). *)
From Coq Require Import Reals String Ascii List Bool Arith.
From Verif Require Import XR PyStr PyText SpecParse.
Import ListNotations.

(** [ugbs_run fl el f es e]: the lines [f] are read for the element [el]; the exponents [es] with
    their shells (0 to 3) are found in this order, and the reading ends at the end of the lines
    ([e = None]) or with an exception. *)
Inductive ugbs_run (fl : list ascii -> res xr) (el : list ascii) : list (list ascii) -> list (nat * xr) -> option exn -> Prop :=
| run_end : ugbs_run fl el [] [] None
| run_blank s f es e : spaced [] s -> ugbs_run fl el f es e -> ugbs_run fl el (s :: f) es e
| run_other w ws s f es e : spaced (w :: ws) s -> ~ same_name w el -> ugbs_run fl el f es e -> ugbs_run fl el (s :: f) es e
| run_entry w l ws s t ts s' v f es e : spaced (w :: [l_char l] :: ws) s -> same_name w el -> l <= 3 -> spaced (t :: ts) s' -> fl t = Ok v ->
    ugbs_run fl el f es e -> ugbs_run fl el (s :: s' :: f) ((l, v) :: es) e
| run_bare w s f : spaced [w] s -> same_name w el -> ugbs_run fl el (s :: f) [] (Some IndexError)
| run_letter w k ws s f : spaced (w :: k :: ws) s -> same_name w el -> (forall l, l <= 3 -> k <> [l_char l]) -> ugbs_run fl el (s :: f) [] (Some KeyError)
| run_last w l ws s : spaced (w :: [l_char l] :: ws) s -> same_name w el -> l <= 3 -> ugbs_run fl el [s] [] (Some IndexError)
| run_missing w l ws s s' f : spaced (w :: [l_char l] :: ws) s -> same_name w el -> l <= 3 -> spaced [] s' -> ugbs_run fl el (s :: s' :: f) [] (Some IndexError)
| run_number w l ws s t ts s' x f : spaced (w :: [l_char l] :: ws) s -> same_name w el -> l <= 3 -> spaced (t :: ts) s' -> fl t = Raise x ->
    ugbs_run fl el (s :: s' :: f) [] (Some x).
(** The exponents of one shell, in order. *)
Definition of_shell (l : nat) (es : list (nat * xr)) : list xr := map snd (filter (fun e => Nat.eqb (fst e) l) es).
