(** The cells of /repo/examples/greedy_atomic_density.ipynb (C109). *)
From Coq Require Import Reals String Ascii List ZArith Bool.
From Verif Require Import XR PyText ModelParse SpecParse SpecDens SpecSlater ModelSlater ModelLoad ModelDens ModelGrid ModelFit ModelGreedy SpecMeas SpecFit SpecZero SpecScript.
Import ListNotations.
Local Open Scope R_scope.

(** The two orbitals of beryllium, as listed in /repo/bfit/data/neutral/be.slater:8-15: coefficients (seven decimals),
    exponents (six decimals) and quantum numbers. *)
Definition be_orbital (cs : list Z) : list (R * R * nat) :=
  map (fun x => (IZR (fst x) / 10 ^ 7, IZR (fst (snd x)) / 10 ^ 6, snd (snd x)))
    (combine cs [(12683501%Z, 1%nat); (8105927%Z, 1%nat); (5152556%Z, 1%nat); (3472467%Z, 1%nat); (2349757%Z, 1%nat); (1406429%Z, 1%nat); (821620%Z, 2%nat); (786473%Z, 1%nat)]).
Definition be_1s := be_orbital [-24917; 314015; 849694; 8685562; 315855; -35284; -4149; 12299]%Z.
Definition be_2s := be_orbital [4442; -30990; -367056; 138910; -3598016; -2563459; 2434108; 11150995]%Z.
Definition be_subs (e1 e2 : R) : list subshell := [mkSub 2 e1 0 be_1s; mkSub 2 e2 0 be_2s].

(** The cells that compute: the grid (cell 3), the density and its printed integral (cell 6), the fitting object
    (cell 10), the run, the model and its values (cell 12).  The model is built without [num_p].  The plots and the
    other printed values are not modelled. *)
Definition greedy_notebook fl files (rand : nat -> nat -> list xr) (fuel gfuel : nat) : option (res (xr * greedy_result * list xr)) :=
  doo pts <- Some (clenshaw_init (VInt 4) (VInt 400) (VInt 500) (EList (map Fin [25; 50; 75])) (VBool true));
  doo data <- slater_atoms fl files (Some "be"%string) false false fuel;
  doo f <- Some (atomic_density (atom_of data) (A1 pts) MTotal);
  let integrate := gr_integrate (radial_grid pts) in
  doo i <- Some (integrate (map2 xmul (map (fun x => xmul (xmul x (Fin 4)) (Fin PI)) f) (map (fun r => xpow r 2) pts)));
  doo gk <- Some (greedy_kl_init (mkGridArg (Some (A1 pts)) (Some integrate)) f "pick-one" (mkThr (Fin (/ 10 ^ 4)) (Fin (/ 10 ^ 5)) (Fin (/ 10 ^ 10)))
                    (mkThr (Fin (/ 10 ^ 2)) (Fin (/ 10 ^ 3)) (Fin (/ 10 ^ 8))) 2500 5000 (Fin (/ 10 ^ 12)) None true);
  doo r <- greedy_run (kl_strategy (fst gk) rand) (snd gk) new_object (VFloat (Fin 50)) (Fin (/ 10 ^ 8)) 4 None gfuel;
  doo m <- Some (atomic_init (VArr (A1 pts)) VNone (VInt (Z.of_nat (fst (gr_cfg (fst r))))) (VInt 0) true);
  doo g <- Some (g_evaluate (GAtom m) (A1 (gr_coeffs (fst r))) (A1 (gr_exps (fst r))) false);
  Some (Ok (i, fst r, fst g)).
