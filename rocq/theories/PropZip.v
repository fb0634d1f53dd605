(** Property C113, continued: archives that were not written by [np.savez]. *)
From Coq Require Import NArith ZArith List Bool Ascii String Lia.
From Verif Require Import PyText ModelNpz SpecNpz SpecZip ProofZip.
Import ListNotations.
Local Open Scope N_scope.

(** An archive of stored files is read whatever extra fields, comments, dates and attributes its records have. *)
Theorem C113_archives : forall l, archive_fits l -> exists es, npz_open (archive l) = Some es /\ List.length es = List.length l /\
  forall i z, nth_error l i = Some z -> exists e, nth_error es i = Some e /\ e_name e = z_name z /\ member (archive l) e = Some (z_data z).
Proof. exact archive_read. Qed.
Print Assumptions C113_archives.

Definition two_stored : list stored :=
  [mkStored (raw "a.npy") (raw "first") [10; 0] [10; 0; 10; 0] [1; 2; 3; 4] (repeat 0 12) (repeat 0 8) [] [85; 84; 1; 0; 3] (raw "remark");
   mkStored (raw "b") (raw "second") [20; 0] [20; 3; 20; 0] [5; 6; 7; 8] (repeat 9 12) (repeat 1 8) [1; 0; 0; 0] [] []].
Example C113_archives_example : archive_fits two_stored /\ List.length (archive two_stored) = 212%nat /\
  exists e1 e2, npz_open (archive two_stored) = Some [e1; e2] /\ member (archive two_stored) e1 = Some (raw "first") /\
    member (archive two_stored) e2 = Some (raw "second").
Proof.
  split; [|split; [vm_compute; reflexivity|]].
  - split; [|split; reflexivity]. repeat apply Forall_cons; try apply Forall_nil; repeat split; repeat constructor; reflexivity.
  - do 2 eexists. split; [vm_compute; reflexivity|]. split; vm_compute; reflexivity.
Qed.
