(** Specification vocabulary for files put one after another. *)
From Coq Require Import ZArith List Bool Strings.Byte Strings.String.
From Verif Require Import Base Types FileFormat ParallelSpec PropFile.
Import ListNotations.
Open Scope Z_scope.

(** blobs with consistent sizes and nothing else (whatever is in them) *)
Definition blob_file (file : bytes) : Prop := exists l, Forall consistent_blob l /\ file = file_of_blobs l.
(** the same blocks, numbered from [i] *)
Fixpoint numbered (i : Z) (l : list fblock) : list fblock :=
  match l with
  | [] => []
  | FHeader _ info :: r => FHeader i info :: numbered (i + 1) r
  | FData _ es :: r => FData i es :: numbered (i + 1) r
  end.
(** the first block is a header, the others are data blocks *)
Definition header_first (blks : list fblock) (i : file_info) : Prop :=
  exists ix r, blks = FHeader ix i :: r /\ Forall (fun b => match b with FData _ _ => True | FHeader _ _ => False end) r.
