(** Specification vocabulary for property C86. *)
From Coq Require Import ZArith List Bool.
From Verif Require Import Base Types FileFormat ParallelSpec.
Import ListNotations.

(** worker [w] has made the calls [made] of those promised for a block: all, or all up to one that failed *)
Definition up_to_failure {S} (f : nat -> element -> S -> S * bool) (w : nat) (promised made : list element) : Prop :=
  made = promised \/
  exists before e after s, promised = before ++ e :: after /\ made = before ++ [e] /\ snd (f w e s) = false.
(** what worker [w] has done for a blob: nothing if it cannot be decoded *)
Definition blob_done {S} (m : mode) (c : codec) (file : bytes) (f : nat -> element -> S -> S * bool) (d : blob_desc) (w : nat) (made : list element) : Prop :=
  match from_blob_desc m c file d with
  | Ok b => up_to_failure f w (calls_of b) made
  | _ => made = []
  end.
(** what worker [w] has done for a blob so far *)
Definition blob_begun (m : mode) (c : codec) (file : bytes) (d : blob_desc) (made : list element) : Prop :=
  match from_blob_desc m c file d with
  | Ok b => exists rest, calls_of b = made ++ rest
  | _ => made = []
  end.
(** every blob with its worker and its calls *)
Inductive all_blobs (P : blob_desc -> nat -> list element -> Prop) : list blob_desc -> list nat -> list (list element) -> Prop :=
| ab_nil : all_blobs P [] [] []
| ab_cons d ds w ws l ls : P d w l -> all_blobs P ds ws ls -> all_blobs P (d :: ds) (w :: ws) (l :: ls).
