(** Specification vocabulary for property C94. *)
From Coq Require Import ZArith List Bool.
From Verif Require Import Base Types FileFormat.
Import ListNotations.

(** the blocks that can be had from the blobs [ds] *)
Fixpoint obtained (m : mode) (c : codec) (file : bytes) (unreadable : blob_desc -> bool) (ds : list blob_desc) : list fblock :=
  match ds with
  | [] => []
  | d :: r =>
    match unreadable d, from_blob_desc m c file d with
    | false, Ok b => b :: obtained m c file unreadable r
    | _, _ => obtained m c file unreadable r
    end
  end.
