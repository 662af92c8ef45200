(** Specification vocabulary for property C97: when the nested calls of the element iterator do not fit on the stack. *)
From Coq Require Import ZArith List Bool.
From Verif Require Import Base Types FileFormat.
Import ListNotations.

Definition data_block (b : fblock) : Prop := exists i es, b = FData i es.
Definition header_block (b : fblock) : Prop := exists i inf, b = FHeader i inf.
Definition empty_block (b : fblock) : Prop := exists i, b = FData i [].
Definition elements_in (bs : list fblock) : list element := flat_map (fun b => match b with FData _ es => es | FHeader _ _ => [] end) bs.
(** the data blocks [ds] have a row of blocks without elements that needs more than [room] calls: one for each of them, one for the block (or
    the end, if [ends]) behind them, and one more for the block before them if there is one *)
Definition too_deep (room : nat) (ds : list fblock) (ends : Prop) : Prop :=
  exists before row behind, ds = before ++ row ++ behind /\ Forall empty_block row /\ (behind <> [] \/ ends) /\
    (room < length row + 1 \/ before <> [] /\ room < length row + 2)%nat.
