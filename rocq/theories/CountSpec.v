(** Specification vocabulary for property C91. *)
From Coq Require Import ZArith List Bool Strings.Byte Strings.String.
From Verif Require Import Base Types FileFormat ParallelSpec.
Import ListNotations.
Open Scope Z_scope.

(** the blocks before the next header block, and from there on *)
Fixpoint before_header (l : list fblock) : list fblock := match l with FData i es :: r => FData i es :: before_header r | _ => [] end.
Fixpoint from_header (l : list fblock) : list fblock := match l with FData _ _ :: r => from_header r | _ => l end.
