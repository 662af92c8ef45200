(** Specification vocabulary for property C98: files that are read while they are written. *)
From Coq Require Import List.
From Verif Require Import Base.

Definition beginning {A} (p l : list A) : Prop := exists r, l = p ++ r.
(** the file is [v] and then [v'], and in the end [final]: it is only appended to *)
Definition grows (final v v' : bytes) : Prop := beginning v v' /\ beginning v' final.
