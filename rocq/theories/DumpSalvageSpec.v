(** Specification vocabulary for property C104: what a program gets from a dump Reader that catches its panics and goes on. *)
From Coq Require Import ZArith List.
From Verif Require Import Base Types ApidbRead DumpReadSpec ResolveSpec.

(** the answer for an object or mark: its element, or a panic if its changeset or user is missing *)
Definition answer (d : dump) (i : item) (a : option element) : Prop :=
  match a with Some e => item_element d i e | None => unknown_author d i end.
