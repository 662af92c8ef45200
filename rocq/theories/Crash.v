(** ParallelWriter interrupted at any moment: what the ordering thread has submitted by then. *)
From Coq Require Import ZArith List Bool Strings.Byte Strings.String.
From Verif Require Import Base Types FileFormat Pool ParallelWrite.
Import ListNotations.
Open Scope Z_scope.

(** src/osm/pbf/parallel_writer.rs 52-66: flush_all_sorted interrupted after some iterations of its loop *)
Inductive partial_flush (K : nat) : ord -> ord -> Prop :=
| pf_here st : partial_flush K st st
| pf_step st st' : o_buf st <> [] -> partial_flush K (flush_block K st) st' -> partial_flush K st st'.
(** the blocks submitted when the ordering thread has executed the commands [done] of write_element and
    write_elements (158-198), and perhaps part of the flush of close (389-396) *)
Definition submitted_so_far (B K : nat) (sort : list element -> list element) (done : list call) (blocks : list (nat * list element)) : Prop :=
  exists st, do_calls B K sort ord_new done = Ok st /\
    (blocks = o_out st \/ exists st', partial_flush K (sort_buffer sort st) st' /\ blocks = o_out st').
