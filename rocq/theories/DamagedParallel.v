(** count_objects, BoundingBoxCalculator::calc and examples/parallel-pbf-io.rs on a file with blobs that cannot be decoded, or on a disk that fails. *)
From Coq Require Import ZArith List Bool.
From Verif Require Import Base Types FileFormat Pool ParallelRead FailPool ReadFails.
Import ListNotations.

(** an action of Pool.v as an action of FailPool.v *)
Definition never_fails {A S} (f : nat -> A -> S -> option S) (w : nat) (a : A) (s : S) : S * bool :=
  match f w a s with Some s' => (s', true) | None => (s, false) end.
(** src/osm/pbf/reader.rs 238-271: count_objects up to the end of parallel_for_each; the closure always returns Ok *)
Definition count_reads (m : mode) (c : codec) (file : bytes) (strikes : bit -> fault) (unreadable : blob_desc -> bool) (tasks : nat) :=
  reads_exec m c file strikes unreadable tasks (never_fails count_one) (Counters 0 0 0).
(** src/osm/pbf/bounding_box_calculator.rs 22-51: calc up to the end of [join], the errors given as in [reads_exec]; the command
    (calc_bounding_box_command.rs 29-57) returns Err if its blob cannot be read or decoded (line 30) *)
Definition calc_reads (m : mode) (c : codec) (file : bytes) (strikes : bit -> fault) (unreadable : blob_desc -> bool) (tasks : nat) :=
  fexec (fun s => blob_next_with (strikes s) file s) (fun d => if unreadable d then None else bbox_calls m c file d) (never_fails bbox_merge_result) 1024
    (pool_new bit_new tasks None).
(** examples/parallel-pbf-io.rs 47-72: the closure always returns Ok *)
Definition copy_reads (m : mode) (c : codec) (file : bytes) (strikes : bit -> fault) (unreadable : blob_desc -> bool) (tasks : nat) (keep : element -> bool) (id : bytes) :=
  reads_exec m c file strikes unreadable tasks (never_fails (pipeline_call keep id)) (tl_init, []).
