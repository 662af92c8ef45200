(** Parallel reading: parallel_for_each, count_objects, BoundingBoxCalculator::calc,
    ThreadLocalAccumulator and the filter pipeline of examples/parallel-pbf-io.rs. *)
From Coq Require Import ZArith List Bool Strings.Byte Strings.String.
From Verif Require Import Base Types FileFormat Pool.
Import ListNotations.
Open Scope Z_scope.

(** src/osm/pbf/parallel_element_iteration_command.rs 25-34: execute, the calls of [f] it makes (in this
    order, by one thread), or None when the block cannot be read *)
Definition iteration_calls (m : mode) (c : codec) (file : bytes) (d : blob_desc) : option (list element) :=
  match from_blob_desc m c file d with
  | Ok (FData _ es) => Some (es ++ [ESentinel])
  | Ok (FHeader _ _) => Some []
  | _ => None
  end.

(** src/osm/pbf/reader.rs 183-204: parallel_for_each, one command per blob, queue of 1024. [f] acts
    on a shared state of any type: a call is one atomic action (the order of calls is what is
    observed; what a real [f] does inside is up to its own synchronisation) *)
Definition for_each_queue : nat := 1024.
Definition for_each_exec {S} (m : mode) (c : codec) (file : bytes) (tasks : nat)
    (f : nat -> element -> S -> option S) (s0 : S) :=
  exec (blob_next file) (iteration_calls m c file) f for_each_queue (pool_new bit_new tasks s0).

(** src/osm/pbf/reader.rs 238-271: count_objects; the three AtomicUsize *)
Record counters := Counters { c_nodes : Z; c_ways : Z; c_relations : Z }.
Definition fetch_add1 (z : Z) : Z := (z + 1) mod two64.
Definition count_one (w : nat) (e : element) (s : counters) : option counters :=
  Some (match e with
        | ENode _ => Counters (fetch_add1 (c_nodes s)) (c_ways s) (c_relations s)
        | EWay _ => Counters (c_nodes s) (fetch_add1 (c_ways s)) (c_relations s)
        | ERelation _ => Counters (c_nodes s) (c_ways s) (fetch_add1 (c_relations s))
        | ESentinel => s
        end).
(** reader.rs 263-269: [load] and [as i64] *)
Definition counted (s : counters) : Z * Z * Z := (wrap64 (c_nodes s), wrap64 (c_ways s), wrap64 (c_relations s)).

(** src/osm/pbf/calc_bounding_box_command.rs 33-47: the box of the leading nodes of a block *)
Fixpoint leading_box (acc : option bbox) (es : list element) : option bbox :=
  match es with
  | ENode n :: r =>
    leading_box (Some (match acc with
                       | None => bb_from_point (n_coord n)
                       | Some b => bb_merge_point b (n_coord n)
                       end)) r
  | _ => acc
  end.
(** calc_bounding_box_command.rs 29-57: execute; at most one access to the shared result *)
Definition bbox_calls (m : mode) (c : codec) (file : bytes) (d : blob_desc) : option (list bbox) :=
  match from_blob_desc m c file d with
  | Ok (FData _ es) => Some (match leading_box None es with Some b => [b] | None => [] end)
  | Ok (FHeader _ _) => Some []
  | _ => None
  end.
(** calc_bounding_box_command.rs 48-54: under the lock *)
Definition bbox_merge_result (w : nat) (b : bbox) (r : option bbox) : option (option bbox) :=
  Some (Some (match r with None => b | Some x => bb_merge x b end)).
(** src/osm/pbf/bounding_box_calculator.rs 22-51: calc (Reader::new is [reader_new]) *)
Definition calc_exec (m : mode) (c : codec) (file : bytes) (tasks : nat) :=
  exec (blob_next file) (bbox_calls m c file) bbox_merge_result 1024 (pool_new bit_new tasks None).
(** bounding_box_calculator.rs 49-50: [take().unwrap()] *)
Definition calc_result (r : option bbox) : res bbox := unwrap r.

(** ** ThreadLocalAccumulator *)
(** src/osm/pbf/thread_local_accumulator.rs 8-10: per thread, a map from accumulator id to elements.
    Ids are Uuid::new_v4 strings: two accumulators have different ids (external assumption). *)
Definition tl_state := nat -> bytes -> option (list element).
Definition tl_init : tl_state := fun _ _ => None.
Definition tl_set (s : tl_state) (t : nat) (id : bytes) (l : list element) : tl_state :=
  fun t' id' => if Nat.eqb t' t && bytes_eqb id' id then Some l else s t' id'.
(** src/osm/pbf/thread_local_accumulator.rs 27-42: add *)
Definition tl_add (s : tl_state) (t : nat) (id : bytes) (e : element) : tl_state :=
  match s t id with
  | None => tl_set s t id [e]
  | Some acc => tl_set s t id (acc ++ [e])
  end.
(** src/osm/pbf/thread_local_accumulator.rs 44-54: elements *)
Definition tl_elements (s : tl_state) (t : nat) (id : bytes) : list element * tl_state :=
  match s t id with
  | None => ([], s)
  | Some acc => (acc, tl_set s t id [])
  end.
(** src/osm/pbf/thread_local_accumulator.rs 57-67: len *)
Definition tl_len (s : tl_state) (t : nat) (id : bytes) : Z :=
  match s t id with None => 0 | Some acc => zlen acc end.

Inductive tl_op := TAdd (t : nat) (id : bytes) (e : element) | TElements (t : nat) (id : bytes).
(** a history of calls from any threads: the final state and what each [elements] call returned *)
Fixpoint tl_run (s : tl_state) (ops : list tl_op) : tl_state * list (list element) :=
  match ops with
  | [] => (s, [])
  | TAdd t id e :: r => tl_run (tl_add s t id e) r
  | TElements t id :: r =>
    let '(l, s') := tl_elements s t id in
    let '(s'', ls) := tl_run s' r in (s'', l :: ls)
  end.

(** ** examples/parallel-pbf-io.rs 47-72: the closure given to parallel_for_each; the state is the
    thread-local accumulators and the batches handed to ParallelWriter::write_elements so far
    (through a mutex, so in one order) *)
Definition pipeline_call (keep : element -> bool) (id : bytes) (w : nat) (e : element)
    (s : tl_state * list (list element)) : option (tl_state * list (list element)) :=
  let '(tl, batches) := s in
  Some (match e with
        | ESentinel => let '(l, tl') := tl_elements tl w id in (tl', batches ++ [l])
        | _ => if keep e then (tl_add tl w id e, batches) else (tl, batches)
        end).
