(** Model of examples/parallel-pbf-io.rs as a whole: parallel reading, filtering, thread-local batches, parallel writing. *)
From Coq Require Import ZArith List Bool Strings.Byte Strings.String.
From Verif Require Import Base Types Block FileFormat FileInfoModel Pipelines Pool ParallelRead ParallelWrite.
Import ListNotations.
Open Scope Z_scope.

(** examples/parallel-pbf-io.rs 47-72: an execution of the reading half: [tasks] workers running the closure; [id] is the
    accumulator's identifier; [p] is the pool after the execution *)
Definition reads (m : mode) (c : codec) (filter_out : element -> bool) (tasks : nat) (id input : bytes) tr steps p : Prop :=
  for_each_exec m c input tasks (pipeline_call (fun e => negb (filter_out e)) id) (tl_init, []) tr steps p.
(** the write_elements calls it has made, in the order in which the mutex around the writer was taken, 62-65 *)
Definition calls_made (p : @pool bit blob_desc element (tl_state * list (list element))) : list call := map WriteElements (snd (p_shared p)).

(** examples/parallel-pbf-io.rs 20-33, 42-45, 74-75: the life of the ParallelWriter: write_header, the calls, close; [n] encoders ([n] = 4, parallel_writer.rs 314-341) *)
Definition writes (m : mode) (c : codec) (k : compression) (i : file_info) (B K : nat) sort (n : nat) (cs : list call) (output : bytes) : Prop :=
  exists blocks w j t, blocks_submitted B K sort cs blocks /\ write_header m c (writer_new i k) = Ok w /\
    texec m c k (threads_new (wr_file w) n blocks) j t /\ closed t /\ t_file t = Some output.

(** examples/parallel-pbf-io.rs 11-78: the program has run to its end and left [output] *)
Definition parallel_copy (m : mode) (c : codec) (filter_out : element -> bool) (program : bytes) (k : compression)
    (tasks B K : nat) sort (n : nat) (input output : bytes) : Prop :=
  exists id i tr steps p, reader_new m c input = Ok i /\ reads m c filter_out tasks id input tr steps p /\ finished p /\
    writes m c k (set_field i (SetProgramStr program)) B K sort n (calls_made p) output.
(** with the constants of the example; the filter is that of pbf-io.rs *)
Definition parallel_pbf_io (m : mode) (c : codec) sort (input output : bytes) : Prop :=
  parallel_copy m c pbf_io_filter_out (str "parallel-pbf-io-example") Zlib 4 (Z.to_nat (4 * 8000 * 32)) (Z.to_nat 8000) sort 4 input output.
