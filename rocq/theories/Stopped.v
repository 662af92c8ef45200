(** The programs pbf-io, apidb-to-pbf and pbf-to-apidb when they do not run to their end: what is on the disk then. *)
From Coq Require Import ZArith List Bool Strings.Byte Strings.String.
From Verif Require Import Base Types Block FileFormat FileInfoModel Pipelines Pipelines2.
From Verif Require ApidbRead ApidbWrite.
Import ListNotations.
Open Scope Z_scope.

(** examples/pbf-io.rs 31-48, examples/apidb-to-pbf.rs 42-45: the loop, element by element, and close. [es] is what the reader still yields and
    [o] how it ends. The result: how the program ends and the contents of the file. A call that fails has not written anything
    (src/osm/pbf/writer.rs 145-148: serialize comes first); nothing is buffered outside the file (writer.rs 64, 151-158). *)
Fixpoint write_loop (m : mode) (c : codec) (keep : element -> bool) (w : writer) (es : list element) (o : ending) : res unit * bytes :=
  match es with
  | [] =>
    match o with
    | Panicked => (Panic, wr_file w)
    | Ended => match writer_close m c w with Ok w' => (Ok tt, wr_file w') | Err => (Err, wr_file w) | Panic => (Panic, wr_file w) end
    end
  | e :: r =>
    if keep e
    then match write_element m c w e with Ok w' => write_loop m c keep w' r o | Err => (Err, wr_file w) | Panic => (Panic, wr_file w) end
    else write_loop m c keep w r o
  end.
(** pbf-io.rs 22-48, apidb-to-pbf.rs 35-45: from_file_info (the file is created), write_header, the loop *)
Definition writes (m : mode) (c : codec) (i : file_info) (k : compression) (keep : element -> bool) (es : list element) (o : ending) : res unit * bytes :=
  match write_header m c (writer_new i k) with
  | Ok w => write_loop m c keep w es o
  | Err => (Err, [])
  | Panic => (Panic, [])
  end.

(** examples/pbf-io.rs 11-52: how the program ends, and the output file (None: not created) *)
Inductive copy_leaves (m : mode) (c : codec) (filter_out : element -> bool) (program : bytes) (k : compression) (input : bytes) : res unit -> option bytes -> Prop :=
| cl_err : reader_new m c input = Err -> copy_leaves m c filter_out program k input Err None
| cl_new_panic : reader_new m c input = Panic -> copy_leaves m c filter_out program k input Panic None
| cl_run i es o r file : reader_new m c input = Ok i -> elements_run m c input es o ->
    writes m c (set_field i (SetProgramStr program)) k (fun e => negb (filter_out e)) es o = (r, file) ->
    copy_leaves m c filter_out program k input r (Some file).
(** examples/apidb-to-pbf.rs 10-48: likewise; line 42: elements() is called when the header has been written *)
Inductive apidb_to_pbf_leaves (m : mode) (c : codec) (unescape : bytes -> option bytes) (sort_file : list (nat * ApidbRead.ftype) -> bytes -> res bytes)
    (dir : bytes -> option bytes) : res unit -> option bytes -> Prop :=
| al_new_err : ApidbRead.reader_new sort_file dir = Err -> apidb_to_pbf_leaves m c unescape sort_file dir Err None
| al_new_panic : ApidbRead.reader_new sort_file dir = Panic -> apidb_to_pbf_leaves m c unescape sort_file dir Panic None
| al_elements rd r : ApidbRead.reader_new sort_file dir = Ok rd ->
    (ApidbRead.elements unescape rd = Err /\ r = Err \/ ApidbRead.elements unescape rd = Panic /\ r = Panic) ->
    apidb_to_pbf_leaves m c unescape sort_file dir r (Some (snd (writes m c apidb_to_pbf_info Zlib (fun _ => true) [] Panicked)))
| al_run rd k s es o r file : ApidbRead.reader_new sort_file dir = Ok rd -> ApidbRead.elements unescape rd = Ok (k, s) ->
    run (ApidbRead.element_next k) s es o -> writes m c apidb_to_pbf_info Zlib (fun _ => true) es o = (r, file) ->
    apidb_to_pbf_leaves m c unescape sort_file dir r (Some file).
(** examples/pbf-to-apidb.rs 20-25: the reader panics when [es] have been written; while the stack is unwound the buffered writers of the
    tables are dropped, which writes their contents (table_data_writer.rs 9-13, BufWriter of the standard library) *)
Definition pbf_to_apidb_stops (m : mode) (c : codec) (escape : bytes -> bytes) (input : bytes) (disk : ApidbWrite.table -> bytes) : Prop :=
  exists i es w, reader_new m c input = Ok i /\ elements_run m c input es Panicked /\
    ApidbWrite.write_elements escape es ApidbWrite.writer_new = Ok w /\ forall t, disk t = ApidbWrite.files w t.
