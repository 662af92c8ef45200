(** Model of the programs in examples/ that convert between PBF files and apidb dumps. *)
From Coq Require Import ZArith List Bool Strings.Byte Strings.String.
From Verif Require Import Base Types Block FileFormat ApidbWrite ApidbRead.
Import ListNotations.
Open Scope Z_scope.

(** examples/apidb-to-pbf.rs 24-33: the header the program writes *)
Definition apidb_to_pbf_info : file_info :=
  FileInfo None [str "OsmSchema-V0.6"; str "DenseNodes"] [str "Sort.Type_then_ID"]
    (Some (str "rw-pipe-example-writer")) (Some (str "from-apidb-dump")) None None None.

(** examples/apidb-to-pbf.rs 10-48: reading a dump directory and writing every element to a PBF file; [r] is
    how the program ends, [Ok] with the contents of the file. Reading and writing alternate in the program; since a panic of either
    ends it, the outcome is that of reading everything and then writing. *)
Inductive apidb_to_pbf (m : mode) (c : codec) (unescape : bytes -> option bytes) (sort_file : list (nat * ftype) -> bytes -> res bytes)
    (dir : bytes -> option bytes) : res bytes -> Prop :=
| ap_new_err : ApidbRead.reader_new sort_file dir = Err -> apidb_to_pbf m c unescape sort_file dir Err
| ap_new_panic : ApidbRead.reader_new sort_file dir = Panic -> apidb_to_pbf m c unescape sort_file dir Panic
| ap_elements_err rd : ApidbRead.reader_new sort_file dir = Ok rd -> ApidbRead.elements unescape rd = Err ->
    apidb_to_pbf m c unescape sort_file dir Err
| ap_elements_panic rd : ApidbRead.reader_new sort_file dir = Ok rd -> ApidbRead.elements unescape rd = Panic ->
    apidb_to_pbf m c unescape sort_file dir Panic
| ap_read_panic rd k s es : ApidbRead.reader_new sort_file dir = Ok rd -> ApidbRead.elements unescape rd = Ok (k, s) ->
    run (element_next k) s es Panicked -> apidb_to_pbf m c unescape sort_file dir Panic
| ap_write rd k s es : ApidbRead.reader_new sort_file dir = Ok rd -> ApidbRead.elements unescape rd = Ok (k, s) ->
    run (element_next k) s es Ended ->
    apidb_to_pbf m c unescape sort_file dir (write_file m c apidb_to_pbf_info Zlib es).

(** examples/pbf-to-apidb.rs 9-30: every element of a PBF file is written to a dump *)
Inductive pbf_to_apidb (m : mode) (c : codec) (escape : bytes -> bytes) (hash_order : forall V, list (Z * V) -> list (Z * V)) (clock : nat -> Z) (lib : bytes)
    (input : bytes) : res ApidbWrite.writer -> Prop :=
| pa_new_err : FileFormat.reader_new m c input = Err -> pbf_to_apidb m c escape hash_order clock lib input Err
| pa_new_panic : FileFormat.reader_new m c input = Panic -> pbf_to_apidb m c escape hash_order clock lib input Panic
| pa_read_panic i es : FileFormat.reader_new m c input = Ok i -> elements_run m c input es Panicked ->
    pbf_to_apidb m c escape hash_order clock lib input Panic
| pa_write i es : FileFormat.reader_new m c input = Ok i -> elements_run m c input es Ended ->
    pbf_to_apidb m c escape hash_order clock lib input (ApidbWrite.dump escape hash_order clock lib es).
