(** ParallelWriter whose write_header is called late, repeatedly or never, and on a disk that can fail. *)
From Coq Require Import ZArith List Bool Strings.Byte Strings.String.
From Verif Require Import Base Types FileFormat Pool ParallelWrite.
Import ListNotations.
Open Scope Z_scope.

(** src/osm/pbf/parallel_writer.rs 314-341: from_file_info; PBF_WRITER is None (line 34), there is no file yet *)
Definition threads_no_header (n : nat) (blocks : list (nat * list element)) : threads :=
  Threads blocks [] (repeat EIdle n) [] [] 1 WIdle None.

Section Fails.
  Variables (m : mode) (c : codec) (k : compression).
  (** what Writer::write_header writes *)
  Variable header : bytes.

  (** one step of the threads, or one effect of a call of write_header in the writing thread, at any moment between two
      commands of that thread, or a failing write. A panicking thread stops ([WFailed]); simplification: the poisoning of
      the locks of the command it was executing is not modelled, nobody else takes them. *)
  Inductive dstep : threads -> threads -> Prop :=
  | ds_step t t' : tstep m c k t t' -> dstep t t'
  (** src/osm/pbf/parallel_writer.rs 346-368: write_header, PBF_WRITER is None: the file is created and the header written *)
  | ds_header p q es w bf n : dstep (Threads p q es w bf n WIdle None) (Threads p q es w bf n WIdle (Some header))
  (** src/osm/pbf/parallel_writer.rs 355: PBF_WRITER is set: nothing happens *)
  | ds_header_again p q es w bf n f : dstep (Threads p q es w bf n WIdle (Some f)) (Threads p q es w bf n WIdle (Some f))
  (** src/osm/pbf/parallel_writer.rs 356-360: the file cannot be created: [unwrap] panics *)
  | ds_no_file p q es w bf n : dstep (Threads p q es w bf n WIdle None) (Threads p q es w bf n WFailed None)
  (** src/osm/pbf/parallel_writer.rs 361: the header cannot be written: [unwrap] panics, the file has some of its bytes *)
  | ds_header_breaks l p q es w bf n : dstep (Threads p q es w bf n WIdle None) (Threads p q es w bf n WFailed (Some (firstn l header)))
  (** src/osm/pbf/parallel_writer.rs 277-279: a blob cannot be written: [expect] panics, the file has some of its bytes *)
  | ds_blob_breaks hb l p q es w bf n f : lookup n bf = Some hb ->
      dstep (Threads p q es w bf n WDraining (Some f)) (Threads p q es w (remove n bf) n WFailed (Some (f ++ firstn l (write_blob hb)))).

  Inductive dexec : threads -> threads -> Prop :=
  | de_nil t : dexec t t
  | de_snoc t t' t'' : dexec t t' -> dstep t' t'' -> dexec t t''.
End Fails.
