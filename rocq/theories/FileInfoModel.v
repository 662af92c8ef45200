(** Model of the header information a program builds: src/osm/pbf/file_info.rs, Writer::new, and the
    bounding boxes of blocks that are merged into it. *)
From Coq Require Import ZArith List Bool Strings.Byte Strings.String.
From Verif Require Import Base Types Block FileFormat.
Import ListNotations.
Open Scope Z_scope.

(** file_info.rs 62-138: the setters; with_writingprogram_str stores Some of its argument *)
Inductive setter :=
| SetBox (v : option bbox) | SetRequired (v : list bytes) | SetOptional (v : list bytes)
| SetProgram (v : option bytes) | SetProgramStr (v : bytes) | SetSource (v : option bytes)
| SetTimestamp (v : option Z) | SetSequence (v : option Z) | SetUrl (v : option bytes).
Definition set_field (i : file_info) (s : setter) : file_info :=
  match i with
  | FileInfo bb rq op pr so ts sq ur =>
    match s with
    | SetBox v => FileInfo v rq op pr so ts sq ur
    | SetRequired v => FileInfo bb v op pr so ts sq ur
    | SetOptional v => FileInfo bb rq v pr so ts sq ur
    | SetProgram v => FileInfo bb rq op v so ts sq ur
    | SetProgramStr v => FileInfo bb rq op (Some v) so ts sq ur
    | SetSource v => FileInfo bb rq op pr v ts sq ur
    | SetTimestamp v => FileInfo bb rq op pr so v sq ur
    | SetSequence v => FileInfo bb rq op pr so ts v ur
    | SetUrl v => FileInfo bb rq op pr so ts sq v
    end
  end.
Definition set_fields (i : file_info) (l : list setter) : file_info := fold_left set_field l i.

(** file_info.rs 140-148: required, optional (Vec::contains) *)
Definition fi_is_required (i : file_info) (f : bytes) : bool := existsb (fun x => bytes_eqb x f) (fi_required i).
Definition fi_is_optional (i : file_info) (f : bytes) : bool := existsb (fun x => bytes_eqb x f) (fi_optional i).

(** file_info.rs 48-55: merge_bounding_box *)
Definition fi_merge_bbox (i : file_info) (bb : option bbox) : file_info :=
  match fi_bbox i with
  | None => set_field i (SetBox bb)
  | Some b => match bb with Some o => set_field i (SetBox (Some (bb_merge b o))) | None => i end
  end.

(** file_block.rs 80-88: FileBlock::compute_bounding_box; the data of a FileBlock has no stored box *)
Definition fblock_bbox (b : fblock) : option bbox :=
  match b with
  | FHeader _ i => fi_bbox i
  | FData _ es => compute_bbox None es
  end.

(** writer.rs 86-128: Writer::new, then write_header, write_element for each element, close *)
Definition new_writer_file (m : mode) (c : codec) (program source : bytes) (ts seq : option Z) (url : option bytes)
    (bb : option bbox) (k : compression) (contains_history : bool) (es : list element) : res bytes :=
  write_file m c (fi_writer_new program source ts seq url bb contains_history) k es.
