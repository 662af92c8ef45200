(** Reading a PBF file from a disk that fails: every open, seek and read may return an error. *)
From Coq Require Import ZArith List Bool Strings.Byte.
From Verif Require Import Base Types FileFormat Pool ParallelRead FailPool.
Import ListNotations.
Open Scope Z_scope.

(** where an I/O error strikes in BlobIterator::next; a failing read may have consumed [k] of the bytes asked for *)
Inductive fault := NoFault | SeekFault | LengthFault (k : Z) | HeaderFault (k : Z) | PositionFault.
(** src/osm/pbf/blob_iterator.rs 37-53: BlobIterator::next turns every error into None; jump and index are only updated at the end *)
Definition blob_next_with (fl : fault) (file : bytes) (s : bit) : res (option blob_desc * bit) :=
  let p := bi_pos s + wrap64 (bi_jump s) in
  let stop q := Ok (None, Bit q (bi_jump s) (bi_index s)) in
  match fl with
  | NoFault => blob_next file s
  | SeekFault => Ok (None, s)
  | LengthFault k => if (0 <=? p) && (0 <=? k) && (k <? 4) && (p + k <=? zlen file) then stop (p + k) else blob_next file s
  | HeaderFault k =>
    if p <? 0 then blob_next file s else
    match take_exact 4 (from_pos file p) with
    | Some (lb, _) => if (0 <=? k) && (k <? of_be32 lb) && (p + 4 + k <=? zlen file) then stop (p + 4 + k) else blob_next file s
    | None => blob_next file s
    end
  | PositionFault => match blob_next file s with Ok (Some d, s') => stop (bi_pos s') | r => r end
  end.
Definition blob_reads (file : bytes) (s : bit) (r : res (option blob_desc * bit)) : Prop := exists fl, r = blob_next_with fl file s.

(** src/osm/pbf/file_block.rs 157-169: from_blob_desc returns the error of open, seek or read *)
Definition body_reads (m : mode) (c : codec) (file : bytes) (d : blob_desc) (r : res fblock) : Prop := r = from_blob_desc m c file d \/ r = Err.
(** src/osm/pbf/file_block_iterator.rs 20-28 *)
Inductive block_reads (m : mode) (c : codec) (file : bytes) (s : bit) : res (option fblock * bit) -> Prop :=
| br_none s' : blob_reads file s (Ok (None, s')) -> block_reads m c file s (Ok (None, s'))
| br_panic : blob_reads file s Panic -> block_reads m c file s Panic
| br_block d s' r : blob_reads file s (Ok (Some d, s')) -> body_reads m c file d r -> block_reads m c file s (b <- unwrap_res r ;; Ok (Some b, s')).

(** a [for] loop over an iterator whose [next] can have several results *)
Inductive reads {S A} (next : S -> res (option A * S) -> Prop) : S -> list A -> ending -> Prop :=
| rd_end s s' : next s (Ok (None, s')) -> reads next s [] Ended
| rd_panic s : next s Panic -> reads next s [] Panicked
| rd_step s a s' l o : next s (Ok (Some a, s')) -> reads next s' l o -> reads next s (a :: l) o.

(** src/osm/pbf/element_iterator.rs 26-37 *)
Definition created (r : res (option fblock * bit)) : res (option (list element) * bit) :=
  '(ob, s') <- r ;; match ob with Some (FData _ es) => Ok (Some es, s') | _ => Ok (None, s') end.
(** src/osm/pbf/element_iterator.rs 43-60 *)
Inductive el_reads (m : mode) (c : codec) (file : bytes) : bit -> option (list element) -> list element -> ending -> Prop :=
| elf_none s : el_reads m c file s None [] Ended
| elf_item s e r l o : el_reads m c file s (Some r) l o -> el_reads m c file s (Some (e :: r)) (e :: l) o
| elf_refill s r it s' l o : block_reads m c file s r -> created r = Ok (it, s') -> el_reads m c file s' it l o -> el_reads m c file s (Some []) l o
| elf_panic s r : block_reads m c file s r -> created r = Panic -> el_reads m c file s (Some []) [] Panicked.
(** src/osm/pbf/element_iterator.rs 15-24: the result of the first [next], [first], is not looked at *)
Inductive elements_reads (m : mode) (c : codec) (file : bytes) : option fblock -> list element -> ending -> Prop :=
| ef_skip_panic : block_reads m c file bit_new Panic -> elements_reads m c file None [] Panicked
| ef_new_panic first s r : block_reads m c file bit_new (Ok (first, s)) -> block_reads m c file s r -> created r = Panic -> elements_reads m c file first [] Panicked
| ef_loop first s r it s' l o : block_reads m c file bit_new (Ok (first, s)) -> block_reads m c file s r -> created r = Ok (it, s') ->
    el_reads m c file s' it l o -> elements_reads m c file first l o.

(** src/osm/pbf/reader.rs 39-67 *)
Definition header_of (r : res (option fblock * bit)) : res file_info :=
  '(ob, _) <- r ;;
  match ob with
  | Some (FHeader _ i) => match find_missing supported_features (fi_required i) with [] => Ok i | _ => Err end
  | _ => Err
  end.
Definition reader_new_reads (m : mode) (c : codec) (file : bytes) (r : res file_info) : Prop :=
  r = Err (* File::open *) \/ exists r0, block_reads m c file bit_new r0 /\ r = header_of r0.

(** src/osm/pbf/reader.rs 183-204: parallel_for_each. The submitting thread is in every state of the BlobIterator at most once, and every
    blob is read at most once, so any failures are given by [strikes] (in BlobIterator::next) and [unreadable] (in the command). *)
Definition reads_exec {S} (m : mode) (c : codec) (file : bytes) (strikes : bit -> fault) (unreadable : blob_desc -> bool) (tasks : nat)
    (f : nat -> element -> S -> S * bool) (s0 : S) :=
  fexec (fun s => blob_next_with (strikes s) file s) (fun d => if unreadable d then None else iteration_calls m c file d) f for_each_queue (pool_new bit_new tasks s0).
