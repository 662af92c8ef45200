(** Reading a PBF file while it is being written: the file has a beginning of its final content, and grows. *)
From Coq Require Import ZArith List Bool Strings.Byte.
From Verif Require Import Base Types Proto FileFormat Pool ParallelRead FailPool ReadFails GrowingSpec.
Import ListNotations.
Open Scope Z_scope.

(** src/osm/pbf/blob_iterator.rs 37-53: BlobIterator::next; the file is [v1] when the read of the length (line 40) is over and [v2] when
    the read of the header (line 43) is. A [read_exact] that comes to the end of the file has consumed what there was. *)
Definition blob_next_seen (v1 v2 : bytes) (s : bit) : res (option blob_desc * bit) :=
  let p := bi_pos s + wrap64 (bi_jump s) in
  if p <? 0 then Ok (None, s) else
  match take_exact 4 (from_pos v1 p) with
  | None => Ok (None, Bit (Z.max p (zlen v1)) (bi_jump s) (bi_index s))
  | Some (lb, _) =>
    let n := of_be32 lb in
    if n <? 0 then Panic else
    match take_exact n (from_pos v2 (p + 4)) with
    | None => Ok (None, Bit (Z.max (p + 4) (zlen v2)) (bi_jump s) (bi_index s))
    | Some (hb, _) =>
      match blob_header_decode hb with
      | None => Ok (None, Bit (p + 4 + n) (bi_jump s) (bi_index s))
      | Some h =>
        let len := bh_datasize h mod two64 in
        Ok (Some (BlobDesc (bi_index s) (p + 4 + n) len (bh_type h)), Bit (p + 4 + n) len (bi_index s + 1))
      end
    end
  end.
(** src/osm/pbf/file_block_iterator.rs 20-28; [v3] is the file when the body has been read (file_block.rs 157-169) *)
Definition fb_next_seen (m : mode) (c : codec) (v1 v2 v3 : bytes) (s : bit) : res (option fblock * bit) :=
  '(od, s') <- blob_next_seen v1 v2 s ;;
  match od with
  | None => Ok (None, s')
  | Some d => b <- unwrap_res (from_blob_desc m c v3 d) ;; Ok (Some b, s')
  end.
Section Growing.
Variables (m : mode) (c : codec) (final : bytes).
(** one call of FileBlockIterator::next; [v] is the file at an earlier moment, [v'] at a later one *)
Inductive block_grows (v : bytes) (s : bit) : res (option fblock * bit) -> bytes -> Prop :=
| bg_next v1 v2 v3 : grows final v v1 -> grows final v1 v2 -> grows final v2 v3 -> block_grows v s (fb_next_seen m c v1 v2 v3 s) v3.
(** a [for] loop over the blocks: src/osm/pbf/reader.rs 74-77 *)
Inductive blocks_grow : bytes -> bit -> list fblock -> ending -> Prop :=
| kg_end v s s' v' : block_grows v s (Ok (None, s')) v' -> blocks_grow v s [] Ended
| kg_panic v s v' : block_grows v s Panic v' -> blocks_grow v s [] Panicked
| kg_step v s b s' v' l o : block_grows v s (Ok (Some b, s')) v' -> blocks_grow v' s' l o -> blocks_grow v s (b :: l) o.
(** src/osm/pbf/element_iterator.rs 43-60 *)
Inductive el_grow : bytes -> bit -> option (list element) -> list element -> ending -> Prop :=
| elg_none v s : el_grow v s None [] Ended
| elg_item v s e r l o : el_grow v s (Some r) l o -> el_grow v s (Some (e :: r)) (e :: l) o
| elg_refill v s r v' it s' l o : block_grows v s r v' -> created r = Ok (it, s') -> el_grow v' s' it l o -> el_grow v s (Some []) l o
| elg_panic v s r v' : block_grows v s r v' -> created r = Panic -> el_grow v s (Some []) [] Panicked.
(** src/osm/pbf/element_iterator.rs 15-24, reader.rs 123-134: Reader::elements and a [for] loop, [v] is the file at an earlier moment *)
Inductive elements_grow (v : bytes) : list element -> ending -> Prop :=
| eg_skip_panic v' : block_grows v bit_new Panic v' -> elements_grow v [] Panicked
| eg_new_panic first s v' r v'' : block_grows v bit_new (Ok (first, s)) v' -> block_grows v' s r v'' -> created r = Panic -> elements_grow v [] Panicked
| eg_loop first s v' r v'' it s' l o : block_grows v bit_new (Ok (first, s)) v' -> block_grows v' s r v'' -> created r = Ok (it, s') ->
    el_grow v'' s' it l o -> elements_grow v l o.
(** src/osm/pbf/reader.rs 39-67: Reader::new; [v'] is the file when it returns *)
Inductive reader_new_grows (v : bytes) : res file_info -> bytes -> Prop :=
| rn_grows r v' : block_grows v bit_new r v' -> reader_new_grows v (header_of r) v'.
(** src/osm/pbf/reader.rs 183-204: parallel_for_each. The submitting thread is in every state of the BlobIterator at most once, and every
    blob is read at most once, so what is seen is given by functions: [at_len], [at_header] when the blob is announced, [at_body] when a
    worker has read it. *)
Definition grows_exec {S} (at_len at_header : bit -> bytes) (at_body : blob_desc -> bytes) (tasks : nat) (f : nat -> element -> S -> S * bool) (s0 : S) :=
  fexec (fun s => blob_next_seen (at_len s) (at_header s) s) (fun d => iteration_calls m c (at_body d) d) f for_each_queue (pool_new bit_new tasks s0).
End Growing.
