(** The .osm.pbf container: header block, blobs, framing, sequential reader and writer. *)
From Coq Require Import ZArith List Bool Strings.Byte Strings.String.
From Verif Require Import Base Types Proto Block.
Import ListNotations.
Local Notation length := List.length.
Open Scope Z_scope.

(** ** Header *)

(** src/osm/pbf/file_info.rs 5-14 *)
Record file_info := FileInfo {
  fi_bbox : option bbox; fi_required : list bytes; fi_optional : list bytes;
  fi_program : option bytes; fi_source : option bytes;
  fi_ts : option Z; fi_seq : option Z; fi_url : option bytes }.

(** src/osm/pbf/file_info.rs 151-164: Default *)
Definition fi_default : file_info :=
  FileInfo None [str "OsmSchema-V0.6"; str "DenseNodes"] [str "Sort.Type_then_ID"] None None None None None.

(** src/osm/pbf/writer.rs 86-128: the FileInfo that Writer::new builds from its arguments *)
Definition fi_writer_new (program source : bytes) (ts seq : option Z) (url : option bytes)
    (bb : option bbox) (contains_history : bool) : file_info :=
  FileInfo bb
    ([str "OsmSchema-V0.6"; str "DenseNodes"] ++ (if contains_history then [str "HistoricalInformation"] else []))
    [str "Sort.Type_then_ID"] (Some program) (Some source) ts seq url.

(** src/osm/pbf/osm_header.rs 14: NANODEG *)
Definition nanodeg : f64 := f_of_Z 1000000000.

(** src/osm/pbf/osm_header.rs 63-70: header_bbox, [(x * NANODEG) as i64] *)
Definition to_nano (x : f64) : Z := f_trunc_i64 (fmul x nanodeg).
Definition header_bbox_of (bb : option bbox) : option header_bbox :=
  match bb with
  | Some b => Some (HeaderBBox (to_nano (bb_left b)) (to_nano (bb_right b)) (to_nano (bb_top b)) (to_nano (bb_bottom b)))
  | None => None
  end.

(** src/osm/pbf/osm_header.rs 72-87: serialize *)
Definition osm_header_serialize (i : file_info) : bytes :=
  header_block_encode
    (HeaderBlock (header_bbox_of (fi_bbox i)) (fi_required i) (fi_optional i) (fi_program i) (fi_source i)
                 (fi_ts i) (fi_seq i) (fi_url i)).

(** src/osm/pbf/osm_header.rs 22-29: [z as f64 / NANODEG] *)
Definition of_nano (z : Z) : f64 := fdiv (f_of_Z z) nanodeg.
Definition bbox_of_header (b : option header_bbox) : option bbox :=
  match b with
  | Some b => Some (BBox (of_nano (hb_left b)) (of_nano (hb_bottom b)) (of_nano (hb_right b)) (of_nano (hb_top b)))
  | None => None
  end.

(** src/osm/pbf/osm_header.rs 17-55: from_bytes *)
Definition osm_header_from_bytes (data : bytes) : res file_info :=
  h <- of_option (header_block_decode data) ;;
  Ok (FileInfo (bbox_of_header (h_bbox h)) (h_required h) (h_optional h) (h_program h) (h_source h)
               (h_ts h) (h_seq h) (h_url h)).

(** ** Blobs *)

(** src/osm/pbf/compression_type.rs *)
Inductive compression := Uncompressed | Zlib.

(** flate2's [Compression::none()] and [Compression::default()] *)
Inductive level := LevelNone | LevelDefault.

(** zlib (flate2, not part of /repo) as a parameter: [deflate] is what ZlibEncoder puts into the
    Vec, [inflate] the bytes ZlibDecoder delivers before it ends or fails. Every theorem that
    needs more than determinism assumes [codec_ok] in its statement. *)
Record codec := Codec { deflate : level -> bytes -> bytes; inflate : bytes -> bytes }.
Definition codec_ok (c : codec) : Prop := forall l b, inflate c (deflate c l b) = b.

(** src/osm/pbf/file_block.rs 23-32: FileBlock; of FileBlockMetadata only the index is kept (its
    blob_type is determined by the variant) *)
Inductive fblock :=
| FHeader (index : Z) (i : file_info)
| FData (index : Z) (es : list element).

(** src/osm/pbf/file_block.rs 97-102: zlib_decode; [vec![0; n as usize]] panics for negative n *)
Definition zlib_decode (c : codec) (data : bytes) (raw_size : Z) : res bytes :=
  if raw_size <? 0 then Panic else
  match take_exact raw_size (inflate c data) with Some (d, _) => Ok d | None => Err end.

(** src/osm/pbf/file_block.rs 112-155: read_blob_data *)
Definition read_blob_data (c : codec) (b : blob) : res bytes :=
  match b_data b with
  | None => Err
  | Some (Raw d) => Ok d
  | Some (ZlibData z) => n <- unwrap (b_raw_size b) ;; zlib_decode c z n
  | Some (LzmaData _) => Err
  | Some (Bzip2Data _) => Err
  | Some (Lz4Data _) => Err
  | Some (ZstdData _) => Err
  end.

(** src/osm/pbf/file_block.rs 35-58: FileBlock::new *)
Definition fblock_new (m : mode) (index : Z) (t data : bytes) : res fblock :=
  if bytes_eqb t (str "OSMHeader") then i <- osm_header_from_bytes data ;; Ok (FHeader index i)
  else if bytes_eqb t (str "OSMData") then es <- osm_data_new m data ;; Ok (FData index es)
  else Err.

(** src/osm/pbf/file_block.rs 171-212: serialize, the encoded BlobHeader and the encoded Blob *)
Definition fblock_serialize (m : mode) (c : codec) (k : compression) (b : fblock) : res (bytes * bytes) :=
  '(t, lvl, data) <-
     match b with
     | FHeader _ i => Ok (str "OSMHeader", LevelNone, osm_header_serialize i)
     | FData _ es => d <- osm_data_serialize m es ;; Ok (str "OSMData", LevelDefault, d)
     end ;;
  let blb := match data with
             | [] => Blob None None
             | _ => Blob (Some (wrap32 (zlen data)))
                         (Some (match k with Uncompressed => Raw data | Zlib => ZlibData (deflate c lvl data) end))
             end in
  let body := blob_encode blb in
  Ok (blob_header_encode (BlobHeader t None (wrap32 (zlen body))), body).

(** ** Framing *)

(** [i32::to_be_bytes] and [i32::from_be_bytes] *)
Definition be32 (z : Z) : bytes :=
  [z2b (z / 16777216); z2b (z / 65536); z2b (z / 256); z2b z].
Definition of_be32 (b : bytes) : Z :=
  wrap32 (fold_left (fun a x => a * 256 + b2z x) b 0).

(** src/osm/pbf/writer.rs 151-158: write_blob, what is appended to the file *)
Definition write_blob (hb : bytes * bytes) : bytes :=
  be32 (wrap32 (zlen (fst hb))) ++ fst hb ++ snd hb.

(** src/osm/pbf/blob_desc.rs 3-10 (the path is the file itself) *)
Record blob_desc := BlobDesc { bd_index : Z; bd_start : Z; bd_length : Z; bd_type : bytes }.

(** src/osm/pbf/blob_iterator.rs 12-17: position of the File, jump and index *)
Record bit := Bit { bi_pos : Z; bi_jump : Z; bi_index : Z }.
Definition bit_new : bit := Bit 0 0 0.

(** the bytes of the file from position [p] on *)
Definition from_pos (file : bytes) (p : Z) : bytes := skipn (Z.to_nat p) file.

(** src/osm/pbf/blob_iterator.rs 37-53: BlobIterator::next. [seek] fails for a negative
    position; [read_exact] fails if the file is too short and then leaves the position at the end
    of the file; [vec![0; n as usize]] panics for negative n. [bd_length] is a u64. *)
Definition blob_next (file : bytes) (s : bit) : res (option blob_desc * bit) :=
  let p := bi_pos s + wrap64 (bi_jump s) in
  if p <? 0 then Ok (None, s) else
  let fail := Bit (Z.max p (zlen file)) (bi_jump s) (bi_index s) in
  match take_exact 4 (from_pos file p) with
  | None => Ok (None, fail)
  | Some (lb, _) =>
    let n := of_be32 lb in
    if n <? 0 then Panic else
    match take_exact n (from_pos file (p + 4)) with
    | None => Ok (None, fail)
    | Some (hb, _) =>
      match blob_header_decode hb with
      | None => Ok (None, Bit (p + 4 + n) (bi_jump s) (bi_index s))
      | Some h =>
        let len := bh_datasize h mod two64 in
        Ok (Some (BlobDesc (bi_index s) (p + 4 + n) len (bh_type h)),
            Bit (p + 4 + n) len (bi_index s + 1))
      end
    end
  end.

(** src/osm/pbf/file_block.rs 214-221: deserialize *)
Definition fblock_deserialize (m : mode) (c : codec) (d : blob_desc) (buf : bytes) : res fblock :=
  b <- of_option (blob_decode buf) ;;
  data <- read_blob_data c b ;;
  fblock_new m (bd_index d) (bd_type d) data.

(** src/osm/pbf/file_block.rs 157-169: from_blob_desc; a [vec!] of more than isize::MAX bytes panics *)
Definition from_blob_desc (m : mode) (c : codec) (file : bytes) (d : blob_desc) : res fblock :=
  if max_i64 <? bd_length d then Panic else
  match take_exact (bd_length d) (from_pos file (bd_start d)) with
  | None => Err
  | Some (buf, _) => fblock_deserialize m c d buf
  end.

(** src/osm/pbf/file_block_iterator.rs 20-28: FileBlockIterator::next panics on Err *)
Definition fb_next (m : mode) (c : codec) (file : bytes) (s : bit) : res (option fblock * bit) :=
  '(od, s') <- blob_next file s ;;
  match od with
  | None => Ok (None, s')
  | Some d => b <- unwrap_res (from_blob_desc m c file d) ;; Ok (Some b, s')
  end.

(** Driving an iterator with a [for] loop: the items it yields and how the loop ends. An
    iterator that yields items for ever has no [run]. *)
Inductive ending := Ended | Panicked.
Inductive run {S A} (next : S -> res (option A * S)) : S -> list A -> ending -> Prop :=
| run_end s s' : next s = Ok (None, s') -> run next s [] Ended
| run_panic s : next s = Panic -> run next s [] Panicked
| run_step s a s' l o : next s = Ok (Some a, s') -> run next s' l o -> run next s (a :: l) o.

(** src/osm/pbf/element_iterator.rs 26-37: create_element_iterator *)
Definition create_element_iterator (m : mode) (c : codec) (file : bytes) (s : bit)
    : res (option (list element) * bit) :=
  '(ob, s') <- fb_next m c file s ;;
  match ob with
  | Some (FData _ es) => Ok (Some es, s')
  | _ => Ok (None, s')
  end.

(** src/osm/pbf/element_iterator.rs 43-60: a [for] loop over ElementIterator, whose [next] calls
    itself when a block is exhausted *)
Inductive el_run (m : mode) (c : codec) (file : bytes) : bit -> option (list element) -> list element -> ending -> Prop :=
| elr_none s : el_run m c file s None [] Ended
| elr_item s e r l o : el_run m c file s (Some r) l o -> el_run m c file s (Some (e :: r)) (e :: l) o
| elr_refill s it s' l o : create_element_iterator m c file s = Ok (it, s') ->
    el_run m c file s' it l o -> el_run m c file s (Some []) l o
| elr_panic s : create_element_iterator m c file s = Panic -> el_run m c file s (Some []) [] Panicked.

(** src/osm/pbf/element_iterator.rs 15-24 (ElementIterator::new) followed by the loop;
    src/osm/pbf/reader.rs 123-134: Reader::elements *)
Inductive elements_run (m : mode) (c : codec) (file : bytes) : list element -> ending -> Prop :=
| els_skip_panic : fb_next m c file bit_new = Panic -> elements_run m c file [] Panicked
| els_new_panic ob s : fb_next m c file bit_new = Ok (ob, s) ->
    create_element_iterator m c file s = Panic -> elements_run m c file [] Panicked
| els_loop ob s it s' l o : fb_next m c file bit_new = Ok (ob, s) ->
    create_element_iterator m c file s = Ok (it, s') ->
    el_run m c file s' it l o -> elements_run m c file l o.

(** src/osm/pbf/reader.rs 40-45 *)
Definition supported_features : list bytes :=
  [str "OsmSchema-V0.6"; str "DenseNodes"; str "HistoricalInformation"; str "Sort.Type_then_ID"].

(** src/osm/pbf/reader.rs 206-216: find_missing_features (the result is only tested for emptiness) *)
Definition find_missing (supported required : list bytes) : list bytes :=
  filter (fun r => negb (existsb (bytes_eqb r) supported)) required.

(** src/osm/pbf/reader.rs 39-67: Reader::new, 218-227: verify_supported_features *)
Definition reader_new (m : mode) (c : codec) (file : bytes) : res file_info :=
  '(ob, _) <- fb_next m c file bit_new ;;
  match ob with
  | None => Err
  | Some (FData _ _) => Err
  | Some (FHeader _ i) =>
    match find_missing supported_features (fi_required i) with [] => Ok i | _ => Err end
  end.

(** ** Sequential writer *)

(** src/osm/pbf/element_accumulator.rs 3-14 *)
Inductive acc_state := ANodes | AWays | ARelations.
Record accumulator := Acc { acc_elements : list element; acc_st : acc_state; acc_index : Z }.
(** src/osm/pbf/element_accumulator.rs 17-25, block_size 18 *)
Definition acc_block_size : Z := 8000.
Definition acc_new : accumulator := Acc [] ANodes 0.

(** the push-and-maybe-flush arm, element_accumulator.rs 33-37, 55-59, 79-83 *)
Definition acc_push (a : accumulator) (e : element) : option (list element) * accumulator :=
  let es := acc_elements a ++ [e] in
  if zlen es =? acc_block_size then (Some es, Acc [] (acc_st a) (acc_index a + 1))
  else (None, Acc es (acc_st a) (acc_index a)).

(** src/osm/pbf/element_accumulator.rs 27-88: add. The recursive [self.add(element)] after a change
    of state always takes the push arm; its result is dropped (block_size is not 1). *)
Definition acc_add (a : accumulator) (e : element) : res (option (list element) * accumulator) :=
  let switch st := Ok (Some (acc_elements a), snd (acc_push (Acc [] st (acc_index a + 1)) e)) in
  match acc_st a, e with
  | ANodes, ENode _ => Ok (acc_push a e)
  | ANodes, EWay _ => switch AWays
  | ANodes, ERelation _ => Panic
  | AWays, ENode _ => Panic
  | AWays, EWay _ => Ok (acc_push a e)
  | AWays, ERelation _ => switch ARelations
  | ARelations, ENode _ => Panic
  | ARelations, EWay _ => Panic
  | ARelations, ERelation _ => Ok (acc_push a e)
  | _, ESentinel => Ok (None, a)
  end.

(** src/osm/pbf/writer.rs 58-64; I/O errors are not modelled *)
Record writer := Writer { wr_info : file_info; wr_comp : compression; wr_file : bytes; wr_acc : accumulator }.

(** src/osm/pbf/writer.rs 68-84: from_file_info *)
Definition writer_new (i : file_info) (k : compression) : writer := Writer i k [] acc_new.

(** src/osm/pbf/writer.rs 145-148: write_file_block *)
Definition write_file_block (m : mode) (c : codec) (w : writer) (b : fblock) : res writer :=
  hb <- fblock_serialize m c (wr_comp w) b ;;
  Ok (Writer (wr_info w) (wr_comp w) (wr_file w ++ write_blob hb) (wr_acc w)).

(** src/osm/pbf/writer.rs 136-142: write_header *)
Definition write_header (m : mode) (c : codec) (w : writer) : res writer :=
  write_file_block m c w (FHeader 0 (wr_info w)).

(** src/osm/pbf/writer.rs 178-189: write_elements *)
Definition write_elements (m : mode) (c : codec) (w : writer) (es : list element) : res writer :=
  write_file_block m c w (FData (acc_index (wr_acc w)) es).

(** src/osm/pbf/writer.rs 164-173: write_element *)
Definition write_element (m : mode) (c : codec) (w : writer) (e : element) : res writer :=
  '(o, a) <- acc_add (wr_acc w) e ;;
  let w' := Writer (wr_info w) (wr_comp w) (wr_file w) a in
  match o with
  | None => Ok w'
  | Some es => write_elements m c w' es
  end.

(** a [for] loop calling write_element, as in the example writer.rs 41-54 *)
Fixpoint write_all (m : mode) (c : codec) (w : writer) (es : list element) : res writer :=
  match es with
  | [] => Ok w
  | e :: r => w' <- write_element m c w e ;; write_all m c w' r
  end.

(** src/osm/pbf/writer.rs 194-200: close; element_accumulator.rs 90-93: elements *)
Definition writer_close (m : mode) (c : codec) (w : writer) : res writer :=
  let a := wr_acc w in
  let w' := Writer (wr_info w) (wr_comp w) (wr_file w) (Acc [] (acc_st a) (acc_index a + 1)) in
  match acc_elements a with
  | [] => Ok w'
  | es => write_elements m c w' es
  end.

(** the whole life of a sequential writer: from_file_info, write_header, write_element for every
    element, close; the result is the file *)
Definition write_file (m : mode) (c : codec) (i : file_info) (k : compression) (es : list element) : res bytes :=
  w0 <- write_header m c (writer_new i k) ;;
  w1 <- write_all m c w0 es ;;
  w2 <- writer_close m c w1 ;;
  Ok (wr_file w2).
