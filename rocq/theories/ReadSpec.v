(** What a PBF file, any sequence of bytes, stands for: its blocks and how iterating over it ends. Stated with the
    wire format of WireSpec.v and the meaning of payloads; no function of the reader is used. *)
From Coq Require Import ZArith List Bool Strings.Byte Strings.String.
From Verif Require Import Base Types Proto FileFormat Spec FileSpec WireSpec PropWire.
Import ListNotations.
Open Scope Z_scope.

(** the block that the bytes of a blob of type [t] stand for *)
Definition block_in (c : codec) (index : Z) (t body : bytes) (blk : fblock) : Prop :=
  exists b p, blob_is body b /\ carries c b p /\
    ((t = str "OSMHeader" /\ exists i, header_payload_means p i /\ blk = FHeader index i) \/
     (t = str "OSMData" /\ exists es, payload_means p es /\ blk = FData index es)).

(** [blocks_of c i rest l o]: the rest of a file, from the blob with number [i] on, has the blocks [l], and then the iteration ends ([Ended])
    or panics ([Panicked]) *)
Inductive blocks_of (c : codec) : Z -> bytes -> list fblock -> ending -> Prop :=
(** fewer than four bytes left *)
| bo_no_length i rest : zlen rest < 4 -> blocks_of c i rest [] Ended
(** the length of the blob header is 2 GiB or more *)
| bo_huge_length i lb n rest : big_endian lb n -> 2147483648 <= n -> blocks_of c i (lb ++ rest) [] Panicked
(** the blob header is cut off *)
| bo_header_cut i lb n rest : big_endian lb n -> n < 2147483648 -> zlen rest < n -> blocks_of c i (lb ++ rest) [] Ended
(** the blob header is not a BlobHeader message *)
| bo_header_invalid i lb hb rest : big_endian lb (zlen hb) -> zlen hb < 2147483648 -> (forall h, ~ blob_header_is hb h) ->
    blocks_of c i (lb ++ hb ++ rest) [] Ended
(** the body is cut off, has a negative size or is invalid *)
| bo_body_invalid i lb hb h rest : big_endian lb (zlen hb) -> zlen hb < 2147483648 -> blob_header_is hb h ->
    (forall body rest' blk, rest = body ++ rest' -> zlen body = bh_datasize h -> ~ block_in c i (bh_type h) body blk) ->
    blocks_of c i (lb ++ hb ++ rest) [] Panicked
(** a block, and the rest *)
| bo_block i lb hb h body rest blk l o : big_endian lb (zlen hb) -> zlen hb < 2147483648 -> blob_header_is hb h ->
    zlen body = bh_datasize h -> block_in c i (bh_type h) body blk ->
    blocks_of c (i + 1) rest l o -> blocks_of c i (lb ++ hb ++ body ++ rest) (blk :: l) o.

(** the elements of a list of blocks: those of its data blocks, up to the first header block *)
Inductive elements_in : list fblock -> ending -> list element -> ending -> Prop :=
| ei_end o : elements_in [] o [] o
| ei_header index i l o : elements_in (FHeader index i :: l) o [] Ended
| ei_data index es l o es' o' : elements_in l o es' o' -> elements_in (FData index es :: l) o (es ++ es') o'.

(** ** Raw blobs *)
(** at offset [p] of the file there is a complete blob header [h]; its blob begins at [st] *)
Definition blob_header_at (file : bytes) (p : Z) (h : blob_header) (st : Z) : Prop :=
  exists pre lb hb rest, file = pre ++ lb ++ hb ++ rest /\ zlen pre = p /\ big_endian lb (zlen hb) /\ zlen hb < 2147483648 /\
    blob_header_is hb h /\ st = p + 4 + zlen hb.
(** the blobs found from offset [p] on, and the offset at which the next one is looked for: behind the blob, by the size its header states,
    which may be negative *)
Inductive blobs_from (file : bytes) : Z -> list (Z * Z * bytes) -> Z -> Prop :=
| bf_nil p : blobs_from file p [] p
| bf_cons p h st l q : blob_header_at file p h st -> blobs_from file (st + bh_datasize h) l q ->
    blobs_from file p ((st, bh_datasize h, bh_type h) :: l) q.
(** a length of 2 GiB or more at offset [p] *)
Definition huge_length_at (file : bytes) (p : Z) : Prop :=
  exists pre lb n rest, file = pre ++ lb ++ rest /\ zlen pre = p /\ big_endian lb n /\ 2147483648 <= n.
