(** Specification of the protobuf wire format
    (https://protobuf.dev/programming-guides/encoding/) and of the messages of
    src/osm/pbf/format/{fileformat,osmformat}.proto as relations between bytes and values, and of
    UTF-8 (RFC 3629). No function of the encoder or decoder is mentioned; from the model only the record types
    of the messages (which are the generated structs) and the type of payloads are used. *)
From Coq Require Import ZArith List Bool Strings.Byte Strings.String.
From Verif Require Import Base Proto.
Import ListNotations.
Open Scope Z_scope.
Local Notation length := List.length.
Local Notation concat := List.concat.

(** ** UTF-8 *)
(** Unicode scalar values *)
Definition scalar (c : Z) : Prop := 0 <= c <= 55295 \/ 57344 <= c <= 1114111.
(** the bytes of a scalar value, as numbers *)
Definition utf8_char (c : Z) : list Z :=
  if c <? 128 then [c]
  else if c <? 2048 then [192 + c / 64; 128 + c mod 64]
  else if c <? 65536 then [224 + c / 4096; 128 + c / 64 mod 64; 128 + c mod 64]
  else [240 + c / 262144; 128 + c / 4096 mod 64; 128 + c / 64 mod 64; 128 + c mod 64].
(** [bs] is the encoding of a sequence of scalar values *)
Definition utf8_text (bs : bytes) : Prop :=
  exists cs, Forall scalar cs /\ map b2z bs = flat_map utf8_char cs.

(** ** Varints *)
(** groups of seven bits, least significant first, all but the last with the top bit set *)
Inductive varint : bytes -> Z -> Prop :=
| varint_last b : b2z b < 128 -> varint [b] (b2z b)
| varint_more b r u : 128 <= b2z b -> varint r u -> varint (b :: r) (b2z b - 128 + 128 * u).
(** a varint of a 64-bit number: at most ten bytes *)
Definition varint64 (bs : bytes) (u : Z) : Prop := varint bs u /\ (length bs <= 10)%nat /\ 0 <= u < 18446744073709551616.

(** ** Fields *)
(** key: field number (at least 1) and wire type in one 32-bit number *)
Definition key (bs : bytes) (num wt : Z) : Prop :=
  exists k, varint64 bs k /\ k < 4294967296 /\ k = 8 * num + wt /\ 0 <= wt <= 7 /\ 1 <= num.
(** the contents of a deprecated group: fields up to the end key with the group's number; contents are skipped *)
Inductive group : Z -> bytes -> Prop :=
| group_end num kb : key kb num 4 -> group num kb
| group_field num f r : one_field f -> group num r -> group num (f ++ r)
(** one field of any kind *)
with one_field : bytes -> Prop :=
| of_varint kb num vb u : key kb num 0 -> varint64 vb u -> one_field (kb ++ vb)
| of_fixed64 kb num b : key kb num 1 -> length b = 8%nat -> one_field (kb ++ b)
| of_bytes kb num lb b : key kb num 2 -> varint64 lb (zlen b) -> one_field (kb ++ lb ++ b)
| of_group kb num g : key kb num 3 -> group num g -> one_field (kb ++ g)
| of_fixed32 kb num b : key kb num 5 -> length b = 4%nat -> one_field (kb ++ b).
(** a field with its number and payload *)
Inductive field_is : bytes -> Z -> wval -> Prop :=
| fi_varint kb num vb u : key kb num 0 -> varint64 vb u -> field_is (kb ++ vb) num (WVarint u)
| fi_fixed64 kb num b : key kb num 1 -> length b = 8%nat -> field_is (kb ++ b) num (WFixed64 b)
| fi_bytes kb num lb b : key kb num 2 -> varint64 lb (zlen b) -> field_is (kb ++ lb ++ b) num (WBytes b)
| fi_group kb num g : key kb num 3 -> group num g -> field_is (kb ++ g) num WGroup
| fi_fixed32 kb num b : key kb num 5 -> length b = 4%nat -> field_is (kb ++ b) num (WFixed32 b).
(** a message is a sequence of fields *)
Inductive message : bytes -> list (Z * wval) -> Prop :=
| msg_nil : message [] []
| msg_cons f num v r fs : field_is f num v -> message r fs -> message (f ++ r) ((num, v) :: fs).

(** ** Values of declared fields *)
(** payloads of field [num], in order *)
Definition occurrences (num : Z) (fs : list (Z * wval)) : list wval := map snd (filter (fun f => fst f =? num) fs).
Definition last_opt {A} (l : list A) : option A := match rev l with [] => None | a :: _ => Some a end.

(** 64-bit and 32-bit two's complement and zigzag numbers *)
Definition is_int64 (u z : Z) : Prop := -9223372036854775808 <= z <= 9223372036854775807 /\ exists q, u - z = q * 18446744073709551616.
Definition is_int32 (u z : Z) : Prop := -2147483648 <= z <= 2147483647 /\ exists q, u - z = q * 4294967296.
Definition is_uint32 (u z : Z) : Prop := 0 <= z < 4294967296 /\ exists q, u - z = q * 4294967296.
Definition is_zigzag (u z : Z) : Prop := (0 <= z /\ u = 2 * z) \/ (z < 0 /\ u = - 2 * z - 1).
Definition is_sint64 (u z : Z) : Prop := is_zigzag u z.
Definition is_sint32 (u z : Z) : Prop := exists w, is_uint32 u w /\ is_zigzag w z.
Definition is_bool (u : Z) (b : bool) : Prop := b = true <-> u <> 0.

Section Kinds.
  Context {A : Type}.
  Variable conv : Z -> A -> Prop.
  (** an optional scalar: the last occurrence counts *)
  Definition opt_scalar (num : Z) (fs : list (Z * wval)) (o : option A) : Prop :=
    exists us, occurrences num fs = map WVarint us /\
      match last_opt us, o with None, None => True | Some u, Some a => conv u a | _, _ => False end.
  (** a required scalar: its default when absent *)
  Definition req_scalar (num : Z) (fs : list (Z * wval)) (d a : A) : Prop :=
    exists o, opt_scalar num fs o /\ a = match o with Some x => x | None => d end.
  (** values of one occurrence of a repeated scalar: a single value or a packed sequence of varints *)
  Inductive scalars_of : wval -> list A -> Prop :=
  | so_one u a : conv u a -> scalars_of (WVarint u) [a]
  | so_packed bss us l : Forall2 varint64 bss us -> Forall2 conv us l -> scalars_of (WBytes (concat bss)) l.
  Definition rep_scalar (num : Z) (fs : list (Z * wval)) (l : list A) : Prop :=
    exists ls, Forall2 scalars_of (occurrences num fs) ls /\ l = concat ls.
End Kinds.
(** bytes and strings *)
Definition opt_bytes (num : Z) (fs : list (Z * wval)) (o : option bytes) : Prop :=
  exists bs, occurrences num fs = map WBytes bs /\ o = last_opt bs.
Definition opt_string (num : Z) (fs : list (Z * wval)) (o : option bytes) : Prop :=
  exists bs, occurrences num fs = map WBytes bs /\ Forall utf8_text bs /\ o = last_opt bs.
Definition req_string (num : Z) (fs : list (Z * wval)) (s : bytes) : Prop :=
  exists o, opt_string num fs o /\ s = match o with Some x => x | None => [] end.
Definition rep_bytes (num : Z) (fs : list (Z * wval)) (l : list bytes) : Prop := occurrences num fs = map WBytes l.
Definition rep_string (num : Z) (fs : list (Z * wval)) (l : list bytes) : Prop :=
  occurrences num fs = map WBytes l /\ Forall utf8_text l.
(** embedded messages; several occurrences of one that is not repeated are merged, which is to say that it is the
    message of the concatenated payloads *)
Definition rep_msg {M} (means : bytes -> M -> Prop) (num : Z) (fs : list (Z * wval)) (l : list M) : Prop :=
  exists bs, occurrences num fs = map WBytes bs /\ Forall2 means bs l.
Definition well_formed (b : bytes) : Prop := exists fs, message b fs.
Definition opt_msg {M} (means : bytes -> M -> Prop) (num : Z) (fs : list (Z * wval)) (o : option M) : Prop :=
  exists bs, occurrences num fs = map WBytes bs /\ Forall well_formed bs /\
    match bs, o with [], None => True | _ :: _, Some m => means (concat bs) m | _, _ => False end.

(** ** fileformat.proto *)
(** message BlobHeader { required string type = 1; optional bytes indexdata = 2; required int32 datasize = 3; } *)
Definition blob_header_is (bs : bytes) (h : blob_header) : Prop :=
  exists fs, message bs fs /\ req_string 1 fs (bh_type h) /\ opt_bytes 2 fs (bh_indexdata h) /\
    req_scalar is_int32 3 fs 0 (bh_datasize h).
(** message Blob { optional int32 raw_size = 2; oneof data { bytes raw = 1; bytes zlib_data = 3; bytes lzma_data = 4;
    bytes OBSOLETE_bzip2_data = 5; bytes lz4_data = 6; bytes zstd_data = 7; } }; the last member of the oneof counts *)
Definition blob_data_number (d : blob_data) : Z * bytes :=
  match d with
  | Raw b => (1, b) | ZlibData b => (3, b) | LzmaData b => (4, b) | Bzip2Data b => (5, b) | Lz4Data b => (6, b) | ZstdData b => (7, b)
  end.
Definition data_number (num : Z) : Prop := num = 1 \/ 3 <= num <= 7.
Definition blob_is (bs : bytes) (b : blob) : Prop :=
  exists fs, message bs fs /\ opt_scalar is_int32 2 fs (b_raw_size b) /\
    exists ds, (forall num v, In (num, v) fs -> data_number num -> exists x, v = WBytes x) /\
      map blob_data_number ds = flat_map (fun f => match f with (num, WBytes x) => if (num =? 1) || ((3 <=? num) && (num <=? 7)) then [(num, x)] else [] | _ => [] end) fs /\
      b_data b = last_opt ds.

(** ** osmformat.proto, header *)
(** message HeaderBBox { required sint64 left = 1; required sint64 right = 2; required sint64 top = 3; required sint64 bottom = 4; } *)
Definition header_bbox_is (bs : bytes) (b : header_bbox) : Prop :=
  exists fs, message bs fs /\ req_scalar is_sint64 1 fs 0 (hb_left b) /\ req_scalar is_sint64 2 fs 0 (hb_right b) /\
    req_scalar is_sint64 3 fs 0 (hb_top b) /\ req_scalar is_sint64 4 fs 0 (hb_bottom b).
(** message HeaderBlock { optional HeaderBBox bbox = 1; repeated string required_features = 4; repeated string
    optional_features = 5; optional string writingprogram = 16; optional string source = 17;
    optional int64 osmosis_replication_timestamp = 32; optional int64 osmosis_replication_sequence_number = 33;
    optional string osmosis_replication_base_url = 34; } *)
Definition header_block_is (bs : bytes) (h : header_block) : Prop :=
  exists fs, message bs fs /\ opt_msg header_bbox_is 1 fs (h_bbox h) /\ rep_string 4 fs (h_required h) /\
    rep_string 5 fs (h_optional h) /\ opt_string 16 fs (h_program h) /\ opt_string 17 fs (h_source h) /\
    opt_scalar is_int64 32 fs (h_ts h) /\ opt_scalar is_int64 33 fs (h_seq h) /\ opt_string 34 fs (h_url h).

(** ** osmformat.proto, data *)
(** message StringTable { repeated bytes s = 1; } *)
Definition string_table_is (bs : bytes) (l : list bytes) : Prop := exists fs, message bs fs /\ rep_bytes 1 fs l.
(** message Info { optional int32 version = 1; optional int64 timestamp = 2; optional int64 changeset = 3;
    optional int32 uid = 4; optional uint32 user_sid = 5; optional bool visible = 6; } *)
Definition info_is (bs : bytes) (i : info) : Prop :=
  exists fs, message bs fs /\ opt_scalar is_int32 1 fs (i_version i) /\ opt_scalar is_int64 2 fs (i_timestamp i) /\
    opt_scalar is_int64 3 fs (i_changeset i) /\ opt_scalar is_int32 4 fs (i_uid i) /\
    opt_scalar is_uint32 5 fs (i_user_sid i) /\ opt_scalar is_bool 6 fs (i_visible i).
(** message DenseInfo { repeated int32 version = 1; repeated sint64 timestamp = 2; repeated sint64 changeset = 3;
    repeated sint32 uid = 4; repeated sint32 user_sid = 5; repeated bool visible = 6; } (all packed) *)
Definition dense_info_is (bs : bytes) (d : dense_info) : Prop :=
  exists fs, message bs fs /\ rep_scalar is_int32 1 fs (di_version d) /\ rep_scalar is_sint64 2 fs (di_timestamp d) /\
    rep_scalar is_sint64 3 fs (di_changeset d) /\ rep_scalar is_sint32 4 fs (di_uid d) /\
    rep_scalar is_sint32 5 fs (di_user_sid d) /\ rep_scalar is_bool 6 fs (di_visible d).
(** message ChangeSet { required int64 id = 1; } *)
Definition changeset_is (bs : bytes) (c : Z) : Prop := exists fs, message bs fs /\ req_scalar is_int64 1 fs 0 c.
(** message Node { required sint64 id = 1; repeated uint32 keys = 2; repeated uint32 vals = 3; optional Info info = 4;
    required sint64 lat = 8; required sint64 lon = 9; } *)
Definition node_is (bs : bytes) (n : pnode) : Prop :=
  exists fs, message bs fs /\ req_scalar is_sint64 1 fs 0 (pn_id n) /\ rep_scalar is_uint32 2 fs (pn_keys n) /\
    rep_scalar is_uint32 3 fs (pn_vals n) /\ opt_msg info_is 4 fs (pn_info n) /\
    req_scalar is_sint64 8 fs 0 (pn_lat n) /\ req_scalar is_sint64 9 fs 0 (pn_lon n).
(** message DenseNodes { repeated sint64 id = 1; optional DenseInfo denseinfo = 5; repeated sint64 lat = 8;
    repeated sint64 lon = 9; repeated int32 keys_vals = 10; } *)
Definition dense_is (bs : bytes) (d : dense) : Prop :=
  exists fs, message bs fs /\ rep_scalar is_sint64 1 fs (d_id d) /\ opt_msg dense_info_is 5 fs (d_info d) /\
    rep_scalar is_sint64 8 fs (d_lat d) /\ rep_scalar is_sint64 9 fs (d_lon d) /\ rep_scalar is_int32 10 fs (d_kv d).
(** message Way { required int64 id = 1; repeated uint32 keys = 2; repeated uint32 vals = 3; optional Info info = 4;
    repeated sint64 refs = 8; repeated sint64 lat = 9; repeated sint64 lon = 10; } *)
Definition way_is (bs : bytes) (w : pway) : Prop :=
  exists fs, message bs fs /\ req_scalar is_int64 1 fs 0 (pw_id w) /\ rep_scalar is_uint32 2 fs (pw_keys w) /\
    rep_scalar is_uint32 3 fs (pw_vals w) /\ opt_msg info_is 4 fs (pw_info w) /\
    rep_scalar is_sint64 8 fs (pw_refs w) /\ rep_scalar is_sint64 9 fs (pw_lat w) /\ rep_scalar is_sint64 10 fs (pw_lon w).
(** message Relation { required int64 id = 1; repeated uint32 keys = 2; repeated uint32 vals = 3; optional Info info = 4;
    repeated int32 roles_sid = 8; repeated sint64 memids = 9; repeated MemberType types = 10; } *)
Definition relation_is (bs : bytes) (r : prelation) : Prop :=
  exists fs, message bs fs /\ req_scalar is_int64 1 fs 0 (pr_id r) /\ rep_scalar is_uint32 2 fs (pr_keys r) /\
    rep_scalar is_uint32 3 fs (pr_vals r) /\ opt_msg info_is 4 fs (pr_info r) /\
    rep_scalar is_int32 8 fs (pr_roles r) /\ rep_scalar is_sint64 9 fs (pr_memids r) /\ rep_scalar is_int32 10 fs (pr_types r).
(** message PrimitiveGroup { repeated Node nodes = 1; optional DenseNodes dense = 2; repeated Way ways = 3;
    repeated Relation relations = 4; repeated ChangeSet changesets = 5; } *)
Definition group_is (bs : bytes) (g : pgroup) : Prop :=
  exists fs, message bs fs /\ rep_msg node_is 1 fs (g_nodes g) /\ opt_msg dense_is 2 fs (g_dense g) /\
    rep_msg way_is 3 fs (g_ways g) /\ rep_msg relation_is 4 fs (g_relations g) /\ rep_msg changeset_is 5 fs (g_changesets g).
(** message PrimitiveBlock { required StringTable stringtable = 1; repeated PrimitiveGroup primitivegroup = 2;
    optional int32 granularity = 17; optional int64 lat_offset = 19; optional int64 lon_offset = 20;
    optional int32 date_granularity = 18; } *)
Definition block_is (bs : bytes) (b : pblock) : Prop :=
  exists fs, message bs fs /\
    (exists o, opt_msg string_table_is 1 fs o /\ pb_strings b = match o with Some l => l | None => [] end) /\
    rep_msg group_is 2 fs (pb_groups b) /\ opt_scalar is_int32 17 fs (pb_granularity b) /\
    opt_scalar is_int32 18 fs (pb_date_granularity b) /\ opt_scalar is_int64 19 fs (pb_lat_offset b) /\
    opt_scalar is_int64 20 fs (pb_lon_offset b).
