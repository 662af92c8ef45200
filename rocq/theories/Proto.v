(** The protobuf wire format as implemented by prost 0.13 (the derive macros on
    src/osm/pbf/generated/prost-osmpbf.rs) for the messages of
    src/osm/pbf/format/{fileformat,osmformat}.proto.

    Simplifications, valid for every function below:
    - prost decodes a nested message from the same buffer with a length limit and
      reports an error when the limit is overrun; here the nested bytes are cut out
      first. Both give an error exactly when the nested fields do not fit.
    - a message is decoded in two passes (split into fields, then merge the fields
      in order); merging has no effect other than the resulting message.
    - the recursion limit (100 levels) is not modelled; these messages nest to depth 4,
      only unknown groups could nest deeper. *)
From Coq Require Import ZArith List Bool Strings.Byte Strings.String.
From Verif Require Import Base.
Import ListNotations.
Open Scope Z_scope.

(** ** Varints (prost encoding::varint: encode_varint, decode_varint) *)

Fixpoint enc_varint_aux (fuel : nat) (z : Z) : bytes :=
  match fuel with
  | O => []
  | S f => if z <? 128 then [z2b z] else z2b (z mod 128 + 128) :: enc_varint_aux f (z / 128)
  end.
(** encode_varint of a u64: at most ten bytes, least significant group first *)
Definition enc_varint (z : Z) : bytes := enc_varint_aux 10 z.

(** decode_varint: at most [n] more bytes; the last admissible byte must be 0 or 1 *)
Fixpoint dec_varint_aux (n : nat) (bs : bytes) : option (Z * bytes) :=
  match n with
  | O => None
  | S n' =>
    match bs with
    | [] => None
    | b :: r =>
      let v := b2z b in
      if v <? 128 then
        match n' with
        | O => if v <? 2 then Some (v, r) else None
        | _ => Some (v, r)
        end
      else
        match dec_varint_aux n' r with
        | Some (x, r') => Some (v - 128 + 128 * x, r')
        | None => None
        end
    end
  end.
Definition dec_varint (bs : bytes) : option (Z * bytes) := dec_varint_aux 10 bs.

(** ** Scalar conversions (prost encoding: int32, int64, uint32, bool, sint32, sint64) *)

(** [v as u64] of an i32/i64 (sign extended) *)
Definition int_enc (v : Z) : Z := v mod two64.
Definition int64_dec (u : Z) : Z := wrap64 u.
Definition int32_dec (u : Z) : Z := wrap32 u.
Definition uint32_dec (u : Z) : Z := u mod two32.
(** zigzag: (v << 1) ^ (v >> 63) *)
Definition zig (v : Z) : Z := if 0 <=? v then 2 * v else - 2 * v - 1.
Definition zag (u : Z) : Z := if Z.even u then u / 2 else - ((u + 1) / 2).
Definition sint64_dec (u : Z) : Z := zag u.
Definition sint32_dec (u : Z) : Z := zag (u mod two32).
Definition bool_enc (b : bool) : Z := if b then 1 else 0.
Definition bool_dec (u : Z) : bool := negb (u =? 0).

(** ** Fields *)

(** Payload of a field by wire type: 0 varint, 1 fixed64, 2 length-delimited,
    3 group (contents skipped), 5 fixed32. *)
Inductive wval :=
| WVarint (u : Z)
| WFixed64 (b : bytes)
| WBytes (b : bytes)
| WGroup
| WFixed32 (b : bytes).

Definition field := (Z * wval)%type.

Definition enc_key (tag wt : Z) : bytes := enc_varint (tag * 8 + wt).

(** Encoding of a varint or length-delimited field (the only kinds these messages write). *)
Definition enc_field (f : field) : bytes :=
  match f with
  | (t, WVarint u) => enc_key t 0 ++ enc_varint u
  | (t, WBytes b) => enc_key t 2 ++ enc_varint (zlen b) ++ b
  | (t, WFixed64 b) => enc_key t 1 ++ b
  | (t, WFixed32 b) => enc_key t 5 ++ b
  | (t, WGroup) => enc_key t 3 ++ enc_key t 4
  end.
Definition enc_fields (fs : list field) : bytes := flat_map enc_field fs.

(** decode_key: key must fit in u32, wire type at most 5, tag at least 1 *)
Definition dec_key (bs : bytes) : option (Z * Z * bytes) :=
  match dec_varint bs with
  | None => None
  | Some (k, r) =>
    if two32 <=? k then None else
    let wt := k mod 8 in let t := k / 8 in
    if 5 <? wt then None else if t <? 1 then None else Some (t, wt, r)
  end.

Definition dec_delimited (bs : bytes) : option (bytes * bytes) :=
  match dec_varint bs with
  | None => None
  | Some (n, r) => take_exact n r
  end.

(** skip_field of a group: fields up to the end-group key with the same tag *)
Fixpoint skip_group (fuel : nat) (tag : Z) (bs : bytes) : option bytes :=
  match fuel with
  | O => None
  | S f =>
    match dec_key bs with
    | None => None
    | Some (t, wt, r) =>
      if wt =? 4 then (if t =? tag then Some r else None)
      else
        match
          (if wt =? 0 then match dec_varint r with Some (_, r') => Some r' | None => None end
           else if wt =? 1 then match take_exact 8 r with Some (_, r') => Some r' | None => None end
           else if wt =? 2 then match dec_delimited r with Some (_, r') => Some r' | None => None end
           else if wt =? 3 then skip_group f t r
           else match take_exact 4 r with Some (_, r') => Some r' | None => None end)
        with
        | None => None
        | Some r' => skip_group f tag r'
        end
    end
  end.

Definition dec_value (fuel : nat) (t wt : Z) (r : bytes) : option (wval * bytes) :=
  if wt =? 0 then match dec_varint r with Some (u, r') => Some (WVarint u, r') | None => None end
  else if wt =? 1 then match take_exact 8 r with Some (b, r') => Some (WFixed64 b, r') | None => None end
  else if wt =? 2 then match dec_delimited r with Some (b, r') => Some (WBytes b, r') | None => None end
  else if wt =? 3 then match skip_group fuel t r with Some r' => Some (WGroup, r') | None => None end
  else if wt =? 5 then match take_exact 4 r with Some (b, r') => Some (WFixed32 b, r') | None => None end
  else None.

(** The decode loop: keys and values until the buffer is exhausted. *)
Fixpoint dec_fields_aux (fuel : nat) (bs : bytes) : option (list field) :=
  match bs with
  | [] => Some []
  | _ =>
    match fuel with
    | O => None
    | S f =>
      match dec_key bs with
      | None => None
      | Some (t, wt, r) =>
        match dec_value f t wt r with
        | None => None
        | Some (v, r') =>
          match dec_fields_aux f r' with
          | None => None
          | Some fs => Some ((t, v) :: fs)
          end
        end
      end
    end
  end.
(** every field takes at least two bytes, so the length is enough fuel *)
Definition dec_fields (bs : bytes) : option (list field) := dec_fields_aux (List.length bs) bs.

(** Message::merge_field folded over the fields, starting from [m]. *)
Fixpoint merge_all {M} (mf : M -> Z -> wval -> option M) (fs : list field) (m : M) : option M :=
  match fs with
  | [] => Some m
  | (t, v) :: r => match mf m t v with Some m' => merge_all mf r m' | None => None end
  end.
Definition decode_into {M} (mf : M -> Z -> wval -> option M) (m : M) (bs : bytes) : option M :=
  match dec_fields bs with
  | None => None
  | Some fs => merge_all mf fs m
  end.

(** ** Field constructors used by the derive macro *)

Definition f_opt_int (t : Z) (o : option Z) : list field :=
  match o with Some v => [(t, WVarint (int_enc v))] | None => [] end.
Definition f_opt_uint (t : Z) (o : option Z) : list field :=
  match o with Some v => [(t, WVarint v)] | None => [] end.
Definition f_opt_bool (t : Z) (o : option bool) : list field :=
  match o with Some b => [(t, WVarint (bool_enc b))] | None => [] end.
Definition f_opt_bytes (t : Z) (o : option bytes) : list field :=
  match o with Some b => [(t, WBytes b)] | None => [] end.
Definition f_rep_bytes (t : Z) (l : list bytes) : list field := map (fun b => (t, WBytes b)) l.
(** repeated scalars are packed: one length-delimited field, absent when empty *)
Definition f_packed (t : Z) (l : list Z) : list field :=
  match l with [] => [] | _ => [(t, WBytes (flat_map enc_varint l))] end.

Fixpoint dec_varints_aux (fuel : nat) (bs : bytes) : option (list Z) :=
  match bs with
  | [] => Some []
  | _ =>
    match fuel with
    | O => None
    | S f =>
      match dec_varint bs with
      | None => None
      | Some (u, r) => match dec_varints_aux f r with None => None | Some l => Some (u :: l) end
      end
    end
  end.
(** merge_repeated of a packable scalar: packed or a single value *)
Definition dec_packed (v : wval) : option (list Z) :=
  match v with
  | WVarint u => Some [u]
  | WBytes b => dec_varints_aux (List.length b) b
  | _ => None
  end.
Definition as_varint (v : wval) : option Z := match v with WVarint u => Some u | _ => None end.
Definition as_bytes (v : wval) : option bytes := match v with WBytes b => Some b | _ => None end.
(** string fields are checked for UTF-8 when decoded *)
Definition as_string (v : wval) : option bytes :=
  match v with WBytes b => if utf8_ok b then Some b else None | _ => None end.

Definition omap {A B} (f : A -> B) (o : option A) : option B :=
  match o with Some a => Some (f a) | None => None end.

(** ** fileformat.proto *)

(** prost-osmpbf.rs 14-33 (enum blob::Data) *)
Inductive blob_data :=
| Raw (b : bytes) | ZlibData (b : bytes) | LzmaData (b : bytes)
| Bzip2Data (b : bytes) | Lz4Data (b : bytes) | ZstdData (b : bytes).

(** prost-osmpbf.rs 3-9 (struct Blob) *)
Record blob := Blob { b_raw_size : option Z; b_data : option blob_data }.
Definition blob_default := Blob None None.

(** derived Blob::encode_raw: fields in order of their smallest tag, so the oneof
    (tags 1,3..7) comes before raw_size (tag 2) *)
Definition blob_fields (b : blob) : list field :=
  match b_data b with
  | None => []
  | Some (Raw x) => [(1, WBytes x)]
  | Some (ZlibData x) => [(3, WBytes x)]
  | Some (LzmaData x) => [(4, WBytes x)]
  | Some (Bzip2Data x) => [(5, WBytes x)]
  | Some (Lz4Data x) => [(6, WBytes x)]
  | Some (ZstdData x) => [(7, WBytes x)]
  end ++ f_opt_int 2 (b_raw_size b).
Definition blob_merge (b : blob) (t : Z) (v : wval) : option blob :=
  if t =? 1 then omap (fun x => Blob (b_raw_size b) (Some (Raw x))) (as_bytes v)
  else if t =? 2 then omap (fun u => Blob (Some (int32_dec u)) (b_data b)) (as_varint v)
  else if t =? 3 then omap (fun x => Blob (b_raw_size b) (Some (ZlibData x))) (as_bytes v)
  else if t =? 4 then omap (fun x => Blob (b_raw_size b) (Some (LzmaData x))) (as_bytes v)
  else if t =? 5 then omap (fun x => Blob (b_raw_size b) (Some (Bzip2Data x))) (as_bytes v)
  else if t =? 6 then omap (fun x => Blob (b_raw_size b) (Some (Lz4Data x))) (as_bytes v)
  else if t =? 7 then omap (fun x => Blob (b_raw_size b) (Some (ZstdData x))) (as_bytes v)
  else Some b.
Definition blob_encode (b : blob) : bytes := enc_fields (blob_fields b).
Definition blob_decode (bs : bytes) : option blob := decode_into blob_merge blob_default bs.

(** prost-osmpbf.rs 39-46 (struct BlobHeader); required fields are always written,
    and take their default when absent *)
Record blob_header := BlobHeader { bh_type : bytes; bh_indexdata : option bytes; bh_datasize : Z }.
Definition blob_header_default := BlobHeader [] None 0.
Definition blob_header_fields (h : blob_header) : list field :=
  [(1, WBytes (bh_type h))] ++ f_opt_bytes 2 (bh_indexdata h)
  ++ [(3, WVarint (int_enc (bh_datasize h)))].
Definition blob_header_merge (h : blob_header) (t : Z) (v : wval) : option blob_header :=
  if t =? 1 then omap (fun x => BlobHeader x (bh_indexdata h) (bh_datasize h)) (as_string v)
  else if t =? 2 then omap (fun x => BlobHeader (bh_type h) (Some x) (bh_datasize h)) (as_bytes v)
  else if t =? 3 then omap (fun u => BlobHeader (bh_type h) (bh_indexdata h) (int32_dec u)) (as_varint v)
  else Some h.
Definition blob_header_encode (h : blob_header) : bytes := enc_fields (blob_header_fields h).
Definition blob_header_decode (bs : bytes) : option blob_header :=
  decode_into blob_header_merge blob_header_default bs.

(** ** osmformat.proto: header *)

(** prost-osmpbf.rs 78-87 (struct HeaderBBox) *)
Record header_bbox := HeaderBBox { hb_left : Z; hb_right : Z; hb_top : Z; hb_bottom : Z }.
Definition header_bbox_default := HeaderBBox 0 0 0 0.
Definition header_bbox_fields (b : header_bbox) : list field :=
  [(1, WVarint (zig (hb_left b))); (2, WVarint (zig (hb_right b)));
   (3, WVarint (zig (hb_top b))); (4, WVarint (zig (hb_bottom b)))].
Definition header_bbox_merge (b : header_bbox) (t : Z) (v : wval) : option header_bbox :=
  if t =? 1 then omap (fun u => HeaderBBox (sint64_dec u) (hb_right b) (hb_top b) (hb_bottom b)) (as_varint v)
  else if t =? 2 then omap (fun u => HeaderBBox (hb_left b) (sint64_dec u) (hb_top b) (hb_bottom b)) (as_varint v)
  else if t =? 3 then omap (fun u => HeaderBBox (hb_left b) (hb_right b) (sint64_dec u) (hb_bottom b)) (as_varint v)
  else if t =? 4 then omap (fun u => HeaderBBox (hb_left b) (hb_right b) (hb_top b) (sint64_dec u)) (as_varint v)
  else Some b.

(** optional message field: merge into the existing value or the default *)
Definition merge_msg {M} (mf : M -> Z -> wval -> option M) (m : M) (v : wval) : option M :=
  match v with WBytes b => decode_into mf m b | _ => None end.
Definition or_default {M} (d : M) (o : option M) : M := match o with Some m => m | None => d end.

(** prost-osmpbf.rs 49-75 (struct HeaderBlock) *)
Record header_block := HeaderBlock {
  h_bbox : option header_bbox; h_required : list bytes; h_optional : list bytes;
  h_program : option bytes; h_source : option bytes; h_ts : option Z; h_seq : option Z; h_url : option bytes }.
Definition header_block_default := HeaderBlock None [] [] None None None None None.
Definition header_block_fields (h : header_block) : list field :=
  match h_bbox h with Some b => [(1, WBytes (enc_fields (header_bbox_fields b)))] | None => [] end
  ++ f_rep_bytes 4 (h_required h) ++ f_rep_bytes 5 (h_optional h)
  ++ f_opt_bytes 16 (h_program h) ++ f_opt_bytes 17 (h_source h)
  ++ f_opt_int 32 (h_ts h) ++ f_opt_int 33 (h_seq h) ++ f_opt_bytes 34 (h_url h).
Definition header_block_merge (h : header_block) (t : Z) (v : wval) : option header_block :=
  match h with
  | HeaderBlock bb rq op pr so ts sq ur =>
    if t =? 1 then omap (fun b => HeaderBlock (Some b) rq op pr so ts sq ur)
                        (merge_msg header_bbox_merge (or_default header_bbox_default bb) v)
    else if t =? 4 then omap (fun s => HeaderBlock bb (rq ++ [s]) op pr so ts sq ur) (as_string v)
    else if t =? 5 then omap (fun s => HeaderBlock bb rq (op ++ [s]) pr so ts sq ur) (as_string v)
    else if t =? 16 then omap (fun s => HeaderBlock bb rq op (Some s) so ts sq ur) (as_string v)
    else if t =? 17 then omap (fun s => HeaderBlock bb rq op pr (Some s) ts sq ur) (as_string v)
    else if t =? 32 then omap (fun u => HeaderBlock bb rq op pr so (Some (int64_dec u)) sq ur) (as_varint v)
    else if t =? 33 then omap (fun u => HeaderBlock bb rq op pr so ts (Some (int64_dec u)) ur) (as_varint v)
    else if t =? 34 then omap (fun s => HeaderBlock bb rq op pr so ts sq (Some s)) (as_string v)
    else Some h
  end.
Definition header_block_encode (h : header_block) : bytes := enc_fields (header_block_fields h).
Definition header_block_decode (bs : bytes) : option header_block :=
  decode_into header_block_merge header_block_default bs.

(** ** osmformat.proto: data *)

(** prost-osmpbf.rs 129-132 (struct StringTable); represented by its list of byte strings *)
Definition string_table_fields (s : list bytes) : list field := f_rep_bytes 1 s.
Definition string_table_merge (s : list bytes) (t : Z) (v : wval) : option (list bytes) :=
  if t =? 1 then omap (fun b => s ++ [b]) (as_bytes v) else Some s.

(** prost-osmpbf.rs 136-158 (struct Info) *)
Record info := Info {
  i_version : option Z; i_timestamp : option Z; i_changeset : option Z;
  i_uid : option Z; i_user_sid : option Z; i_visible : option bool }.
Definition info_default := Info None None None None None None.
Definition info_fields (i : info) : list field :=
  f_opt_int 1 (i_version i) ++ f_opt_int 2 (i_timestamp i) ++ f_opt_int 3 (i_changeset i)
  ++ f_opt_int 4 (i_uid i) ++ f_opt_uint 5 (i_user_sid i) ++ f_opt_bool 6 (i_visible i).
Definition info_merge (i : info) (t : Z) (v : wval) : option info :=
  match i with
  | Info ve ts cs ui us vi =>
    if t =? 1 then omap (fun u => Info (Some (int32_dec u)) ts cs ui us vi) (as_varint v)
    else if t =? 2 then omap (fun u => Info ve (Some (int64_dec u)) cs ui us vi) (as_varint v)
    else if t =? 3 then omap (fun u => Info ve ts (Some (int64_dec u)) ui us vi) (as_varint v)
    else if t =? 4 then omap (fun u => Info ve ts cs (Some (int32_dec u)) us vi) (as_varint v)
    else if t =? 5 then omap (fun u => Info ve ts cs ui (Some (uint32_dec u)) vi) (as_varint v)
    else if t =? 6 then omap (fun u => Info ve ts cs ui us (Some (bool_dec u))) (as_varint v)
    else Some i
  end.

(** prost-osmpbf.rs 162-187 (struct DenseInfo) *)
Record dense_info := DenseInfo {
  di_version : list Z; di_timestamp : list Z; di_changeset : list Z;
  di_uid : list Z; di_user_sid : list Z; di_visible : list bool }.
Definition dense_info_default := DenseInfo [] [] [] [] [] [].
Definition dense_info_fields (d : dense_info) : list field :=
  f_packed 1 (map int_enc (di_version d)) ++ f_packed 2 (map zig (di_timestamp d))
  ++ f_packed 3 (map zig (di_changeset d)) ++ f_packed 4 (map zig (di_uid d))
  ++ f_packed 5 (map zig (di_user_sid d)) ++ f_packed 6 (map bool_enc (di_visible d)).
Definition dense_info_merge (d : dense_info) (t : Z) (v : wval) : option dense_info :=
  match d with
  | DenseInfo ve ts cs ui us vi =>
    if t =? 1 then omap (fun l => DenseInfo (ve ++ map int32_dec l) ts cs ui us vi) (dec_packed v)
    else if t =? 2 then omap (fun l => DenseInfo ve (ts ++ map sint64_dec l) cs ui us vi) (dec_packed v)
    else if t =? 3 then omap (fun l => DenseInfo ve ts (cs ++ map sint64_dec l) ui us vi) (dec_packed v)
    else if t =? 4 then omap (fun l => DenseInfo ve ts cs (ui ++ map sint32_dec l) us vi) (dec_packed v)
    else if t =? 5 then omap (fun l => DenseInfo ve ts cs ui (us ++ map sint32_dec l) vi) (dec_packed v)
    else if t =? 6 then omap (fun l => DenseInfo ve ts cs ui us (vi ++ map bool_dec l)) (dec_packed v)
    else Some d
  end.

(** prost-osmpbf.rs 191-194 (struct ChangeSet), represented by its id *)
Definition changeset_fields (c : Z) : list field := [(1, WVarint (int_enc c))].
Definition changeset_merge (c : Z) (t : Z) (v : wval) : option Z :=
  if t =? 1 then omap int64_dec (as_varint v) else Some c.

(** prost-osmpbf.rs 197-215 (struct Node) *)
Record pnode := PNode {
  pn_id : Z; pn_keys : list Z; pn_vals : list Z; pn_info : option info; pn_lat : Z; pn_lon : Z }.
Definition pnode_default := PNode 0 [] [] None 0 0.
Definition f_opt_msg {M} (fields : M -> list field) (t : Z) (o : option M) : list field :=
  match o with Some m => [(t, WBytes (enc_fields (fields m)))] | None => [] end.
Definition f_rep_msg {M} (fields : M -> list field) (t : Z) (l : list M) : list field :=
  map (fun m => (t, WBytes (enc_fields (fields m)))) l.
Definition pnode_fields (n : pnode) : list field :=
  [(1, WVarint (zig (pn_id n)))] ++ f_packed 2 (pn_keys n) ++ f_packed 3 (pn_vals n)
  ++ f_opt_msg info_fields 4 (pn_info n)
  ++ [(8, WVarint (zig (pn_lat n)))] ++ [(9, WVarint (zig (pn_lon n)))].
Definition pnode_merge (n : pnode) (t : Z) (v : wval) : option pnode :=
  match n with
  | PNode id ks vs inf la lo =>
    if t =? 1 then omap (fun u => PNode (sint64_dec u) ks vs inf la lo) (as_varint v)
    else if t =? 2 then omap (fun l => PNode id (ks ++ map uint32_dec l) vs inf la lo) (dec_packed v)
    else if t =? 3 then omap (fun l => PNode id ks (vs ++ map uint32_dec l) inf la lo) (dec_packed v)
    else if t =? 4 then omap (fun i => PNode id ks vs (Some i) la lo)
                             (merge_msg info_merge (or_default info_default inf) v)
    else if t =? 8 then omap (fun u => PNode id ks vs inf (sint64_dec u) lo) (as_varint v)
    else if t =? 9 then omap (fun u => PNode id ks vs inf la (sint64_dec u)) (as_varint v)
    else Some n
  end.

(** prost-osmpbf.rs 218-233 (struct DenseNodes) *)
Record dense := Dense {
  d_id : list Z; d_info : option dense_info; d_lat : list Z; d_lon : list Z; d_kv : list Z }.
Definition dense_default := Dense [] None [] [] [].
Definition dense_fields (d : dense) : list field :=
  f_packed 1 (map zig (d_id d)) ++ f_opt_msg dense_info_fields 5 (d_info d)
  ++ f_packed 8 (map zig (d_lat d)) ++ f_packed 9 (map zig (d_lon d))
  ++ f_packed 10 (map int_enc (d_kv d)).
Definition dense_merge (d : dense) (t : Z) (v : wval) : option dense :=
  match d with
  | Dense id inf la lo kv =>
    if t =? 1 then omap (fun l => Dense (id ++ map sint64_dec l) inf la lo kv) (dec_packed v)
    else if t =? 5 then omap (fun i => Dense id (Some i) la lo kv)
                             (merge_msg dense_info_merge (or_default dense_info_default inf) v)
    else if t =? 8 then omap (fun l => Dense id inf (la ++ map sint64_dec l) lo kv) (dec_packed v)
    else if t =? 9 then omap (fun l => Dense id inf la (lo ++ map sint64_dec l) kv) (dec_packed v)
    else if t =? 10 then omap (fun l => Dense id inf la lo (kv ++ map int32_dec l)) (dec_packed v)
    else Some d
  end.

(** prost-osmpbf.rs 236-262 (struct Way) *)
Record pway := PWay {
  pw_id : Z; pw_keys : list Z; pw_vals : list Z; pw_info : option info;
  pw_refs : list Z; pw_lat : list Z; pw_lon : list Z }.
Definition pway_default := PWay 0 [] [] None [] [] [].
Definition pway_fields (w : pway) : list field :=
  [(1, WVarint (int_enc (pw_id w)))] ++ f_packed 2 (pw_keys w) ++ f_packed 3 (pw_vals w)
  ++ f_opt_msg info_fields 4 (pw_info w) ++ f_packed 8 (map zig (pw_refs w))
  ++ f_packed 9 (map zig (pw_lat w)) ++ f_packed 10 (map zig (pw_lon w)).
Definition pway_merge (w : pway) (t : Z) (v : wval) : option pway :=
  match w with
  | PWay id ks vs inf rf la lo =>
    if t =? 1 then omap (fun u => PWay (int64_dec u) ks vs inf rf la lo) (as_varint v)
    else if t =? 2 then omap (fun l => PWay id (ks ++ map uint32_dec l) vs inf rf la lo) (dec_packed v)
    else if t =? 3 then omap (fun l => PWay id ks (vs ++ map uint32_dec l) inf rf la lo) (dec_packed v)
    else if t =? 4 then omap (fun i => PWay id ks vs (Some i) rf la lo)
                             (merge_msg info_merge (or_default info_default inf) v)
    else if t =? 8 then omap (fun l => PWay id ks vs inf (rf ++ map sint64_dec l) la lo) (dec_packed v)
    else if t =? 9 then omap (fun l => PWay id ks vs inf rf (la ++ map sint64_dec l) lo) (dec_packed v)
    else if t =? 10 then omap (fun l => PWay id ks vs inf rf la (lo ++ map sint64_dec l)) (dec_packed v)
    else Some w
  end.

(** prost-osmpbf.rs 265-285 (struct Relation) *)
Record prelation := PRelation {
  pr_id : Z; pr_keys : list Z; pr_vals : list Z; pr_info : option info;
  pr_roles : list Z; pr_memids : list Z; pr_types : list Z }.
Definition prelation_default := PRelation 0 [] [] None [] [] [].
Definition prelation_fields (r : prelation) : list field :=
  [(1, WVarint (int_enc (pr_id r)))] ++ f_packed 2 (pr_keys r) ++ f_packed 3 (pr_vals r)
  ++ f_opt_msg info_fields 4 (pr_info r) ++ f_packed 8 (map int_enc (pr_roles r))
  ++ f_packed 9 (map zig (pr_memids r)) ++ f_packed 10 (map int_enc (pr_types r)).
Definition prelation_merge (r : prelation) (t : Z) (v : wval) : option prelation :=
  match r with
  | PRelation id ks vs inf ro me ty =>
    if t =? 1 then omap (fun u => PRelation (int64_dec u) ks vs inf ro me ty) (as_varint v)
    else if t =? 2 then omap (fun l => PRelation id (ks ++ map uint32_dec l) vs inf ro me ty) (dec_packed v)
    else if t =? 3 then omap (fun l => PRelation id ks (vs ++ map uint32_dec l) inf ro me ty) (dec_packed v)
    else if t =? 4 then omap (fun i => PRelation id ks vs (Some i) ro me ty)
                             (merge_msg info_merge (or_default info_default inf) v)
    else if t =? 8 then omap (fun l => PRelation id ks vs inf (ro ++ map int32_dec l) me ty) (dec_packed v)
    else if t =? 9 then omap (fun l => PRelation id ks vs inf ro (me ++ map sint64_dec l) ty) (dec_packed v)
    else if t =? 10 then omap (fun l => PRelation id ks vs inf ro me (ty ++ map int32_dec l)) (dec_packed v)
    else Some r
  end.

(** prost-osmpbf.rs 110-121 (struct PrimitiveGroup) *)
Record pgroup := PGroup {
  g_nodes : list pnode; g_dense : option dense; g_ways : list pway;
  g_relations : list prelation; g_changesets : list Z }.
Definition pgroup_default := PGroup [] None [] [] [].
Definition pgroup_fields (g : pgroup) : list field :=
  f_rep_msg pnode_fields 1 (g_nodes g) ++ f_opt_msg dense_fields 2 (g_dense g)
  ++ f_rep_msg pway_fields 3 (g_ways g) ++ f_rep_msg prelation_fields 4 (g_relations g)
  ++ f_rep_msg changeset_fields 5 (g_changesets g).
Definition pgroup_merge (g : pgroup) (t : Z) (v : wval) : option pgroup :=
  match g with
  | PGroup ns d ws rs cs =>
    if t =? 1 then omap (fun n => PGroup (ns ++ [n]) d ws rs cs) (merge_msg pnode_merge pnode_default v)
    else if t =? 2 then omap (fun x => PGroup ns (Some x) ws rs cs)
                             (merge_msg dense_merge (or_default dense_default d) v)
    else if t =? 3 then omap (fun w => PGroup ns d (ws ++ [w]) rs cs) (merge_msg pway_merge pway_default v)
    else if t =? 4 then omap (fun r => PGroup ns d ws (rs ++ [r]) cs) (merge_msg prelation_merge prelation_default v)
    else if t =? 5 then omap (fun c => PGroup ns d ws rs (cs ++ [c])) (merge_msg changeset_merge 0 v)
    else Some g
  end.

(** prost-osmpbf.rs 90-106 (struct PrimitiveBlock); written in tag order 1,2,17,18,19,20 *)
Record pblock := PBlock {
  pb_strings : list bytes; pb_groups : list pgroup; pb_granularity : option Z;
  pb_lat_offset : option Z; pb_lon_offset : option Z; pb_date_granularity : option Z }.
Definition pblock_default := PBlock [] [] None None None None.
Definition pblock_fields (b : pblock) : list field :=
  [(1, WBytes (enc_fields (string_table_fields (pb_strings b))))]
  ++ f_rep_msg pgroup_fields 2 (pb_groups b)
  ++ f_opt_int 17 (pb_granularity b) ++ f_opt_int 18 (pb_date_granularity b)
  ++ f_opt_int 19 (pb_lat_offset b) ++ f_opt_int 20 (pb_lon_offset b).
Definition pblock_merge (b : pblock) (t : Z) (v : wval) : option pblock :=
  match b with
  | PBlock st gs gr la lo dg =>
    if t =? 1 then omap (fun s => PBlock s gs gr la lo dg) (merge_msg string_table_merge st v)
    else if t =? 2 then omap (fun g => PBlock st (gs ++ [g]) gr la lo dg) (merge_msg pgroup_merge pgroup_default v)
    else if t =? 17 then omap (fun u => PBlock st gs (Some (int32_dec u)) la lo dg) (as_varint v)
    else if t =? 18 then omap (fun u => PBlock st gs gr la lo (Some (int32_dec u))) (as_varint v)
    else if t =? 19 then omap (fun u => PBlock st gs gr (Some (int64_dec u)) lo dg) (as_varint v)
    else if t =? 20 then omap (fun u => PBlock st gs gr la (Some (int64_dec u)) dg) (as_varint v)
    else Some b
  end.
Definition pblock_encode (b : pblock) : bytes := enc_fields (pblock_fields b).
Definition pblock_decode (bs : bytes) : option pblock := decode_into pblock_merge pblock_default bs.

Arguments enc_varint : simpl never.
Arguments dec_fields : simpl never.
Arguments zig : simpl never.
Arguments zag : simpl never.
Arguments int_enc : simpl never.
Arguments decode_into : simpl never.
