(** Specification vocabulary for files: what the container-level properties say, without the
    functions of the model of the reader and writer (the protobuf decoders, whose meaning is fixed by
    C10 and C48, and the zlib parameter are used). *)
From Coq Require Import ZArith List Bool Strings.Byte Strings.String Reals.
From Verif Require Import Base BaseFacts Types Proto ProtoFacts Block FormatSpec FileFormat Spec.
Import ListNotations.
Open Scope Z_scope.

(** [body] is exactly the part of [file] of length [n] that starts at offset [st] *)
Definition slice (file : bytes) (st n : Z) (body : bytes) : Prop :=
  exists pre post, file = pre ++ body ++ post /\ zlen pre = st /\ zlen body = n.

(** four bytes and the number they stand for, most significant byte first *)
Definition big_endian (lb : bytes) (n : Z) : Prop :=
  exists b0 b1 b2 b3, lb = [b0; b1; b2; b3] /\ n = b2z b0 * 16777216 + b2z b1 * 65536 + b2z b2 * 256 + b2z b3.

(** the file begins with a blob: length of the blob header, blob header, blob body *)
Definition starts_with_blob (file : bytes) (h : blob_header) (body : bytes) : Prop :=
  exists lb hb rest, file = lb ++ hb ++ body ++ rest /\ big_endian lb (zlen hb) /\ below_2GiB hb /\
    blob_header_decode hb = Some h /\ bh_datasize h = zlen body.

(** the payload of a blob: raw bytes, or the first [raw_size] bytes of the zlib stream *)
Definition carries (c : codec) (b : blob) (p : bytes) : Prop :=
  b_data b = Some (Raw p) \/
  exists z rest, b_data b = Some (ZlibData z) /\ b_raw_size b = Some (zlen p) /\ inflate c z = p ++ rest.

(** header information as the file format defines it: nanodegrees in the bounding box *)
Definition nano_value (z : Z) (x : f64) : Prop := x = fdiv (f_of_Z z) (f_of_Z 1000000000).
Definition bbox_means (hb : header_bbox) (b : bbox) : Prop :=
  nano_value (hb_left hb) (bb_left b) /\ nano_value (hb_right hb) (bb_right b) /\
  nano_value (hb_top hb) (bb_top b) /\ nano_value (hb_bottom hb) (bb_bottom b).
Definition header_means (h : header_block) (i : file_info) : Prop :=
  fi_required i = h_required h /\ fi_optional i = h_optional h /\ fi_program i = h_program h /\
  fi_source i = h_source h /\ fi_ts i = h_ts h /\ fi_seq i = h_seq h /\ fi_url i = h_url h /\
  match h_bbox h, fi_bbox i with None, None => True | Some hb, Some b => bbox_means hb b | _, _ => False end.

(** the features the library supports *)
Definition supported (f : bytes) : Prop :=
  f = str "OsmSchema-V0.6" \/ f = str "DenseNodes" \/ f = str "HistoricalInformation" \/ f = str "Sort.Type_then_ID".

(** what becomes of header information that is written and read back *)
Definition info_written_read (i i' : file_info) : Prop :=
  fi_required i' = fi_required i /\ fi_optional i' = fi_optional i /\ fi_program i' = fi_program i /\
  fi_source i' = fi_source i /\ fi_ts i' = fi_ts i /\ fi_seq i' = fi_seq i /\ fi_url i' = fi_url i /\
  (fi_bbox i' = None <-> fi_bbox i = None).
Definition utf8_all (l : list bytes) : Prop := Forall (fun s => utf8_ok s = true) l.
Definition utf8_opt (o : option bytes) : Prop := forall s, o = Some s -> utf8_ok s = true.
Definition i64_opt (o : option Z) : Prop := forall z, o = Some z -> I64 z.
(** values of the Rust types *)
Definition info_ok (i : file_info) : Prop :=
  utf8_all (fi_required i) /\ utf8_all (fi_optional i) /\ utf8_opt (fi_program i) /\ utf8_opt (fi_source i) /\
  i64_opt (fi_ts i) /\ i64_opt (fi_seq i) /\ utf8_opt (fi_url i).
Definition info_empty (i : file_info) : Prop := i = FileInfo None [] [] None None None None None.

(** element streams *)
Definition all_nodes (l : list element) : Prop := Forall (fun e => exists n, e = ENode n) l.
Definition all_ways (l : list element) : Prop := Forall (fun e => exists n, e = EWay n) l.
Definition all_relations (l : list element) : Prop := Forall (fun e => exists n, e = ERelation n) l.
(** nodes before ways before relations *)
Definition in_osm_order (l : list element) : Prop :=
  exists ns ws rs, l = ns ++ ws ++ rs /\ all_nodes ns /\ all_ways ws /\ all_relations rs.
Definition single_type (l : list element) : Prop := all_nodes l \/ all_ways l \/ all_relations l.
(** a stream with the sentinels left out *)
Inductive without_sentinels : list element -> list element -> Prop :=
| ws_nil : without_sentinels [] []
| ws_skip l l' : without_sentinels l l' -> without_sentinels (ESentinel :: l) l'
| ws_keep e l l' : e <> ESentinel -> without_sentinels l l' -> without_sentinels (e :: l) (e :: l').
