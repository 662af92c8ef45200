(** Specification of what the messages of an OSM PBF primitive block mean
    (https://wiki.openstreetmap.org/wiki/PBF_Format), written over the message
    records only: prefix sums for delta coded fields, string table lookups,
    defaults. No function of the reader is mentioned. *)
From Coq Require Import ZArith List Bool Strings.Byte Strings.String.
From Verif Require Import Base BaseFacts Types Proto.
Import ListNotations.
Open Scope Z_scope.
Local Notation length := List.length.

(** [a] is the machine integer congruent to the mathematical value [b]; [a = b] whenever [b]
    is in range. *)
Definition cong64 (a b : Z) : Prop := I64 a /\ exists q, a - b = q * 18446744073709551616.
Definition cong32 (a b : Z) : Prop := I32 a /\ exists q, a - b = q * 4294967296.

(** sum of the entries 0..i of a delta coded column *)
Definition psum (l : list Z) (i : nat) : Z := fold_right Z.add 0 (firstn (S i) l).

(** entry [i] of the string table *)
Definition entry (st : list bytes) (i : Z) (s : bytes) : Prop := 0 <= i /\ nth_error st (Z.to_nat i) = Some s.
Definition tag_entry (st : list bytes) (kv : Z * Z) (t : tag) : Prop :=
  entry st (fst kv) (t_k t) /\ entry st (snd kv) (t_v t).

(** the stored integer [x] as degrees: (offset + granularity * x) nanodegrees as a binary64 *)
Definition degrees_of (gran off x : Z) (v : f64) : Prop :=
  exists z, cong64 z (off + gran * x) /\ v = fdiv (f_of_Z z) (f_of_Z 1000000000).

(** metadata of a plain node, way or relation *)
Definition info_means (st : list bytes) (date : Z) (oi : option info)
  (ts cs uid : Z) (user : bytes) (vis : bool) (ver : Z) : Prop :=
  match oi with
  | None => ts = -1 /\ cs = -1 /\ uid = -1 /\ user = [] /\ vis = true /\ ver = 0
  | Some i =>
    cong64 ts (match i_timestamp i with Some t => t | None => 0 end * date) /\
    cs = match i_changeset i with Some c => c | None => -1 end /\
    uid = match i_uid i with Some u => u | None => -1 end /\
    entry st (match i_user_sid i with Some s => s | None => 0 end) user /\
    vis = match i_visible i with Some v => v | None => true end /\
    ver = match i_version i with Some v => v | None => -1 end
  end.

(** parallel key and value index columns; there may be more values than keys, not fewer *)
Definition tags_mean (st : list bytes) (keys vals : list Z) (ts : list tag) : Prop :=
  (length keys <= length vals)%nat /\ Forall2 (tag_entry st) (combine keys vals) ts.

(** the interleaved keys_vals column of dense nodes: [tags] are the tags of the next node,
    [rest] what remains for the following nodes. An exhausted column means no tags. *)
Inductive kv_means (st : list bytes) : list Z -> list tag -> list Z -> Prop :=
| kv_none : kv_means st [] [] []
| kv_end rest : kv_means st (0 :: rest) [] rest
| kv_pair k v t l ts rest :
    k <> 0 -> tag_entry st (k, v) t -> kv_means st l ts rest -> kv_means st (k :: v :: l) (t :: ts) rest.

(** dense node number [i]; every column except [visible] must have an entry for it *)
Definition has_entry {A} (l : list A) (i : nat) : Prop := (i < length l)%nat.
Definition dense_node_means (st : list bytes) (gran date lat_off lon_off : Z) (d : dense) (i : nat)
  (n : node) : Prop :=
  has_entry (d_lat d) i /\ has_entry (d_lon d) i /\
  cong64 (n_id n) (psum (d_id d) i) /\
  degrees_of gran lat_off (psum (d_lat d) i) (lat (n_coord n)) /\
  degrees_of gran lon_off (psum (d_lon d) i) (lon (n_coord n)) /\
  match d_info d with
  | None => n_version n = 0 /\ n_timestamp n = 0 /\ n_changeset n = -1 /\ n_uid n = -1 /\
            n_user n = [] /\ n_visible n = true
  | Some inf =>
    has_entry (di_timestamp inf) i /\ has_entry (di_changeset inf) i /\ has_entry (di_uid inf) i /\
    has_entry (di_user_sid inf) i /\
    nth_error (di_version inf) i = Some (n_version n) /\
    cong64 (n_timestamp n) (psum (di_timestamp inf) i * date) /\
    cong64 (n_changeset n) (psum (di_changeset inf) i) /\
    cong32 (n_uid n) (psum (di_uid inf) i) /\
    (exists sid, cong32 sid (psum (di_user_sid inf) i) /\ entry st sid (n_user n)) /\
    n_visible n = match nth_error (di_visible inf) i with Some v => v | None => true end
  end.
Fixpoint dense_from (st : list bytes) (gran date lat_off lon_off : Z) (d : dense) (i : nat) (kv : list Z)
  (ns : list node) : Prop :=
  match ns with
  | [] => i = length (d_id d)
  | n :: r => (i < length (d_id d))%nat /\ dense_node_means st gran date lat_off lon_off d i n /\
              exists kv', kv_means st kv (n_tags n) kv' /\ dense_from st gran date lat_off lon_off d (S i) kv' r
  end.
Definition dense_means (st : list bytes) (gran date lat_off lon_off : Z) (od : option dense) (ns : list node) : Prop :=
  match od with None => ns = [] | Some d => dense_from st gran date lat_off lon_off d 0 (d_kv d) ns end.

Definition node_means (st : list bytes) (gran date lat_off lon_off : Z) (p : pnode) (n : node) : Prop :=
  n_id n = pn_id p /\ degrees_of gran lat_off (pn_lat p) (lat (n_coord n)) /\
  degrees_of gran lon_off (pn_lon p) (lon (n_coord n)) /\
  info_means st date (pn_info p) (n_timestamp n) (n_changeset n) (n_uid n) (n_user n) (n_visible n) (n_version n) /\
  tags_mean st (pn_keys p) (pn_vals p) (n_tags n).

Definition way_means (st : list bytes) (date : Z) (p : pway) (w : way) : Prop :=
  w_id w = pw_id p /\
  info_means st date (pw_info p) (w_timestamp w) (w_changeset w) (w_uid w) (w_user w) (w_visible w) (w_version w) /\
  length (w_refs w) = length (pw_refs p) /\
  (forall i x, nth_error (w_refs w) i = Some x -> cong64 x (psum (pw_refs p) i)) /\
  tags_mean st (pw_keys p) (pw_vals p) (w_tags w).

Definition member_code (t : mtype) : Z := match t with MNode => 0 | MWay => 1 | MRelation => 2 end.
Definition relation_means (st : list bytes) (date : Z) (p : prelation) (r : relation) : Prop :=
  r_id r = pr_id p /\
  info_means st date (pr_info p) (r_timestamp r) (r_changeset r) (r_uid r) (r_user r) (r_visible r) (r_version r) /\
  length (r_members r) = length (pr_memids p) /\
  (forall i x, nth_error (r_members r) i = Some x ->
     cong64 (m_id x) (psum (pr_memids p) i) /\
     nth_error (pr_types p) i = Some (member_code (m_type x)) /\
     exists sid, nth_error (pr_roles p) i = Some sid /\ entry st sid (m_role x)) /\
  tags_mean st (pr_keys p) (pr_vals p) (r_tags r).

(** a group: dense nodes, then plain nodes, then ways, then relations; changesets are not supported *)
Definition group_means (st : list bytes) (gran date lat_off lon_off : Z) (g : pgroup) (es : list element) : Prop :=
  exists ds ns ws rs,
    dense_means st gran date lat_off lon_off (g_dense g) ds /\
    Forall2 (node_means st gran date lat_off lon_off) (g_nodes g) ns /\
    Forall2 (way_means st date) (g_ways g) ws /\
    Forall2 (relation_means st date) (g_relations g) rs /\
    g_changesets g = [] /\
    es = map ENode ds ++ map ENode ns ++ map EWay ws ++ map ERelation rs.

(** a block with the defaults of the format: granularity 100 nanodegrees, dates in units of
    1000 milliseconds, offsets 0 *)
Definition block_means (b : pblock) (es : list element) : Prop :=
  let dflt o d := match o with Some x => x | None => d end in
  Forall (fun s => utf8_ok s = true) (pb_strings b) /\
  exists ess,
    Forall2 (group_means (pb_strings b) (dflt (pb_granularity b) 100) (dflt (pb_date_granularity b) 1000)
               (dflt (pb_lat_offset b) 0) (dflt (pb_lon_offset b) 0)) (pb_groups b) ess /\
    es = List.concat ess.
