(** Specification vocabulary for writing a dump and reading it back. *)
From Coq Require Import ZArith List Bool Strings.Byte Strings.String Permutation.
From Verif Require Import Base BaseFacts Types ApidbText ApidbSpec DumpSpec ApidbWrite ApidbRead DumpReadSpec.
Import ListNotations.
Local Notation length := List.length.
Local Notation concat := List.concat.
Open Scope Z_scope.

(** Text that survives the escaping and the unescaping crate: escaped it has no TAB, LF or CR, and it unescapes to the original. *)
Definition survives (escape : bytes -> bytes) (unescape : bytes -> option bytes) (s : bytes) : Prop :=
  clean (escape s) /\ text_of unescape (escape s) s.
(** crates that are inverse to each other on all text *)
Definition escapes (escape : bytes -> bytes) (unescape : bytes -> option bytes) : Prop :=
  forall s, utf8_ok s = true -> survives escape unescape s.

(** ** Columns of the tables, in the order of the COPY statements of toc.dat *)
Definition schema (t : table) : list bytes :=
  match t with
  | T_nodes => [str "node_id"; str "latitude"; str "longitude"; str "changeset_id"; str "visible"; str """timestamp""";
                str "tile"; str "version"; str "redaction_id"]
  | T_node_tags => [str "node_id"; str "version"; str "k"; str "v"]
  | T_ways => [str "way_id"; str "changeset_id"; str """timestamp"""; str "version"; str "visible"; str "redaction_id"]
  | T_way_nodes => [str "way_id"; str "node_id"; str "version"; str "sequence_id"]
  | T_way_tags => [str "way_id"; str "k"; str "v"; str "version"]
  | T_relations => [str "relation_id"; str "changeset_id"; str """timestamp"""; str "version"; str "visible"; str "redaction_id"]
  | T_relation_members => [str "relation_id"; str "member_type"; str "member_id"; str "member_role"; str "version"; str "sequence_id"]
  | T_relation_tags => [str "relation_id"; str "k"; str "v"; str "version"]
  | T_changesets => [str "id"; str "user_id"; str "created_at"; str "min_lat"; str "max_lat"; str "min_lon"; str "max_lon";
                     str "closed_at"; str "num_changes"]
  | T_users => [str "email"; str "id"; str "pass_crypt"; str "creation_time"; str "display_name"; str "data_public";
                str "description"; str "home_lat"; str "home_lon"; str "home_zoom"; str "pass_salt"; str "email_valid";
                str "new_email"; str "creation_ip"; str "languages"; str "status"; str "terms_agreed"; str "consider_pd";
                str "auth_uid"; str "preferred_editor"; str "terms_seen"; str "description_format"; str "changesets_count";
                str "traces_count"; str "diary_entries_count"; str "image_use_gravatar"; str "auth_provider"; str "home_tile"; str "tou_agreed"]
  | _ => []
  end.
Definition object_tables : list table :=
  [T_nodes; T_node_tags; T_ways; T_way_nodes; T_way_tags; T_relations; T_relation_members; T_relation_tags; T_changesets; T_users].
(** a table of contents that lists every table once, the tables above with these columns and these file names *)
Definition describes (toc : bytes) : Prop :=
  exists entries (cat : catalogue), toc_text entries toc /\ NoDup (map (fun e => fst (fst e)) cat) /\
    Forall2 (fun e p => table_header (fst (fst e)) (snd (fst e)) (fst p) /\ snd e = snd p) cat entries /\
    forall t, In t object_tables -> In (table_name t, schema t, table_file t) cat.
(** the directory a dump writer leaves: its table files and a table of contents *)
Definition directory (w : writer) (dir : bytes -> option bytes) : Prop :=
  (exists toc, dir (str "toc.dat") = Some toc /\ describes toc) /\ forall t, dir (table_file t) = Some (files w t).

(** ** What can be written *)

Section Storable.
Variables (escape : bytes -> bytes) (unescape : bytes -> option bytes).
(** the ranges of the Rust types, a timestamp with a four-digit year, text that survives escaping *)
Definition storable_tags (l : list tag) : Prop := Forall (fun t => survives escape unescape (t_k t) /\ survives escape unescape (t_v t)) l.
Definition storable (e : element) : Prop :=
  match e with
  | ENode n => I64 (n_id n) /\ I32 (n_version n) /\ I64 (n_changeset n) /\ I32 (n_uid n) /\ I32 (lat7 (n_coord n)) /\ I32 (lon7 (n_coord n)) /\
      four_digit_year (n_timestamp n / 1000) /\ storable_tags (n_tags n)
  | EWay w => I64 (w_id w) /\ I32 (w_version w) /\ I64 (w_changeset w) /\ I32 (w_uid w) /\ Forall I64 (w_refs w) /\ I64 (zlen (w_refs w)) /\
      four_digit_year (w_timestamp w / 1000) /\ storable_tags (w_tags w)
  | ERelation r => I64 (r_id r) /\ I32 (r_version r) /\ I64 (r_changeset r) /\ I32 (r_uid r) /\
      Forall (fun m => I64 (m_id m) /\ survives escape unescape (m_role m)) (r_members r) /\ I64 (zlen (r_members r)) /\
      four_digit_year (r_timestamp r / 1000) /\ storable_tags (r_tags r)
  | ESentinel => True
  end.
End Storable.
(** every version is written once *)
Definition distinct_versions (es : list element) : Prop :=
  NoDup (map (fun n => (n_id n, n_version n)) (nodes_in es)) /\ NoDup (map (fun w => (w_id w, w_version w)) (ways_in es)) /\
  NoDup (map (fun r => (r_id r, r_version r)) (relations_in es)).

(** ** What comes back *)

(** time to the second, coordinates to 1e-7 degrees, the user of the changeset, tags in some order *)
Definition whole_seconds (t : Z) : Z := 1000 * (t / 1000).
Definition snapped (c : coordinate) : coordinate := Coordinate (degrees (lat7 c)) (degrees (lon7 c)).
Definition node_back (es : list element) (n : node) (e : element) : Prop :=
  exists uid name tags, most_recent (changesets_in es) (n_changeset n) uid /\ most_recent (users_in es) uid name /\ Permutation tags (n_tags n) /\
    e = ENode (Node (n_id n) (n_version n) (snapped (n_coord n)) (whole_seconds (n_timestamp n)) (n_changeset n) uid name (n_visible n) tags).
(** the nodes of a way in their order *)
Definition way_back (es : list element) (w : way) (e : element) : Prop :=
  exists uid name tags, most_recent (changesets_in es) (w_changeset w) uid /\ most_recent (users_in es) uid name /\ Permutation tags (w_tags w) /\
    e = EWay (Way (w_id w) (w_version w) (whole_seconds (w_timestamp w)) (w_changeset w) uid name (w_visible w) (w_refs w) tags).
(** the members of a relation by id within each type *)
Definition by_member_id (ms : list member) : Prop := ordered (fun a b => m_type a = m_type b -> m_id a <= m_id b) ms.
Definition relation_back (es : list element) (r : relation) (e : element) : Prop :=
  exists uid name members tags, most_recent (changesets_in es) (r_changeset r) uid /\ most_recent (users_in es) uid name /\
    Permutation members (r_members r) /\ by_member_id members /\ Permutation tags (r_tags r) /\
    e = ERelation (Relation (r_id r) (r_version r) (whole_seconds (r_timestamp r)) (r_changeset r) uid name (r_visible r) members tags).

(** ** The records the rows of an element stand for *)
Definition node_record (n : node) : node_rec :=
  NodeRec (n_id n) (lat7 (n_coord n)) (lon7 (n_coord n)) (n_changeset n) (n_visible n) (n_timestamp n / 1000, 0)
          (calculate_tile (lat (n_coord n)) (lon (n_coord n))) (n_version n) None.
Definition tag_records (id version : Z) (tags : list tag) : list tag_rec := map (fun t => TagRec id version (t_k t) (t_v t)) tags.
Definition way_record (w : way) : obj_rec := ObjRec (w_id w) (w_changeset w) (w_timestamp w / 1000, 0) (w_version w) (w_visible w) None.
Definition way_node_records (w : way) : list way_node_rec :=
  map (fun p => WayNodeRec (w_id w) (snd p) (w_version w) (fst p)) (positions (w_refs w)).
Definition relation_record (r : relation) : obj_rec :=
  ObjRec (r_id r) (r_changeset r) (r_timestamp r / 1000, 0) (r_version r) (r_visible r) None.
Definition member_records (r : relation) : list member_rec :=
  map (fun p => MemberRec (r_id r) (m_type (snd p)) (m_id (snd p)) (m_role (snd p)) (r_version r) (fst p)) (positions (r_members r)).
Definition time_record (microseconds : Z) : Z * Z := (microseconds / 1000000, 1000 * (microseconds mod 1000000)).
Definition changeset_record (now id uid : Z) : changeset_rec :=
  ChangesetRec id uid (time_record now) (-900000000) 900000000 (-1800000000) 1800000000 (time_record now) 0.
