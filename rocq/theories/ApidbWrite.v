(** The apidb dump writer: src/osm/apidb_dump/write.

    External code: escape_string::escape is the parameter [escape]; the iteration order of a
    HashMap is the parameter [hash_order]; transient_btree_index::BtreeIndex is a map kept sorted by
    key; chrono::Utc::now() is the parameter [clock]. Failing writes (I/O errors) are not modelled:
    a table file is the sequence of bytes written to it. *)
From Coq Require Import ZArith List Bool Strings.Byte Strings.String.
From Verif Require Import Base Types ApidbText.
Import ListNotations.
Local Notation length := List.length.
Local Notation concat := List.concat.
Open Scope Z_scope.

(** write/table_data_writers.rs 9-63: one data file per table, in the order of the struct *)
Inductive table : Set :=
| T_acls | T_active_storage_attachments | T_active_storage_blobs | T_active_storage_variant_records
| T_ar_internal_metadata | T_changeset_comments | T_changeset_tags | T_changesets
| T_changesets_subscribers | T_client_applications | T_current_node_tags | T_current_nodes
| T_current_relation_members | T_current_relation_tags | T_current_relations | T_current_way_nodes
| T_current_way_tags | T_current_ways | T_delayed_jobs | T_diary_comments
| T_diary_entries | T_diary_entry_subscriptions | T_friends | T_gps_points
| T_gpx_file_tags | T_gpx_files | T_issue_comments | T_issues
| T_languages | T_messages | T_node_tags | T_nodes
| T_note_comments | T_notes | T_oauth_access_grants | T_oauth_access_tokens
| T_oauth_applications | T_oauth_nonces | T_oauth_tokens | T_redactions
| T_relation_members | T_relation_tags | T_relations | T_reports
| T_schema_migrations | T_user_blocks | T_user_preferences | T_user_roles
| T_user_tokens | T_users | T_way_nodes | T_way_tags
| T_ways.
Definition all_tables : list table :=
  [T_acls; T_active_storage_attachments; T_active_storage_blobs; T_active_storage_variant_records;
   T_ar_internal_metadata; T_changeset_comments; T_changeset_tags; T_changesets;
   T_changesets_subscribers; T_client_applications; T_current_node_tags; T_current_nodes;
   T_current_relation_members; T_current_relation_tags; T_current_relations; T_current_way_nodes;
   T_current_way_tags; T_current_ways; T_delayed_jobs; T_diary_comments;
   T_diary_entries; T_diary_entry_subscriptions; T_friends; T_gps_points;
   T_gpx_file_tags; T_gpx_files; T_issue_comments; T_issues;
   T_languages; T_messages; T_node_tags; T_nodes;
   T_note_comments; T_notes; T_oauth_access_grants; T_oauth_access_tokens;
   T_oauth_applications; T_oauth_nonces; T_oauth_tokens; T_redactions;
   T_relation_members; T_relation_tags; T_relations; T_reports;
   T_schema_migrations; T_user_blocks; T_user_preferences; T_user_roles;
   T_user_tokens; T_users; T_way_nodes; T_way_tags;
   T_ways].
Definition table_eqb (a b : table) : bool :=
  match a, b with
  | T_acls, T_acls | T_active_storage_attachments, T_active_storage_attachments | T_active_storage_blobs, T_active_storage_blobs | T_active_storage_variant_records, T_active_storage_variant_records
  | T_ar_internal_metadata, T_ar_internal_metadata | T_changeset_comments, T_changeset_comments | T_changeset_tags, T_changeset_tags | T_changesets, T_changesets
  | T_changesets_subscribers, T_changesets_subscribers | T_client_applications, T_client_applications | T_current_node_tags, T_current_node_tags | T_current_nodes, T_current_nodes
  | T_current_relation_members, T_current_relation_members | T_current_relation_tags, T_current_relation_tags | T_current_relations, T_current_relations | T_current_way_nodes, T_current_way_nodes
  | T_current_way_tags, T_current_way_tags | T_current_ways, T_current_ways | T_delayed_jobs, T_delayed_jobs | T_diary_comments, T_diary_comments
  | T_diary_entries, T_diary_entries | T_diary_entry_subscriptions, T_diary_entry_subscriptions | T_friends, T_friends | T_gps_points, T_gps_points
  | T_gpx_file_tags, T_gpx_file_tags | T_gpx_files, T_gpx_files | T_issue_comments, T_issue_comments | T_issues, T_issues
  | T_languages, T_languages | T_messages, T_messages | T_node_tags, T_node_tags | T_nodes, T_nodes
  | T_note_comments, T_note_comments | T_notes, T_notes | T_oauth_access_grants, T_oauth_access_grants | T_oauth_access_tokens, T_oauth_access_tokens
  | T_oauth_applications, T_oauth_applications | T_oauth_nonces, T_oauth_nonces | T_oauth_tokens, T_oauth_tokens | T_redactions, T_redactions
  | T_relation_members, T_relation_members | T_relation_tags, T_relation_tags | T_relations, T_relations | T_reports, T_reports
  | T_schema_migrations, T_schema_migrations | T_user_blocks, T_user_blocks | T_user_preferences, T_user_preferences | T_user_roles, T_user_roles
  | T_user_tokens, T_user_tokens | T_users, T_users | T_way_nodes, T_way_nodes | T_way_tags, T_way_tags
  | T_ways, T_ways => true
  | _, _ => false
  end.
(** write/table_data_writers.rs 79-131 and write/toc/mapping.json: name of the table and of its file *)
Definition table_name (t : table) : bytes :=
  match t with
  | T_acls => str "public.acls"
  | T_active_storage_attachments => str "public.active_storage_attachments"
  | T_active_storage_blobs => str "public.active_storage_blobs"
  | T_active_storage_variant_records => str "public.active_storage_variant_records"
  | T_ar_internal_metadata => str "public.ar_internal_metadata"
  | T_changeset_comments => str "public.changeset_comments"
  | T_changeset_tags => str "public.changeset_tags"
  | T_changesets => str "public.changesets"
  | T_changesets_subscribers => str "public.changesets_subscribers"
  | T_client_applications => str "public.client_applications"
  | T_current_node_tags => str "public.current_node_tags"
  | T_current_nodes => str "public.current_nodes"
  | T_current_relation_members => str "public.current_relation_members"
  | T_current_relation_tags => str "public.current_relation_tags"
  | T_current_relations => str "public.current_relations"
  | T_current_way_nodes => str "public.current_way_nodes"
  | T_current_way_tags => str "public.current_way_tags"
  | T_current_ways => str "public.current_ways"
  | T_delayed_jobs => str "public.delayed_jobs"
  | T_diary_comments => str "public.diary_comments"
  | T_diary_entries => str "public.diary_entries"
  | T_diary_entry_subscriptions => str "public.diary_entry_subscriptions"
  | T_friends => str "public.friends"
  | T_gps_points => str "public.gps_points"
  | T_gpx_file_tags => str "public.gpx_file_tags"
  | T_gpx_files => str "public.gpx_files"
  | T_issue_comments => str "public.issue_comments"
  | T_issues => str "public.issues"
  | T_languages => str "public.languages"
  | T_messages => str "public.messages"
  | T_node_tags => str "public.node_tags"
  | T_nodes => str "public.nodes"
  | T_note_comments => str "public.note_comments"
  | T_notes => str "public.notes"
  | T_oauth_access_grants => str "public.oauth_access_grants"
  | T_oauth_access_tokens => str "public.oauth_access_tokens"
  | T_oauth_applications => str "public.oauth_applications"
  | T_oauth_nonces => str "public.oauth_nonces"
  | T_oauth_tokens => str "public.oauth_tokens"
  | T_redactions => str "public.redactions"
  | T_relation_members => str "public.relation_members"
  | T_relation_tags => str "public.relation_tags"
  | T_relations => str "public.relations"
  | T_reports => str "public.reports"
  | T_schema_migrations => str "public.schema_migrations"
  | T_user_blocks => str "public.user_blocks"
  | T_user_preferences => str "public.user_preferences"
  | T_user_roles => str "public.user_roles"
  | T_user_tokens => str "public.user_tokens"
  | T_users => str "public.users"
  | T_way_nodes => str "public.way_nodes"
  | T_way_tags => str "public.way_tags"
  | T_ways => str "public.ways"
  end.
Definition table_file (t : table) : bytes :=
  match t with
  | T_acls => str "4210.dat"
  | T_active_storage_attachments => str "4212.dat"
  | T_active_storage_blobs => str "4214.dat"
  | T_active_storage_variant_records => str "4216.dat"
  | T_ar_internal_metadata => str "4218.dat"
  | T_changeset_comments => str "4219.dat"
  | T_changeset_tags => str "4221.dat"
  | T_changesets => str "4222.dat"
  | T_changesets_subscribers => str "4224.dat"
  | T_client_applications => str "4225.dat"
  | T_current_node_tags => str "4227.dat"
  | T_current_nodes => str "4228.dat"
  | T_current_relation_members => str "4230.dat"
  | T_current_relation_tags => str "4231.dat"
  | T_current_relations => str "4232.dat"
  | T_current_way_nodes => str "4234.dat"
  | T_current_way_tags => str "4235.dat"
  | T_current_ways => str "4236.dat"
  | T_delayed_jobs => str "4238.dat"
  | T_diary_comments => str "4240.dat"
  | T_diary_entries => str "4242.dat"
  | T_diary_entry_subscriptions => str "4244.dat"
  | T_friends => str "4245.dat"
  | T_gps_points => str "4247.dat"
  | T_gpx_file_tags => str "4248.dat"
  | T_gpx_files => str "4250.dat"
  | T_issue_comments => str "4252.dat"
  | T_issues => str "4254.dat"
  | T_languages => str "4256.dat"
  | T_messages => str "4257.dat"
  | T_node_tags => str "4259.dat"
  | T_nodes => str "4260.dat"
  | T_note_comments => str "4261.dat"
  | T_notes => str "4263.dat"
  | T_oauth_access_grants => str "4265.dat"
  | T_oauth_access_tokens => str "4267.dat"
  | T_oauth_applications => str "4269.dat"
  | T_oauth_nonces => str "4271.dat"
  | T_oauth_tokens => str "4273.dat"
  | T_redactions => str "4275.dat"
  | T_relation_members => str "4277.dat"
  | T_relation_tags => str "4278.dat"
  | T_relations => str "4279.dat"
  | T_reports => str "4280.dat"
  | T_schema_migrations => str "4282.dat"
  | T_user_blocks => str "4283.dat"
  | T_user_preferences => str "4285.dat"
  | T_user_roles => str "4286.dat"
  | T_user_tokens => str "4288.dat"
  | T_users => str "4290.dat"
  | T_way_nodes => str "4292.dat"
  | T_way_tags => str "4293.dat"
  | T_ways => str "4294.dat"
  end.

(** ** Rows *)

(** a format string "{}\t{}...{}\n" *)
Fixpoint join_cols (cols : list bytes) : bytes :=
  match cols with
  | [] => []
  | [c] => c
  | c :: r => c ++ x09 :: join_cols r
  end.
Definition row (cols : list bytes) : bytes := join_cols cols ++ [x0a].

(** ** Current objects *)

(** write/current_object.rs 1-11 and 38-49: CurrentObjectLine and CurrentObjectLines; a single line
    is modelled as a list of one line *)
Record current := Current { last_id : Z; last_lines : option (list bytes) }.
Definition current_new : current := Current 0 None.
(** current_object.rs 14-16 and 52-54 *)
Definition set_last_id (id : Z) (c : current) : current := Current id (last_lines c).
(** current_object.rs 18-31 and 56-69: [replace] or [take], then the old lines if the id is larger *)
Definition set_last_lines (lines : list bytes) (id : Z) (visible : bool) (c : current) : option (list bytes) * current :=
  let lines_opt := last_lines c in
  let c' := Current (last_id c) (if visible then Some lines else None) in
  (if last_id c <? id then lines_opt else None, c').

(** ** State *)

(** write/writer.rs 21-34 and write/table_data_writers.rs 64-69 *)
Record writer := Writer {
  files : table -> bytes;
  currents : table -> current;
  user_buffer : list (Z * bytes);
  changeset_buffer : list (Z * Z);
  user_index : list (Z * bytes);
  changeset_index : list (Z * Z) }.
(** writer.rs 42-61 *)
Definition writer_new : writer := Writer (fun _ => []) (fun _ => current_new) [] [] [] [].

Definition upd {A} (f : table -> A) (t : table) (a : A) : table -> A := fun t' => if table_eqb t t' then a else f t'.
(** [self.writers.t.writer().write_all(...)] *)
Definition append (t : table) (b : bytes) (w : writer) : writer :=
  Writer (upd (files w) t (files w t ++ b)) (currents w) (user_buffer w) (changeset_buffer w) (user_index w) (changeset_index w).
Definition set_current (t : table) (c : current) (w : writer) : writer :=
  Writer (files w) (upd (currents w) t c) (user_buffer w) (changeset_buffer w) (user_index w) (changeset_index w).

(** HashMap::insert *)
Definition map_put {V} (k : Z) (v : V) (l : list (Z * V)) : list (Z * V) :=
  (k, v) :: filter (fun p => negb (fst p =? k)) l.
(** writer.rs 80-81, 158-159, 262-263: the user and the changeset of an object *)
Definition remember (uid : Z) (user : bytes) (changeset : Z) (w : writer) : writer :=
  Writer (files w) (currents w) (map_put uid user (user_buffer w)) (map_put changeset uid (changeset_buffer w))
         (user_index w) (changeset_index w).

(** the pattern of writer.rs 96-102, 138-147, 183-191, 217-225, 237-243, ...: set the last lines,
    write the lines given back, set the last id *)
Definition put_current (t : table) (lines : list bytes) (id : Z) (visible : bool) (w : writer) : writer :=
  let '(out, c) := set_last_lines lines id visible (currents w t) in
  let w1 := set_current t c w in
  let w2 := match out with None => w1 | Some ls => append t (concat ls) w1 end in
  set_current t (set_last_id id (currents w2 t)) w2.

Section Writer.
Variable escape : bytes -> bytes.

(** ** Elements *)

(** writer.rs 85-94 *)
Definition current_node_line (n : node) (time : bytes) : bytes :=
  row [show_int (n_id n); show_int (lat7 (n_coord n)); show_int (lon7 (n_coord n)); show_int (n_changeset n);
       to_sql_bool (n_visible n); time; show_int (calculate_tile (lat (n_coord n)) (lon (n_coord n))); show_int (n_version n)].
(** writer.rs 106-115 *)
Definition node_line (n : node) (time : bytes) : bytes :=
  row [show_int (n_id n); show_int (lat7 (n_coord n)); show_int (lon7 (n_coord n)); show_int (n_changeset n);
       to_sql_bool (n_visible n); time; show_int (calculate_tile (lat (n_coord n)) (lon (n_coord n))); show_int (n_version n); sql_null].
(** writer.rs 122-130 *)
Definition node_tag_line (n : node) (t : tag) : bytes :=
  row [show_int (n_id n); show_int (n_version n); escape (t_k t); escape (t_v t)].
(** writer.rs 133-137, 197-203, 315-321: current_node_tags, current_way_tags, current_relation_tags *)
Definition current_tag_line (id : Z) (t : tag) : bytes := row [show_int id; escape (t_k t); escape (t_v t)].
(** writer.rs 207-213, 325-331: way_tags, relation_tags *)
Definition tag_line (id version : Z) (t : tag) : bytes :=
  row [show_int id; escape (t_k t); escape (t_v t); show_int version].

(** [.iter().enumerate()], counted from [i] *)
Fixpoint enumerate {A} (i : Z) (l : list A) : list (Z * A) :=
  match l with [] => [] | a :: r => (i, a) :: enumerate (i + 1) r end.

(** writer.rs 79-155: write_node *)
Definition write_node (n : node) (w : writer) : res writer :=
  let w := remember (n_uid n) (n_user n) (n_changeset n) w in
  time <- to_sql_time_millis (n_timestamp n) ;;
  let w := put_current T_current_nodes [current_node_line n time] (n_id n) (n_visible n) w in
  let w := append T_nodes (node_line n time) w in
  let w := append T_node_tags (concat (map (node_tag_line n) (n_tags n))) w in
  Ok (put_current T_current_node_tags (map (current_tag_line (n_id n)) (n_tags n)) (n_id n) (n_visible n) w).

(** writer.rs 166-170 *)
Definition current_way_node_line (wy : way) (p : Z * Z) : bytes :=
  row [show_int (w_id wy); show_int (snd p); show_int (fst p + 1)].
(** writer.rs 175-180 *)
Definition way_node_line (wy : way) (p : Z * Z) : bytes :=
  row [show_int (w_id wy); show_int (snd p); show_int (w_version wy); show_int (fst p + 1)].
(** writer.rs 229-235 *)
Definition current_way_line (wy : way) (time : bytes) : bytes :=
  row [show_int (w_id wy); show_int (w_changeset wy); time; to_sql_bool (w_visible wy); show_int (w_version wy)].
(** writer.rs 248-254 *)
Definition way_line (wy : way) (time : bytes) : bytes :=
  row [show_int (w_id wy); show_int (w_changeset wy); time; show_int (w_version wy); to_sql_bool (w_visible wy); sql_null].

(** writer.rs 157-259: write_way *)
Definition write_way (wy : way) (w : writer) : res writer :=
  let w := remember (w_uid wy) (w_user wy) (w_changeset wy) w in
  let refs := enumerate 0 (w_refs wy) in
  let w := append T_way_nodes (concat (map (way_node_line wy) refs)) w in
  let w := put_current T_current_way_nodes (map (current_way_node_line wy) refs) (w_id wy) (w_visible wy) w in
  let w := append T_way_tags (concat (map (tag_line (w_id wy) (w_version wy)) (w_tags wy))) w in
  let w := put_current T_current_way_tags (map (current_tag_line (w_id wy)) (w_tags wy)) (w_id wy) (w_visible wy) w in
  time <- to_sql_time_millis (w_timestamp wy) ;;
  let w := put_current T_current_ways [current_way_line wy time] (w_id wy) (w_visible wy) w in
  Ok (append T_ways (way_line wy time) w).

(** writer.rs 266-276 *)
Definition member_type_text (m : member) : bytes :=
  match m_type m with MNode => str "Node" | MWay => str "Way" | MRelation => str "Relation" end.
(** writer.rs 281-287 *)
Definition current_relation_member_line (r : relation) (p : Z * member) : bytes :=
  row [show_int (r_id r); member_type_text (snd p); show_int (m_id (snd p)); escape (m_role (snd p)); show_int (fst p + 1)].
(** writer.rs 292-299 *)
Definition relation_member_line (r : relation) (p : Z * member) : bytes :=
  row [show_int (r_id r); member_type_text (snd p); show_int (m_id (snd p)); escape (m_role (snd p)); show_int (r_version r); show_int (fst p + 1)].
(** writer.rs 348-354 *)
Definition current_relation_line (r : relation) (time : bytes) : bytes :=
  row [show_int (r_id r); show_int (r_changeset r); time; to_sql_bool (r_visible r); show_int (r_version r)].
(** writer.rs 367-373 *)
Definition relation_line (r : relation) (time : bytes) : bytes :=
  row [show_int (r_id r); show_int (r_changeset r); time; show_int (r_version r); to_sql_bool (r_visible r); sql_null].

(** writer.rs 261-378: write_relation *)
Definition write_relation (r : relation) (w : writer) : res writer :=
  let w := remember (r_uid r) (r_user r) (r_changeset r) w in
  let members := enumerate 0 (r_members r) in
  let w := append T_relation_members (concat (map (relation_member_line r) members)) w in
  let w := put_current T_current_relation_members (map (current_relation_member_line r) members) (r_id r) (r_visible r) w in
  let w := append T_relation_tags (concat (map (tag_line (r_id r) (r_version r)) (r_tags r))) w in
  let w := put_current T_current_relation_tags (map (current_tag_line (r_id r)) (r_tags r)) (r_id r) (r_visible r) w in
  time <- to_sql_time_millis (r_timestamp r) ;;
  let w := put_current T_current_relations [current_relation_line r time] (r_id r) (r_visible r) w in
  Ok (append T_relations (relation_line r time) w).

(** writer.rs 63-77: write_element *)
Definition write_element (e : element) (w : writer) : res writer :=
  match e with
  | ENode n => write_node n w
  | EWay wy => write_way wy w
  | ERelation r => write_relation r w
  | ESentinel => Ok w
  end.
Fixpoint write_elements (es : list element) (w : writer) : res writer :=
  match es with
  | [] => Ok w
  | e :: r => w' <- write_element e w ;; write_elements r w'
  end.

(** ** Closing *)

(** current_object.rs 33-35, 71-73 and the pattern of writer.rs 466-471, ...: take the last lines and write them *)
Definition flush_current (t : table) (w : writer) : writer :=
  let w1 := set_current t (Current (last_id (currents w t)) None) w in
  match last_lines (currents w t) with None => w1 | Some ls => append t (concat ls) w1 end.
(** writer.rs 465-533: flush_current_object_lines *)
Definition current_tables : list table :=
  [T_current_nodes; T_current_node_tags; T_current_ways; T_current_way_tags; T_current_way_nodes;
   T_current_relations; T_current_relation_tags; T_current_relation_members].
Definition flush_current_object_lines (w : writer) : writer := fold_left (fun w t => flush_current t w) current_tables w.

(** BtreeIndex::insert *)
Fixpoint bt_insert {V} (k : Z) (v : V) (l : list (Z * V)) : list (Z * V) :=
  match l with
  | [] => [(k, v)]
  | (k', v') :: r => if k <? k' then (k, v) :: l else if k' <? k then (k', v') :: bt_insert k v r else (k, v) :: r
  end.
Definition bt_insert_all {V} (ps : list (Z * V)) (l : list (Z * V)) : list (Z * V) :=
  fold_left (fun l p => bt_insert (fst p) (snd p) l) ps l.

Variable hash_order : forall V, list (Z * V) -> list (Z * V).
Variable clock : nat -> Z.

(** table_data_writers.rs 141-153: flush_buffers *)
Definition flush_buffers (w : writer) : writer :=
  Writer (files w) (currents w) [] []
         (bt_insert_all (hash_order _ (user_buffer w)) (user_index w))
         (bt_insert_all (hash_order _ (changeset_buffer w)) (changeset_index w)).

(** writer.rs 423-459; [lib] below is "osm-io VERSION" *)
Definition user_line (id : Z) (name time : bytes) : bytes :=
  row [str "osm-admin-user-" ++ show_int id ++ str "@example.com"; show_int id; str "00000000000000000000000000000000"; time;
       name; to_sql_bool true; name; show_int 0; show_int 0; show_int 3; str "00000000"; to_sql_bool false;
       sql_null; sql_null; sql_null; str "pending"; sql_null; to_sql_bool false; sql_null; sql_null; to_sql_bool false;
       str "markdown"; show_int 0; show_int 0; show_int 0; to_sql_bool false; sql_null; sql_null; sql_null].
(** writer.rs 420-463: write_users; [i] counts the calls of [Utc::now()] *)
Fixpoint write_users (i : nat) (us : list (Z * bytes)) (w : writer) : res writer :=
  match us with
  | [] => Ok w
  | (id, name) :: r =>
    time <- to_sql_time_micros (clock i) ;;
    write_users (S i) r (append T_users (user_line id name time) w)
  end.

Variable lib : bytes.
(** writer.rs 387-400 *)
Definition changeset_tag_lines (id : Z) : bytes :=
  row [show_int id; str "created_by"; lib] ++ row [show_int id; str "replication"; str "true"].
(** writer.rs 404-413 *)
Definition changeset_line (id uid : Z) (time : bytes) : bytes :=
  row [show_int id; show_int uid; time; show_int (-900000000); show_int 900000000; show_int (-1800000000); show_int 1800000000; time; show_int 0].
(** writer.rs 380-418: write_changesets *)
Fixpoint write_changesets (i : nat) (cs : list (Z * Z)) (w : writer) : res writer :=
  match cs with
  | [] => Ok w
  | (id, uid) :: r =>
    let w := append T_changeset_tags (changeset_tag_lines id) w in
    time <- to_sql_time_micros (clock i) ;;
    write_changesets (S i) r (append T_changesets (changeset_line id uid time) w)
  end.

(** table_data_writer.rs 26-30 and table_data_writers.rs 155-209: the terminator of every table *)
Definition terminator : bytes := str "\." ++ [x0a].
Definition close_tables (w : writer) : writer := fold_left (fun w t => append t terminator w) all_tables w.

(** writer.rs 536-543: close *)
Definition close (w : writer) : res writer :=
  let w := flush_current_object_lines w in
  let w := flush_buffers w in
  w <- write_users 0 (user_index w) w ;;
  w <- write_changesets (length (user_index w)) (changeset_index w) w ;;
  Ok (close_tables w).

(** a whole dump: new, write_element for every element, close *)
Definition dump (es : list element) : res writer := w <- write_elements es writer_new ;; close w.
End Writer.
