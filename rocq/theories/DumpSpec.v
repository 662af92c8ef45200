(** Specification vocabulary for the tables of a dump: COPY text rows and what each table must hold.
    Written from the schema of the openstreetmap-website database (the COPY statements of toc.dat) and
    the PostgreSQL COPY text format; no function of the dump writer or reader is used except
    [calculate_tile] (C38 says what it is) and [lat7]/[lon7] (C46). *)
From Coq Require Import ZArith List Bool Strings.Byte Strings.String.
From Verif Require Import Base Types ApidbText ApidbSpec.
Import ListNotations.
Local Notation length := List.length.
Local Notation concat := List.concat.
Open Scope Z_scope.

(** ** COPY text format *)

(** columns separated by TAB, ended by LF *)
Inductive copy_line : list bytes -> bytes -> Prop :=
| one_column c : copy_line [c] (c ++ [x0a])
| more_columns c cols s : copy_line cols s -> copy_line (c :: cols) (c ++ x09 :: s).

Inductive value :=
| VInt (z : Z)                 (* an integer in decimal *)
| VBool (b : bool)             (* t or f *)
| VTime (milliseconds : Z)     (* a timestamp to the second *)
| VMicros (microseconds : Z)   (* a timestamp to the microsecond *)
| VText (s : bytes)            (* as it is *)
| VEscaped (s : bytes)         (* escaped *)
| VNull.

(** [s] is the text of a value; years before 0 and after 9999 are left open here (see C37) *)
Definition shows (escape : bytes -> bytes) (v : value) (s : bytes) : Prop :=
  match v with
  | VInt z => plain s z
  | VBool b => s = if b then [x74] else [x66]
  | VTime t => four_digit_year (t / 1000) -> sql_text (t / 1000) s
  | VMicros t => four_digit_year (t / 1000000) ->
      exists a b, s = a ++ str "." ++ b /\ sql_text (t / 1000000) a /\ padded 6 b (t mod 1000000)
  | VText x => s = x
  | VEscaped x => s = escape x
  | VNull => s = str "\N"
  end.
Definition row_text (escape : bytes -> bytes) (vals : list value) (s : bytes) : Prop :=
  exists cols, Forall2 (shows escape) vals cols /\ copy_line cols s.
(** the file holds exactly these rows, and the end marker *)
Definition holds (escape : bytes -> bytes) (file : bytes) (rows : list (list value)) : Prop :=
  exists lines, Forall2 (row_text escape) rows lines /\ file = concat lines ++ str "\." ++ [x0a].

(** ** Rows of the history tables *)

Definition nodes_in (es : list element) : list node := flat_map (fun e => match e with ENode n => [n] | _ => [] end) es.
Definition ways_in (es : list element) : list way := flat_map (fun e => match e with EWay w => [w] | _ => [] end) es.
Definition relations_in (es : list element) : list relation := flat_map (fun e => match e with ERelation r => [r] | _ => [] end) es.
(** elements with their positions 1, 2, ... *)
Definition positions {A} (l : list A) : list (Z * A) := combine (map Z.of_nat (seq 1 (length l))) l.

(** nodes (node_id, latitude, longitude, changeset_id, visible, "timestamp", tile, version, redaction_id) *)
Definition node_row (n : node) : list value :=
  [VInt (n_id n); VInt (lat7 (n_coord n)); VInt (lon7 (n_coord n)); VInt (n_changeset n); VBool (n_visible n);
   VTime (n_timestamp n); VInt (calculate_tile (lat (n_coord n)) (lon (n_coord n))); VInt (n_version n); VNull].
(** node_tags (node_id, version, k, v) *)
Definition node_tag_rows (n : node) : list (list value) :=
  map (fun t => [VInt (n_id n); VInt (n_version n); VEscaped (t_k t); VEscaped (t_v t)]) (n_tags n).
(** ways (way_id, changeset_id, "timestamp", version, visible, redaction_id) *)
Definition way_row (w : way) : list value :=
  [VInt (w_id w); VInt (w_changeset w); VTime (w_timestamp w); VInt (w_version w); VBool (w_visible w); VNull].
(** way_tags (way_id, k, v, version) *)
Definition way_tag_rows (w : way) : list (list value) :=
  map (fun t => [VInt (w_id w); VEscaped (t_k t); VEscaped (t_v t); VInt (w_version w)]) (w_tags w).
(** way_nodes (way_id, node_id, version, sequence_id) *)
Definition way_node_rows (w : way) : list (list value) :=
  map (fun p => [VInt (w_id w); VInt (snd p); VInt (w_version w); VInt (fst p)]) (positions (w_refs w)).
(** relations (relation_id, changeset_id, "timestamp", version, visible, redaction_id) *)
Definition relation_row (r : relation) : list value :=
  [VInt (r_id r); VInt (r_changeset r); VTime (r_timestamp r); VInt (r_version r); VBool (r_visible r); VNull].
(** relation_tags (relation_id, k, v, version) *)
Definition relation_tag_rows (r : relation) : list (list value) :=
  map (fun t => [VInt (r_id r); VEscaped (t_k t); VEscaped (t_v t); VInt (r_version r)]) (r_tags r).
(** relation_members (relation_id, member_type, member_id, member_role, version, sequence_id) *)
Definition kind_text (m : member) : bytes :=
  match m_type m with MNode => str "Node" | MWay => str "Way" | MRelation => str "Relation" end.
Definition relation_member_rows (r : relation) : list (list value) :=
  map (fun p => [VInt (r_id r); VText (kind_text (snd p)); VInt (m_id (snd p)); VEscaped (m_role (snd p));
                 VInt (r_version r); VInt (fst p)]) (positions (r_members r)).

(** ** Rows of the current tables *)

(** the last version of every id, if it is visible *)
Fixpoint newest {A} (id : A -> Z) (visible : A -> bool) (l : list A) : list A :=
  match l with
  | [] => []
  | a :: r => if existsb (fun b => id b =? id a) r || negb (visible a) then newest id visible r else a :: newest id visible r
  end.
Fixpoint nondecreasing (l : list Z) : Prop :=
  match l with
  | [] => True
  | a :: r => Forall (fun b => a <= b) r /\ nondecreasing r
  end.
Fixpoint increasing (l : list Z) : Prop :=
  match l with
  | [] => True
  | a :: r => Forall (fun b => a < b) r /\ increasing r
  end.

(** current_nodes (id, latitude, longitude, changeset_id, visible, "timestamp", tile, version) *)
Definition current_node_row (n : node) : list value :=
  [VInt (n_id n); VInt (lat7 (n_coord n)); VInt (lon7 (n_coord n)); VInt (n_changeset n); VBool (n_visible n);
   VTime (n_timestamp n); VInt (calculate_tile (lat (n_coord n)) (lon (n_coord n))); VInt (n_version n)].
(** current_node_tags (node_id, k, v), current_way_tags (way_id, k, v), current_relation_tags (relation_id, k, v) *)
Definition current_tag_rows (id : Z) (tags : list tag) : list (list value) :=
  map (fun t => [VInt id; VEscaped (t_k t); VEscaped (t_v t)]) tags.
(** current_ways (id, changeset_id, "timestamp", visible, version) *)
Definition current_way_row (w : way) : list value :=
  [VInt (w_id w); VInt (w_changeset w); VTime (w_timestamp w); VBool (w_visible w); VInt (w_version w)].
(** current_way_nodes (way_id, node_id, sequence_id) *)
Definition current_way_node_rows (w : way) : list (list value) :=
  map (fun p => [VInt (w_id w); VInt (snd p); VInt (fst p)]) (positions (w_refs w)).
(** current_relations (id, changeset_id, "timestamp", visible, version) *)
Definition current_relation_row (r : relation) : list value :=
  [VInt (r_id r); VInt (r_changeset r); VTime (r_timestamp r); VBool (r_visible r); VInt (r_version r)].
(** current_relation_members (relation_id, member_type, member_id, member_role, sequence_id) *)
Definition current_relation_member_rows (r : relation) : list (list value) :=
  map (fun p => [VInt (r_id r); VText (kind_text (snd p)); VInt (m_id (snd p)); VEscaped (m_role (snd p)); VInt (fst p)])
      (positions (r_members r)).

(** ** Users and changesets *)

Definition users_in (es : list element) : list (Z * bytes) :=
  flat_map (fun e => match e with
    | ENode n => [(n_uid n, n_user n)] | EWay w => [(w_uid w, w_user w)] | ERelation r => [(r_uid r, r_user r)]
    | ESentinel => [] end) es.
Definition changesets_in (es : list element) : list (Z * Z) :=
  flat_map (fun e => match e with
    | ENode n => [(n_changeset n, n_uid n)] | EWay w => [(w_changeset w, w_uid w)] | ERelation r => [(r_changeset r, r_uid r)]
    | ESentinel => [] end) es.
(** [v] is the last value given for [k] *)
Definition most_recent {V} (l : list (Z * V)) (k : Z) (v : V) : Prop :=
  exists l1 l2, l = l1 ++ (k, v) :: l2 /\ ~ In k (map fst l2).
(** the 29 columns of users: email, id, pass_crypt, creation_time, display_name, data_public, description,
    home_lat, home_lon, home_zoom, pass_salt, email_valid, new_email, creation_ip, languages, status,
    terms_agreed, consider_pd, auth_uid, preferred_editor, terms_seen, description_format, changesets_count,
    traces_count, diary_entries_count, image_use_gravatar, auth_provider, home_tile, tou_agreed *)
Definition user_row (email : bytes) (now uid : Z) (name : bytes) : list value :=
  [VText email; VInt uid; VText (str "00000000000000000000000000000000"); VMicros now; VText name;
   VBool true; VText name; VInt 0; VInt 0; VInt 3; VText (str "00000000"); VBool false; VNull; VNull; VNull;
   VText (str "pending"); VNull; VBool false; VNull; VNull; VBool false; VText (str "markdown"); VInt 0;
   VInt 0; VInt 0; VBool false; VNull; VNull; VNull].
(** changesets (id, user_id, created_at, min_lat, max_lat, min_lon, max_lon, closed_at, num_changes): the whole world *)
Definition changeset_row (now id uid : Z) : list value :=
  [VInt id; VInt uid; VMicros now; VInt (-900000000); VInt 900000000; VInt (-1800000000); VInt 1800000000; VMicros now; VInt 0].
(** changeset_tags (changeset_id, k, v) *)
Definition changeset_tag_rows (lib : bytes) (id : Z) : list (list value) :=
  [[VInt id; VText (str "created_by"); VText lib]; [VInt id; VText (str "replication"); VText (str "true")]].
