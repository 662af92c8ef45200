(** Specification vocabulary for reading a dump: what a dump directory is, what the sorting and
    unescaping crates are assumed to do, and which elements the dump stands for.
    From the model of the reader only the record types of the rows are used. *)
From Coq Require Import ZArith List Bool Strings.Byte Strings.String Permutation.
From Verif Require Import Base BaseFacts Types ApidbText ApidbSpec DumpSpec ApidbWrite ApidbRead.
Import ListNotations.
Local Notation length := List.length.
Local Notation concat := List.concat.
Open Scope Z_scope.

(** ** COPY data files *)

(** text of a column: valid UTF-8, the separators escaped *)
Definition clean (c : bytes) : Prop := utf8_ok c = true /\ ~ In x09 c /\ ~ In x0a c /\ ~ In x0d c.
(** a data row is never mistaken for the end marker *)
Definition clean_row (cols : list bytes) : Prop :=
  Forall clean cols /\ (2 <= length cols)%nat /\ (forall s r, cols <> (str "\." ++ s) :: r).
(** the rows, the end marker and blank lines *)
Definition copy_file (rows : list (list bytes)) (file : bytes) : Prop :=
  exists lines blank, Forall2 copy_line rows lines /\ file = concat lines ++ str "\." ++ [x0a] ++ repeat x0a blank.

(** ** The sorting crate *)

Fixpoint ordered {A} (le : A -> A -> Prop) (l : list A) : Prop :=
  match l with
  | [] => True
  | a :: r => Forall (le a) r /\ ordered le r
  end.
(** [a] may come before [b]: integer columns are compared as numbers; how string columns are compared is
    left open, only equal strings compare equal *)
Fixpoint key_le (key : list (nat * ftype)) (a b : list bytes) : Prop :=
  match key with
  | [] => True
  | (i, FInteger) :: r => exists x y, plain (nth i a []) x /\ plain (nth i b []) y /\ (x < y \/ x = y /\ key_le r a b)
  | (i, FString) :: r => nth i a [] = nth i b [] -> key_le r a b
  end.
(** the row has the columns of the key, and numbers where the key needs them *)
Definition keyed (key : list (nat * ftype)) (cols : list bytes) : Prop :=
  Forall (fun k => (fst k < length cols)%nat /\ (snd k = FInteger -> exists z, I64 z /\ plain (nth (fst k) cols []) z)) key.
(** text_file_sort with these fields, ignoring empty lines and the end marker *)
Definition sorts (sort_file : list (nat * ftype) -> bytes -> res bytes) : Prop :=
  forall key rows file, copy_file rows file -> Forall clean_row rows -> Forall (keyed key) rows ->
  exists rows' lines', Permutation rows rows' /\ Forall2 copy_line rows' lines' /\
    sort_file key file = Ok (concat lines') /\ ordered (key_le key) rows'.

(** ** The table of contents *)

(** [p] occurs in [a ++ p] only at the end *)
Definition free (p a : bytes) : Prop := forall u v, a ++ p = u ++ p ++ v -> v = [].
Definition absent (p a : bytes) : Prop := forall u v, a <> u ++ p ++ v.
(** "COPY <def> FROM stdin", other text, the name of the data file (digits and ".dat") *)
Inductive toc_entry : bytes -> bytes -> bytes -> Prop :=
| TocEntry def g number : free (str " FROM stdin") def -> Forall (fun b => is_digit b = true) number ->
    (forall g' c, g = g' ++ [c] -> is_digit c = false) -> free (str ".dat") (g ++ number) -> utf8_ok def = true ->
    toc_entry def (number ++ str ".dat") (str "COPY " ++ def ++ str " FROM stdin" ++ g ++ number ++ str ".dat").
(** entries with other text before, between and after *)
Inductive toc_text : list (bytes * bytes) -> bytes -> Prop :=
| toc_end f : absent (str "COPY ") f -> toc_text [] f
| toc_more f def name s entries r : f <> [] -> free (str "COPY ") f -> toc_entry def name s -> toc_text entries r ->
    toc_text ((def, name) :: entries) (f ++ s ++ r).

Inductive comma_separated : list bytes -> bytes -> Prop :=
| one_name c : comma_separated [c] c
| more_names c cs s : comma_separated cs s -> comma_separated (c :: cs) (c ++ str ", " ++ s).
(** "name (column, column, ...)" *)
Definition table_header (name : bytes) (cols : list bytes) (def : bytes) : Prop :=
  name <> [] /\ ~ In x20 name /\ Forall (fun c => c <> [] /\ ~ In x2c c /\ ~ In x0a c) cols /\
  exists s, comma_separated cols s /\ def = name ++ str " (" ++ s ++ str ")".

(** ** Rows *)

Section Rows.
Variable unescape : bytes -> option bytes.
(** text that cannot be unescaped stands for itself *)
Definition text_of (c s : bytes) : Prop := unescape c = Some s \/ (unescape c = None /\ c = s).
(** seconds and nanoseconds; up to nine decimal places *)
Definition time_text (t : Z * Z) (s : bytes) : Prop :=
  exists a, sql_text (fst t) a /\
    ((s = a /\ snd t = 0) \/
     exists f k v, s = a ++ str "." ++ f /\ 1 <= k <= 9 /\ padded k f v /\ snd t = v * 10 ^ (9 - k)).
Definition bool_text (b : bool) (s : bytes) : Prop := s = if b then str "t" else str "f".
Definition int64 (z : Z) (s : bytes) : Prop := I64 z /\ plain s z.
Definition int32 (z : Z) (s : bytes) : Prop := I32 z /\ plain s z.
Definition nullable (z : option Z) (s : bytes) : Prop :=
  match z with Some z => int32 z s | None => s = str "\N" end.
Definition kind (t : mtype) : bytes := match t with MNode => str "Node" | MWay => str "Way" | MRelation => str "Relation" end.

(** a row gives a text for every column name *)
Definition row_of : Type := bytes -> bytes.
Definition node_says (r : node_rec) (w : row_of) : Prop :=
  int64 (nr_id r) (w (str "node_id")) /\ int32 (nr_lat r) (w (str "latitude")) /\ int32 (nr_lon r) (w (str "longitude")) /\
  int64 (nr_changeset r) (w (str "changeset_id")) /\ bool_text (nr_visible r) (w (str "visible")) /\
  time_text (nr_time r) (w (str """timestamp""")) /\ int64 (nr_tile r) (w (str "tile")) /\
  int64 (nr_version r) (w (str "version")) /\ nullable (nr_redaction r) (w (str "redaction_id")).
(** rows of node_tags, way_tags and relation_tags; [idc] is the name of the id column *)
Definition tag_says (idc : bytes) (r : tag_rec) (w : row_of) : Prop :=
  int64 (tr_id r) (w idc) /\ int64 (tr_version r) (w (str "version")) /\
  text_of (w (str "k")) (tr_k r) /\ text_of (w (str "v")) (tr_v r).
(** rows of ways and relations *)
Definition obj_says (idc : bytes) (r : obj_rec) (w : row_of) : Prop :=
  int64 (or_id r) (w idc) /\ int64 (or_changeset r) (w (str "changeset_id")) /\
  time_text (or_time r) (w (str """timestamp""")) /\ int64 (or_version r) (w (str "version")) /\
  bool_text (or_visible r) (w (str "visible")) /\ nullable (or_redaction r) (w (str "redaction_id")).
Definition way_node_says (r : way_node_rec) (w : row_of) : Prop :=
  int64 (wn_way r) (w (str "way_id")) /\ int64 (wn_node r) (w (str "node_id")) /\
  int64 (wn_version r) (w (str "version")) /\ int64 (wn_seq r) (w (str "sequence_id")).
Definition member_says (r : member_rec) (w : row_of) : Prop :=
  int64 (mr_relation r) (w (str "relation_id")) /\ w (str "member_type") = kind (mr_type r) /\
  int64 (mr_id r) (w (str "member_id")) /\ text_of (w (str "member_role")) (mr_role r) /\
  int64 (mr_version r) (w (str "version")) /\ int64 (mr_seq r) (w (str "sequence_id")).
Definition changeset_says (r : changeset_rec) (w : row_of) : Prop :=
  int64 (cr_id r) (w (str "id")) /\ int64 (cr_user r) (w (str "user_id")) /\ time_text (cr_created r) (w (str "created_at")) /\
  int32 (cr_min_lat r) (w (str "min_lat")) /\ int32 (cr_max_lat r) (w (str "max_lat")) /\
  int32 (cr_min_lon r) (w (str "min_lon")) /\ int32 (cr_max_lon r) (w (str "max_lon")) /\
  time_text (cr_closed r) (w (str "closed_at")) /\ int32 (cr_num r) (w (str "num_changes")).
(** the name is the text of display_name as it is; the other columns the reader insists on *)
Definition user_says (r : user_rec) (w : row_of) : Prop :=
  int64 (ur_id r) (w (str "id")) /\ w (str "display_name") = ur_name r /\
  (exists t, time_text t (w (str "creation_time"))) /\ (exists z, -32768 <= z <= 32767 /\ plain (w (str "home_zoom")) z) /\
  Forall (fun c => exists b, bool_text b (w c))
    [str "data_public"; str "email_valid"; str "consider_pd"; str "terms_seen"; str "image_use_gravatar"] /\
  Forall (fun c => exists z, int32 z (w c)) [str "changesets_count"; str "traces_count"; str "diary_entries_count"] /\
  In (w (str "status")) [str "pending"; str "active"; str "confirmed"; str "suspended"; str "deleted"] /\
  In (w (str "description_format")) [str "html"; str "markdown"; str "text"].

(** ** Dumps *)

Record dump := Dump {
  d_nodes : list node_rec; d_node_tags : list tag_rec;
  d_ways : list obj_rec; d_way_nodes : list way_node_rec; d_way_tags : list tag_rec;
  d_relations : list obj_rec; d_members : list member_rec; d_relation_tags : list tag_rec;
  d_changesets : list changeset_rec; d_users : list user_rec }.

(** columns each table must have; their order is free and there may be others *)
Definition needs (t : table) : list bytes :=
  match t with
  | T_nodes => [str "node_id"; str "latitude"; str "longitude"; str "changeset_id"; str "visible";
                str """timestamp"""; str "tile"; str "version"; str "redaction_id"]
  | T_ways => [str "way_id"; str "changeset_id"; str """timestamp"""; str "version"; str "visible"; str "redaction_id"]
  | T_relations => [str "relation_id"; str "changeset_id"; str """timestamp"""; str "version"; str "visible"; str "redaction_id"]
  | T_node_tags => [str "node_id"; str "version"; str "k"; str "v"]
  | T_way_tags => [str "way_id"; str "version"; str "k"; str "v"]
  | T_relation_tags => [str "relation_id"; str "version"; str "k"; str "v"]
  | T_way_nodes => [str "way_id"; str "node_id"; str "version"; str "sequence_id"]
  | T_relation_members => [str "relation_id"; str "member_type"; str "member_id"; str "member_role"; str "version"; str "sequence_id"]
  | T_changesets => [str "id"; str "user_id"; str "created_at"; str "min_lat"; str "max_lat"; str "min_lon"; str "max_lon";
                     str "closed_at"; str "num_changes"]
  | T_users => [str "email"; str "id"; str "pass_crypt"; str "creation_time"; str "display_name"; str "data_public";
                str "description"; str "home_lat"; str "home_lon"; str "home_zoom"; str "pass_salt"; str "email_valid";
                str "new_email"; str "creation_ip"; str "languages"; str "status"; str "terms_agreed"; str "consider_pd";
                str "auth_uid"; str "preferred_editor"; str "terms_seen"; str "description_format"; str "changesets_count";
                str "traces_count"; str "diary_entries_count"; str "image_use_gravatar"; str "auth_provider"; str "home_tile"; str "tou_agreed"]
  | _ => []
  end.
(** what the catalogue says: table, columns, file name *)
Definition catalogue : Type := list (bytes * list bytes * bytes).
Definition table_holds {R} (dir : bytes -> option bytes) (cat : catalogue) (t : table) (says : R -> row_of -> Prop) (rs : list R) : Prop :=
  exists cols file data rows, In (table_name t, cols, file) cat /\ incl (needs t) cols /\ dir file = Some data /\
    Forall2 says rs rows /\ Forall clean_row (map (fun w => map w cols) rows) /\ copy_file (map (fun w => map w cols) rows) data.
Definition dump_in (dir : bytes -> option bytes) (d : dump) : Prop :=
  exists toc entries cat, dir (str "toc.dat") = Some toc /\ toc_text entries toc /\ NoDup (map (fun e => fst (fst e)) cat) /\
    Forall2 (fun e p => table_header (fst (fst e)) (snd (fst e)) (fst p) /\ snd e = snd p) cat entries /\
    table_holds dir cat T_nodes node_says (d_nodes d) /\
    table_holds dir cat T_node_tags (tag_says (str "node_id")) (d_node_tags d) /\
    table_holds dir cat T_ways (obj_says (str "way_id")) (d_ways d) /\
    table_holds dir cat T_way_nodes way_node_says (d_way_nodes d) /\
    table_holds dir cat T_way_tags (tag_says (str "way_id")) (d_way_tags d) /\
    table_holds dir cat T_relations (obj_says (str "relation_id")) (d_relations d) /\
    table_holds dir cat T_relation_members member_says (d_members d) /\
    table_holds dir cat T_relation_tags (tag_says (str "relation_id")) (d_relation_tags d) /\
    table_holds dir cat T_changesets changeset_says (d_changesets d) /\
    table_holds dir cat T_users user_says (d_users d).
End Rows.

(** ** Keys *)

Definition node_key (r : node_rec) : Z * Z := (nr_id r, nr_version r).
Definition obj_key (r : obj_rec) : Z * Z := (or_id r, or_version r).
Definition tag_key (r : tag_rec) : Z * Z := (tr_id r, tr_version r).
Definition way_node_key (r : way_node_rec) : Z * Z := (wn_way r, wn_version r).
Definition member_key (r : member_rec) : Z * Z := (mr_relation r, mr_version r).
Definition primary_keys (d : dump) : Prop :=
  NoDup (map node_key (d_nodes d)) /\ NoDup (map obj_key (d_ways d)) /\ NoDup (map obj_key (d_relations d)) /\
  NoDup (map cr_id (d_changesets d)) /\ NoDup (map ur_id (d_users d)).
(** every dependent row has its object *)
Definition foreign_keys (d : dump) : Prop :=
  incl (map tag_key (d_node_tags d)) (map node_key (d_nodes d)) /\
  incl (map tag_key (d_way_tags d)) (map obj_key (d_ways d)) /\
  incl (map way_node_key (d_way_nodes d)) (map obj_key (d_ways d)) /\
  incl (map tag_key (d_relation_tags d)) (map obj_key (d_relations d)) /\
  incl (map member_key (d_members d)) (map obj_key (d_relations d)).
(** every object has a changeset and every changeset a user; versions and user ids fit in 32 bits *)
Definition resolved (d : dump) : Prop :=
  Forall (fun c => In c (map cr_id (d_changesets d))) (map nr_changeset (d_nodes d) ++ map or_changeset (d_ways d ++ d_relations d)) /\
  incl (map cr_user (d_changesets d)) (map ur_id (d_users d)) /\
  Forall I32 (map nr_version (d_nodes d) ++ map or_version (d_ways d ++ d_relations d)) /\
  Forall I32 (map cr_user (d_changesets d)).

(** ** The elements a dump stands for *)

Definition key_lt (a b : Z * Z) : Prop := fst a < fst b \/ (fst a = fst b /\ snd a < snd b).
Definition key_eqb (a b : Z * Z) : bool := (fst a =? fst b) && (snd a =? snd b).
(** the rows of one object *)
Definition of_key {R} (key : R -> Z * Z) (k : Z * Z) (rs : list R) : list R := filter (fun r => key_eqb (key r) k) rs.
(** the changeset's user *)
Definition author (d : dump) (changeset uid : Z) (name : bytes) : Prop :=
  exists c u, In c (d_changesets d) /\ In u (d_users d) /\ cr_id c = changeset /\ cr_user c = uid /\ ur_id u = uid /\ ur_name u = name.
(** [k / 10^7] in binary64 (C46 says more) *)
Definition degrees (k : Z) : f64 := fdiv (f_of_Z k) (f_of_Z 10000000).
Definition as_tag (t : tag_rec) : tag := Tag (tr_k t) (tr_v t).
Definition as_member (m : member_rec) : member := Member (mr_type m) (mr_id m) (mr_role m).
Definition millis (t : Z * Z) : Z := 1000 * fst t + snd t / 1000000.

(** [tags], [nodes] and [members] say which dependent rows the object got *)
Definition node_element (d : dump) (tags : Z * Z -> list tag_rec -> Prop) (r : node_rec) (e : element) : Prop :=
  exists uid name ts, author d (nr_changeset r) uid name /\ tags (node_key r) ts /\
    e = ENode (Node (nr_id r) (nr_version r) (Coordinate (degrees (nr_lat r)) (degrees (nr_lon r))) (millis (nr_time r))
                    (nr_changeset r) uid name (nr_visible r) (map as_tag ts)).
Definition way_element (d : dump) (nodes : Z * Z -> list way_node_rec -> Prop) (tags : Z * Z -> list tag_rec -> Prop) (r : obj_rec) (e : element) : Prop :=
  exists uid name ns ts, author d (or_changeset r) uid name /\ nodes (obj_key r) ns /\ tags (obj_key r) ts /\
    e = EWay (Way (or_id r) (or_version r) (millis (or_time r)) (or_changeset r) uid name (or_visible r) (map wn_node ns) (map as_tag ts)).
Definition relation_element (d : dump) (members : Z * Z -> list member_rec -> Prop) (tags : Z * Z -> list tag_rec -> Prop) (r : obj_rec) (e : element) : Prop :=
  exists uid name ms ts, author d (or_changeset r) uid name /\ members (obj_key r) ms /\ tags (obj_key r) ts /\
    e = ERelation (Relation (or_id r) (or_version r) (millis (or_time r)) (or_changeset r) uid name (or_visible r) (map as_member ms) (map as_tag ts)).

(** exactly the rows with the object's key; way nodes by sequence number, members by member id within a type *)
Definition own_tags (all : list tag_rec) (k : Z * Z) (ts : list tag_rec) : Prop := Permutation ts (of_key tag_key k all).
Definition own_nodes (all : list way_node_rec) (k : Z * Z) (ns : list way_node_rec) : Prop :=
  Permutation ns (of_key way_node_key k all) /\ ordered (fun a b => wn_seq a <= wn_seq b) ns.
Definition own_members (all : list member_rec) (k : Z * Z) (ms : list member_rec) : Prop :=
  Permutation ms (of_key member_key k all) /\ ordered (fun a b => mr_type a = mr_type b -> mr_id a <= mr_id b) ms.

(** ** Orphans: dependent rows without an object *)
Definition orphan_before {R} (key : R -> Z * Z) (rs : list R) (objects : list (Z * Z)) (k : Z * Z) : Prop :=
  exists r, In r rs /\ ~ In (key r) objects /\ key_lt (key r) k.
(** nothing after an orphan, otherwise what [own] says *)
Definition until_orphan {R} (key : R -> Z * Z) (rs : list R) (objects : list (Z * Z)) (own : list R -> Z * Z -> list R -> Prop)
    (k : Z * Z) (l : list R) : Prop :=
  (orphan_before key rs objects k -> l = []) /\ (~ orphan_before key rs objects k -> own rs k l).
