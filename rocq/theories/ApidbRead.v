(** The apidb dump reader: src/osm/apidb_dump/read.

    External code: unescape::unescape is the parameter [unescape] (None = error); the crate
    text_file_sort is the parameter [sort_file] (contract: [DumpReadSpec.sorts]). The data directory
    is a function from file names to contents. I/O errors other than a missing file are not modelled. *)
From Coq Require Import ZArith List Bool Strings.Byte Strings.String.
From Verif Require Import Base Types ApidbText ApidbWrite Model2.
Import ListNotations.
Local Notation length := List.length.
Local Notation concat := List.concat.
Open Scope Z_scope.

(** ** The table of contents *)

(** [toc[i..].starts_with(p)] *)
Definition starts_with (p s : bytes) : bool := match strip_prefix p s with Some _ => true | None => false end.
(** [while i < toc.len() { if toc[i..].starts_with(p) { .. } i += 1 }]: the first place where [p] starts.
    A place is the bytes before it, last first, and the bytes after it. *)
Fixpoint find (p before rest : bytes) : option (bytes * bytes) :=
  match rest with
  | [] => None
  | b :: r => if starts_with p rest then Some (before, rest) else find p (b :: before) r
  end.
(** [i.add_assign(n)] *)
Fixpoint advance (n : nat) (before rest : bytes) : bytes * bytes :=
  match n, rest with
  | S k, b :: r => advance k (b :: before) r
  | _, _ => (before, rest)
  end.
Fixpoint take_while (p : byte -> bool) (s : bytes) : bytes :=
  match s with
  | b :: r => if p b then b :: take_while p r else []
  | [] => []
  end.

(** read/reader.rs 88-134: get_table_def_strings, from a place. The walk back over the digits of the
    file name (116-118) cannot reach index 0 because "COPY " and " FROM stdin" come before it.
    A def that is not UTF-8 panics (122). One byte is skipped after each ".dat" (131). *)
Fixpoint toc_entries (fuel : nat) (before rest : bytes) : res (list (bytes * bytes)) :=
  match fuel with
  | O => Ok []
  | S fuel' =>
    match find (str "COPY ") before rest with
    | None => Ok []
    | Some (b1, r1) =>
      let '(b2, r2) := advance 5 b1 r1 in
      match find (str " FROM stdin") b2 r2 with
      | None => Ok []
      | Some (b3, r3) =>
        let def := firstn (length r2 - length r3) r2 in
        let '(b4, r4) := advance 11 b3 r3 in
        match find (str ".dat") b4 r4 with
        | None => Ok []
        | Some (b5, r5) =>
          let name := rev (take_while is_digit b5) ++ str ".dat" in
          if utf8_ok def then
            let '(b6, r6) := advance 4 b5 r5 in
            let '(b7, r7) := advance 1 b6 r6 in
            rest <- toc_entries fuel' b7 r7 ;; Ok ((def, name) :: rest)
          else Panic
        end
      end
    end
  end.
Definition get_table_def_strings (toc : bytes) : res (list (bytes * bytes)) := toc_entries (S (length toc)) [] toc.

(** [str::split(", ")] *)
Fixpoint split_comma (s : bytes) : list bytes :=
  match s with
  | [] => [[]]
  | b :: r =>
    match strip_prefix (str ", ") s, r with
    | Some _, _ :: r' => [] :: split_comma r'
    | _, _ => match split_comma r with p :: ps => (b :: p) :: ps | [] => [[b]] end
    end
  end.
(** reader.rs 39, 42-47: the regex "^([^ ]+) \((.+)\)$": the name up to the first space, then a
    parenthesised non-empty text without line feeds up to the end *)
Fixpoint split_space (s : bytes) : option (bytes * bytes) :=
  match s with
  | [] => None
  | b :: r => if Byte.eqb b x20 then Some ([], r) else match split_space r with Some (n, t) => Some (b :: n, t) | None => None end
  end.
Definition parse_def (s : bytes) : option (bytes * list bytes) :=
  match split_space s with
  | Some ((_ :: _) as name, b :: r) =>
    if Byte.eqb b x28 then
      match rev r with
      | c :: ((_ :: _) as m) => if Byte.eqb c x29 && negb (existsb (Byte.eqb x0a) m) then Some (name, split_comma (rev m)) else None
      | _ => None
      end
    else None
  | _ => None
  end.

(** ** Columns *)

(** [iter().position(|e| e == v)] *)
Fixpoint position (v : bytes) (l : list bytes) : option nat :=
  match l with
  | [] => None
  | a :: r => if bytes_eqb a v then Some O else match position v r with Some i => Some (S i) | None => None end
  end.
Fixpoint res_map {A B} (f : A -> res B) (l : list A) : res (list B) :=
  match l with
  | [] => Ok []
  | a :: r => b <- f a ;; bs <- res_map f r ;; Ok (b :: bs)
  end.
(** read/table_fields.rs 95-105: index *)
Definition field_index (fields : list bytes) (v : bytes) : res nat := of_option (position v fields).

(** read/table_fields.rs 107-120: is_of_interest *)
Definition read_tables : list table :=
  [T_nodes; T_node_tags; T_ways; T_way_nodes; T_way_tags; T_relations; T_relation_members; T_relation_tags; T_changesets; T_users].
Definition of_interest (name : bytes) : option table := List.find (fun t => bytes_eqb name (table_name t)) read_tables.

(** read/table_fields.rs 5-93, 122-264: the fields of a table, in the order of the struct *)
Definition field_names (t : table) : list bytes :=
  match t with
  | T_nodes => [str "node_id"; str "latitude"; str "longitude"; str "changeset_id"; str "visible";
                str """timestamp"""; str "tile"; str "version"; str "redaction_id"]
  | T_node_tags => [str "node_id"; str "version"; str "k"; str "v"]
  | T_ways => [str "way_id"; str "changeset_id"; str """timestamp"""; str "version"; str "visible"; str "redaction_id"]
  | T_way_nodes => [str "way_id"; str "node_id"; str "version"; str "sequence_id"]
  | T_way_tags => [str "way_id"; str "k"; str "v"; str "version"]
  | T_relations => [str "relation_id"; str "changeset_id"; str """timestamp"""; str "version"; str "visible"; str "redaction_id"]
  | T_relation_members => [str "relation_id"; str "member_type"; str "member_id"; str "member_role"; str "version"; str "sequence_id"]
  | T_relation_tags => [str "relation_id"; str "k"; str "v"; str "version"]
  | T_changesets => [str "id"; str "user_id"; str "created_at"; str "min_lat"; str "max_lat"; str "min_lon"; str "max_lon"; str "closed_at"; str "num_changes"]
  | T_users => [str "email"; str "id"; str "pass_crypt"; str "creation_time"; str "display_name"; str "data_public";
                str "description"; str "home_lat"; str "home_lon"; str "home_zoom"; str "pass_salt"; str "email_valid";
                str "new_email"; str "creation_ip"; str "languages"; str "status"; str "terms_agreed"; str "consider_pd";
                str "auth_uid"; str "preferred_editor"; str "terms_seen"; str "description_format"; str "changesets_count";
                str "traces_count"; str "diary_entries_count"; str "image_use_gravatar"; str "auth_provider"; str "home_tile"; str "tou_agreed"]
  | _ => []
  end.
Inductive ftype := FInteger | FString.
(** read/table_pkey.rs 12-76: the sort key of a table; [Field::new] counts columns from 1, here from 0 *)
Definition key_names (t : table) : list (bytes * ftype) :=
  match t with
  | T_nodes => [(str "node_id", FInteger); (str "version", FInteger)]
  | T_node_tags => [(str "node_id", FInteger); (str "version", FInteger); (str "k", FString)]
  | T_ways => [(str "way_id", FInteger); (str "version", FInteger)]
  | T_way_nodes => [(str "way_id", FInteger); (str "version", FInteger); (str "sequence_id", FInteger)]
  | T_way_tags => [(str "way_id", FInteger); (str "version", FInteger); (str "k", FString)]
  | T_relations => [(str "relation_id", FInteger); (str "version", FInteger)]
  | T_relation_members => [(str "relation_id", FInteger); (str "version", FInteger); (str "member_type", FString);
                           (str "member_id", FInteger); (str "member_role", FString); (str "sequence_id", FInteger)]
  | T_relation_tags => [(str "relation_id", FInteger); (str "version", FInteger); (str "k", FString)]
  | T_changesets => [(str "id", FInteger)]
  | T_users => [(str "id", FInteger)]
  | _ => []
  end.

(** read/table_def.rs 7-34: the file with the data of a table and the places of its fields and key *)
Record table_def := TableDef { td_file : bytes; td_fields : list nat; td_key : list (nat * ftype) }.
Definition table_def_new (t : table) (file : bytes) (fields : list bytes) : res table_def :=
  fs <- res_map (field_index fields) (field_names t) ;;
  ks <- res_map (fun k => i <- field_index fields (fst k) ;; Ok (i, snd k)) (key_names t) ;;
  Ok (TableDef file fs ks).

(** ** Rows *)

(** BufRead::read_line until the end: the lines, each with its line feed *)
Fixpoint lines_of (s : bytes) : list bytes :=
  match s with
  | [] => []
  | b :: r => if Byte.eqb b x0a then [x0a] :: lines_of r
              else match lines_of r with l :: ls => (b :: l) :: ls | [] => [[b]] end
  end.
(** read/table_reader.rs 508-525: the iteration ends at a line that is not UTF-8, starts with "\." or is empty *)
Definition data_line (l : bytes) : bool := utf8_ok l && negb (starts_with (str "\.") l) && negb (starts_with [x0a] l).
(** [line.trim_end_matches('\n')] *)
Fixpoint drop_lf (s : bytes) : bytes :=
  match s with b :: r => if Byte.eqb b x0a then drop_lf r else s | [] => [] end.
Definition columns (line : bytes) : list bytes := split_byte x09 (rev (drop_lf (rev line))).

(** [columns[*field]]; a missing column fails the assertion before it *)
Definition col (fs : list nat) (cols : list bytes) (k : nat) : res bytes :=
  match nth_error fs k with Some i => unwrap (nth_error cols i) | None => Panic end.

Record node_rec := NodeRec {
  nr_id : Z; nr_lat : Z; nr_lon : Z; nr_changeset : Z; nr_visible : bool; nr_time : Z * Z; nr_tile : Z; nr_version : Z; nr_redaction : option Z }.
(** rows of node_tags, way_tags and relation_tags *)
Record tag_rec := TagRec { tr_id : Z; tr_version : Z; tr_k : bytes; tr_v : bytes }.
(** rows of ways and of relations *)
Record obj_rec := ObjRec { or_id : Z; or_changeset : Z; or_time : Z * Z; or_version : Z; or_visible : bool; or_redaction : option Z }.
Record way_node_rec := WayNodeRec { wn_way : Z; wn_node : Z; wn_version : Z; wn_seq : Z }.
Record member_rec := MemberRec { mr_relation : Z; mr_type : mtype; mr_id : Z; mr_role : bytes; mr_version : Z; mr_seq : Z }.
Record changeset_rec := ChangesetRec { cr_id : Z; cr_user : Z; cr_created : Z * Z; cr_min_lat : Z; cr_max_lat : Z;
  cr_min_lon : Z; cr_max_lon : Z; cr_closed : Z * Z; cr_num : Z }.
(** only the columns the reader uses; [create_user] still parses the others *)
Record user_rec := UserRec { ur_id : Z; ur_name : bytes }.

Section Reader.
Variable unescape : bytes -> option bytes.

(** [unescape(c).unwrap_or(c.to_string())] *)
Definition unescaped (c : bytes) : bytes := match unescape c with Some s => s | None => c end.

Section Create.
Variable fs : list nat.
Variable line : bytes.
Let cols := columns line.
Let c := col fs cols.
(** table_reader.rs 137-170: create_node *)
Definition create_node : res node_rec :=
  id <- c 0%nat ;; la <- c 1%nat ;; lo <- c 2%nat ;; cs <- c 3%nat ;; vi <- c 4%nat ;; ti <- c 5%nat ;; tl <- c 6%nat ;; ve <- c 7%nat ;; re <- c 8%nat ;;
  id <- unwrap (parse_i64 id) ;; la <- unwrap (parse_i32 la) ;; lo <- unwrap (parse_i32 lo) ;; cs <- unwrap (parse_i64 cs) ;;
  vi <- unwrap (parse_sql_bool vi) ;; ti <- unwrap (parse_sql_time ti) ;; tl <- unwrap (parse_i64 tl) ;; ve <- unwrap (parse_i64 ve) ;;
  Ok (NodeRec id la lo cs vi ti tl ve (parse_i32 re)).
(** table_reader.rs 172-195: create_node_tag *)
Definition create_node_tag : res tag_rec :=
  id <- c 0%nat ;; ve <- c 1%nat ;; k <- c 2%nat ;; v <- c 3%nat ;;
  id <- unwrap (parse_i64 id) ;; ve <- unwrap (parse_i64 ve) ;; Ok (TagRec id ve (unescaped k) (unescaped v)).
(** table_reader.rs 251-273 and 335-357: create_way_tag, create_relation_tag *)
Definition create_tag : res tag_rec :=
  id <- c 0%nat ;; ve <- c 3%nat ;; k <- c 1%nat ;; v <- c 2%nat ;;
  id <- unwrap (parse_i64 id) ;; ve <- unwrap (parse_i64 ve) ;; Ok (TagRec id ve (unescaped k) (unescaped v)).
(** table_reader.rs 197-224 and 275-302: create_way, create_relation *)
Definition create_obj : res obj_rec :=
  id <- c 0%nat ;; cs <- c 1%nat ;; ti <- c 2%nat ;; ve <- c 3%nat ;; vi <- c 4%nat ;; re <- c 5%nat ;;
  id <- unwrap (parse_i64 id) ;; cs <- unwrap (parse_i64 cs) ;; ti <- unwrap (parse_sql_time ti) ;; ve <- unwrap (parse_i64 ve) ;;
  vi <- unwrap (parse_sql_bool vi) ;; Ok (ObjRec id cs ti ve vi (parse_i32 re)).
(** table_reader.rs 226-249: create_way_node *)
Definition create_way_node : res way_node_rec :=
  w <- c 0%nat ;; n <- c 1%nat ;; ve <- c 2%nat ;; se <- c 3%nat ;;
  w <- unwrap (parse_i64 w) ;; n <- unwrap (parse_i64 n) ;; ve <- unwrap (parse_i64 ve) ;; se <- unwrap (parse_i64 se) ;;
  Ok (WayNodeRec w n ve se).
(** read/relation_member_record.rs 10-40: try_from *)
Definition parse_member_type (s : bytes) : option mtype :=
  if bytes_eqb s (str "n") || bytes_eqb s (str "Node") then Some MNode
  else if bytes_eqb s (str "w") || bytes_eqb s (str "Way") then Some MWay
  else if bytes_eqb s (str "r") || bytes_eqb s (str "Relation") then Some MRelation else None.
(** table_reader.rs 304-333: create_relation_member *)
Definition create_relation_member : res member_rec :=
  r <- c 0%nat ;; ty <- c 1%nat ;; id <- c 2%nat ;; ro <- c 3%nat ;; ve <- c 4%nat ;; se <- c 5%nat ;;
  r <- unwrap (parse_i64 r) ;; ty <- unwrap (parse_member_type ty) ;; id <- unwrap (parse_i64 id) ;;
  ve <- unwrap (parse_i64 ve) ;; se <- unwrap (parse_i64 se) ;;
  Ok (MemberRec r ty id (unescaped ro) ve se).
(** table_reader.rs 359-392: create_changeset *)
Definition create_changeset : res changeset_rec :=
  id <- c 0%nat ;; us <- c 1%nat ;; cr <- c 2%nat ;; a <- c 3%nat ;; b <- c 4%nat ;; d <- c 5%nat ;; e <- c 6%nat ;; cl <- c 7%nat ;; nu <- c 8%nat ;;
  id <- unwrap (parse_i64 id) ;; us <- unwrap (parse_i64 us) ;; cr <- unwrap (parse_sql_time cr) ;; a <- unwrap (parse_i32 a) ;;
  b <- unwrap (parse_i32 b) ;; d <- unwrap (parse_i32 d) ;; e <- unwrap (parse_i32 e) ;; cl <- unwrap (parse_sql_time cl) ;; nu <- unwrap (parse_i32 nu) ;;
  Ok (ChangesetRec id us cr a b d e cl nu).
(** read/user_record.rs 13-37, 46-65: UserStatus::try_from, FormatEnum::try_from *)
Definition parse_status (s : bytes) : option unit :=
  if existsb (bytes_eqb s) [str "pending"; str "active"; str "confirmed"; str "suspended"; str "deleted"] then Some tt else None.
Definition parse_format (s : bytes) : option unit :=
  if existsb (bytes_eqb s) [str "html"; str "markdown"; str "text"] then Some tt else None.
(** table_reader.rs 394-467: create_user; only the conversions that can fail are kept *)
Definition create_user : res user_rec :=
  all <- res_map c (seq 0 29) ;;
  let g k := unwrap (nth_error all k) in
  id <- g 1%nat ;; id <- unwrap (parse_i64 id) ;;
  x <- g 3%nat ;; _ <- unwrap (parse_sql_time x) ;;
  name <- g 4%nat ;;
  x <- g 5%nat ;; _ <- unwrap (parse_sql_bool x) ;;
  x <- g 9%nat ;; _ <- unwrap (parse_i16 x) ;;
  x <- g 11%nat ;; _ <- unwrap (parse_sql_bool x) ;;
  x <- g 15%nat ;; _ <- unwrap (parse_status x) ;;
  x <- g 17%nat ;; _ <- unwrap (parse_sql_bool x) ;;
  x <- g 20%nat ;; _ <- unwrap (parse_sql_bool x) ;;
  x <- g 21%nat ;; _ <- unwrap (parse_format x) ;;
  x <- g 22%nat ;; _ <- unwrap (parse_i32 x) ;;
  x <- g 23%nat ;; _ <- unwrap (parse_i32 x) ;;
  x <- g 24%nat ;; _ <- unwrap (parse_i32 x) ;;
  x <- g 25%nat ;; _ <- unwrap (parse_sql_bool x) ;;
  Ok (UserRec id name).
End Create.

(** ** Joining rows *)

(** TableIterator::next, table_reader.rs 505-526, on the remaining lines *)
Definition table_next {R} (create : bytes -> res R) (ls : list bytes) : res (option R * list bytes) :=
  match ls with
  | [] => Ok (None, [])
  | l :: r => if data_line l then x <- create l ;; Ok (Some x, r) else Ok (None, r)
  end.
(** a [for] loop over a TableIterator *)
Fixpoint table_all {R} (create : bytes -> res R) (ls : list bytes) : res (list R) :=
  match ls with
  | [] => Ok []
  | l :: r => if data_line l then x <- create l ;; xs <- table_all create r ;; Ok (x :: xs) else Ok []
  end.
(** read/node_relations_reader.rs 66-78 (and the copies of it): the loop that collects the matching rows;
    the result is the rows, the lookahead and the remaining lines *)
Fixpoint gather {R} (create : bytes -> res R) (same : R -> bool) (ls : list bytes) : res (list R * option R * list bytes) :=
  match ls with
  | [] => Ok ([], None, [])
  | l :: r =>
    if data_line l then
      x <- create l ;;
      if same x then '(xs, la, r') <- gather create same r ;; Ok (x :: xs, la, r') else Ok ([], Some x, r)
    else Ok ([], None, r)
  end.
(** node_relations_reader.rs 62-95, way_relations_reader.rs 77-110 and 112-145, relation_relations_reader.rs
    76-109 and 111-144: the rows of one object, given the lookahead *)
Definition attach {R} (create : bytes -> res R) (same : R -> bool) (la : option R) (ls : list bytes)
    : res (list R * option R * list bytes) :=
  match la with
  | Some x => if same x then '(xs, la', r) <- gather create same ls ;; Ok (x :: xs, la', r) else Ok ([], Some x, ls)
  | None => gather create same ls
  end.

(** a dependent table being read: lookahead and remaining lines *)
Definition dep (R : Type) : Type := option R * list bytes.

(** the creation functions of the tables, with their fields *)
Record creators := Creators {
  mk_node : bytes -> res node_rec; mk_node_tag : bytes -> res tag_rec;
  mk_way : bytes -> res obj_rec; mk_way_node : bytes -> res way_node_rec; mk_way_tag : bytes -> res tag_rec;
  mk_relation : bytes -> res obj_rec; mk_member : bytes -> res member_rec; mk_relation_tag : bytes -> res tag_rec }.

Definition tag_same (id version : Z) (t : tag_rec) : bool := (tr_id t =? id) && (tr_version t =? version).
Definition way_node_same (id version : Z) (t : way_node_rec) : bool := (wn_way t =? id) && (wn_version t =? version).
Definition member_same (id version : Z) (t : member_rec) : bool := (mr_relation t =? id) && (mr_version t =? version).

(** node_relations_reader.rs 35-39, 59-109 *)
Record node_iter := NodeIter { ni_nodes : list bytes; ni_tags : dep tag_rec }.
Definition node_next (k : creators) (s : node_iter) : res (option (node_rec * list tag_rec) * node_iter) :=
  '(o, ls) <- table_next (mk_node k) (ni_nodes s) ;;
  match o with
  | None => Ok (None, NodeIter ls (ni_tags s))
  | Some n =>
    '(tags, la, tls) <- attach (mk_node_tag k) (tag_same (nr_id n) (nr_version n)) (fst (ni_tags s)) (snd (ni_tags s)) ;;
    Ok (Some (n, tags), NodeIter ls (la, tls))
  end.
(** way_relations_reader.rs 43-49, 72-160 *)
Record way_iter := WayIter { wi_ways : list bytes; wi_nodes : dep way_node_rec; wi_tags : dep tag_rec }.
Definition way_next (k : creators) (s : way_iter) : res (option (obj_rec * list way_node_rec * list tag_rec) * way_iter) :=
  '(o, ls) <- table_next (mk_way k) (wi_ways s) ;;
  match o with
  | None => Ok (None, WayIter ls (wi_nodes s) (wi_tags s))
  | Some w =>
    '(tags, la, tls) <- attach (mk_way_tag k) (tag_same (or_id w) (or_version w)) (fst (wi_tags s)) (snd (wi_tags s)) ;;
    '(nodes, la', nls) <- attach (mk_way_node k) (way_node_same (or_id w) (or_version w)) (fst (wi_nodes s)) (snd (wi_nodes s)) ;;
    Ok (Some (w, nodes, tags), WayIter ls (la', nls) (la, tls))
  end.
(** relation_relations_reader.rs 43-49, 73-160 *)
Record rel_iter := RelIter { ri_rels : list bytes; ri_members : dep member_rec; ri_tags : dep tag_rec }.
Definition rel_next (k : creators) (s : rel_iter) : res (option (obj_rec * list member_rec * list tag_rec) * rel_iter) :=
  '(o, ls) <- table_next (mk_relation k) (ri_rels s) ;;
  match o with
  | None => Ok (None, RelIter ls (ri_members s) (ri_tags s))
  | Some r =>
    '(tags, la, tls) <- attach (mk_relation_tag k) (tag_same (or_id r) (or_version r)) (fst (ri_tags s)) (snd (ri_tags s)) ;;
    '(members, la', mls) <- attach (mk_member k) (member_same (or_id r) (or_version r)) (fst (ri_members s)) (snd (ri_members s)) ;;
    Ok (Some (r, members, tags), RelIter ls (la', mls) (la, tls))
  end.

(** ** Elements *)

(** read/element_iterator.rs 20-36 *)
Inductive iter_state := Start | Nodes | Ways | Relations | End_.
Record eiter := EIter {
  ei_users : list (Z * bytes); ei_changesets : list (Z * Z); ei_state : iter_state;
  ei_nodes : node_iter; ei_ways : way_iter; ei_rels : rel_iter }.
(** [BtreeIndex::get(..).unwrap().unwrap()] *)
Fixpoint bt_get {V} (k : Z) (l : list (Z * V)) : res V :=
  match l with
  | [] => Panic
  | (k', v) :: r => if k' =? k then Ok v else bt_get k r
  end.
(** element_iterator.rs 127-128: [x as f64 / 10000000.0] *)
Definition dump_degrees (k : Z) : f64 := fdiv (f_of_Z k) (f_of_Z 10000000).
Definition tag_of (t : tag_rec) : tag := Tag (tr_k t) (tr_v t).
Definition member_of (m : member_rec) : member := Member (mr_type m) (mr_id m) (mr_role m).
(** element_iterator.rs 118-146 *)
Definition make_node (users : list (Z * bytes)) (changesets : list (Z * Z)) (n : node_rec) (tags : list tag_rec) : res element :=
  uid <- bt_get (nr_changeset n) changesets ;;
  user <- bt_get uid users ;;
  Ok (ENode (Node (nr_id n) (wrap32 (nr_version n)) (Coordinate (dump_degrees (nr_lat n)) (dump_degrees (nr_lon n)))
      (time_millis (nr_time n)) (nr_changeset n) (wrap32 uid) user (nr_visible n) (map tag_of tags))).
(** element_iterator.rs 158-185 *)
Definition make_way (users : list (Z * bytes)) (changesets : list (Z * Z)) (w : obj_rec) (nodes : list way_node_rec) (tags : list tag_rec) : res element :=
  uid <- bt_get (or_changeset w) changesets ;;
  user <- bt_get uid users ;;
  Ok (EWay (Way (or_id w) (wrap32 (or_version w)) (time_millis (or_time w)) (or_changeset w) (wrap32 uid) user (or_visible w)
      (map wn_node nodes) (map tag_of tags))).
(** element_iterator.rs 196-236 *)
Definition make_relation (users : list (Z * bytes)) (changesets : list (Z * Z)) (r : obj_rec) (members : list member_rec) (tags : list tag_rec) : res element :=
  uid <- bt_get (or_changeset r) changesets ;;
  user <- bt_get uid users ;;
  Ok (ERelation (Relation (or_id r) (wrap32 (or_version r)) (time_millis (or_time r)) (or_changeset r) (wrap32 uid) user (or_visible r)
      (map member_of members) (map tag_of tags))).

Definition set_state (s : eiter) (st : iter_state) : eiter := EIter (ei_users s) (ei_changesets s) st (ei_nodes s) (ei_ways s) (ei_rels s).
(** element_iterator.rs 104-242: next, when the state is not Start *)
Definition next_started (k : creators) (s : eiter) : res (option element * eiter) :=
  match ei_state s with
  | Start => Panic (* unreachable *)
  | Nodes =>
    '(o, ni) <- node_next k (ei_nodes s) ;;
    let s' := EIter (ei_users s) (ei_changesets s) Nodes ni (ei_ways s) (ei_rels s) in
    match o with
    | None => Ok (Some ESentinel, set_state s' Ways)
    | Some (n, tags) => e <- make_node (ei_users s) (ei_changesets s) n tags ;; Ok (Some e, s')
    end
  | Ways =>
    '(o, wi) <- way_next k (ei_ways s) ;;
    let s' := EIter (ei_users s) (ei_changesets s) Ways (ei_nodes s) wi (ei_rels s) in
    match o with
    | None => Ok (Some ESentinel, set_state s' Relations)
    | Some (w, nodes, tags) => e <- make_way (ei_users s) (ei_changesets s) w nodes tags ;; Ok (Some e, s')
    end
  | Relations =>
    '(o, ri) <- rel_next k (ei_rels s) ;;
    let s' := EIter (ei_users s) (ei_changesets s) Relations (ei_nodes s) (ei_ways s) ri in
    match o with
    | None => Ok (Some ESentinel, set_state s' End_)
    | Some (r, members, tags) => e <- make_relation (ei_users s) (ei_changesets s) r members tags ;; Ok (Some e, s')
    end
  | End_ => Ok (None, s)
  end.
Definition element_next (k : creators) (s : eiter) : res (option element * eiter) :=
  match ei_state s with
  | Start => next_started k (set_state s Nodes)
  | _ => next_started k s
  end.

(** ** Reader *)

Variable sort_file : list (nat * ftype) -> bytes -> res bytes.

(** reader.rs 13-15 and 71-86: the definitions and the sorted data of the tables; the HashMap is a list
    with the newest entry first *)
Definition reader : Type := list (table * (table_def * bytes)).
Fixpoint get_table {V} (t : table) (l : list (table * V)) : option V :=
  match l with
  | [] => None
  | (t', v) :: r => if table_eqb t' t then Some v else get_table t r
  end.
Definition put_table {V} (t : table) (v : V) (l : list (table * V)) : list (table * V) :=
  (t, v) :: filter (fun p => negb (table_eqb (fst p) t)) l.
(** reader.rs 40-60 *)
Fixpoint table_defs (raws : list (bytes * bytes)) (acc : list (table * table_def)) : res (list (table * table_def)) :=
  match raws with
  | [] => Ok acc
  | (def, file) :: r =>
    '(name, fields) <- unwrap (parse_def def) ;;
    match of_interest name with
    | None => table_defs r acc
    | Some t => d <- table_def_new t file fields ;; table_defs r (put_table t d acc)
    end
  end.
(** reader.rs 31-69: Reader::new *)
Definition reader_new (dir : bytes -> option bytes) : res reader :=
  toc <- of_option (dir (str "toc.dat")) ;;
  raws <- get_table_def_strings toc ;;
  defs <- table_defs raws [] ;;
  res_map (fun p => data <- of_option (dir (td_file (snd p))) ;; sorted <- sort_file (td_key (snd p)) data ;;
                    Ok (fst p, (snd p, sorted))) defs.

(** element_iterator.rs 39-72: ElementIterator::new; index_users and index_changesets (74-98) *)
Definition open_table (rd : reader) (t : table) : res (list nat * list bytes) :=
  match get_table t rd with Some (d, data) => Ok (td_fields d, lines_of data) | None => Err end.
Definition elements (rd : reader) : res (creators * eiter) :=
  '(fu, lu) <- unwrap_res (open_table rd T_users) ;;
  us <- table_all (create_user fu) lu ;;
  '(fc, lc) <- unwrap_res (open_table rd T_changesets) ;;
  cs <- table_all (create_changeset fc) lc ;;
  '(fn, ln) <- open_table rd T_nodes ;; '(fnt, lnt) <- open_table rd T_node_tags ;;
  '(fw, lw) <- open_table rd T_ways ;; '(fwn, lwn) <- open_table rd T_way_nodes ;; '(fwt, lwt) <- open_table rd T_way_tags ;;
  '(fr, lr) <- open_table rd T_relations ;; '(frm, lrm) <- open_table rd T_relation_members ;; '(frt, lrt) <- open_table rd T_relation_tags ;;
  Ok (Creators (create_node fn) (create_node_tag fnt) (create_obj fw) (create_way_node fwn) (create_tag fwt)
               (create_obj fr) (create_relation_member frm) (create_tag frt),
      EIter (bt_insert_all (map (fun u => (ur_id u, ur_name u)) us) [])
            (bt_insert_all (map (fun c => (cr_id c, cr_user c)) cs) []) Start
            (NodeIter ln (None, lnt)) (WayIter lw (None, lwn) (None, lwt)) (RelIter lr (None, lrm) (None, lrt))).
End Reader.
