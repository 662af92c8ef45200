(** Iterating an API DB dump whose (sorted) tables lie on a disk that fails. *)
From Coq Require Import ZArith List Bool Strings.Byte Strings.String.
From Verif Require Import Base Types ApidbText ApidbWrite ApidbRead.
Import ListNotations.
Open Scope Z_scope.

(** src/osm/apidb_dump/read/table_reader.rs 508-526: [Err(_) => None]: a failed read_line has the effect of a line that is not UTF-8,
    by which it is represented here *)
Definition failed : bytes := [xff].
(** BufRead::read_line on a file with the remaining content [s]: the results of successive calls. A failing call may have consumed and lost
    some bytes, but no line feed; the next call, if there is one, goes on behind them. The list ends at the end of the file or when
    all further calls fail. *)
Inductive read_lines : bytes -> list bytes -> Prop :=
| rl_stop s : read_lines s []
| rl_line a s ls : ~ In x0a a -> read_lines s ls -> read_lines (a ++ x0a :: s) ((a ++ [x0a]) :: ls)
| rl_last a ls : ~ In x0a a -> a <> [] -> read_lines [] ls -> read_lines a (a :: ls)
| rl_error a s ls : ~ In x0a a -> read_lines s ls -> read_lines (a ++ s) (failed :: ls).
(** the same when no call succeeds after one has failed *)
Inductive dies : bytes -> list bytes -> Prop :=
| di_stop s : dies s []
| di_line a s ls : ~ In x0a a -> dies s ls -> dies (a ++ x0a :: s) ((a ++ [x0a]) :: ls)
| di_last a : ~ In x0a a -> a <> [] -> dies a [a].

Section Fails.
Variable unescape : bytes -> option bytes.
Variable rd : reader.
(** which files can be opened, and what the read_line calls of each table give *)
Variable opens : table -> bool.
Variable lines : table -> list bytes.
Definition got (t : table) : res (list nat) := match get_table t rd with Some (d, _) => Ok (td_fields d) | None => Err end.
(** table_reader.rs 470-478 (into_iter) and 487-501: TableIterator::new is unwrapped *)
Definition opened (t : table) : res (list bytes) := if opens t then Ok (lines t) else Panic.
(** element_iterator.rs 39-98; node_relations_reader.rs 41-54, way_relations_reader.rs 51-67, relation_relations_reader.rs 51-67 open
    the files of a group after the definitions of the group were found *)
Definition elements_on : res (creators * eiter) :=
  fu <- unwrap_res (got T_users) ;; lu <- opened T_users ;; us <- table_all (create_user fu) lu ;;
  fc <- unwrap_res (got T_changesets) ;; lc <- opened T_changesets ;; cs <- table_all (create_changeset fc) lc ;;
  fn <- got T_nodes ;; fnt <- got T_node_tags ;; ln <- opened T_nodes ;; lnt <- opened T_node_tags ;;
  fw <- got T_ways ;; fwn <- got T_way_nodes ;; fwt <- got T_way_tags ;; lw <- opened T_ways ;; lwn <- opened T_way_nodes ;; lwt <- opened T_way_tags ;;
  fr <- got T_relations ;; frm <- got T_relation_members ;; frt <- got T_relation_tags ;; lr <- opened T_relations ;; lrm <- opened T_relation_members ;; lrt <- opened T_relation_tags ;;
  Ok (Creators (create_node fn) (create_node_tag unescape fnt) (create_obj fw) (create_way_node fwn) (create_tag unescape fwt)
               (create_obj fr) (create_relation_member unescape frm) (create_tag unescape frt),
      EIter (bt_insert_all (map (fun u => (ur_id u, ur_name u)) us) [])
            (bt_insert_all (map (fun c => (cr_id c, cr_user c)) cs) []) Start
            (NodeIter ln (None, lnt)) (WayIter lw (None, lwn) (None, lwt)) (RelIter lr (None, lrm) (None, lrt))).
End Fails.
