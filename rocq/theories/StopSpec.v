(** Specification vocabulary for property C80: dumps whose writer was stopped. *)
From Coq Require Import ZArith List Bool Strings.Byte Strings.String.
From Verif Require Import Base BaseFacts Types ApidbText ApidbSpec DumpSpec ApidbWrite ApidbRead DumpReadSpec RoundSpec.
Import ListNotations.
Local Notation length := List.length.
Open Scope Z_scope.

(** every table file holds the beginning of what was written to it, a closed one all of it *)
Definition on_disk (w : writer) (closed : list table) (disk : table -> bytes) : Prop :=
  (forall t, exists rest, files w t = disk t ++ rest) /\ forall t, In t closed -> disk t = files w t.
(** the directory: the table of contents, which is written first, and these table files *)
Definition leaves (disk : table -> bytes) (dir : bytes -> option bytes) : Prop :=
  (exists toc, dir (str "toc.dat") = Some toc /\ describes toc) /\ forall t, dir (table_file t) = Some (disk t).
(** sorting nothing gives nothing *)
Definition sorts_nothing (sort_file : list (nat * ftype) -> bytes -> res bytes) : Prop :=
  forall key s, sort_file key [] = Ok s -> s = [].
(** the file ends with a row, not in the middle of one *)
Definition whole_rows (data : bytes) : Prop := data = [] \/ exists u, data = u ++ [x0a].
(** the end marker is ignored, so it makes no difference to the sorting crate *)
Definition marker_ignored (sort_file : list (nat * ftype) -> bytes -> res bytes) : Prop :=
  forall key data, whole_rows data -> sort_file key (data ++ str "\." ++ [x0a]) = sort_file key data.

(** as many of the rows as the file has lines (the end marker may add one) *)
Definition line_feeds (data : bytes) : nat := length (filter (Byte.eqb x0a) data).
Definition kept {R} (disk : table -> bytes) (t : table) (rs : list R) : list R := firstn (line_feeds (disk t)) rs.
(** the rows on disk; [clocks] are the times at which the rows of changesets were written *)
Definition left_over (disk : table -> bytes) (es : list element) (users : list (Z * bytes)) (changesets : list (Z * Z)) (clocks : list Z) : DumpReadSpec.dump :=
  Dump (kept disk T_nodes (map node_record (nodes_in es)))
    (kept disk T_node_tags (flat_map (fun x => tag_records (n_id x) (n_version x) (n_tags x)) (nodes_in es)))
    (kept disk T_ways (map way_record (ways_in es)))
    (kept disk T_way_nodes (flat_map way_node_records (ways_in es)))
    (kept disk T_way_tags (flat_map (fun x => tag_records (w_id x) (w_version x) (w_tags x)) (ways_in es)))
    (kept disk T_relations (map relation_record (relations_in es)))
    (kept disk T_relation_members (flat_map member_records (relations_in es)))
    (kept disk T_relation_tags (flat_map (fun x => tag_records (r_id x) (r_version x) (r_tags x)) (relations_in es)))
    (kept disk T_changesets (map (fun p => changeset_record (fst p) (fst (snd p)) (snd (snd p))) (combine clocks changesets)))
    (kept disk T_users (map (fun u => UserRec (fst u) (snd u)) users)).
(** the users and changesets of the stream, each with its last value, by id *)
Definition authors_of (es : list element) (users : list (Z * bytes)) (changesets : list (Z * Z)) : Prop :=
  increasing (map fst users) /\ (forall uid name, In (uid, name) users <-> most_recent (users_in es) uid name) /\
  increasing (map fst changesets) /\ (forall id uid, In (id, uid) changesets <-> most_recent (changesets_in es) id uid).
