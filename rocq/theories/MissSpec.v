(** Specification vocabulary for property C83: dump directories that lack something. *)
From Coq Require Import ZArith List Bool Strings.Byte Strings.String.
From Verif Require Import Base Types ApidbText ApidbSpec DumpSpec ApidbWrite ApidbRead DumpReadSpec.
Import ListNotations.
Open Scope Z_scope.

(** the directory has a table of contents, which lists the tables of [cat], each once *)
Definition catalogued (dir : bytes -> option bytes) (cat : catalogue) : Prop :=
  exists toc entries, dir (str "toc.dat") = Some toc /\ toc_text entries toc /\ NoDup (map (fun e => fst (fst e)) cat) /\
    Forall2 (fun e p => table_header (fst (fst e)) (snd (fst e)) (fst p) /\ snd e = snd p) cat entries.
Definition listed (cat : catalogue) (t : table) : Prop := exists cols file, In (table_name t, cols, file) cat.
(** the tables that hold the objects *)
Definition eight : list table := [T_nodes; T_node_tags; T_ways; T_way_nodes; T_way_tags; T_relations; T_relation_members; T_relation_tags].
Definition ten : list table := eight ++ [T_changesets; T_users].
(** a table of the dump [d] is there, with all its columns and well formed rows *)
Definition in_order (unescape : bytes -> option bytes) (dir : bytes -> option bytes) (cat : catalogue) (d : dump) (t : table) : Prop :=
  match t with
  | T_nodes => table_holds dir cat T_nodes node_says (d_nodes d)
  | T_node_tags => table_holds dir cat T_node_tags (tag_says unescape (str "node_id")) (d_node_tags d)
  | T_ways => table_holds dir cat T_ways (obj_says (str "way_id")) (d_ways d)
  | T_way_nodes => table_holds dir cat T_way_nodes way_node_says (d_way_nodes d)
  | T_way_tags => table_holds dir cat T_way_tags (tag_says unescape (str "way_id")) (d_way_tags d)
  | T_relations => table_holds dir cat T_relations (obj_says (str "relation_id")) (d_relations d)
  | T_relation_members => table_holds dir cat T_relation_members (member_says unescape) (d_members d)
  | T_relation_tags => table_holds dir cat T_relation_tags (tag_says unescape (str "relation_id")) (d_relation_tags d)
  | T_changesets => table_holds dir cat T_changesets changeset_says (d_changesets d)
  | T_users => table_holds dir cat T_users user_says (d_users d)
  | _ => True
  end.
