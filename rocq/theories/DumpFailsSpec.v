(** Specification vocabulary for property C89: the rows of the history tables, call by call. *)
From Coq Require Import ZArith List Strings.Byte Strings.String.
From Verif Require Import Base Types ApidbText ApidbSpec DumpSpec ApidbWrite DumpCalls.
Import ListNotations.
Open Scope Z_scope.

(** the tables that get the rows of all versions *)
Definition history_tables : list table := [T_nodes; T_node_tags; T_ways; T_way_tags; T_way_nodes; T_relations; T_relation_tags; T_relation_members].
Definition history_rows (t : table) (e : element) : list (list value) :=
  match t, e with
  | T_nodes, ENode n => [node_row n]
  | T_node_tags, ENode n => node_tag_rows n
  | T_ways, EWay w => [way_row w]
  | T_way_tags, EWay w => way_tag_rows w
  | T_way_nodes, EWay w => way_node_rows w
  | T_relations, ERelation r => [relation_row r]
  | T_relation_tags, ERelation r => relation_tag_rows r
  | T_relation_members, ERelation r => relation_member_rows r
  | _, _ => []
  end.
(** the text a call adds to a history table: its rows, or the end marker *)
Definition call_text (esc : bytes -> bytes) (t : table) (c : dcall) (text : bytes) : Prop :=
  match c with
  | DElement e => exists lines, Forall2 (row_text esc) (history_rows t e) lines /\ text = List.concat lines
  | DClose => text = str "\." ++ [x0a]
  end.
