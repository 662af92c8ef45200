(** Specification vocabulary for property C92. *)
From Coq Require Import ZArith List Bool Strings.Byte Strings.String.
From Verif Require Import Base Types ApidbText ApidbWrite ApidbRead FileFormat DumpReadFails.
Import ListNotations.
Open Scope Z_scope.

Definition begins {A} (a b : list A) : Prop := exists c, b = a ++ c.
(** the same object, apart from its tags, nodes and members *)
Definition same_object (e e' : element) : Prop :=
  match e, e' with
  | ENode a, ENode b => b = Node (n_id a) (n_version a) (n_coord a) (n_timestamp a) (n_changeset a) (n_uid a) (n_user a) (n_visible a) (n_tags b)
  | EWay a, EWay b => b = Way (w_id a) (w_version a) (w_timestamp a) (w_changeset a) (w_uid a) (w_user a) (w_visible a) (w_refs b) (w_tags b)
  | ERelation a, ERelation b => b = Relation (r_id a) (r_version a) (r_timestamp a) (r_changeset a) (r_uid a) (r_user a) (r_visible a) (r_members b) (r_tags b)
  | _, _ => False
  end.
(** the same object with a beginning of its tags, nodes and members *)
Definition cut_object (e e' : element) : Prop :=
  same_object e e' /\
  match e, e' with
  | ENode a, ENode b => begins (n_tags b) (n_tags a)
  | EWay a, EWay b => begins (w_refs b) (w_refs a) /\ begins (w_tags b) (w_tags a)
  | ERelation a, ERelation b => begins (r_members b) (r_members a) /\ begins (r_tags b) (r_tags a)
  | _, _ => False
  end.
(** the first of [xs], each changed by [R] *)
Definition first_of (R : element -> element -> Prop) (xs xs' : list element) : Prop := exists ys, begins ys xs /\ Forall2 R ys xs'.
Definition stream (ns ws rs : list element) : list element := ns ++ [ESentinel] ++ ws ++ [ESentinel] ++ rs ++ [ESentinel].
(** a file cut between two rows *)
Definition cut_rows (data data' : bytes) : Prop := begins data' data /\ (data' = data \/ data' = [] \/ exists u, data' = u ++ [x0a]).
(** the same tables with other contents *)
Definition with_data (f : table -> bytes) (rd : reader) : reader := map (fun p => (fst p, (fst (snd p), f (fst p)))) rd.
(** the (sorted) data of a table of the reader *)
Definition data_of (rd : reader) (t : table) : bytes := match get_table t rd with Some (_, x) => x | None => [] end.
Definition ten_tables : list table := [T_users; T_changesets; T_nodes; T_node_tags; T_ways; T_way_nodes; T_way_tags; T_relations; T_relation_members; T_relation_tags].
