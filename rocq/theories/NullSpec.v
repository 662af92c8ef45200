(** Specification vocabulary for property C93: dumps with rows that cannot be read, and the tables as texts. *)
From Coq Require Import ZArith List Bool Strings.Byte Strings.String.
From Verif Require Import Base Types ApidbText ApidbSpec DumpSpec ApidbWrite ApidbRead DumpReadSpec FieldSpec MissSpec.
Import ListNotations.
Open Scope Z_scope.

(** the columns the table is sorted by as numbers *)
Definition number_columns (t : table) : list bytes :=
  match t with
  | T_nodes | T_node_tags => [str "node_id"; str "version"]
  | T_ways | T_way_tags => [str "way_id"; str "version"]
  | T_way_nodes => [str "way_id"; str "version"; str "sequence_id"]
  | T_relations | T_relation_tags => [str "relation_id"; str "version"]
  | T_relation_members => [str "relation_id"; str "version"; str "member_id"; str "sequence_id"]
  | T_changesets | T_users => [str "id"]
  | _ => []
  end.
(** a table whose rows are [rows]: the number columns hold numbers, the others any text *)
Definition text_table (dir : bytes -> option bytes) (cat : catalogue) (t : table) (rows : list row_of) : Prop :=
  table_holds dir cat t (fun r w => r = w /\ Forall (fun c => exists z, int64 z (w c)) (number_columns t)) rows.

(** the text of the column means something *)
Definition fits {A} (reads : bytes -> A -> Prop) (w : row_of) (c : string) : Prop := exists v, reads (w (str c)) v.
Definition one_of (l : list string) (w : row_of) (c : string) : Prop := In (w (str c)) (map str l).
Definition readable_row (t : table) (w : row_of) : Prop :=
  match t with
  | T_nodes => Forall (fits reads_i64 w) ["node_id"; "changeset_id"; "tile"; "version"]%string /\ Forall (fits reads_i32 w) ["latitude"; "longitude"]%string /\
      fits reads_bool w "visible" /\ fits reads_time w """timestamp"""
  | T_node_tags => Forall (fits reads_i64 w) ["node_id"; "version"]%string
  | T_ways => Forall (fits reads_i64 w) ["way_id"; "changeset_id"; "version"]%string /\ fits reads_bool w "visible" /\ fits reads_time w """timestamp"""
  | T_way_tags => Forall (fits reads_i64 w) ["way_id"; "version"]%string
  | T_way_nodes => Forall (fits reads_i64 w) ["way_id"; "node_id"; "version"; "sequence_id"]%string
  | T_relations => Forall (fits reads_i64 w) ["relation_id"; "changeset_id"; "version"]%string /\ fits reads_bool w "visible" /\ fits reads_time w """timestamp"""
  | T_relation_tags => Forall (fits reads_i64 w) ["relation_id"; "version"]%string
  | T_relation_members => Forall (fits reads_i64 w) ["relation_id"; "member_id"; "version"; "sequence_id"]%string /\ fits reads_kind w "member_type"
  | T_changesets => Forall (fits reads_i64 w) ["id"; "user_id"]%string /\ Forall (fits reads_time w) ["created_at"; "closed_at"]%string /\
      Forall (fits reads_i32 w) ["min_lat"; "max_lat"; "min_lon"; "max_lon"; "num_changes"]%string
  | T_users => fits reads_i64 w "id" /\ fits reads_time w "creation_time" /\ fits reads_i16 w "home_zoom" /\
      Forall (fits reads_bool w) ["data_public"; "email_valid"; "consider_pd"; "terms_seen"; "image_use_gravatar"]%string /\
      Forall (fits reads_i32 w) ["changesets_count"; "traces_count"; "diary_entries_count"]%string /\
      one_of ["pending"; "active"; "confirmed"; "suspended"; "deleted"]%string w "status" /\ one_of ["html"; "markdown"; "text"]%string w "description_format"
  | _ => True
  end.
(** the text of column [c] of [w] and of column [c'] of some row of [rows] mean the same number *)
Definition refers (w : row_of) (c : string) (rows : list row_of) (c' : string) : Prop :=
  exists x w', In w' rows /\ reads_i64 (w (str c)) x /\ reads_i64 (w' (str c')) x.
(** columns that may not be NULL *)
Definition not_null (t : table) : list string :=
  match t with
  | T_nodes => ["node_id"; "latitude"; "longitude"; "changeset_id"; "visible"; """timestamp"""; "tile"; "version"]%string
  | T_node_tags => ["node_id"; "version"]%string
  | T_ways => ["way_id"; "changeset_id"; """timestamp"""; "version"; "visible"]%string
  | T_way_nodes => ["way_id"; "node_id"; "version"; "sequence_id"]%string
  | T_way_tags => ["way_id"; "version"]%string
  | T_relations => ["relation_id"; "changeset_id"; """timestamp"""; "version"; "visible"]%string
  | T_relation_members => ["relation_id"; "member_type"; "member_id"; "version"; "sequence_id"]%string
  | T_relation_tags => ["relation_id"; "version"]%string
  | T_changesets => ["id"; "user_id"; "created_at"; "min_lat"; "max_lat"; "min_lon"; "max_lon"; "closed_at"; "num_changes"]%string
  | T_users => ["id"; "creation_time"; "home_zoom"; "data_public"; "email_valid"; "consider_pd"; "terms_seen"; "image_use_gravatar";
      "changesets_count"; "traces_count"; "diary_entries_count"; "status"; "description_format"]%string
  | _ => []
  end.
(** the tables with objects, in the order of the iteration *)
Definition before_objects (t : table) : option nat := match t with T_nodes => Some 0%nat | T_ways => Some 1%nat | T_relations => Some 2%nat | _ => None end.
Definition sentinels (es : list element) : nat := List.length (filter (fun e => match e with ESentinel => true | _ => false end) es).
(** the two rows belong to the same version of the same object *)
Definition same_version (c : string) (w w' : row_of) : Prop := refers w c [w'] c /\ refers w "version" [w'] "version".
(** tables whose rows belong to an object and may be unreadable: the objects, the column of their ids, the sentinels before them *)
Definition parts_of (t : table) : option (table * string * nat) :=
  match t with
  | T_way_nodes => Some (T_ways, "way_id"%string, 1%nat)
  | T_relation_members => Some (T_relations, "relation_id"%string, 2%nat)
  | _ => None
  end.
