(** Specification vocabulary for property C76: reading a dump whose rows are well formed, whether or
    not every dependent row has its object and every object its changeset and user. *)
From Coq Require Import ZArith List Bool Strings.Byte Strings.String Permutation.
From Verif Require Import Base BaseFacts Types ApidbWrite ApidbRead DumpReadSpec FileFormat.
Import ListNotations.
Local Notation length := List.length.
Open Scope Z_scope.

(** the 32 bit integer [v] that a 64 bit column becomes *)
Definition as_i32 (z v : Z) : Prop := I32 v /\ (2 ^ 32 | z - v).

(** what there is to read: the objects, and the mark at the end of each type *)
Inductive item := ANode (r : node_rec) | AWay (r : obj_rec) | ARelation (r : obj_rec) | AMark.
(** nodes, ways and relations by id and version, each type followed by a mark *)
Definition items_of (d : dump) (items : list item) : Prop :=
  exists ns ws rs,
    Permutation ns (d_nodes d) /\ ordered (fun a b => key_lt (node_key a) (node_key b)) ns /\
    Permutation ws (d_ways d) /\ ordered (fun a b => key_lt (obj_key a) (obj_key b)) ws /\
    Permutation rs (d_relations d) /\ ordered (fun a b => key_lt (obj_key a) (obj_key b)) rs /\
    items = map ANode ns ++ [AMark] ++ map AWay ws ++ [AMark] ++ map ARelation rs ++ [AMark].
Definition changeset_of (i : item) : option Z :=
  match i with ANode r => Some (nr_changeset r) | AWay r => Some (or_changeset r) | ARelation r => Some (or_changeset r) | AMark => None end.
(** the changeset is missing, or its user *)
Definition unknown_author (d : dump) (i : item) : Prop :=
  exists c, changeset_of i = Some c /\ forall uid name, ~ author d c uid name.
(** the rows of an object in a dependent table: its own rows unless a row without an object sorts before them,
    then none *)
Definition tags_of_node (d : dump) := until_orphan tag_key (d_node_tags d) (map node_key (d_nodes d)) own_tags.
Definition tags_of_way (d : dump) := until_orphan tag_key (d_way_tags d) (map obj_key (d_ways d)) own_tags.
Definition nodes_of_way (d : dump) := until_orphan way_node_key (d_way_nodes d) (map obj_key (d_ways d)) own_nodes.
Definition tags_of_relation (d : dump) := until_orphan tag_key (d_relation_tags d) (map obj_key (d_relations d)) own_tags.
Definition members_of_relation (d : dump) := until_orphan member_key (d_members d) (map obj_key (d_relations d)) own_members.
Definition item_element (d : dump) (i : item) (e : element) : Prop :=
  match i with
  | ANode r => exists uid name ts v u, author d (nr_changeset r) uid name /\ tags_of_node d (node_key r) ts /\
      as_i32 (nr_version r) v /\ as_i32 uid u /\
      e = ENode (Node (nr_id r) v (Coordinate (degrees (nr_lat r)) (degrees (nr_lon r))) (millis (nr_time r))
                      (nr_changeset r) u name (nr_visible r) (map as_tag ts))
  | AWay r => exists uid name ns ts v u, author d (or_changeset r) uid name /\ nodes_of_way d (obj_key r) ns /\ tags_of_way d (obj_key r) ts /\
      as_i32 (or_version r) v /\ as_i32 uid u /\
      e = EWay (Way (or_id r) v (millis (or_time r)) (or_changeset r) u name (or_visible r) (map wn_node ns) (map as_tag ts))
  | ARelation r => exists uid name ms ts v u, author d (or_changeset r) uid name /\ members_of_relation d (obj_key r) ms /\ tags_of_relation d (obj_key r) ts /\
      as_i32 (or_version r) v /\ as_i32 uid u /\
      e = ERelation (Relation (or_id r) v (millis (or_time r)) (or_changeset r) u name (or_visible r) (map as_member ms) (map as_tag ts))
  | AMark => e = ESentinel
  end.
(** everything, or everything before the first object of unknown author and then a panic *)
Definition read_until (d : dump) (items : list item) (l : list element) (o : ending) : Prop :=
  (o = Ended /\ Forall2 (item_element d) items l) \/
  (o = Panicked /\ exists before i after, items = before ++ i :: after /\ Forall2 (item_element d) before l /\ unknown_author d i).
