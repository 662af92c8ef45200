(** Specification vocabulary for property C102: reading back a dump whose writer was closed several times. *)
From Coq Require Import ZArith List Bool Strings.Byte Strings.String Permutation.
From Verif Require Import Base Types ApidbText DumpSpec ApidbWrite ApidbRead DumpReadSpec RoundSpec StopSpec.
Import ListNotations.
Local Notation concat := List.concat.
Open Scope Z_scope.

(** an end marker is ignored wherever it stands on a line of its own (reader.rs 72-82: with_ignore_lines on ^\\\.$) *)
Definition markers_ignored (sort_file : list (nat * ftype) -> bytes -> res bytes) : Prop :=
  forall key a b, whole_rows a -> sort_file key (a ++ (str "\." ++ [x0a]) ++ b) = sort_file key (a ++ b).
(** one of the pairs the closes have recorded, for every key: the most recent before one of the closes *)
Definition recorded {V} (of : list element -> list (Z * V)) (ss : list (list element)) (l : list (Z * V)) : Prop :=
  NoDup (map fst l) /\ (forall k, In k (map fst l) <-> In k (map fst (of (concat ss)))) /\
  forall k v, In (k, v) l -> exists before after, ss = before ++ after /\ before <> [] /\ most_recent (of (concat before)) k v.
(** as node_back, way_back and relation_back, with the user of the changeset and the name of the user from these lists *)
Definition node_as (changesets : list (Z * Z)) (users : list (Z * bytes)) (n : node) (e : element) : Prop :=
  exists uid name tags, In (n_changeset n, uid) changesets /\ In (uid, name) users /\ Permutation tags (n_tags n) /\
    e = ENode (Node (n_id n) (n_version n) (snapped (n_coord n)) (whole_seconds (n_timestamp n)) (n_changeset n) uid name (n_visible n) tags).
Definition way_as (changesets : list (Z * Z)) (users : list (Z * bytes)) (w : way) (e : element) : Prop :=
  exists uid name tags, In (w_changeset w, uid) changesets /\ In (uid, name) users /\ Permutation tags (w_tags w) /\
    e = EWay (Way (w_id w) (w_version w) (whole_seconds (w_timestamp w)) (w_changeset w) uid name (w_visible w) (w_refs w) tags).
Definition relation_as (changesets : list (Z * Z)) (users : list (Z * bytes)) (r : relation) (e : element) : Prop :=
  exists uid name members tags, In (r_changeset r, uid) changesets /\ In (uid, name) users /\
    Permutation members (r_members r) /\ by_member_id members /\ Permutation tags (r_tags r) /\
    e = ERelation (Relation (r_id r) (r_version r) (whole_seconds (r_timestamp r)) (r_changeset r) uid name (r_visible r) members tags).
