(** Specification vocabulary for property C77: the order of tags and members after a dump. *)
From Coq Require Import ZArith List Bool Strings.Byte Strings.String Permutation.
From Verif Require Import Base BaseFacts Types ApidbWrite ApidbText ApidbSpec DumpSpec ApidbRead DumpReadSpec RoundSpec.
Import ListNotations.
Local Notation length := List.length.
Local Notation concat := List.concat.
Open Scope Z_scope.

Section TextOrder.
(** the order in which the sorting crate puts texts *)
Variable before : bytes -> bytes -> Prop.
Definition text_order : Prop :=
  (forall a, ~ before a a) /\ (forall a b c, before a b -> before b c -> before a c) /\ (forall a b, before a b \/ a = b \/ before b a).
(** rows column by column: integers as numbers, texts by [before] *)
Fixpoint row_le (key : list (nat * ftype)) (a b : list bytes) : Prop :=
  match key with
  | [] => True
  | (i, FInteger) :: r => exists x y, plain (nth i a []) x /\ plain (nth i b []) y /\ (x < y \/ x = y /\ row_le r a b)
  | (i, FString) :: r => before (nth i a []) (nth i b []) \/ nth i a [] = nth i b [] /\ row_le r a b
  end.
(** as [sorts], with texts in this order; rows with equal keys in any order *)
Definition sorts_by (sort_file : list (nat * ftype) -> bytes -> res bytes) : Prop :=
  forall key rows file, copy_file rows file -> Forall clean_row rows -> Forall (keyed key) rows ->
  exists rows' lines', Permutation rows rows' /\ Forall2 copy_line rows' lines' /\
    sort_file key file = Ok (concat lines') /\ ordered (row_le key) rows'.

(** ** tags by their escaped keys; members by type name, id and escaped role *)
Variable escape : bytes -> bytes.
Definition tag_before (a b : tag) : Prop := before (escape (t_k a)) (escape (t_k b)) \/ t_k a = t_k b.
Definition member_before (a b : member) : Prop :=
  before (kind (m_type a)) (kind (m_type b)) \/
  (m_type a = m_type b /\
   (m_id a < m_id b \/ (m_id a = m_id b /\ (before (escape (m_role a)) (escape (m_role b)) \/ m_role a = m_role b)))).
Definition node_sorted (es : list element) (n : node) (e : element) : Prop :=
  exists uid name tags, most_recent (changesets_in es) (n_changeset n) uid /\ most_recent (users_in es) uid name /\
    Permutation tags (n_tags n) /\ ordered tag_before tags /\
    e = ENode (Node (n_id n) (n_version n) (snapped (n_coord n)) (whole_seconds (n_timestamp n)) (n_changeset n) uid name (n_visible n) tags).
Definition way_sorted (es : list element) (w : way) (e : element) : Prop :=
  exists uid name tags, most_recent (changesets_in es) (w_changeset w) uid /\ most_recent (users_in es) uid name /\
    Permutation tags (w_tags w) /\ ordered tag_before tags /\
    e = EWay (Way (w_id w) (w_version w) (whole_seconds (w_timestamp w)) (w_changeset w) uid name (w_visible w) (w_refs w) tags).
Definition relation_sorted (es : list element) (r : relation) (e : element) : Prop :=
  exists uid name members tags, most_recent (changesets_in es) (r_changeset r) uid /\ most_recent (users_in es) uid name /\
    Permutation members (r_members r) /\ ordered member_before members /\ Permutation tags (r_tags r) /\ ordered tag_before tags /\
    e = ERelation (Relation (r_id r) (r_version r) (whole_seconds (r_timestamp r)) (r_changeset r) uid name (r_visible r) members tags).
End TextOrder.

(** the same version of the same object *)
Definition same_object (a b : element) : Prop :=
  match a, b with
  | ENode x, ENode y => n_id x = n_id y /\ n_version x = n_version y
  | EWay x, EWay y => w_id x = w_id y /\ w_version x = w_version y
  | ERelation x, ERelation y => r_id x = r_id y /\ r_version x = r_version y
  | _, _ => False
  end.
Definition tags_in (e : element) : list tag :=
  match e with ENode x => n_tags x | EWay x => w_tags x | ERelation x => r_tags x | ESentinel => [] end.
