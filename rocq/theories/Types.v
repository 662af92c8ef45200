(** Data types of src/osm/model and binary64. *)
From Coq Require Import ZArith List Bool Strings.Byte Strings.String.
From Coq Require Import Floats.SpecFloat.
From Verif Require Import Base.
Import ListNotations.
Open Scope Z_scope.

(** f64: IEEE-754 binary64, all operations round to nearest even. Model of the
    Rust primitive type (NaN payloads are not modelled, one NaN). *)
Definition f64 := spec_float.
Definition fmul (a b : f64) : f64 := SFmul 53 1024 a b.
Definition fdiv (a b : f64) : f64 := SFdiv 53 1024 a b.
Definition fadd (a b : f64) : f64 := SFadd 53 1024 a b.
Definition fsub (a b : f64) : f64 := SFsub 53 1024 a b.
(** [a < b] and [a <= b] on f64 (false when either is NaN). *)
Definition flt (a b : f64) : bool := SFltb a b.
Definition fle (a b : f64) : bool := SFleb a b.

(** [z as f64] for an integer: nearest binary64. *)
Definition f_of_Z (z : Z) : f64 := binary_normalize 53 1024 z 0 false.

(** [x.round()] followed by [as i64]: round half away from zero, then the
    saturating cast (NaN to 0). The f64 result of round is always exact. *)
Definition clamp (lo hi z : Z) : Z := if z <? lo then lo else if hi <? z then hi else z.
Definition round_mag (m : positive) (e : Z) : Z :=
  if 0 <=? e then Zpos m * 2 ^ e
  else (Zpos m + 2 ^ (- e - 1)) / 2 ^ (- e).
Definition trunc_mag (m : positive) (e : Z) : Z :=
  if 0 <=? e then Zpos m * 2 ^ e else Zpos m / 2 ^ (- e).
Definition f_int (mag : positive -> Z -> Z) (lo hi : Z) (x : f64) : Z :=
  match x with
  | S754_zero _ => 0
  | S754_infinity s => if s then lo else hi
  | S754_nan => 0
  | S754_finite s m e => clamp lo hi (if s then - mag m e else mag m e)
  end.
Definition f_round_i64 (x : f64) : Z := f_int round_mag min_i64 max_i64 x.
(** [x as i64]: truncation toward zero, saturating. *)
Definition f_trunc_i64 (x : f64) : Z := f_int trunc_mag min_i64 max_i64 x.
(** [x.round() as u64]. *)
Definition f_round_u64 (x : f64) : Z := f_int round_mag 0 (two64 - 1) x.

(** src/osm/model/coordinate.rs 1-30 *)
Record coordinate := Coordinate { lat : f64; lon : f64 }.

(** src/osm/model/coordinate.rs 19-21 and 27-29: [(x * 1E7).round() as i64] *)
Definition lat7 (c : coordinate) : Z := f_round_i64 (fmul (lat c) (f_of_Z 10000000)).
Definition lon7 (c : coordinate) : Z := f_round_i64 (fmul (lon c) (f_of_Z 10000000)).

(** src/osm/model/tag.rs 1-22 *)
Record tag := Tag { t_k : bytes; t_v : bytes }.

(** src/osm/model/node.rs 4-15 *)
Record node := Node {
  n_id : Z; n_version : Z; n_coord : coordinate; n_timestamp : Z; n_changeset : Z;
  n_uid : Z; n_user : bytes; n_visible : bool; n_tags : list tag }.

(** src/osm/model/way.rs 3-14 *)
Record way := Way {
  w_id : Z; w_version : Z; w_timestamp : Z; w_changeset : Z;
  w_uid : Z; w_user : bytes; w_visible : bool; w_refs : list Z; w_tags : list tag }.

(** src/osm/model/relation.rs 3-36: the three Member variants carry the same data *)
Inductive mtype := MNode | MWay | MRelation.
Record member := Member { m_type : mtype; m_id : Z; m_role : bytes }.

(** src/osm/model/relation.rs 38-49 *)
Record relation := Relation {
  r_id : Z; r_version : Z; r_timestamp : Z; r_changeset : Z;
  r_uid : Z; r_user : bytes; r_visible : bool; r_members : list member; r_tags : list tag }.

(** src/osm/model/element.rs 7-19 *)
Inductive element :=
| ENode (n : node)
| EWay (w : way)
| ERelation (r : relation)
| ESentinel.

(** src/osm/model/element.rs 22-57: Element::same_type *)
Definition same_type (a b : element) : bool :=
  match a, b with
  | ENode _, ENode _ => true
  | EWay _, EWay _ => true
  | ERelation _, ERelation _ => true
  | ESentinel, ESentinel => true
  | _, _ => false
  end.

(** src/osm/model/element.rs 59-125: is_node, is_way, is_relation, is_sentinel *)
Definition is_node (e : element) : bool := match e with ENode _ => true | _ => false end.
Definition is_way (e : element) : bool := match e with EWay _ => true | _ => false end.
Definition is_relation (e : element) : bool := match e with ERelation _ => true | _ => false end.
Definition is_sentinel (e : element) : bool := match e with ESentinel => true | _ => false end.

(** src/osm/model/element.rs 130-205: PartialEq, by type, id and version only *)
Definition element_eq (a b : element) : bool :=
  match a, b with
  | ENode x, ENode y => (n_id x =? n_id y) && (n_version x =? n_version y)
  | EWay x, EWay y => (w_id x =? w_id y) && (w_version x =? w_version y)
  | ERelation x, ERelation y => (r_id x =? r_id y) && (r_version x =? r_version y)
  | ESentinel, ESentinel => true
  | _, _ => false
  end.

(** i64/i32 [cmp] then version, element.rs 221-231, 252-262, 283-293 *)
Definition cmp_id_version (i1 v1 i2 v2 : Z) : comparison :=
  match i1 ?= i2 with
  | Lt => Lt
  | Eq => v1 ?= v2
  | Gt => Gt
  end.

(** src/osm/model/element.rs 213-318: Ord for Element, every arm as written
    (a Sentinel is Less than everything and everything is Less than a Sentinel) *)
Definition element_cmp (a b : element) : comparison :=
  match a with
  | ENode x =>
    match b with
    | ENode y => cmp_id_version (n_id x) (n_version x) (n_id y) (n_version y)
    | EWay _ => Lt | ERelation _ => Lt | ESentinel => Lt
    end
  | EWay x =>
    match b with
    | ENode _ => Gt
    | EWay y => cmp_id_version (w_id x) (w_version x) (w_id y) (w_version y)
    | ERelation _ => Lt | ESentinel => Lt
    end
  | ERelation x =>
    match b with
    | ENode _ => Gt | EWay _ => Gt
    | ERelation y => cmp_id_version (r_id x) (r_version x) (r_id y) (r_version y)
    | ESentinel => Lt
    end
  | ESentinel =>
    match b with
    | ENode _ => Lt | EWay _ => Lt | ERelation _ => Lt | ESentinel => Eq
    end
  end.

(** src/osm/model/bounding_box.rs 8-14 *)
Record bbox := BBox { bb_left : f64; bb_bottom : f64; bb_right : f64; bb_top : f64 }.

(** src/osm/model/bounding_box.rs 26-28: from_point *)
Definition bb_from_point (c : coordinate) : bbox := BBox (lon c) (lat c) (lon c) (lat c).

(** src/osm/model/bounding_box.rs 30-46: merge_point *)
Definition bb_merge_point (b : bbox) (c : coordinate) : bbox :=
  BBox (if flt (lon c) (bb_left b) then lon c else bb_left b)
       (if flt (lat c) (bb_bottom b) then lat c else bb_bottom b)
       (if flt (bb_right b) (lon c) then lon c else bb_right b)
       (if flt (bb_top b) (lat c) then lat c else bb_top b).

(** src/osm/model/bounding_box.rs 48-64: merge_bounding_box *)
Definition bb_merge (b o : bbox) : bbox :=
  BBox (if flt (bb_left o) (bb_left b) then bb_left o else bb_left b)
       (if flt (bb_bottom o) (bb_bottom b) then bb_bottom o else bb_bottom b)
       (if flt (bb_right b) (bb_right o) then bb_right o else bb_right b)
       (if flt (bb_top b) (bb_top o) then bb_top o else bb_top b).

(** src/osm/model/bounding_box.rs 117-121: Default *)
Definition bb_default : bbox :=
  BBox (f_of_Z (-180)) (f_of_Z (-90)) (f_of_Z 180) (f_of_Z 90).
