(** Specification vocabulary for the data model: order of elements, numbers, boxes, strings. *)
From Coq Require Import ZArith List Bool Strings.Byte Strings.String Reals.
From Coq Require Import Floats.SpecFloat.
From Verif Require Import Base BaseFacts Types FloatFacts Spec.
Import ListNotations.
Open Scope Z_scope.

(** ** Order of elements: nodes before ways before relations, then by id, then by version *)
Definition type_rank (e : element) : Z :=
  match e with ENode _ => 0 | EWay _ => 1 | ERelation _ => 2 | ESentinel => 3 end.
Definition element_id (e : element) : Z :=
  match e with ENode n => n_id n | EWay w => w_id w | ERelation r => r_id r | ESentinel => 0 end.
Definition element_version (e : element) : Z :=
  match e with ENode n => n_version n | EWay w => w_version w | ERelation r => r_version r | ESentinel => 0 end.
Definition not_sentinel (e : element) : Prop := e <> ESentinel.
Definition precedes (a b : element) : Prop :=
  type_rank a < type_rank b \/
  type_rank a = type_rank b /\ (element_id a < element_id b \/
    element_id a = element_id b /\ element_version a < element_version b).
Definition same_place (a b : element) : Prop :=
  type_rank a = type_rank b /\ element_id a = element_id b /\ element_version a = element_version b.

(** ** Numbers: a binary64 that is not NaN, ordered as extended reals *)
Definition number (x : f64) : Prop := f_valid x /\ x <> S754_nan.
Definition num_le (x y : f64) : Prop :=
  match x, y with
  | S754_nan, _ | _, S754_nan => False
  | S754_infinity true, _ => True
  | _, S754_infinity false => True
  | S754_infinity false, _ => False
  | _, S754_infinity true => False
  | _, _ => (f2r x <= f2r y)%R
  end.
(** equal as numbers: the two zeros are equal *)
Definition num_eq (x y : f64) : Prop := num_le x y /\ num_le y x.

(** ** Boxes *)
Definition box_ok (b : bbox) : Prop :=
  number (bb_left b) /\ number (bb_bottom b) /\ number (bb_right b) /\ number (bb_top b).
Definition point_ok (c : coordinate) : Prop := number (lat c) /\ number (lon c).
(** the point lies in the closed box *)
Definition in_box (c : coordinate) (b : bbox) : Prop :=
  num_le (bb_left b) (lon c) /\ num_le (lon c) (bb_right b) /\
  num_le (bb_bottom b) (lat c) /\ num_le (lat c) (bb_top b).
(** bound by bound, [a] lies within [b] *)
Definition box_le (a b : bbox) : Prop :=
  num_le (bb_left b) (bb_left a) /\ num_le (bb_right a) (bb_right b) /\
  num_le (bb_bottom b) (bb_bottom a) /\ num_le (bb_top a) (bb_top b).
Definition box_eq (a b : bbox) : Prop := box_le a b /\ box_le b a.

(** ** Strings *)
(** the UTF-8 encodings of the characters with the Unicode property White_Space *)
Definition whitespace : list bytes :=
  [[x09]; [x0a]; [x0b]; [x0c]; [x0d]; [x20]; [xc2; x85]; [xc2; xa0]; [xe1; x9a; x80];
   [xe2; x80; x80]; [xe2; x80; x81]; [xe2; x80; x82]; [xe2; x80; x83]; [xe2; x80; x84]; [xe2; x80; x85];
   [xe2; x80; x86]; [xe2; x80; x87]; [xe2; x80; x88]; [xe2; x80; x89]; [xe2; x80; x8a];
   [xe2; x80; xa8]; [xe2; x80; xa9]; [xe2; x80; xaf]; [xe2; x81; x9f]; [xe3; x80; x80]].
(** [t] is [s] without the white space around it *)
Definition trimmed (s t : bytes) : Prop :=
  exists pre post, s = List.concat pre ++ t ++ List.concat post /\
    Forall (fun w => In w whitespace) pre /\ Forall (fun w => In w whitespace) post /\
    (forall w r, In w whitespace -> t <> w ++ r) /\ (forall w r, In w whitespace -> t <> r ++ w).
Definition no_comma (s : bytes) : Prop := ~ In x2c s.
