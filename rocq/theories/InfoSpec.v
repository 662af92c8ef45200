(** Specification vocabulary for C62 and C68. *)
From Coq Require Import ZArith List Bool Strings.Byte Strings.String Reals.
From Verif Require Import Base Types FloatFacts FileFormat Spec FileSpec ModelSpec FileInfoModel.
Import ListNotations.
Open Scope Z_scope.

(** [v] is what the last of the values [l] is, [d] if there is none *)
Definition latest {A} (d : A) (l : list A) (v : A) : Prop := v = last l d.
(** the values a list of setter calls gives to one field, in order *)
Definition boxes_set (l : list setter) : list (option bbox) := flat_map (fun s => match s with SetBox v => [v] | _ => [] end) l.
Definition required_set (l : list setter) : list (list bytes) := flat_map (fun s => match s with SetRequired v => [v] | _ => [] end) l.
Definition optional_set (l : list setter) : list (list bytes) := flat_map (fun s => match s with SetOptional v => [v] | _ => [] end) l.
Definition program_set (l : list setter) : list (option bytes) :=
  flat_map (fun s => match s with SetProgram v => [v] | SetProgramStr v => [Some v] | _ => [] end) l.
Definition source_set (l : list setter) : list (option bytes) := flat_map (fun s => match s with SetSource v => [v] | _ => [] end) l.
Definition timestamp_set (l : list setter) : list (option Z) := flat_map (fun s => match s with SetTimestamp v => [v] | _ => [] end) l.
Definition sequence_set (l : list setter) : list (option Z) := flat_map (fun s => match s with SetSequence v => [v] | _ => [] end) l.
Definition url_set (l : list setter) : list (option bytes) := flat_map (fun s => match s with SetUrl v => [v] | _ => [] end) l.

(** a node with nothing but nodes before it *)
Definition leading (es : list element) (n : node) : Prop :=
  exists pre post, es = pre ++ ENode n :: post /\ all_nodes pre.
(** [b] is the least box with all the points in it *)
Definition least_box (P : coordinate -> Prop) (b : bbox) : Prop :=
  box_ok b /\ (forall p, P p -> in_box p b) /\ (forall o, (forall p, P p -> in_box p o) -> box_le b o).
(** [b] is the least box that contains all the given boxes *)
Definition least_cover (P : bbox -> Prop) (b : bbox) : Prop :=
  box_ok b /\ (forall x, P x -> box_le x b) /\ (forall o, (forall x, P x -> box_le x o) -> box_le b o).
(** on the globe: finite, longitude within 180 degrees and latitude within 90 *)
Definition on_globe (p : coordinate) : Prop :=
  f_finite (lon p) /\ f_finite (lat p) /\ (Rabs (f2r (lon p)) <= 180)%R /\ (Rabs (f2r (lat p)) <= 90)%R.
