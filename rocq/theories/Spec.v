(** Specification vocabulary: what the properties say, in terms of the data
    types only. Nothing here mentions a function of the model of the code
    (BaseFacts, ProtoFacts, BlockFacts and FloatFacts are used for the ranges
    of integer types, UTF-8 validity and the real value of a binary64). *)
From Coq Require Import ZArith List Bool Strings.Byte Strings.String Reals.
From Verif Require Import Base BaseFacts Types ProtoFacts BlockFacts FloatFacts.
Import ListNotations.
Open Scope Z_scope.

(** what the format allows for a block: its size fits an i32 *)
Definition below_2GiB (bs : bytes) : Prop := zlen bs <= 2147483647.

(** [t'] is the millisecond timestamp [t] truncated toward zero to a whole second. *)
Definition truncated_to_second (t t' : Z) : Prop :=
  exists s, t' = 1000 * s /\ Z.abs t' <= Z.abs t < Z.abs t' + 1000 /\ 0 <= t * t'.

(** A coordinate value in degrees: a finite binary64 within +-180. *)
Definition degrees (x : f64) : Prop := deg x.

(** [k] steps of 100 nanodegrees is where [x] belongs: at most half a step away
    (plus one millionth of a step of binary64 rounding). *)
Definition nearest_step (x : f64) (k : Z) : Prop :=
  (Rabs (IZR k - f2r x * 10000000) <= / 2 + / 1000000)%R.

(** [x] is the binary64 number nearest to [k] steps of 1e-7 degree; +0 for [k = 0].
    There is exactly one such [x]. *)
Definition step_value (k : Z) (x : f64) : Prop :=
  is_f x (rnd (IZR k / 10000000)) /\ (k = 0 -> x = SpecFloat.S754_zero false).

Definition coord_written_read (c c' : coordinate) : Prop :=
  exists a o, nearest_step (lat c) a /\ Z.abs a <= 1800000000 /\ step_value a (lat c') /\
              nearest_step (lon c) o /\ Z.abs o <= 1800000000 /\ step_value o (lon c').

(** what one gets when reading what was written *)
Definition node_written_read (n n' : node) : Prop :=
  n_id n' = n_id n /\ n_version n' = n_version n /\ n_changeset n' = n_changeset n /\
  n_uid n' = n_uid n /\ n_user n' = n_user n /\ n_visible n' = n_visible n /\ n_tags n' = n_tags n /\
  truncated_to_second (n_timestamp n) (n_timestamp n') /\ coord_written_read (n_coord n) (n_coord n').
Definition way_written_read (w w' : way) : Prop :=
  w_id w' = w_id w /\ w_version w' = w_version w /\ w_changeset w' = w_changeset w /\
  w_uid w' = w_uid w /\ w_user w' = w_user w /\ w_visible w' = w_visible w /\ w_refs w' = w_refs w /\
  w_tags w' = w_tags w /\ truncated_to_second (w_timestamp w) (w_timestamp w').
Definition relation_written_read (r r' : relation) : Prop :=
  r_id r' = r_id r /\ r_version r' = r_version r /\ r_changeset r' = r_changeset r /\
  r_uid r' = r_uid r /\ r_user r' = r_user r /\ r_visible r' = r_visible r /\ r_members r' = r_members r /\
  r_tags r' = r_tags r /\ truncated_to_second (r_timestamp r) (r_timestamp r').
Definition written_read (e e' : element) : Prop :=
  match e, e' with
  | ENode a, ENode b => node_written_read a b
  | EWay a, EWay b => way_written_read a b
  | ERelation a, ERelation b => relation_written_read a b
  | _, _ => False
  end.

(** values of the Rust types: [wf_node] etc. (BlockFacts) say that integers are in the range
    of their type and strings are UTF-8; in addition coordinates are degrees *)
Definition node_ok (n : node) : Prop := wf_node n /\ degrees (lat (n_coord n)) /\ degrees (lon (n_coord n)).
Definition element_ok (e : element) : Prop :=
  match e with ENode n => node_ok n | EWay w => wf_way w | ERelation r => wf_relation r | ESentinel => True end.

(** a coordinate, node, element exactly as a reader produces it *)
Definition on_grid (x : f64) : Prop := exists k, Z.abs k <= 1800000000 /\ step_value k x.
Definition node_on_grid (n : node) : Prop :=
  on_grid (lat (n_coord n)) /\ on_grid (lon (n_coord n)).
Definition whole_second (t : Z) : Prop := t mod 1000 = 0.
