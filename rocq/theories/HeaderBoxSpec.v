(** Specification vocabulary for C79: what happens to the bounding box of a header. *)
From Coq Require Import ZArith List Bool Strings.Byte Strings.String Reals.
From Verif Require Import Base Types FloatFacts Spec FileFormat FileSpec PropFile.
Import ListNotations.
Open Scope Z_scope.

(** a header with the box [b] is written (whatever else it holds), and the box read back is [b'] *)
Definition copied (b b' : bbox) : Prop :=
  exists m c k i w i', codec_ok c /\ info_ok i /\ header_fits c k i /\ fi_bbox i = Some b /\
    write_header m c (writer_new i k) = Ok w /\ run (fb_next m c (wr_file w)) bit_new [FHeader 0 i'] Ended /\ fi_bbox i' = Some b'.
(** the four edges, one by one *)
Definition each_edge (P : f64 -> f64 -> Prop) (b b' : bbox) : Prop :=
  P (bb_left b) (bb_left b') /\ P (bb_bottom b) (bb_bottom b') /\ P (bb_right b) (bb_right b') /\ P (bb_top b) (bb_top b').
(** [x'] is a whole number of nanodegrees: [x] rounded toward zero (a 40000th of a nanodegree of rounding errors aside) *)
Definition toward_zero (x x' : f64) : Prop :=
  exists k, Z.abs k <= 180000000000 /\ nano_value k x' /\
    (Rabs (IZR k - f2r x * 1000000000) < 1 + / 40000)%R /\ (Rabs (IZR k) <= Rabs (f2r x * 1000000000) + / 40000)%R.
(** [x] is a whole number of nanodegrees, [x'] is the same number or the next one toward zero *)
Definition same_or_next (x x' : f64) : Prop :=
  exists k k', Z.abs k <= 180000000000 /\ nano_value k x /\ nano_value k' x' /\ (k' = k \/ k <> 0 /\ k' = k - Z.sgn k).
(** a whole number of degrees *)
Definition whole_degrees (x : f64) : Prop := exists d, Z.abs d <= 180 /\ x = f_of_Z d.
