(** Properties of the conversions of the dump: C37 (timestamps), C38 (quadtiles). *)
From Coq Require Import ZArith List Bool Strings.Byte Strings.String Reals Lia Lra.
From Coq Require Import Floats.SpecFloat.
From Verif Require Import Base BaseFacts Types FloatFacts ApidbText ApidbSpec CalendarFacts ApidbTextFacts TileFacts ModelSpec.
Import ListNotations.
Open Scope Z_scope.

(** C37: for years 0 to 9999 the text is "YYYY-MM-DD hh:mm:ss" of the second the timestamp lies in, and
    parsing it gives that second *)
Theorem C37_sql_time_round_trip t : four_digit_year (t / 1000) ->
  exists s, to_sql_time_millis t = Ok s /\ sql_text (t / 1000) s /\ zlen s = 19 /\
    parse_sql_time s = Some (t / 1000, 0) /\ time_millis (t / 1000, 0) = t - t mod 1000.
Proof.
  intros F. pose proof (show_seconds_sql _ F) as (S & L). exists (show_seconds (t / 1000)).
  assert (to_sql_time_millis t = Ok (show_seconds (t / 1000))) as E.
  { unfold to_sql_time_millis. replace (chrono_seconds (t / 1000)) with true; auto. symmetry. unfold four_digit_year in F.
    unfold chrono_seconds, min_seconds, max_seconds. apply andb_true_iff. split; apply Z.leb_le; lia. }
  sconj; auto.
  - apply parse_millis; auto.
  - unfold time_millis. cbn [fst snd]. change (0 / 1000000) with 0. pose proof (Z.div_mod t 1000). lia.
Qed.
(** also outside those years, for every timestamp chrono can represent (years -262143 to 262142); the writer
    panics on the others *)
Theorem C37_all_years t :
  (-8334601228800 <= t / 1000 <= 8210266876799 -> exists s, to_sql_time_millis t = Ok s /\ parse_sql_time s = Some (t / 1000, 0)) /\
  (~ -8334601228800 <= t / 1000 <= 8210266876799 -> to_sql_time_millis t = Panic).
Proof.
  unfold to_sql_time_millis, chrono_seconds. split; intros H.
  - replace (_ && _) with true.
    2:{ symmetry. apply andb_true_iff. unfold min_seconds, max_seconds. split; apply Z.leb_le; lia. }
    eexists. split; [reflexivity|]. apply (parse_millis t). unfold to_sql_time_millis, chrono_seconds. replace (_ && _) with true; auto.
    symmetry. apply andb_true_iff. unfold min_seconds, max_seconds. split; apply Z.leb_le; lia.
  - replace (_ && _) with false; auto. symmetry. apply andb_false_iff. unfold min_seconds, max_seconds.
    destruct (Z.leb_spec (-8334601228800) (t / 1000)); auto. destruct (Z.leb_spec (t / 1000) 8210266876799); auto. lia.
Qed.
(** the microsecond format used for users and changesets *)
Theorem C37_micros t : four_digit_year (t / 1000000) ->
  exists a b, to_sql_time_micros t = Ok (a ++ str "." ++ b) /\ sql_text (t / 1000000) a /\ padded 6 b (t mod 1000000) /\
    parse_sql_time (a ++ str "." ++ b) = Some (t / 1000000, 1000 * (t mod 1000000)).
Proof.
  intros F. pose proof (show_seconds_sql _ F) as (S & L). exists (show_seconds (t / 1000000)), (show6 (t mod 1000000)).
  assert (to_sql_time_micros t = Ok (show_seconds (t / 1000000) ++ str "." ++ show6 (t mod 1000000))) as E.
  { unfold to_sql_time_micros. replace (chrono_seconds (t / 1000000)) with true; auto. symmetry. unfold four_digit_year in F.
    unfold chrono_seconds, min_seconds, max_seconds. apply andb_true_iff. split; apply Z.leb_le; lia. }
  sconj; auto.
  - apply show6_spec. pose proof (Z.mod_pos_bound t 1000000). lia.
  - apply parse_micros; auto.
Qed.
(** the calendar of the statement is a total function of the day number *)
Theorem C37_calendar_total n : exists! dt, calendar n dt.
Proof. exists (date_of_day n). split; [apply calendar_iff; auto|]. intros dt H. apply calendar_iff in H. auto. Qed.

(** C38: the tile of a point in degrees interleaves the nearest column of 65536 columns and the nearest row *)
Theorem C38_tile la lo : f_valid la -> f_finite la -> (Rabs (f2r la) <= 90)%R -> f_valid lo -> f_finite lo -> (Rabs (f2r lo) <= 180)%R ->
  exists x y, interleaved x y (calculate_tile la lo) /\ 0 <= x <= 65535 /\ 0 <= y <= 65535 /\
    (Rabs (IZR x - (f2r lo + 180) * 65535 / 360) <= / 2 + / 1000000000)%R /\
    (Rabs (IZR y - (f2r la + 90) * 65535 / 180) <= / 2 + / 1000000000)%R.
Proof.
  intros V1 F1 B1 V2 F2 B2. exists (tile_x lo), (tile_y la). split; [apply tile_interleaved|].
  destruct (quantised lo 180 (or_introl eq_refl) V2 F2 B2) as (X1 & X2).
  destruct (quantised la 90 (or_intror eq_refl) V1 F1 B1) as (Y1 & Y2).
  replace (2 * 180)%R with 360%R in X2 by ring. replace (2 * 90)%R with 180%R in Y2 by ring.
  split; [exact X1|]. split; [exact Y1|]. split; [exact X2|exact Y2].
Qed.
(** the tile determines the cell and the cell the tile *)
Theorem C38_tile_injective x y x' y' t t' : 0 <= x <= 65535 -> 0 <= y <= 65535 -> 0 <= x' <= 65535 -> 0 <= y' <= 65535 ->
  interleaved x y t -> interleaved x' y' t' -> (t = t' <-> x = x' /\ y = y').
Proof.
  intros X Y X' Y' I I'. split.
  - intros <-. eapply interleaved_unique; [| | | |exact I|exact I']; lia.
  - intros (-> & ->). eapply interleaved_fun; eauto.
Qed.
