(** Model of src/osm/converters/mod.rs: timestamps as ISO 8601 text. *)
From Coq Require Import ZArith List Bool Strings.Byte Strings.String.
From Verif Require Import Base Types ApidbText.
Import ListNotations.
Open Scope Z_scope.

(** chrono's to_rfc3339_opts(SecondsFormat::Secs, true) of a UTC instant: the fraction of the second is
    not shown, the offset is 'Z' *)
Definition show_iso (t : Z) : bytes :=
  let '(y, m, d) := date_of_day (t / 86400) in
  let s := t mod 86400 in
  show_year y ++ [x2d] ++ show2 m ++ [x2d] ++ show2 d ++ [x54] ++
  show2 (s / 3600) ++ [x3a] ++ show2 (s / 60 mod 60) ++ [x3a] ++ show2 (s mod 60) ++ [x5a].

(** converters/mod.rs 4-8: timestamp_to_iso8601_seconds; from_timestamp_micros splits with
    div_euclid/rem_euclid and gives None outside chrono's years *)
Definition timestamp_to_iso8601_seconds (usec : Z) : res bytes :=
  if chrono_seconds (usec / 1000000) then Ok (show_iso (usec / 1000000)) else Err.

(** examples/pbf-info.rs 45-52: the replication timestamp of the header, in seconds, as it is printed:
    [t * 1e6 as i64] is a product of i64 values, checked in a debug build and wrapping in a release build *)
Definition replication_time_text (checked : bool) (t : Z) : res bytes :=
  let u := t * 1000000 in
  if (min_i64 <=? u) && (u <=? max_i64) then timestamp_to_iso8601_seconds u
  else if checked then Panic else timestamp_to_iso8601_seconds (wrap64 u).
