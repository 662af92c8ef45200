(** Concrete instances of C63. *)
From Coq Require Import ZArith List Bool Strings.Byte Strings.String.
From Verif Require Import Base Types ApidbText ApidbSpec Converters IsoSpec PropIso.
Import ListNotations.
Open Scope Z_scope.

Example iso_epoch : timestamp_to_iso8601_seconds 0 = Ok (str "1970-01-01T00:00:00Z"). Proof. vm_compute. reflexivity. Qed.
(** one microsecond earlier *)
Example iso_before : timestamp_to_iso8601_seconds (-1) = Ok (str "1969-12-31T23:59:59Z"). Proof. vm_compute. reflexivity. Qed.
Example iso_leap : timestamp_to_iso8601_seconds 1709251199999999 = Ok (str "2024-02-29T23:59:59Z"). Proof. vm_compute. reflexivity. Qed.
Example iso_far : timestamp_to_iso8601_seconds 253402300800000000 = Ok (str "+10000-01-01T00:00:00Z"). Proof. vm_compute. reflexivity. Qed.
Example iso_negative : timestamp_to_iso8601_seconds (-62167219200000001) = Ok (str "-0001-12-31T23:59:59Z"). Proof. vm_compute. reflexivity. Qed.
Example iso_out : timestamp_to_iso8601_seconds max_i64 = Err. Proof. vm_compute. reflexivity. Qed.
(** the hypotheses of C63_same_second and C63_sorted hold of two timestamps a microsecond apart *)
Example iso_sorted : text_lt (str "1969-12-31T23:59:59Z") (str "1970-01-01T00:00:00Z").
Proof. apply (C63_sorted (-1) 0); try (vm_compute; reflexivity). Qed.
(** pbf-info: a replication timestamp in seconds; outside chrono's years the multiplication overflows for large values *)
Example info_time : replication_time_text true 1700000000 = Ok (str "2023-11-14T22:13:20Z"). Proof. vm_compute. reflexivity. Qed.
Example info_overflow : replication_time_text true 9223372036855 = Panic. Proof. vm_compute. reflexivity. Qed.
