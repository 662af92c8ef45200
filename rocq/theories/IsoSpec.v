(** Specification vocabulary for C63: ISO 8601 / RFC 3339 text of an instant. Uses the calendar and the
    decimal numbers of ApidbSpec and nothing of the model. *)
From Coq Require Import ZArith List Bool Strings.Byte Strings.String.
From Verif Require Import Base ApidbSpec.
Import ListNotations.
Open Scope Z_scope.

(** the digits of a year: at least four, and a leading zero only when four are not exceeded *)
Definition year_digits (s : bytes) (n : Z) : Prop :=
  decimal s n /\ 4 <= zlen s /\ (4 < zlen s -> forall r, s <> str "0" ++ r).
(** years 0 to 9999 as four digits, the others with a sign *)
Inductive year_text : Z -> bytes -> Prop :=
| common_year y s : 0 <= y <= 9999 -> year_digits s y -> year_text y s
| far_year y s : 9999 < y -> year_digits s y -> year_text y (str "+" ++ s)
| negative_year y s : y < 0 -> year_digits s (- y) -> year_text y (str "-" ++ s).
(** [s] is "YYYY-MM-DDThh:mm:ssZ" of the instant [t] seconds after 1970-01-01T00:00:00Z *)
Definition iso_text (t : Z) (s : bytes) : Prop :=
  exists day h mi se y m d ty tm td th tmi tse,
    t = 86400 * day + 3600 * h + 60 * mi + se /\ 0 <= h <= 23 /\ 0 <= mi <= 59 /\ 0 <= se <= 59 /\
    calendar day (y, m, d) /\
    year_text y ty /\ padded 2 tm m /\ padded 2 td d /\ padded 2 th h /\ padded 2 tmi mi /\ padded 2 tse se /\
    s = ty ++ str "-" ++ tm ++ str "-" ++ td ++ str "T" ++ th ++ str ":" ++ tmi ++ str ":" ++ tse ++ str "Z".
(** the years -262143 to 262142, to the second *)
Definition representable (t : Z) : Prop :=
  exists lo hi, calendar lo (-262143, 1, 1) /\ calendar hi (262142, 12, 31) /\ 86400 * lo <= t < 86400 * (hi + 1).
(** order of byte strings, as of file names or sort(1) *)
Inductive text_lt : bytes -> bytes -> Prop :=
| lt_end b s : text_lt [] (b :: s)
| lt_here a b s r : b2z a < b2z b -> text_lt (a :: s) (b :: r)
| lt_later a s r : text_lt s r -> text_lt (a :: s) (a :: r).
