(** Specification vocabulary for the apidb dump: the calendar, decimal numbers, timestamps as text.
    Nothing here uses a function of the model of the dump code. *)
From Coq Require Import ZArith List Bool Strings.Byte Strings.String.
From Verif Require Import Base.
Import ListNotations.
Open Scope Z_scope.

(** ** The proleptic Gregorian calendar, as "the day after" *)
Definition date : Type := Z * Z * Z.
Definition leap_year (y : Z) : Prop := (4 | y) /\ (~ (100 | y) \/ (400 | y)).
Inductive month_ends (y : Z) : Z -> Z -> Prop :=
| days_31 m : In m [1; 3; 5; 7; 8; 10; 12] -> month_ends y m 31
| days_30 m : In m [4; 6; 9; 11] -> month_ends y m 30
| days_29 : leap_year y -> month_ends y 2 29
| days_28 : ~ leap_year y -> month_ends y 2 28.
Inductive next_day : date -> date -> Prop :=
| same_month y m d l : month_ends y m l -> 1 <= d < l -> next_day (y, m, d) (y, m, d + 1)
| next_month y m l : month_ends y m l -> m < 12 -> next_day (y, m, l) (y, m + 1, 1)
| next_year y : next_day (y, 12, 31) (y + 1, 1, 1).
(** the date a number of days after (or before) 1 January 1970 *)
Inductive calendar : Z -> date -> Prop :=
| epoch : calendar 0 (1970, 1, 1)
| day_later n a b : calendar n a -> next_day a b -> calendar (n + 1) b
| day_earlier n a b : calendar n b -> next_day a b -> calendar (n - 1) a.

(** ** Decimal numbers *)
Inductive decimal : bytes -> Z -> Prop :=
| dec_nil : decimal [] 0
| dec_snoc s n d : decimal s n -> 0 <= d <= 9 -> decimal (s ++ [z2b (48 + d)]) (10 * n + d).
(** exactly [k] digits *)
Definition padded (k : Z) (s : bytes) (n : Z) : Prop := decimal s n /\ zlen s = k.
(** an integer as usually written: no leading zeros, a minus sign if negative *)
Definition plain (s : bytes) (z : Z) : Prop :=
  (0 <= z /\ decimal s z /\ s <> [] /\ (forall r, s = x30 :: r -> r = [])) \/
  (z < 0 /\ exists r, s = x2d :: r /\ decimal r (- z) /\ forall r', r <> x30 :: r').

(** ** [s] is the text "YYYY-MM-DD hh:mm:ss" of the instant [t] seconds after 1970-01-01 00:00:00 UTC *)
Definition sql_text (t : Z) (s : bytes) : Prop :=
  exists day h mi se y m d ty tm td th tmi tse,
    t = 86400 * day + 3600 * h + 60 * mi + se /\ 0 <= h <= 23 /\ 0 <= mi <= 59 /\ 0 <= se <= 59 /\
    calendar day (y, m, d) /\
    padded 4 ty y /\ padded 2 tm m /\ padded 2 td d /\ padded 2 th h /\ padded 2 tmi mi /\ padded 2 tse se /\
    s = ty ++ str "-" ++ tm ++ str "-" ++ td ++ str " " ++ th ++ str ":" ++ tmi ++ str ":" ++ tse.
(** 0000-01-01 00:00:00 to 9999-12-31 23:59:59 *)
Definition four_digit_year (t : Z) : Prop := -62167219200 <= t <= 253402300799.

(** ** Quadtiles: bit 2i+1 of the tile is bit i of the column, bit 2i is bit i of the row *)
Definition interleaved (x y tile : Z) : Prop :=
  0 <= tile < 2 ^ 32 /\
  forall i, 0 <= i < 16 -> Z.testbit tile (2 * i + 1) = Z.testbit x i /\ Z.testbit tile (2 * i) = Z.testbit y i.
