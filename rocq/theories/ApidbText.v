(** Text conversions used by the apidb dump reader and writer: integers, SQL booleans and
    timestamps (src/osm/apidb_dump/sql.rs), quadtile numbers.

    External code modelled here: Rust's integer [Display] and [from_str]; chrono's conversion
    between day numbers and dates and the two formats used (rfc3339 with seconds or microseconds,
    and "%Y-%m-%d %H:%M:%S%.f"). *)
From Coq Require Import ZArith List Bool Strings.Byte Strings.String.
From Verif Require Import Base Types.
Import ListNotations.
Open Scope Z_scope.

(** ** Integers *)

(** ASCII digit *)
Definition digit (d : Z) : byte := z2b (48 + d).
Definition is_digit (b : byte) : bool := (48 <=? b2z b) && (b2z b <=? 57).
Definition digit_val (b : byte) : Z := b2z b - 48.

(** decimal digits of a non-negative integer, most significant first, no leading zeros *)
Fixpoint digits (fuel : nat) (n : Z) (acc : bytes) : bytes :=
  match fuel with
  | O => acc
  | S f => if n <? 10 then digit n :: acc else digits f (n / 10) (digit (n mod 10) :: acc)
  end.
Definition show_nat (n : Z) : bytes := digits (S (Z.to_nat (Z.log2 n))) n [].
(** [Display] of i64, i32, u64, usize *)
Definition show_int (z : Z) : bytes := if z <? 0 then x2d :: show_nat (- z) else show_nat z.

(** the value of a string of digits; None when there is another character *)
Fixpoint digits_val (s : bytes) (acc : Z) : option Z :=
  match s with
  | [] => Some acc
  | b :: r => if is_digit b then digits_val r (10 * acc + digit_val b) else None
  end.
(** [i64::from_str], [i32::from_str] ([lo], [hi] the bounds of the type): an optional sign, then at
    least one digit, value within the type *)
Definition parse_int (lo hi : Z) (s : bytes) : option Z :=
  let unsigned sgn r :=
    match r with
    | [] => None
    | _ => match digits_val r 0 with
           | Some v => let z := sgn * v in if (lo <=? z) && (z <=? hi) then Some z else None
           | None => None
           end
    end in
  match s with
  | b :: r => if Byte.eqb b x2d then unsigned (-1) r
              else if Byte.eqb b x2b then unsigned 1 r else unsigned 1 s
  | [] => None
  end.
Definition parse_i64 := parse_int min_i64 max_i64.
Definition parse_i32 := parse_int min_i32 max_i32.
Definition parse_i16 := parse_int (-32768) 32767.

(** ** Booleans and NULL *)

(** sql.rs 20-25: to_sql_bool *)
Definition to_sql_bool (v : bool) : bytes := if v then str "t" else str "f".
(** sql.rs 10-18: parse_sql_bool *)
Definition parse_sql_bool (s : bytes) : option bool :=
  if bytes_eqb s (str "t") then Some true else if bytes_eqb s (str "f") then Some false else None.
(** the text of SQL NULL, writer.rs (the [\\N] literals) *)
Definition sql_null : bytes := str "\N".
(** sql.rs 27-36: parse_sql_null_string *)
Definition parse_sql_null_string (s : bytes) : option bytes :=
  if bytes_eqb s sql_null then None else Some s.

(** ** Dates (chrono) *)

Definition is_leap (y : Z) : bool :=
  (y mod 4 =? 0) && (negb (y mod 100 =? 0) || (y mod 400 =? 0)).
Definition month_lengths (y : Z) : list Z :=
  [31; if is_leap y then 29 else 28; 31; 30; 31; 30; 31; 31; 30; 31; 30; 31].

(** leap days in the years [0, y) of a 400 year cycle (chrono's YEAR_DELTAS) *)
Definition year_delta (y : Z) : Z := (y + 3) / 4 - (y + 99) / 100 + (y + 399) / 400.
(** day of a 400 year cycle to year of the cycle and day of the year, counted from 0
    (chrono: cycle_to_yo) *)
Definition cycle_to_yo (c : Z) : Z * Z :=
  let y := c / 365 in
  let o := c mod 365 in
  if o <? year_delta y then (y - 1, o + 365 - year_delta (y - 1)) else (y, o - year_delta y).
(** month (from [m] on) and day of the month of a day of the year *)
Fixpoint month_day (ls : list Z) (m o : Z) : Z * Z :=
  match ls with
  | [] => (m, o + 1)
  | l :: r => if o <? l then (m, o + 1) else month_day r (m + 1) (o - l)
  end.
(** year, month, day of a day number, 1970-01-01 being day 0; 719528 is 0000-01-01 to 1970-01-01 *)
Definition date_of_day (n : Z) : Z * Z * Z :=
  let k := n + 719528 in
  let '(yc, o) := cycle_to_yo (k mod 146097) in
  let y := 400 * (k / 146097) + yc in
  let '(m, d) := month_day (month_lengths y) 1 o in (y, m, d).

(** days of the year before month [m] *)
Fixpoint days_before (ls : list Z) (m : Z) : Z :=
  match ls with
  | [] => 0
  | l :: r => if m <=? 1 then 0 else l + days_before r (m - 1)
  end.
Definition month_length (y m : Z) : Z := nth (Z.to_nat (m - 1)) (month_lengths y) 0.
(** NaiveDate::from_ymd_opt and the day number of the date; None for an invalid date *)
Definition day_of_date (y m d : Z) : option Z :=
  if (1 <=? m) && (m <=? 12) && (1 <=? d) && (d <=? month_length y m) then
    Some (365 * y + (y + 3) / 4 - (y + 99) / 100 + (y + 399) / 400 + days_before (month_lengths y) m + (d - 1) - 719528)
  else None.

(** ** Timestamps *)

Definition show2 (n : Z) : bytes := [digit (n / 10); digit (n mod 10)].
Definition show6 (n : Z) : bytes :=
  [digit (n / 100000); digit (n / 10000 mod 10); digit (n / 1000 mod 10);
   digit (n / 100 mod 10); digit (n / 10 mod 10); digit (n mod 10)].
(** chrono's year: four digits for 0..=9999, otherwise a sign and at least four digits *)
Definition pad4 (n : Z) : bytes :=
  if n <? 10 then x30 :: x30 :: x30 :: show_nat n
  else if n <? 100 then x30 :: x30 :: show_nat n
  else if n <? 1000 then x30 :: show_nat n
  else show_nat n.
Definition show_year (y : Z) : bytes :=
  if (0 <=? y) && (y <=? 9999) then pad4 y
  else if y <? 0 then x2d :: pad4 (- y) else x2b :: pad4 y.

(** date and time of day of a number of seconds since 1970, as "Y-m-d H:M:S": rfc3339 with the 'T'
    replaced by a space and the 'Z' by nothing *)
Definition show_seconds (t : Z) : bytes :=
  let '(y, m, d) := date_of_day (t / 86400) in
  let s := t mod 86400 in
  show_year y ++ [x2d] ++ show2 m ++ [x2d] ++ show2 d ++ [x20] ++
  show2 (s / 3600) ++ [x3a] ++ show2 (s / 60 mod 60) ++ [x3a] ++ show2 (s mod 60).

(** the instants chrono represents: years -262143 to 262142 *)
Definition min_seconds : Z := -8334601228800.
Definition max_seconds : Z := 8210266876799.
Definition chrono_seconds (t : Z) : bool := (min_seconds <=? t) && (t <=? max_seconds).

(** sql.rs 38-42: to_sql_time_millis; [from_timestamp_millis(t).unwrap()] panics out of range *)
Definition to_sql_time_millis (t : Z) : res bytes :=
  if chrono_seconds (t / 1000) then Ok (show_seconds (t / 1000)) else Panic.
(** sql.rs 44-48: to_sql_time_micros *)
Definition to_sql_time_micros (t : Z) : res bytes :=
  if chrono_seconds (t / 1000000) then Ok (show_seconds (t / 1000000) ++ [x2e] ++ show6 (t mod 1000000)) else Panic.

(** at least one and at most [max] digits; the value and the rest *)
Fixpoint scan_digits (max : nat) (s : bytes) (acc : Z) : Z * bytes :=
  match max, s with
  | S k, b :: r => if is_digit b then scan_digits k r (10 * acc + digit_val b) else (acc, s)
  | _, _ => (acc, s)
  end.
Definition scan_number (max : nat) (s : bytes) : option (Z * bytes) :=
  match s with
  | b :: _ => if is_digit b then Some (scan_digits max s 0) else None
  | [] => None
  end.
Definition expect (b : byte) (s : bytes) : option bytes :=
  match s with
  | c :: r => if Byte.eqb c b then Some r else None
  | [] => None
  end.
(** %Y: at most four digits, or a sign and any number of digits *)
Definition scan_year (s : bytes) : option (Z * bytes) :=
  match s with
  | b :: r =>
    if Byte.eqb b x2d then match scan_number (List.length r) r with Some (v, r') => Some (- v, r') | None => None end
    else if Byte.eqb b x2b then scan_number (List.length r) r
    else scan_number 4 s
  | [] => None
  end.
(** %.f: nothing, or '.' and digits; the value in nanoseconds (digits after the ninth are dropped) *)
Fixpoint skip_digits (s : bytes) : bytes :=
  match s with
  | b :: r => if is_digit b then skip_digits r else s
  | [] => []
  end.
Definition scan_fraction (s : bytes) : option (Z * bytes) :=
  match s with
  | b :: r =>
    if Byte.eqb b x2e then
      match scan_number 9 r with
      | Some (v, r') => let used := zlen r - zlen r' in Some (v * 10 ^ (9 - used), skip_digits r')
      | None => None
      end
    else Some (0, s)
  | [] => Some (0, [])
  end.
Definition obind {A B} (x : option A) (f : A -> option B) : option B :=
  match x with Some a => f a | None => None end.
(** sql.rs 6-8: parse_sql_time; the result in seconds and nanoseconds. Not modelled: white space
    in front of numbers and the leap second 60, which chrono accepts and this model rejects. *)
Definition parse_sql_time (s : bytes) : option (Z * Z) :=
  obind (scan_year s) (fun '(y, s1) => obind (expect x2d s1) (fun s2 =>
  obind (scan_number 2 s2) (fun '(m, s3) => obind (expect x2d s3) (fun s4 =>
  obind (scan_number 2 s4) (fun '(d, s5) => obind (expect x20 s5) (fun s6 =>
  obind (scan_number 2 s6) (fun '(hh, s7) => obind (expect x3a s7) (fun s8 =>
  obind (scan_number 2 s8) (fun '(mm, s9) => obind (expect x3a s9) (fun s10 =>
  obind (scan_number 2 s10) (fun '(ss, s11) => obind (scan_fraction s11) (fun '(ns, s12) =>
  match s12 with
  | [] =>
    if (hh <=? 23) && (mm <=? 59) && (ss <=? 59) then
      obind (day_of_date y m d) (fun n =>
        let t := 86400 * n + 3600 * hh + 60 * mm + ss in
        if chrono_seconds t then Some (t, ns) else None)
    else None
  | _ :: _ => None
  end)))))))))))).
(** [NaiveDateTime::and_utc().timestamp_millis()] of a parsed time *)
Definition time_millis (t : Z * Z) : Z := 1000 * fst t + snd t / 1000000.

(** ** Quadtiles *)

(** sql.rs 51-52: the quantised coordinates *)
Definition tile_x (lon : f64) : Z :=
  f_round_u64 (fdiv (fmul (fadd lon (f_of_Z 180)) (f_of_Z 65535)) (f_of_Z 360)).
Definition tile_y (lat : f64) : Z :=
  f_round_u64 (fdiv (fmul (fadd lat (f_of_Z 90)) (f_of_Z 65535)) (f_of_Z 180)).
(** sql.rs 56-59: the loop for i = n-1 down to 0; u64 shifts drop the high bits *)
Fixpoint interleave (n : nat) (x y tile : Z) : Z :=
  match n with
  | O => tile
  | S i =>
    let t1 := Z.lor (Z.shiftl tile 1 mod two64) (Z.land (Z.shiftr x (Z.of_nat i)) 1) in
    let t2 := Z.lor (Z.shiftl t1 1 mod two64) (Z.land (Z.shiftr y (Z.of_nat i)) 1) in
    interleave i x y t2
  end.
(** sql.rs 50-61: calculate_tile *)
Definition calculate_tile (lat lon : f64) : Z := interleave 16 (tile_x lon) (tile_y lat) 0.
