(** src/osm/model/bounding_box.rs 89-115: BoundingBox::from_str.
    External code: [f64::from_str] is the parameter [parse] (None = parse error). *)
From Coq Require Import ZArith List Bool Strings.Byte Strings.String.
From Verif Require Import Base Types.
Import ListNotations.
Open Scope Z_scope.

(** [str::split(',')]: always at least one part; the pattern is one ASCII byte, so splitting the
    UTF-8 bytes is splitting the characters *)
Fixpoint split_byte (sep : byte) (s : bytes) : list bytes :=
  match s with
  | [] => [[]]
  | b :: r =>
    if Byte.eqb b sep then [] :: split_byte sep r
    else match split_byte sep r with
         | p :: ps => (b :: p) :: ps
         | [] => [[b]]
         end
  end.

(** [char::is_whitespace] as UTF-8: the encodings of the White_Space characters *)
Definition ws_chars : list bytes :=
  [[x09]; [x0a]; [x0b]; [x0c]; [x0d]; [x20]; [xc2; x85]; [xc2; xa0]; [xe1; x9a; x80];
   [xe2; x80; x80]; [xe2; x80; x81]; [xe2; x80; x82]; [xe2; x80; x83]; [xe2; x80; x84]; [xe2; x80; x85];
   [xe2; x80; x86]; [xe2; x80; x87]; [xe2; x80; x88]; [xe2; x80; x89]; [xe2; x80; x8a];
   [xe2; x80; xa8]; [xe2; x80; xa9]; [xe2; x80; xaf]; [xe2; x81; x9f]; [xe3; x80; x80]].

Fixpoint strip_prefix (p s : bytes) : option bytes :=
  match p, s with
  | [], _ => Some s
  | a :: p', b :: s' => if Byte.eqb a b then strip_prefix p' s' else None
  | _ :: _, [] => None
  end.
(** the first of the given strings that [s] starts with, removed *)
Fixpoint strip_any (ps : list bytes) (s : bytes) : option bytes :=
  match ps with
  | [] => None
  | p :: r => match strip_prefix p s with Some s' => Some s' | None => strip_any r s end
  end.
(** [trim_start]; the fuel is the length of the string *)
Fixpoint trim_with (ps : list bytes) (fuel : nat) (s : bytes) : bytes :=
  match fuel with
  | O => s
  | S f => match strip_any ps s with Some s' => trim_with ps f s' | None => s end
  end.
(** [str::trim]: white space removed at both ends (at the end: on the reversed bytes) *)
Definition trim (s : bytes) : bytes :=
  let a := trim_with ws_chars (List.length s) s in
  rev (trim_with (map (@rev byte) ws_chars) (List.length a) (rev a)).

(** [(lo..=hi).contains(&x)] *)
Definition range_contains (lo hi x : f64) : bool := fle lo x && fle x hi.

(** src/osm/model/bounding_box.rs 89-115: from_str *)
Definition bb_from_str (parse : bytes -> option f64) (s : bytes) : res bbox :=
  let parts := map trim (split_byte x2c s) in
  if zlen parts <? 4 then Err else
  p0 <- index parts 0 ;; left <- of_option (parse p0) ;;
  p1 <- index parts 1 ;; bottom <- of_option (parse p1) ;;
  p2 <- index parts 2 ;; right <- of_option (parse p2) ;;
  p3 <- index parts 3 ;; top <- of_option (parse p3) ;;
  if negb (range_contains (f_of_Z (-180)) (f_of_Z 180) left)
     || negb (range_contains (f_of_Z (-90)) (f_of_Z 90) bottom)
     || negb (range_contains (f_of_Z (-180)) (f_of_Z 180) right)
     || negb (range_contains (f_of_Z (-90)) (f_of_Z 90) top)
  then Err
  else Ok (BBox left bottom right top).
