(** Base vocabulary of the model: outcomes, fixed-width integers, bytes.

    Nothing here models a particular function of /repo; these are the Rust
    language notions (panics, Result, integer types, overflow modes, u8/str)
    that every modelled function uses. *)
From Coq Require Import ZArith List Bool Strings.Byte Strings.String.
Import ListNotations.
Open Scope Z_scope.

(** Outcome of a Rust call: a value, an [Err(anyhow::Error)] (the message is
    not modelled), or a panic (unwrap on None/Err, index out of range,
    arithmetic overflow in a checked build, assert!, panic!). *)
Inductive res (A : Type) : Type :=
| Ok (a : A)
| Err
| Panic.
Arguments Ok {A} a.
Arguments Err {A}.
Arguments Panic {A}.

(** Sequencing of fallible calls: the [?] operator for [Err], unwinding for [Panic]. *)
Definition bind {A B} (x : res A) (f : A -> res B) : res B :=
  match x with Ok a => f a | Err => Err | Panic => Panic end.

Declare Scope res_scope.
Notation "x <- a ;; b" := (bind a (fun x => b))
  (at level 61, a at next level, right associativity) : res_scope.
Notation "' p <- a ;; b" := (bind a (fun x => match x with p => b end))
  (at level 61, p pattern, a at next level, right associativity) : res_scope.
Open Scope res_scope.

(** [Option::unwrap]. *)
Definition unwrap {A} (o : option A) : res A :=
  match o with Some a => Ok a | None => Panic end.

(** [Result::unwrap] (the error becomes a panic). *)
Definition unwrap_res {A} (r : res A) : res A :=
  match r with Ok a => Ok a | _ => Panic end.

(** A decode failure reported as [Err]. *)
Definition of_option {A} (o : option A) : res A :=
  match o with Some a => Ok a | None => Err end.

(** Build profile: [Checked] = overflow-checks on (debug), [Wrapping] = release. *)
Inductive mode := Checked | Wrapping.

Definition min_i64 : Z := -9223372036854775808.
Definition max_i64 : Z := 9223372036854775807.
Definition min_i32 : Z := -2147483648.
Definition max_i32 : Z := 2147483647.
Definition two64 : Z := 18446744073709551616.
Definition two63 : Z := 9223372036854775808.
Definition two32 : Z := 4294967296.
Definition two31 : Z := 2147483648.

Definition in_i64 (z : Z) : bool := (min_i64 <=? z) && (z <=? max_i64).
Definition in_i32 (z : Z) : bool := (min_i32 <=? z) && (z <=? max_i32).

(** [as i64], [as i32] on integers: keep the low bits, two's complement. *)
Definition wrap64 (z : Z) : Z := (z + two63) mod two64 - two63.
Definition wrap32 (z : Z) : Z := (z + two31) mod two32 - two31.

(** Result of an i64 (i32) [+], [-], [*] whose mathematical value is [z]. *)
Definition arith64 (m : mode) (z : Z) : res Z :=
  if in_i64 z then Ok z
  else match m with Checked => Panic | Wrapping => Ok (wrap64 z) end.
Definition arith32 (m : mode) (z : Z) : res Z :=
  if in_i32 z then Ok z
  else match m with Checked => Panic | Wrapping => Ok (wrap32 z) end.

(** Bytes. *)
Definition b2z (b : byte) : Z := Z.of_N (Byte.to_N b).
Definition z2b (z : Z) : byte :=
  match Byte.of_N (Z.to_N (z mod 256)) with Some b => b | None => x00 end.
Definition bytes := list byte.

Definition byte_eqb (a b : byte) : bool := Byte.eqb a b.
Fixpoint bytes_eqb (a b : bytes) : bool :=
  match a, b with
  | [], [] => true
  | x :: a', y :: b' => Byte.eqb x y && bytes_eqb a' b'
  | _, _ => false
  end.

(** ASCII literal as bytes. *)
Definition str (s : string) : bytes := list_byte_of_string s.

Definition zlen {A} (l : list A) : Z := Z.of_nat (List.length l).

(** Slice index [v[i]] with [i : usize]; a negative Rust integer cast to usize
    is larger than any length, so it also panics. *)
Definition index {A} (l : list A) (i : Z) : res A :=
  if i <? 0 then Panic else
  if zlen l <=? i then Panic else
  match nth_error l (Z.to_nat i) with Some a => Ok a | None => Panic end.

(** [read_exact] of [n] bytes from a byte source: the bytes and the rest, or
    None when the source is too short. *)
Definition take_exact (n : Z) (bs : bytes) : option (bytes * bytes) :=
  if n <? 0 then None else
  if zlen bs <? n then None else
  Some (firstn (Z.to_nat n) bs, skipn (Z.to_nat n) bs).

(** UTF-8 validity as checked by [core::str::from_utf8]
    (RFC 3629: no overlong forms, no surrogates, at most U+10FFFF). *)
Fixpoint utf8_ok (bs : bytes) : bool :=
  let cont b := (128 <=? b2z b) && (b2z b <=? 191) in
  match bs with
  | [] => true
  | b0 :: r0 =>
    let z0 := b2z b0 in
    if z0 <? 128 then utf8_ok r0
    else match r0 with
    | [] => false
    | b1 :: r1 =>
      let z1 := b2z b1 in
      if (194 <=? z0) && (z0 <=? 223) then cont b1 && utf8_ok r1
      else match r1 with
      | [] => false
      | b2 :: r2 =>
        if z0 =? 224 then (160 <=? z1) && (z1 <=? 191) && cont b2 && utf8_ok r2
        else if (225 <=? z0) && (z0 <=? 236) then cont b1 && cont b2 && utf8_ok r2
        else if z0 =? 237 then (128 <=? z1) && (z1 <=? 159) && cont b2 && utf8_ok r2
        else if (238 <=? z0) && (z0 <=? 239) then cont b1 && cont b2 && utf8_ok r2
        else match r2 with
        | [] => false
        | b3 :: r3 =>
          if z0 =? 240 then (144 <=? z1) && (z1 <=? 191) && cont b2 && cont b3 && utf8_ok r3
          else if (241 <=? z0) && (z0 <=? 243) then cont b1 && cont b2 && cont b3 && utf8_ok r3
          else if z0 =? 244 then (128 <=? z1) && (z1 <=? 143) && cont b2 && cont b3 && utf8_ok r3
          else false
        end
      end
    end
  end.

(** Monadic map over a list, left to right. *)
Fixpoint mapM {A B} (f : A -> res B) (l : list A) : res (list B) :=
  match l with
  | [] => Ok []
  | a :: r => b <- f a ;; bs <- mapM f r ;; Ok (b :: bs)
  end.

Global Arguments Z.mul : simpl never.
Global Arguments Z.add : simpl never.
Global Arguments Z.sub : simpl never.
Global Arguments Z.div : simpl never.
Global Arguments Z.modulo : simpl never.
Global Arguments Z.quot : simpl never.
Global Arguments Z.pow : simpl never.
