(** What is left of an iterator after its [next] panicked, for a program that catches the panic (std::panic::catch_unwind). *)
From Coq Require Import ZArith List Strings.Byte.
From Verif Require Import Base Types Proto FileFormat.
Import ListNotations.
Open Scope Z_scope.

(** src/osm/pbf/blob_iterator.rs 37-53: [vec!] panics (line 42) for a negative length; the position is then behind the length, jump and index are
    as before *)
Definition blob_try (file : bytes) (s : bit) : res (option blob_desc) * bit :=
  match blob_next file s with
  | Ok (r, s') => (Ok r, s')
  | Err => (Err, s) (* does not occur *)
  | Panic => (Panic, Bit (bi_pos s + wrap64 (bi_jump s) + 4) (bi_jump s) (bi_index s))
  end.
(** src/osm/pbf/file_block_iterator.rs 20-28: the panic comes after the blob iterator has moved *)
Definition fb_try (m : mode) (c : codec) (file : bytes) (s : bit) : res (option fblock) * bit :=
  match blob_try file s with
  | (Ok None, s') => (Ok None, s')
  | (Ok (Some d), s') => (match from_blob_desc m c file d with Ok b => Ok (Some b) | _ => Panic end, s')
  | (_, s') => (Panic, s')
  end.
(** src/osm/pbf/element_iterator.rs 26-60: the panic comes before line 53 assigns element_iterator, which still is the exhausted iterator *)
Inductive el_try (m : mode) (c : codec) (file : bytes) : bit * option (list element) -> res (option element) * (bit * option (list element)) -> Prop :=
| et_none s : el_try m c file (s, None) (Ok None, (s, None))
| et_item s e r : el_try m c file (s, Some (e :: r)) (Ok (Some e), (s, Some r))
| et_refill s ob s' r : fb_try m c file s = (Ok ob, s') -> el_try m c file (s', match ob with Some (FData _ es) => Some es | _ => None end) r -> el_try m c file (s, Some []) r
| et_caught s s' : fb_try m c file s = (Panic, s') -> el_try m c file (s, Some []) (Panic, (s', Some [])).
