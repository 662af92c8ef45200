(** Calling [next] any number of times, also after it returned None. *)
From Coq Require Import ZArith List Strings.Byte.
From Verif Require Import Base Types Proto FileFormat.
Import ListNotations.
Open Scope Z_scope.

(** src/osm/pbf/element_iterator.rs 43-60: one call of ElementIterator::next, with the calls it makes of itself; the state is the
    FileBlockIterator and the element_iterator *)
Inductive el_next (m : mode) (c : codec) (file : bytes) : bit * option (list element) -> res (option element * (bit * option (list element))) -> Prop :=
| en_none s : el_next m c file (s, None) (Ok (None, (s, None)))
| en_item s e r : el_next m c file (s, Some (e :: r)) (Ok (Some e, (s, Some r)))
| en_refill s it s' r : create_element_iterator m c file s = Ok (it, s') -> el_next m c file (s', it) r -> el_next m c file (s, Some []) r
| en_panic s : create_element_iterator m c file s = Panic -> el_next m c file (s, Some []) Panic.
(** src/osm/pbf/element_iterator.rs 15-24, reader.rs 123-134: the state Reader::elements returns *)
Definition elements_new (m : mode) (c : codec) (file : bytes) : res (bit * option (list element)) :=
  '(_, s) <- fb_next m c file bit_new ;;
  '(it, s') <- create_element_iterator m c file s ;;
  Ok (s', it).
