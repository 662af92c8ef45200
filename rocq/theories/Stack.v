(** The nested calls of the element iterator: [next] calls itself once for every exhausted or empty block. *)
From Coq Require Import ZArith List Bool.
From Verif Require Import Base Types FileFormat.
Import ListNotations.

Section Stack.
Variables (m : mode) (c : codec) (file : bytes).
(** src/osm/pbf/element_iterator.rs 43-60: ElementIterator::next when the stack has room for [room] calls of it, each inside the one before
    (lines 50-53: [self.next()] is called before the frame of the caller is left; the elements of the block went out of use). [None] is
    the overflow of the stack, which ends the process without unwinding. (Rust does not promise to turn the call in tail position into a loop;
    where the compiler does, [room] is without bound and the iteration is [elements_run] of FileFormat.v.) *)
Fixpoint next_within (room : nat) (s : bit) (it : option (list element)) : option (res (option element * (bit * option (list element)))) :=
  match room with
  | O => None
  | S deeper =>
    match it with
    | None => Some (Ok (None, (s, None)))
    | Some (e :: r) => Some (Ok (Some e, (s, Some r)))
    | Some [] =>
      match create_element_iterator m c file s with
      | Ok (it', s') => next_within deeper s' it'
      | _ => Some Panic
      end
    end
  end.
(** a [for] loop; every [next] is called from the loop, so it has all the room. [None] is the overflow. *)
Inductive loop_within (room : nat) : bit -> option (list element) -> list element -> option ending -> Prop :=
| lw_overflow s it : next_within room s it = None -> loop_within room s it [] None
| lw_end s it st : next_within room s it = Some (Ok (None, st)) -> loop_within room s it [] (Some Ended)
| lw_panic s it : next_within room s it = Some Panic -> loop_within room s it [] (Some Panicked)
| lw_item s it e s' it' l o : next_within room s it = Some (Ok (Some e, (s', it'))) -> loop_within room s' it' l o -> loop_within room s it (e :: l) o.
(** src/osm/pbf/element_iterator.rs 15-24 followed by the loop *)
Inductive elements_within (room : nat) : list element -> option ending -> Prop :=
| ew_skip_panic : fb_next m c file bit_new = Panic -> elements_within room [] (Some Panicked)
| ew_new_panic ob s : fb_next m c file bit_new = Ok (ob, s) -> create_element_iterator m c file s = Panic -> elements_within room [] (Some Panicked)
| ew_loop ob s it s' l o : fb_next m c file bit_new = Ok (ob, s) -> create_element_iterator m c file s = Ok (it, s') ->
    loop_within room s' it l o -> elements_within room l o.
End Stack.
