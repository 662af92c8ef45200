(** Specification vocabulary for property C100: a program that catches the panics of an iterator and goes on. *)
From Coq Require Import List.
From Verif Require Import Base Types FileFormat.
Import ListNotations.

(** the calls up to the first that returns None: the items, and None for every call that panicked *)
Inductive tried {S A} (next : S -> res (option A) * S -> Prop) : S -> list (option A) -> Prop :=
| td_end s s' : next s (Ok None, s') -> tried next s []
| td_item s a s' l : next s (Ok (Some a), s') -> tried next s' l -> tried next s (Some a :: l)
| td_caught s s' l : next s (Panic, s') -> tried next s' l -> tried next s (None :: l).
(** what is had of the blocks, of which None cannot be had: the elements of the data blocks, with a panic for each lost block, up to a header block *)
Inductive salvage : list (option fblock) -> list (option element) -> Prop :=
| sv_end : salvage [] []
| sv_lost r l : salvage r l -> salvage (None :: r) (None :: l)
| sv_data i es r l : salvage r l -> salvage (Some (FData i es) :: r) (map Some es ++ l)
| sv_header i h r : salvage (Some (FHeader i h) :: r) [].
Definition items {A} (l : list (option A)) : list A := flat_map (fun o => match o with Some a => [a] | None => [] end) l.
