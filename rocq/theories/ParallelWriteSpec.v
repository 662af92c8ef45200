(** Specification vocabulary for the parallel writer. *)
From Coq Require Import ZArith List Bool Strings.Byte Strings.String Sorted Permutation.
From Verif Require Import Base Types ModelSpec.
Import ListNotations.
Open Scope Z_scope.

(** [a] does not come after [b] in the order nodes, ways, relations; id; version *)
Definition not_after (a b : element) : Prop := ~ precedes b a.
(** the stream is in that order *)
Definition in_order (l : list element) : Prop := StronglySorted not_after l.
(** no element of the stream is preceded by more than [d] elements that should come after it *)
Definition displaced_at_most (d : nat) (stream : list element) : Prop :=
  forall before x after big rest, stream = before ++ x :: after ->
    Permutation before (big ++ rest) -> Forall (precedes x) big -> (List.length big <= d)%nat.
(** all elements of the same type (sentinels count as a type of their own) *)
Definition one_type (l : list element) : Prop := forall a b, In a l -> In b l -> type_rank a = type_rank b.
(** what [slice::sort] guarantees for a list of elements: nothing is lost, and if all pairs are
    consistently ordered (no sentinels, see C22) the result is in order *)
Definition sort_ok (sort : list element -> list element) : Prop :=
  forall l, Permutation l (sort l) /\ (Forall not_sentinel l -> in_order (sort l)).
