(** Specification vocabulary for C78: what the parallel writer does with a stream that is out of order. *)
From Coq Require Import ZArith List Bool Strings.Byte Strings.String.
From Verif Require Import Base Types ModelSpec FileFormat Pool ParallelWriteSpec ParallelWrite.
Import ListNotations.

Section Spec.
  Variable B K : nat.
  Variable sort : list element -> list element.

  (** the blocks the ordering thread has passed on after it has processed the calls [cs] *)
  Definition passed_on (cs : list call) (blocks : list (nat * list element)) : Prop :=
    exists st, do_calls B K sort ord_new cs = Ok st /\ o_out st = blocks.
  (** [e] is written by the call [c] that comes right after the calls [cs1] *)
  Definition written_after (cs cs1 : list call) (e : element) : Prop :=
    exists c cs2, cs = cs1 ++ c :: cs2 /\ In e (written c).
  (** [e] is noticed: it precedes the first element of the block passed on last before its call *)
  Definition noticed (cs : list call) : Prop :=
    exists cs1 e earlier i first rest, written_after cs cs1 e /\
      passed_on cs1 (earlier ++ [(i, first :: rest)]) /\ precedes e first.
  (** [e] is late: an element that has to come after it was passed on before its call *)
  Definition late (cs : list call) : Prop :=
    exists cs1 e blocks x, written_after cs cs1 e /\ passed_on cs1 blocks /\
      In x (List.concat (map snd blocks)) /\ precedes e x.
End Spec.
