(** Non-vacuity of C78: a stream that is noticed, one that is late without being noticed, one that is neither. *)
From Coq Require Import ZArith List Bool Strings.Byte Strings.String Lia Sorted Permutation.
From Verif Require Import Base BaseFacts Types ModelSpec ModelFacts FileFormat Pool ParallelWriteSpec ParallelWrite OrderFacts DisorderSpec PropDisorder ExParallelWrite.
Import ListNotations.
Open Scope nat_scope.

(** 5 6 9 3 with a buffer of two and blocks of two: 5 6 are passed on, 3 precedes 5 *)
Example ex_noticed : noticed 2 2 isort (map WriteElement [nd 5; nd 6; nd 9; nd 3]).
Proof.
  exists (map WriteElement [nd 5; nd 6; nd 9]), (nd 3), [], 1, (nd 5), [nd 6].
  split; [exists (WriteElement (nd 3)), []; split; [reflexivity|left; reflexivity]|].
  split; [|unfold precedes; cbn; lia]. eexists. split; vm_compute; reflexivity.
Qed.
(** 1 5 9 3: 1 5 are passed on, 3 precedes 5 but not 1 *)
Definition silent : list call := map WriteElement [nd 1; nd 5; nd 9; nd 3].
Example ex_late : late 2 2 isort silent.
Proof.
  exists (map WriteElement [nd 1; nd 5; nd 9]), (nd 3), [(1, [nd 1; nd 5])], (nd 5).
  split; [exists (WriteElement (nd 3)), []; split; [reflexivity|left; reflexivity]|].
  split; [|split; [right; left; reflexivity|unfold precedes; cbn; lia]]. eexists. split; vm_compute; reflexivity.
Qed.
Example ex_not_noticed : ~ noticed 2 2 isort silent.
Proof.
  apply (C78_rejected 2 2 isort silent isort_ok ltac:(lia)); [repeat constructor; discriminate|].
  exists [(1, [nd 1; nd 5]); (2, [nd 3; nd 9])]. apply run_calls_sound with 10. vm_compute. reflexivity.
Qed.
Example ex_silent : exists blocks, blocks_submitted 2 2 isort silent blocks /\ ~ in_order (List.concat (map snd blocks)).
Proof.
  apply (proj1 (C78_silent 2 2 isort silent isort_ok ltac:(lia) ltac:(repeat constructor; discriminate))).
  split; [apply ex_late|apply ex_not_noticed].
Qed.
(** 2 1 3 5 4: out of order, but never late *)
Example ex_not_late : ~ late 2 2 isort (map WriteElement [nd 2; nd 1; nd 3; nd 5; nd 4]).
Proof.
  apply (C78_in_order 2 2 isort _ [(1, [nd 1; nd 2]); (2, [nd 3; nd 4]); (3, [nd 5])] isort_ok ltac:(lia)); [repeat constructor; discriminate| |].
  - apply run_calls_sound with 10. vm_compute. reflexivity.
  - unfold in_order. cbn [map snd List.concat app]. repeat constructor; unfold not_after, precedes; cbn; lia.
Qed.
