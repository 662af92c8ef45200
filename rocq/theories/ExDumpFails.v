(** Non-vacuity of C89. *)
From Coq Require Import ZArith List Bool Strings.Byte Strings.String Lia.
From Verif Require Import Base BaseFacts Types ApidbText ApidbSpec DumpSpec ApidbWrite ApidbWriteFacts PropLimits ExTools ExApidb DumpStop StopSpec DumpCalls DumpCallsSpec ExDumpCalls DumpFails DumpFailsSpec PropDumpFails.
Import ListNotations.
Local Notation length := List.length.
Open Scope Z_scope.

Lemma ex_pair_dumpable : dumpable (ENode ex_n1) /\ dumpable (ENode ex_n2).
Proof. split; cbn [dumpable]; unfold in_calendar; vm_compute; split; discriminate. Qed.
(** an error, a second attempt and close: the first node is not in the current nodes *)
Example ex_fails : exists s, history ex_escape ex_order ex_lib ex_clocks 0 [(DElement (ENode ex_n1), Fine); (DElement (ENode ex_n2), Failed); (DElement (ENode ex_n2), Fine); (DClose, Fine)] fw_new s /\
  holds ex_escape (fw_disk s T_current_nodes) [current_node_row ex_n2; current_node_row ex_n2].
Proof. apply C89_retry; [intros; apply ex_clocks_ok|apply ex_pair_dumpable|apply ex_pair_dumpable|reflexivity|reflexivity|vm_compute; reflexivity]. Qed.
(** the hypotheses of [C89_history_tables] and [C89_first_failure] *)
Example ex_fails_parts : exists s, history ex_escape ex_order ex_lib ex_clocks 0 [(DElement (ENode ex_n1), Fine); (DElement (ENode ex_n2), Failed); (DElement (ENode ex_n2), Fine); (DClose, Fine)] fw_new s /\
  exists parts, Forall2 (fun c part => exists rest, call_text ex_escape T_nodes (fst c) (part ++ rest) /\ (snd c = Fine -> rest = []))
    [(DElement (ENode ex_n1), Fine); (DElement (ENode ex_n2), Failed); (DElement (ENode ex_n2), Fine); (DClose, Fine)] parts /\ List.concat parts = fw_disk s T_nodes.
Proof.
  destruct ex_fails as (s & H & _). exists s. split; [exact H|]. destruct ex_pair_dumpable as (A & B).
  destruct (C89_history_tables _ _ _ _ _ _ H) with (t := T_nodes) as (parts & P1 & _ & P3).
  - apply Forall_cons; [exact A|]. apply Forall_cons; [exact B|]. apply Forall_cons; [exact B|]. apply Forall_cons; [exact Logic.I|]. apply Forall_nil.
  - left. reflexivity.
  - exists parts. split; [exact P1|]. apply (P3 [(DElement (ENode ex_n1), Fine); (DElement (ENode ex_n2), Failed); (DElement (ENode ex_n2), Fine)]). reflexivity.
Qed.
Example ex_fails_first : exists s w, history ex_escape ex_order ex_lib ex_clocks 0 (map (fun e => (DElement e, Fine)) [ENode ex_n1] ++ [(DElement (ENode ex_n2), Failed)]) fw_new s /\
  ApidbWrite.dump ex_escape ex_order (ex_clocks 0%nat) ex_lib [ENode ex_n1; ENode ex_n2] = Ok w /\ forall t, exists rest, files w t = fw_disk s t ++ rest.
Proof.
  destruct ex_fails as (s & H & _). inversion H as [|? ? ? ? ? m1 ? R1 _ H1]; subst. inversion H1 as [|? ? ? ? ? m2 ? R2 _ H2]; subst. exists m2.
  assert (F : history ex_escape ex_order ex_lib ex_clocks 0 (map (fun e => (DElement e, Fine)) [ENode ex_n1] ++ [(DElement (ENode ex_n2), Failed)]) fw_new m2).
  { cbn [map app]. eapply h_next; [exact R1|discriminate|]. eapply h_next; [exact R2|discriminate|]. apply h_nil. }
  destruct (proj1 (C55_dump_total ex_escape ex_order (ex_clocks 0%nat) ex_lib (ex_clocks_ok 0%nat) [ENode ex_n1; ENode ex_n2])) as (w & W).
  { destruct ex_pair_dumpable as (A & B). apply Forall_cons; [exact A|]. apply Forall_cons; [exact B|]. apply Forall_nil. }
  exists w. split; [exact F|]. split; [exact W|]. apply (proj2 (C89_first_failure _ _ _ _ [ENode ex_n1] (DElement (ENode ex_n2)) _ _ _ F (ex_intro _ [] eq_refl) W)).
Qed.
