(** Non-vacuity of C98. *)
From Coq Require Import ZArith List Bool Strings.Byte Strings.String Lia Permutation.
From Verif Require Import Base BaseFacts Types Proto FileFormat FileSpec Spec PropFile CallSpec Calls PropCalls Pool ParallelSpec PoolFacts ParallelRead ReadSpec ExBlock ExFile ExCalls ExPipelines ExReadAny ExBlobs ExParallelRead FailPool FailSpec PropFails ExFails ReadFails PropReadFails GrowingSpec Growing PropGrowing.
Import ListNotations.
Open Scope Z_scope.
Local Notation length := List.length.

(** the reader is made after two of the five calls; there are between 1 and 3 elements to read *)
Example ex_growing : exists file1 file, calls_file Wrapping ex_codec ex_info Uncompressed (firstn 2 ex_calls) = Ok file1 /\ calls_file Wrapping ex_codec ex_info Uncompressed ex_calls = Ok file /\ beginning file1 file /\
  (exists l, elements_grow Wrapping ex_codec file file1 l Ended /\ length l = 1%nat) /\ (exists l, elements_grow Wrapping ex_codec file file1 l Ended /\ length l = 3%nat).
Proof.
  destruct (ex_calls_file Wrapping Uncompressed) as (file & F). destruct (C98_appends Wrapping ex_codec ex_info Uncompressed (firstn 2 ex_calls) (skipn 2 ex_calls) file F) as (file1 & F1 & B). exists file1, file.
  assert (G1 : exists f l, calls_file Wrapping ex_codec ex_info Uncompressed (firstn 2 ex_calls) = Ok f /\ els_list 20 Wrapping ex_codec f = Some l /\ length l = 1%nat) by (eexists _, _; split; [vm_compute; reflexivity|vm_compute; auto]).
  assert (G2 : exists f l, calls_file Wrapping ex_codec ex_info Uncompressed ex_calls = Ok f /\ els_list 20 Wrapping ex_codec f = Some l /\ length l = 3%nat) by (eexists _, _; split; [vm_compute; reflexivity|vm_compute; auto]).
  destruct G1 as (f1 & l1 & E1 & R1 & N1). rewrite F1 in E1. injection E1 as <-. destruct G2 as (f2 & l2 & E2 & R2 & N2). rewrite F in E2. injection E2 as <-.
  split; [exact F1|]. split; [exact F|]. split; [exact B|]. destruct (C98_both_bounds Wrapping ex_codec file file1 B) as (X & Y).
  split; [exists l1; split; [eapply X; eapply els_list_run; exact R1|exact N1]|exists l2; split; [eapply Y; eapply els_list_run; exact R2|exact N2]].
Qed.
(** a reader that meets half a blob panics, although the file will be good *)
Definition growing_final : bytes := ex_two_blocks.
Definition growing_half : bytes := firstn (length ex_two_blocks - 3) ex_two_blocks.
Lemma half_begins : beginning growing_half growing_final.
Proof. exists (skipn (length ex_two_blocks - 3) ex_two_blocks). symmetry. apply firstn_skipn. Qed.
Example ex_half : (exists l, elements_run Checked ex_codec growing_final l Ended) /\ exists l, elements_grow Checked ex_codec growing_final growing_half l Panicked /\ l <> [].
Proof.
  split.
  - assert (G : exists l, els_list 20 Checked ex_codec growing_final = Some l) by (eexists; vm_compute; reflexivity). destruct G as (l & G). exists l. eapply els_list_run. exact G.
  - assert (P : match fb_next Checked ex_codec growing_half bit_new with
      | Ok (_, s) => match create_element_iterator Checked ex_codec growing_half s with
        | Ok (Some (e :: es), s1) => match create_element_iterator Checked ex_codec growing_half s1 with Panic => true | _ => false end
        | _ => false end
      | _ => false end = true) by (vm_compute; reflexivity).
    destruct (fb_next Checked ex_codec growing_half bit_new) as [(ob, s)| |] eqn:E; try discriminate P.
    destruct (create_element_iterator Checked ex_codec growing_half s) as [([[|e es]|], s1)| |] eqn:E1; try discriminate P.
    destruct (create_element_iterator Checked ex_codec growing_half s1) as [(it, s2)| |] eqn:E2; try discriminate P. clear P.
    assert (Q : elements_run Checked ex_codec growing_half (e :: es) Panicked).
    { eapply els_loop; [exact E|exact E1|]. clear - E2. assert (G : forall l, el_run Checked ex_codec growing_half s1 (Some l) l Panicked) by (induction l; constructor; auto). apply G. }
    exists (e :: es). split; [|discriminate]. exact (proj1 (C98_both_bounds Checked ex_codec growing_final growing_half half_begins) _ _ Q).
Qed.
(** parallel_for_each with a worker that comes too early for the last blob *)
Example ex_growing_calls : exists tr k p, grows_exec Checked ex_codec (fun _ => growing_final) (fun _ => growing_final) (fun _ => growing_half) 2 (lifted log) [] tr k p /\ finished p.
Proof.
  assert (R : exists l, run (blob_next growing_final) bit_new l Ended) by (destruct (blob_list 20 growing_final bit_new) as [l|] eqn:E; [exists l; eapply blob_list_run; exact E|exfalso; revert E; vm_compute; discriminate]).
  destruct R as (l & R).
  destruct (comes_to_end (fun s => blob_next_seen growing_final growing_final s) (fun d => iteration_calls Checked ex_codec growing_half d) (lifted log) for_each_queue bit_new 2 [] l) as (tr & k & p & E & F); eauto.
  - clear - R. induction R as [s s' E|s E|s a s' l o E R IH]; [eapply run_end|eapply run_panic|eapply run_step]; rewrite ?seen_same; eauto.
  - unfold for_each_queue. lia.
Qed.
