(** Non-vacuity of C94. *)
From Coq Require Import ZArith List Bool Strings.Byte Strings.String Lia Permutation.
From Verif Require Import Base BaseFacts Types Proto Block BlockFacts FloatFacts Spec SpecFacts FileFormat FileFacts FileSpec PropFile.
From Verif Require Import ModelSpec ModelFacts Pool ParallelSpec PoolFacts ParallelRead ParallelReadFacts PropParallelRead ExBlock ExFile ExParallelRead FailPool FailSpec PropFails ExFails ReadFails
  BoxSpec DamagedParallel DamagedSpec PropDamaged.
Import ListNotations.
Open Scope Z_scope.
Local Notation length := List.length.
Local Notation concat := List.concat.

(** a blob that cannot be decoded between the header and the two blocks of [ex_two_blocks] *)
Definition ex_damaged : bytes := Eval vm_compute in
  match write_header Checked ex_codec (writer_new ex_info Zlib) with
  | Ok w0 => wr_file w0 ++ file_of_blobs [bad_blob] ++ skipn (length (wr_file w0)) ex_two_blocks
  | _ => [] end.
Example ex_damaged_blobs : exists ds, run (blob_next ex_damaged) bit_new ds Ended /\ length ds = 4%nat /\
  length (obtained Checked ex_codec ex_damaged (fun _ => false) ds) = 3%nat.
Proof.
  assert (H : match blob_next ex_damaged bit_new with Ok (Some d1, s1) => match blob_next ex_damaged s1 with Ok (Some d2, s2) => match blob_next ex_damaged s2 with Ok (Some d3, s3) =>
     match blob_next ex_damaged s3 with Ok (Some d4, s4) => match blob_next ex_damaged s4 with Ok (None, _) => length (obtained Checked ex_codec ex_damaged (fun _ => false) [d1; d2; d3; d4])
     | _ => 0%nat end | _ => 0%nat end | _ => 0%nat end | _ => 0%nat end | _ => 0%nat end = 3%nat) by (vm_compute; reflexivity).
  destruct (blob_next ex_damaged bit_new) as [([d1|], s1)| |] eqn:E1; try discriminate H. destruct (blob_next ex_damaged s1) as [([d2|], s2)| |] eqn:E2; try discriminate H.
  destruct (blob_next ex_damaged s2) as [([d3|], s3)| |] eqn:E3; try discriminate H. destruct (blob_next ex_damaged s3) as [([d4|], s4)| |] eqn:E4; try discriminate H.
  destruct (blob_next ex_damaged s4) as [([d5|], s5)| |] eqn:E5; try discriminate H.
  exists [d1; d2; d3; d4]. split; [|split; [reflexivity|exact H]]. repeat (eapply run_step; [eassumption|]). eapply run_end. eassumption.
Qed.
(** three workers, one stops at the bad blob: the others count two nodes and a way *)
Example ex_damaged_count : exists tr k p, count_reads Checked ex_codec ex_damaged (fun _ => NoFault) (fun _ => false) 3 tr k p /\ joined p /\ In Failed (p_workers p) /\ counted (p_shared p) = (2, 1, 0).
Proof.
  destruct (sched_exec (fun s => blob_next_with NoFault ex_damaged s) (fun d => if false then None else iteration_calls Checked ex_codec ex_damaged d) count_one for_each_queue
    (fun tr p => (joinedb p, existsb (fun w => match w with Failed => true | _ => false end) (p_workers p), counted (p_shared p)))
    (true, true, (2, 1, 0)) (round_robin 20 [0; 1; 2; 3]%nat) (pool_new bit_new 3 (Counters 0 0 0))) as (tr & k & p & X & E); [vm_compute; reflexivity|].
  exists tr, k, p. split; [exact (exec_fexec _ _ _ _ _ _ _ _ X)|]. split; [apply joinedb_spec; exact (f_equal (fun x => fst (fst x)) E)|]. split; [|exact (f_equal snd E)].
  pose proof (f_equal (fun x => snd (fst x)) E) as F. cbn [fst snd] in F. apply existsb_exists in F as (w & I & F). destruct w; try discriminate F. exact I.
Qed.
(** a sound file on a disk that cannot read blob 1: no box, [calc] panics; the copy has the way only *)
Example ex_unreadable_box : exists tr k p, calc_reads Checked ex_codec ex_two_blocks (fun _ => NoFault) (fun d => bd_index d =? 1) 3 tr k p /\ joined p /\ calc_result (p_shared p) = Panic.
Proof.
  destruct (sched_exec (fun s => blob_next_with NoFault ex_two_blocks s) (fun d => if bd_index d =? 1 then None else bbox_calls Checked ex_codec ex_two_blocks d) bbox_merge_result 1024
    (fun tr p => (joinedb p, match calc_result (p_shared p) with Panic => true | _ => false end))
    (true, true) (round_robin 20 [0; 1; 2; 3]%nat) (pool_new bit_new 3 None)) as (tr & k & p & X & E); [vm_compute; reflexivity|].
  exists tr, k, p. split; [exact (exec_fexec _ _ _ _ _ _ _ _ X)|]. split; [apply joinedb_spec; exact (f_equal fst E)|].
  pose proof (f_equal snd E) as F. cbn [snd] in F. destruct (calc_result (p_shared p)); [discriminate F|discriminate F|reflexivity].
Qed.
Example ex_damaged_box : exists tr k p b, calc_reads Checked ex_codec ex_damaged (fun _ => NoFault) (fun _ => false) 3 tr k p /\ joined p /\ calc_result (p_shared p) = Ok b.
Proof.
  destruct (sched_exec (fun s => blob_next_with NoFault ex_damaged s) (fun d => if false then None else bbox_calls Checked ex_codec ex_damaged d) bbox_merge_result 1024
    (fun tr p => (joinedb p, match calc_result (p_shared p) with Ok _ => true | _ => false end))
    (true, true) (round_robin 20 [0; 1; 2; 3]%nat) (pool_new bit_new 3 None)) as (tr & k & p & X & E); [vm_compute; reflexivity|].
  pose proof (f_equal snd E) as F. cbn [snd] in F. destruct (calc_result (p_shared p)) as [b| |] eqn:R; [|discriminate F|discriminate F].
  exists tr, k, p, b. split; [exact (exec_fexec _ _ _ _ _ _ _ _ X)|]. split; [apply joinedb_spec; exact (f_equal fst E)|exact R].
Qed.
Example ex_damaged_copy : exists tr k p, copy_reads Checked ex_codec ex_two_blocks (fun s => if bi_index s =? 2 then SeekFault else NoFault) (fun _ => false) 2 (fun _ => true) [] tr k p /\ joined p /\
  map (map element_id) (snd (p_shared p)) = [[5000000001; -7]].
Proof.
  destruct (sched_exec (fun s => blob_next_with (if bi_index s =? 2 then SeekFault else NoFault) ex_two_blocks s) (fun d => if false then None else iteration_calls Checked ex_codec ex_two_blocks d) (pipeline_call (fun _ => true) []) for_each_queue
    (fun tr p => (joinedb p, map (map element_id) (snd (p_shared p))))
    (true, [[5000000001; -7]]) (round_robin 20 [0; 1; 2]%nat) (pool_new bit_new 2 (tl_init, []))) as (tr & k & p & X & E); [vm_compute; reflexivity|].
  exists tr, k, p. split; [exact (exec_fexec _ _ _ _ _ _ _ _ X)|]. split; [apply joinedb_spec; exact (f_equal fst E)|exact (f_equal snd E)].
Qed.
