(** Concrete instances of C91: a file and its concatenation with itself. *)
From Coq Require Import ZArith List Bool Strings.Byte Strings.String Lia.
From Verif Require Import Base BaseFacts Types FileFormat FileFacts FileSpec ModelSpec ModelFacts Pool ParallelSpec PoolFacts ParallelRead ReadSpec PropReadAny CountSpec PropCount ExBlock ExFile ExPipelines ExParallelRead ExReadAny.
From Verif Require Pipelines.
Import ListNotations.
Local Notation length := List.length.
Open Scope Z_scope.

Lemma ex_parallel_count file v : (let '(tr, k, p) := sched (blob_next file) (iteration_calls Wrapping ex_codec file) count_one for_each_queue (round_robin 40 [0; 2; 1; 3; 4]%nat) (pool_new bit_new 4 (Counters 0 0 0)) [] 0 in (counted (p_shared p), finishedb p)) = (v, true) ->
  exists tr k p, for_each_exec Wrapping ex_codec file 4 count_one (Counters 0 0 0) tr k p /\ finished p /\ counted (p_shared p) = v.
Proof.
  intros H. apply sched_exec with (obs := fun _ p => (counted (p_shared p), finishedb p)) in H. destruct H as (tr & k & p & X & E).
  exists tr, k, p. split; [exact X|]. split; [apply finishedb_spec; exact (f_equal snd E)|exact (f_equal fst E)].
Qed.
Lemma ex_sequential_count file : (exists i es, FileFormat.reader_new Wrapping ex_codec file = Ok i /\ els_list 100 Wrapping ex_codec file = Some es /\
   let a := fold_left Pipelines.count_one es (Pipelines.Counts 0 0 0 0 0 0) in Pipelines.ct_nodes a = 2 /\ Pipelines.ct_ways a = 1 /\ Pipelines.ct_relations a = 1) ->
  exists a, Pipelines.count_file Wrapping ex_codec file (Ok a) /\ Pipelines.ct_nodes a = 2 /\ Pipelines.ct_ways a = 1 /\ Pipelines.ct_relations a = 1.
Proof. intros (i & es & R & E & A). eexists. split; [eapply Pipelines.cf_done; [exact R|exact (els_list_run _ _ _ _ _ E)]|exact A]. Qed.
(** one header: both count 2 nodes, 1 way, 1 relation *)
Example ex_same_count : exists a tr k p, Pipelines.count_file Wrapping ex_codec ex_clean (Ok a) /\ for_each_exec Wrapping ex_codec ex_clean 4 count_one (Counters 0 0 0) tr k p /\ finished p /\
  (Pipelines.ct_nodes a, Pipelines.ct_ways a, Pipelines.ct_relations a) = (2, 1, 1) /\ counted (p_shared p) = (2, 1, 1).
Proof.
  destruct (ex_sequential_count ex_clean) as (a & A & E1 & E2 & E3); [eexists _, _; vm_compute; auto|].
  destruct (ex_parallel_count ex_clean (2, 1, 1)) as (tr & k & p & X & F & C); [vm_compute; reflexivity|]. exists a, tr, k, p. rewrite E1, E2, E3. auto.
Qed.
(** the same file twice in a row: elements() ends at the second header, the parallel count has twice as many *)
Theorem C91_two_headers : exists a tr k p, Pipelines.count_file Wrapping ex_codec ex_two_headers (Ok a) /\ for_each_exec Wrapping ex_codec ex_two_headers 4 count_one (Counters 0 0 0) tr k p /\ finished p /\
  (Pipelines.ct_nodes a, Pipelines.ct_ways a, Pipelines.ct_relations a) = (2, 1, 1) /\ counted (p_shared p) = (4, 2, 2).
Proof.
  destruct (ex_sequential_count ex_two_headers) as (a & A & E1 & E2 & E3); [eexists _, _; vm_compute; auto|].
  destruct (ex_parallel_count ex_two_headers (4, 2, 2)) as (tr & k & p & X & F & C); [vm_compute; reflexivity|]. exists a, tr, k, p. rewrite E1, E2, E3. auto.
Qed.
(** the hypothesis of C91_one_header *)
Example ex_one_header : forall blks, file_blocks Wrapping ex_codec ex_clean blks -> Forall (fun b => match b with FHeader _ _ => False | FData _ _ => True end) (tl blks) /\ zlen (flat_map elements_of blks) <= max_i64.
Proof.
  assert (G : match fb_list 20 ex_codec ex_clean bit_new with
              | Some (l, Ended) => forallb (fun b => match b with FHeader _ _ => false | FData _ _ => true end) (tl l) && (zlen (flat_map elements_of l) <=? 100)
              | _ => false end = true) by (vm_compute; reflexivity).
  destruct (fb_list 20 ex_codec ex_clean bit_new) as [[l [|]]|] eqn:A; try discriminate G. apply andb_true_iff in G. destruct G as (G & L). apply Z.leb_le in L.
  apply fb_list_run in A. intros blks B. destruct (run_det _ _ _ _ _ _ B A) as (-> & _). split; [|unfold max_i64; lia].
  apply Forall_forall. intros b I. rewrite forallb_forall in G. specialize (G b I). destruct b; [discriminate G|exact Logic.I].
Qed.
