(** Non-vacuity of C101. *)
From Coq Require Import ZArith List Bool Strings.Byte Strings.String Lia Permutation.
From Verif Require Import Base BaseFacts Types Proto FileFormat FileFacts FileSpec ModelSpec Spec PropFile CallSpec Calls PropCalls Pool ParallelSpec PoolFacts ParallelRead ParallelReadFacts ReadSpec ExBlock ExFile ExCalls ExPipelines ExReadAny ExParallelRead ExCount JoinSpec PropJoined.
From Verif Require PropParallelRead PropBox.
Import ListNotations.
Open Scope Z_scope.
Local Notation length := List.length.
Local Notation concat := List.concat.

Lemma ex_written : exists f, calls_file Wrapping ex_codec ex_info Uncompressed ex_calls = Ok f /\ pbf_written Wrapping ex_codec f.
Proof.
  destruct (ex_calls_file Wrapping Uncompressed) as (f & F). exists f. split; [exact F|]. eapply by_writer; [exact ex_info_ok|discriminate|apply ex_info_fits|exact ex_calls_ok|apply ex_calls_fit|exact F].
Qed.
(** the file, itself once more and three bytes: the three elements of the first are read and nothing else *)
Example ex_joined_elements : exists f l, pbf_written Wrapping ex_codec f /\ elements_run Wrapping ex_codec (f ++ f ++ [x00; x01; x02]) l Ended /\ length l = 3%nat.
Proof.
  destruct ex_written as (f & F & W). assert (G : exists f l, calls_file Wrapping ex_codec ex_info Uncompressed ex_calls = Ok f /\ els_list 20 Wrapping ex_codec f = Some l /\ length l = 3%nat) by (eexists _, _; split; [vm_compute; reflexivity|vm_compute; auto]).
  destruct G as (f' & l & F' & L & N). rewrite F in F'. injection F' as <-. exists f, l. split; [exact W|]. split; [|exact N].
  apply (proj2 (C101_appended Wrapping ex_codec f f [x00; x01; x02] ex_codec_ok W W)). exact (els_list_run _ _ _ _ _ L).
Qed.
(** the parallel count of the two is the double *)
Example ex_joined_counts : exists f tr k p, pbf_written Wrapping ex_codec f /\ for_each_exec Wrapping ex_codec (concat [f; f]) 4 count_one (Counters 0 0 0) tr k p /\ finished p /\ counted (p_shared p) = (6, 0, 0).
Proof.
  destruct ex_written as (f & F & W). assert (G : exists f, calls_file Wrapping ex_codec ex_info Uncompressed ex_calls = Ok f /\
    (let '(tr, k, p) := sched (blob_next (concat [f; f])) (iteration_calls Wrapping ex_codec (concat [f; f])) count_one for_each_queue (round_robin 40 [0; 2; 1; 3; 4]%nat) (pool_new bit_new 4 (Counters 0 0 0)) [] 0 in (counted (p_shared p), finishedb p)) = ((6, 0, 0), true)) by (eexists; split; [vm_compute; reflexivity|vm_compute; reflexivity]).
  destruct G as (f' & F' & X). rewrite F in F'. injection F' as <-. apply ex_parallel_count in X as (tr & k & p & X & Fi & C). exists f, tr, k, p. auto.
Qed.
(** the hypotheses of C101_bounding_box *)
Lemma box_had file : (let '(tr, k, p) := sched (blob_next file) (bbox_calls Wrapping ex_codec file) bbox_merge_result 1024 (round_robin 40 [0; 2; 1]%nat) (pool_new bit_new 2 None) [] 0 in (match p_shared p with Some _ => true | None => false end, finishedb p)) = (true, true) ->
  exists b, box_of Wrapping ex_codec file (Ok b).
Proof.
  intros H. apply sched_exec with (obs := fun _ p => (match p_shared p with Some _ => true | None => false end, finishedb p)) in H. destruct H as (tr & k & p & X & E).
  destruct (p_shared p) as [b|] eqn:Es; [|discriminate (f_equal fst E)]. exists b, 2%nat, tr, k, p. split; [exact X|]. split; [apply finishedb_spec; exact (f_equal snd E)|rewrite Es; reflexivity].
Qed.
Example ex_joined_box : exists f a b, pbf_written Wrapping ex_codec f /\ Forall2 (box_of Wrapping ex_codec) [f; f] [Ok a; Ok a] /\ box_of Wrapping ex_codec (concat [f; f]) (Ok b) /\ box_le a b.
Proof.
  destruct ex_written as (f & F & W). assert (G : exists f, calls_file Wrapping ex_codec ex_info Uncompressed ex_calls = Ok f /\
    (let '(tr, k, p) := sched (blob_next f) (bbox_calls Wrapping ex_codec f) bbox_merge_result 1024 (round_robin 40 [0; 2; 1]%nat) (pool_new bit_new 2 None) [] 0 in (match p_shared p with Some _ => true | None => false end, finishedb p)) = (true, true) /\
    (let '(tr, k, p) := sched (blob_next (concat [f; f])) (bbox_calls Wrapping ex_codec (concat [f; f])) bbox_merge_result 1024 (round_robin 40 [0; 2; 1]%nat) (pool_new bit_new 2 None) [] 0 in (match p_shared p with Some _ => true | None => false end, finishedb p)) = (true, true))
    by (eexists; split; [vm_compute; reflexivity|split; [vm_compute; reflexivity|vm_compute; reflexivity]]).
  destruct G as (f' & F' & X & Y). rewrite F in F'. injection F' as <-. apply box_had in X as (a & X). apply box_had in Y as (b & Y). exists f, a, b.
  assert (F2 : Forall2 (box_of Wrapping ex_codec) [f; f] [Ok a; Ok a]) by (repeat constructor; exact X). split; [exact W|]. split; [exact F2|]. split; [exact Y|].
  assert (FF : Forall blob_file [f; f]) by (pose proof (proj1 (C101_written _ _ _ ex_codec_ok W)); auto).
  destruct (C101_bounding_box _ _ _ _ _ FF F2 Y) as (_ & _ & H & _). apply H. left; reflexivity.
Qed.
(** the file and a piece of it that stops in the first blob: the three elements, then a panic; with a piece of two bytes, the end *)
Example ex_joined_cut : exists f l p r p2 r2, f = p ++ r /\ f = p2 ++ r2 /\ r <> [] /\ r2 <> [] /\ pbf_written Wrapping ex_codec f /\ length l = 3%nat /\
  elements_run Wrapping ex_codec (f ++ p) l Panicked /\ elements_run Wrapping ex_codec (f ++ p2) l Ended.
Proof.
  destruct ex_written as (f & F & W). assert (G : exists f l, calls_file Wrapping ex_codec ex_info Uncompressed ex_calls = Ok f /\ els_list 20 Wrapping ex_codec f = Some l /\ length l = 3%nat /\
    fb_next Wrapping ex_codec (firstn 25 f) bit_new = Panic /\ (match fb_next Wrapping ex_codec (firstn 2 f) bit_new with Ok (None, _) => true | _ => false end) = true /\ (Nat.ltb 25 (length f)) = true) by (eexists _, _; split; [vm_compute; reflexivity|split; [vm_compute; reflexivity|vm_compute; auto]]).
  destruct G as (f' & l & F' & L & N & P & Q & Ln). rewrite F in F'. injection F' as <-. apply els_list_run in L. apply Nat.ltb_lt in Ln.
  exists f, l, (firstn 25 f), (skipn 25 f), (firstn 2 f), (skipn 2 f).
  assert (NE : forall k, (k < length f)%nat -> skipn k f <> []) by (intros k Hk E; apply (f_equal (@length _)) in E; rewrite skipn_length in E; cbn in E; lia).
  split; [symmetry; apply firstn_skipn|]. split; [symmetry; apply firstn_skipn|]. split; [apply NE; lia|]. split; [apply NE; lia|]. split; [exact W|]. split; [exact N|].
  assert (D : forall k, pbf_written Wrapping ex_codec (firstn k f ++ skipn k f)) by (intros k; rewrite firstn_skipn; exact W).
  split.
  - destruct (proj2 (C101_appended_cut _ _ f _ _ ex_codec_ok W (D 25%nat)) l _ L) as (o & R & O). rewrite (proj2 O (run_panic _ _ P)) in R. exact R.
  - destruct (proj2 (C101_appended_cut _ _ f _ _ ex_codec_ok W (D 2%nat)) l _ L) as (o & R & O). destruct o; [exact R|]. pose proof (proj1 O eq_refl) as X. inversion X as [|? E|]; subst. rewrite E in Q. discriminate Q.
Qed.
