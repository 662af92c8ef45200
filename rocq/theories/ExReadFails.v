(** Non-vacuity of C90. *)
From Coq Require Import ZArith List Bool Strings.Byte Strings.String Lia Permutation.
From Verif Require Import Base BaseFacts Types Proto FileFormat FileSpec PropFile Pool ParallelSpec PoolFacts ParallelRead ReadSpec PropReadAny ExBlock ExFile ExPipelines ExReadAny ExParallelRead FailPool FailSpec PropFails ExFails ReadFails PropReadFails.
Import ListNotations.
Open Scope Z_scope.
Local Notation length := List.length.

(** four blocks, of which two are read: the loop ends, or panics *)
Example ex_reads : exists l, length l = 2%nat /\ reads (block_reads Wrapping ex_codec ex_clean) bit_new l Ended /\ reads (block_reads Wrapping ex_codec ex_clean) bit_new l Panicked.
Proof.
  destruct ex_damaged_ends as (all & _ & L & B). destruct all as [|a [|b [|x r]]]; try discriminate L. exists [a; b]. split; [reflexivity|].
  split; apply C90_blocks; exists (a :: b :: x :: r), (x :: r), Ended; (split; [exact B|]); (split; [reflexivity|]); [auto|right; left; discriminate].
Qed.
(** the elements of the first data block of three, and an iteration that yields nothing *)
Lemma ex_clean_list : exists i j es r, fb_list 20 ex_codec ex_clean bit_new = Some (FHeader 0 i :: FData j es :: r, Ended) /\ (match es with [] => false | _ => true end = true) /\ length r = 2%nat /\ FileFormat.reader_new Wrapping ex_codec ex_clean = Ok i.
Proof. eexists _, _, _, _. vm_compute. auto. Qed.
Example ex_elements_cut : exists i, FileFormat.reader_new Wrapping ex_codec ex_clean = Ok i /\ elements_reads Wrapping ex_codec ex_clean None [] Ended /\
  exists es, es <> [] /\ elements_reads Wrapping ex_codec ex_clean (Some (FHeader 0 i)) es Ended.
Proof.
  destruct ex_clean_list as (i & j & es & r & A & NE & L & R). exists i. split; [exact R|]. split; [eapply C90_header_lost; exact R|]. exists es. split; [intros Q; rewrite Q in NE; discriminate NE|].
  apply (C90_elements _ _ _ _ _ _ R). exists (FData j es :: r), [FData j es], r, Ended, Ended. split; [reflexivity|]. split; [apply C69_blocks; apply fb_list_run in A; exact A|]. split; [reflexivity|]. split; [auto|].
  rewrite <- (app_nil_r es) at 2. constructor. constructor.
Qed.
(** two of three blobs treated, no command failed *)
Lemma ex_two_blobs : exists a b d o, run (blob_next ex_two_blocks) bit_new ([a; b] ++ [d]) o /\
  match from_blob_desc Checked ex_codec ex_two_blocks a, from_blob_desc Checked ex_codec ex_two_blocks b with Ok x, Ok y => length (flat_map calls_of [x; y]) = 3%nat | _, _ => False end.
Proof. eexists _, _, _, _. split; [cbn [app]; do 3 (eapply run_step; [vm_compute; reflexivity|]); eapply run_end; vm_compute; reflexivity|vm_compute; reflexivity]. Qed.
Example ex_silent_loss : exists strikes tr k p, reads_exec Checked ex_codec ex_two_blocks strikes (fun _ => false) 2 (lifted log) [] tr k p /\ finished p /\ length tr = 3%nat.
Proof.
  destruct ex_two_blobs as (a & b & d & o & R & C). destruct (from_blob_desc Checked ex_codec ex_two_blocks a) as [x| |] eqn:X; try contradiction. destruct (from_blob_desc Checked ex_codec ex_two_blocks b) as [y| |] eqn:Y; try contradiction.
  destruct (C90_silent_loss Checked ex_codec ex_two_blocks 2%nat (lifted log) [] [a; b] [d] o [x; y] R) as (st & tr & k & p & E & F & P).
  - repeat (apply Forall2_cons; [assumption|]). apply Forall2_nil.
  - intros w e s. reflexivity.
  - lia.
  - exists st, tr, k, p. split; [exact E|]. split; [exact F|]. rewrite <- C, <- (Permutation_length P), map_length. reflexivity.
Qed.
