(** Non-vacuity of C60, C61. *)
From Coq Require Import ZArith List Bool Strings.Byte Strings.String Lia Permutation Sorted.
From Verif Require Import Base BaseFacts Types Proto Block BlockFacts FloatFacts Spec SpecFacts FileFormat FileFacts FileSpec PropFile.
From Verif Require Import ModelSpec Model2 ModelFacts Pool ParallelSpec PoolFacts ParallelRead ParallelReadFacts PropParallelRead ExBlock ExFile ExParallelRead.
From Verif Require Import ParallelWriteSpec ParallelWrite OrderFacts EncodeFacts PropParallelWrite ExParallelWrite.
From Verif Require Import CallSpec Calls PropCalls BoxSpec PropBox Crash PropCrash.
Import ListNotations.
Open Scope nat_scope.
Local Notation length := List.length.
Local Notation concat := List.concat.

(** C61: the program stops before its last call; one block has been written, one is in an encoder, the
    last byte of the file is missing *)
Example ex_so_far : submitted_so_far 3 2 isort ex_calls [(1, [nd 1; nd 2]); (2, [nd 3; nd 4])].
Proof.
  assert (E : exists st, do_calls 3 2 isort ord_new ex_calls = Ok st /\ o_out st = [(1, [nd 1; nd 2]); (2, [nd 3; nd 4])]).
  { eexists. split; [vm_compute; reflexivity|]. vm_compute; reflexivity. }
  destruct E as (st & A & D). exists st. split; auto.
Qed.
Example ex_crash : exists w j t file, write_header Checked ex_codec (writer_new ex_info Zlib) = Ok w /\
  texec Checked ex_codec Zlib (threads_new (wr_file w) 2 [(1, [nd 1; nd 2]); (2, [nd 3; nd 4])]) j t /\ t_file t = Some file /\
  prefix (removelast file) file /\ ~ closed t /\
  exists i', reader_new Checked ex_codec (removelast file) = Ok i'.
Proof.
  assert (W : exists w, write_header Checked ex_codec (writer_new ex_info Zlib) = Ok w) by (rewrite write_header_spec; eauto).
  destruct W as (w & W).
  destruct (sched_t_exec Checked ex_codec Zlib (fun t => (closedb t, match t_encs t with Encoding _ _ :: _ => true | _ => false end, match t_file t with Some f => (Nat.ltb (length ex_header) (length f)) &&
     match reader_new Checked ex_codec (removelast f) with Ok _ => true | _ => false end | None => false end)) (false, true, true)
    [0; 3; 3; 3; 1; 1; 0; 2] (threads_new ex_header 2 [(1, [nd 1; nd 2]); (2, [nd 3; nd 4])])) as (j & t & X & E); [vm_compute; reflexivity|].
  pose proof (f_equal (fun x => snd (fst x)) E) as E2. pose proof (f_equal snd E) as E3. cbn [fst snd] in E2, E3. clear E.
  destruct (t_file t) as [f|] eqn:F; [|discriminate E3]. apply andb_prop in E3. destruct E3 as [_ E4].
  exists w, j, t, f. split; [exact W|]. split; [unfold ex_header in X; rewrite W in X; exact X|]. split; [exact F|]. split; [|split].
  - destruct f as [|x f]; [exists []; reflexivity|]. exists [last (x :: f) x]. apply app_removelast_last. discriminate.
  - intros (_ & _ & I & _). destruct (t_encs t) as [|e es]; [discriminate E2|]. inversion I as [|? ? I1 I2]. rewrite I1 in E2. discriminate E2.
  - destruct (reader_new Checked ex_codec (removelast f)) as [i'| |]; [exists i'; reflexivity|discriminate E4|discriminate E4].
Qed.
