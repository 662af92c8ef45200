(** Non-vacuity of C97. *)
From Coq Require Import ZArith List Bool Strings.Byte Strings.String Reals Lia Permutation.
From Verif Require Import Base BaseFacts Types Proto ProtoFacts Block BlockFacts FloatFacts.
From Verif Require Import Spec SpecFacts BlockOverflow FormatSpec BlockRead PropBlock ExBlock.
From Verif Require Import FileFormat FileFacts WriterFacts FileSpec PropFile ExFile CallSpec Calls PropCalls ExCalls.
From Verif Require Import ParallelWriteSpec ParallelWrite PropParallelWrite.
From Verif Require ExParallelWrite.
From Verif Require Import Stack StackSpec PropStack PropStackFiles.
Import ListNotations.
Local Notation length := List.length.
Local Notation concat := List.concat.
Open Scope nat_scope.

(** the calls of ExCalls (with one list) fit in 4 nested calls *)
Example ex_calls_fit4 m k : exists file got, calls_file m ex_codec ex_info k ex_calls = Ok file /\ elements_within m ex_codec file 4 got (Some Ended).
Proof.
  destruct (ex_calls_file m k) as (file & F).
  destruct (C97_written m ex_codec ex_info k ex_calls file 4 ex_codec_ok ex_info_ok ltac:(discriminate) (ex_info_fits k)
    ex_calls_ok (ex_calls_fit m k) F (Nat.le_refl 4)) as (got & _ & E). eauto.
Qed.
(** the lists without elements *)
Example ex_crafted m k n : exists file, calls_file m ex_codec ex_info k (repeat (CElements []) n) = Ok file /\
  forall room, (room <= n -> elements_within m ex_codec file room [] None) /\ (n < room -> elements_within m ex_codec file room [] (Some Ended)).
Proof.
  apply C97_crafted; auto using ex_codec_ok, ex_info_ok, ex_info_fits; [discriminate|].
  split; [intros data D; destruct m; vm_compute in D; injection D as <-; vm_compute; congruence|].
  intros h body D. destruct m, k; vm_compute in D; injection D as <- <-; vm_compute; congruence.
Qed.
Example ex_parallel2 : exists file got, parallel_file Checked ex_codec Zlib ex_info 3 2 ExParallelWrite.isort 2 ExParallelWrite.ex_calls file /\
  elements_within Checked ex_codec file 2 got (Some Ended).
Proof.
  destruct ExParallelWrite.ex_parallel_file as (file & F & _). destruct ExParallelWrite.ex_fits as (A & B).
  destruct (C97_parallel Checked ex_codec Zlib ex_info 3 2 ExParallelWrite.isort 2 ExParallelWrite.ex_calls file 2) as (got & _ & E);
    eauto using ex_codec_ok, ex_info_ok, ex_info_fits, ExParallelWrite.isort_ok; [discriminate|].
  repeat constructor; discriminate.
Qed.

(** ** a row in the middle: three calls are needed, and the elements before the row are returned *)
Fixpoint loop_exec (m : mode) (c : codec) (file : bytes) (room fuel : nat) (s : bit) (it : option (list element)) : option (list element * option ending) :=
  match fuel with O => None | S f =>
    match next_within m c file room s it with
    | None => Some ([], None)
    | Some (Ok (None, _)) => Some ([], Some Ended)
    | Some (Ok (Some e, (s', it'))) => match loop_exec m c file room f s' it' with Some (l, o) => Some (e :: l, o) | None => None end
    | Some Panic => Some ([], Some Panicked)
    | Some Err => None
    end
  end.
Lemma loop_exec_sound m c file room fuel : forall s it l o, loop_exec m c file room fuel s it = Some (l, o) -> loop_within m c file room s it l o.
Proof.
  induction fuel as [|f IH]; intros s it l o H; cbn in H; [discriminate H|].
  destruct (next_within m c file room s it) as [[([e|], (s', it'))| |]|] eqn:E; try discriminate H.
  - destruct (loop_exec m c file room f s' it') as [(l2, o2)|] eqn:L; [|discriminate H]. injection H as <- <-. eapply lw_item; eauto.
  - injection H as <- <-. eapply lw_end; eauto.
  - injection H as <- <-. apply lw_panic; auto.
  - injection H as <- <-. apply lw_overflow; auto.
Qed.
Definition within_exec m c file room fuel : option (list element * option ending) :=
  match fb_next m c file bit_new with
  | Ok (_, s) => match create_element_iterator m c file s with Ok (it, s') => loop_exec m c file room fuel s' it | _ => None end
  | _ => None
  end.
Lemma within_exec_sound m c file room fuel l o : within_exec m c file room fuel = Some (l, o) -> elements_within m c file room l o.
Proof.
  unfold within_exec. destruct (fb_next m c file bit_new) as [(ob, s)| |] eqn:E; try discriminate. destruct (create_element_iterator m c file s) as [(it, s')| |] eqn:E2; try discriminate.
  intros H. eapply ew_loop; eauto. eapply loop_exec_sound; eauto.
Qed.
Definition ex_close_calls : list wcall := [CElement (ENode ex_node1); CClose; CElement (EWay ex_way); CClose].
Definition ends_with (room : nat) : option (nat * option ending) :=
  match calls_file Wrapping ex_codec ex_info Uncompressed ex_close_calls with
  | Ok file => match within_exec Wrapping ex_codec file room 9 with Some (l, o) => Some (length l, o) | None => None end
  | _ => None
  end.
Example ex_needs_three : ends_with 1 = Some (1, None) /\ ends_with 2 = Some (1, None) /\ ends_with 3 = Some (2, Some Ended).
Proof. vm_compute. auto. Qed.
