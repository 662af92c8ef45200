(** Non-vacuity of C103: an unordered collection that is sorted and written, one that cannot be, and
    two files that are merged. *)
From Coq Require Import ZArith List Bool Lia Strings.Byte Strings.String Reals Permutation Sorted.
From Verif Require Import Base BaseFacts Types Proto ProtoFacts Block BlockFacts BlockRead FloatFacts Spec SpecFacts FileFormat FileFacts
  WriterFacts FileSpec PropBlock PropFile CallSpec Calls PropCalls ModelSpec Model2 ModelFacts ParallelWriteSpec OrderFacts ExTools ExBlock ExFile ExParallelWrite
  PropConvert PropConvert2 DumpReadSpec ExPipelines ExApidb ExConvert PropSorted.
Import ListNotations.
Local Notation length := List.length.
Local Notation concat := List.concat.
Open Scope Z_scope.

Lemma forall2_len {A B} (R : A -> B -> Prop) l l' : Forall2 R l l' -> length l' = length l.
Proof. induction 1; cbn; auto. Qed.
(** sorting: relation, way, nodes with ids 1, 2 *)
Definition ex_mess : list element := [ERelation ex_rel; EWay ex_way; ENode ex_node2; ENode ex_node1].
Lemma ex_mess_ns : Forall not_sentinel ex_mess.
Proof. repeat constructor; discriminate. Qed.
Lemma ex_mess_ok : Forall element_ok ex_mess.
Proof. repeat (constructor; [first [exact ex_node1_ok|exact ex_node2_ok|exact ex_way_ok|exact ex_rel_ok]|]). constructor. Qed.
(** as it is the writer refuses it *)
Example ex_mess_refused m : write_file m ex_codec ex_info Zlib ex_mess = Panic.
Proof. destruct m; vm_compute; reflexivity. Qed.
Example ex_mess_written : exists file i' images got, write_file Wrapping ex_codec ex_info Zlib (isort ex_mess) = Ok file /\
  reader_new Wrapping ex_codec file = Ok i' /\ info_written_read ex_info i' /\ elements_run Wrapping ex_codec file got Ended /\
  in_order got /\ Forall2 written_read ex_mess images /\ Permutation images got /\ length got = 4%nat.
Proof.
  destruct (C103_sorted_is_writable Wrapping ex_codec ex_info Zlib isort ex_mess isort_ok ex_mess_ns (serializable_release _)) as (_ & [W _] & _).
  destruct W as (file & F); [intros _; exists ex_way; cbn; auto|].
  destruct (C103_sorted_round_trip Wrapping ex_codec ex_info Zlib isort ex_mess file isort_ok ex_mess_ns ex_codec_ok ex_info_ok ltac:(discriminate)
    (ex_info_fits Zlib) ex_info_supported ex_mess_ok) as (i' & im & got & A & B & D & E & G & P); auto.
  - apply pieces_fit. vm_compute. reflexivity.
  - exists file, i', im, got. sconj; auto. apply Permutation_length in P. rewrite <- P. apply forall2_len in G. rewrite G. reflexivity.
Qed.
(** a node and a relation, no way: no order helps *)
Example ex_no_way : write_file Wrapping ex_codec ex_info Zlib (isort [ERelation ex_rel; ENode ex_node1]) = Panic.
Proof.
  apply (C103_sorted_is_writable Wrapping ex_codec ex_info Zlib isort _ isort_ok); [repeat constructor; discriminate|apply serializable_release|].
  intros H. destruct H as (w & [W|[W|[]]]); [|discriminate|discriminate]. exists ex_rel. cbn. auto.
Qed.

(** ** Merging *)
Definition ex_other : list element := [ENode ex_n1'; EWay ex_w].
Definition ex_other_pbf : bytes := match write_file Wrapping ex_codec ex_info Zlib ex_other with Ok f => f | _ => [] end.
Lemma ex_other_run : elements_run Wrapping ex_codec ex_other_pbf ex_other Ended.
Proof. apply (els_list_run 100). vm_compute. reflexivity. Qed.
Lemma ex_short_ok : Forall element_ok ex_short.
Proof.
  pose proof ex_short_lossless as L. unfold ex_short in *. rewrite Forall_forall in *. intros e I. specialize (L e I).
  assert (W : wf_element e).
  { cbn in I. repeat destruct I as [<-|I]; try contradiction; cbn; unfold wf_node, wf_way, wf_relation, wf_member, tag_utf8, I32, I64; sconj; try reflexivity; try lia;
    repeat (constructor; [first [split; reflexivity|split; [unfold I64; cbn; lia|reflexivity]|cbn; lia]|]); try constructor. all: cbn; try lia; sconj; reflexivity. }
  destruct e; auto. split; [exact W|]. exact (lossless_coordinates _ L).
Qed.
Lemma ex_own es file : Forall element_ok es -> without_sentinels es es -> forallb (piece_small Wrapping ex_codec Zlib) (pieces es) = true ->
  write_file Wrapping ex_codec ex_info Zlib es = Ok file -> elements_run Wrapping ex_codec file es Ended -> own_file Wrapping ex_codec file es.
Proof.
  intros O WS B W R. exists ex_info, Zlib, es, es. sconj; auto using ex_info_ok, ex_info_fits, ex_info_supported, pieces_fit. discriminate.
Qed.
Example ex_merge : exists merged i' got,
  write_file Wrapping ex_codec ex_info Zlib (isort (ex_short ++ ex_other)) = Ok merged /\ reader_new Wrapping ex_codec merged = Ok i' /\
  elements_run Wrapping ex_codec merged got Ended /\ Permutation (ex_short ++ ex_other) got /\ in_order got.
Proof.
  destruct (C103_merge Wrapping ex_codec ex_info Zlib isort [ex_pbf; ex_other_pbf] [ex_short; ex_other] isort_ok ex_codec_ok) as (f & i' & got & A & B & _ & D & E & F).
  - repeat constructor.
    + apply ex_own; [exact ex_short_ok|repeat constructor; discriminate|vm_compute; reflexivity|vm_compute; reflexivity|exact ex_pbf_run].
    + apply ex_own; [|repeat constructor; discriminate|vm_compute; reflexivity|vm_compute; reflexivity|exact ex_other_run].
      pose proof ex_short_ok as O. rewrite Forall_forall in *. intros e I. apply O. cbn in I |- *. tauto.
  - exact ex_info_ok.
  - discriminate.
  - exact (ex_info_fits Zlib).
  - exact ex_info_supported.
  - intros _. exists ex_w. cbn. auto 10.
  - apply serializable_release.
  - apply pieces_fit. vm_compute. reflexivity.
  - exists f, i', got. cbn [concat] in *. rewrite app_nil_r in *. auto 10.
Qed.
