(** Non-vacuity of C57-C59: a program that mixes the calls. *)
From Coq Require Import ZArith List Bool Strings.Byte Strings.String Reals Lia Lra.
From Verif Require Import Base BaseFacts Types Proto ProtoFacts Block BlockFacts FloatFacts.
From Verif Require Import Spec SpecFacts BlockOverflow FormatSpec BlockRead PropBlock ExBlock.
From Verif Require Import FileFormat FileFacts WriterFacts FileSpec PropFile ExFile CallSpec Calls PropCalls.
Import ListNotations.
Open Scope Z_scope.
Local Notation length := List.length.

(** C57: of a way, a node and a relation the block keeps the node *)
Definition ex_mixed : list element := [EWay ex_way; ESentinel; ENode ex_node2; ERelation ex_rel].
Lemma ex_mixed_ok : Forall element_ok ex_mixed.
Proof. constructor; [exact ex_way_ok|constructor; [exact I|constructor; [exact ex_node2_ok|constructor; [exact ex_rel_ok|constructor]]]]. Qed.
Example ex_keeps : block_keeps ex_mixed [ENode ex_node2].
Proof.
  assert (E : [ENode ex_node2] = survivors ex_mixed) by reflexivity. rewrite E. apply survivors_keeps.
Qed.
Example ex_mixed_block m : exists bs, osm_data_serialize m ex_mixed = Ok bs /\ below_2GiB bs.
Proof. destruct m; eexists; (split; [vm_compute; reflexivity|vm_compute; congruence]). Qed.

(** C58: the list is in the file before the node that was written first; the way is pending *)
Definition ex_calls : list wcall := [CElement (ENode ex_node1); CElements ex_mixed; CElement (ENode ex_node2); CClose; CElement (EWay ex_way)].
Lemma ex_calls_ok : Forall call_ok ex_calls.
Proof. constructor; [exact ex_node1_ok|constructor; [exact ex_mixed_ok|constructor; [exact ex_node2_ok|constructor; [exact I|constructor; [exact ex_way_ok|constructor]]]]]. Qed.
Lemma ex_calls_fit m k : calls_fit m ex_codec k ex_calls.
Proof.
  split.
  - intros stream W. apply no_sentinels_spec in W. subst stream. apply pieces_fit. destruct m, k; vm_compute; reflexivity.
  - constructor; [|constructor]. destruct (pieces_fit m ex_codec k ex_mixed) with (a := @nil element) (b := ex_mixed) (d := @nil element) as [A B]; auto.
    + destruct m, k; vm_compute; reflexivity.
    + vm_compute. congruence.
    + split; auto.
Qed.
Example ex_calls_file m k : exists file, calls_file m ex_codec ex_info k ex_calls = Ok file.
Proof. destruct m, k; eexists; vm_compute; reflexivity. Qed.
Example ex_calls_got m k : exists file bs pending i' got, calls_file m ex_codec ex_info k ex_calls = Ok file /\
  laid_out ex_calls bs pending /\ reader_new m ex_codec file = Ok i' /\ elements_run m ex_codec file got Ended /\
  Forall2 written_read (flat_map content bs) got.
Proof.
  destruct (ex_calls_file m k) as (file & F).
  destruct (C58_any_calls m ex_codec ex_info k ex_calls file ex_codec_ok ex_info_ok ltac:(discriminate) (ex_info_fits k) ex_info_supported
    ex_calls_ok (ex_calls_fit m k) F) as (bs & pending & i' & got & A & B & _ & D & E). exists file, bs, pending, i', got. auto.
Qed.
Example ex_calls_layout : laid_out ex_calls [FromBatch [ENode ex_node2]; FromSingles [ENode ex_node1; ENode ex_node2]; FromSingles []] [EWay ex_way].
Proof.
  assert (R : exists bs a, calls_run acc_new ex_calls = Ok (bs, a) /\ map kept_of bs = [FromBatch [ENode ex_node2]; FromSingles [ENode ex_node1; ENode ex_node2]; FromSingles []] /\ acc_elements a = [EWay ex_way]).
  { eexists _, _. split; [vm_compute; reflexivity|]. split; reflexivity. }
  destruct R as (bs & a & R & <- & <-). apply run_laid_out. exact R.
Qed.

(** C59: both kinds of stream *)
Example ex_acceptable : acceptable ex_stream'.
Proof. exists [ENode ex_node1; ENode ex_node2], [EWay ex_way], [ERelation ex_rel]. sconj; try reflexivity; try discriminate; repeat constructor; eauto. Qed.
Example ex_unacceptable : ~ acceptable [ENode ex_node1; ERelation ex_rel].
Proof.
  intros A. destruct (C59_exactly_these_streams Wrapping ex_codec ex_info Zlib [ENode ex_node1; ERelation ex_rel] [ENode ex_node1; ERelation ex_rel]) as [[X _] _].
  - repeat constructor; discriminate.
  - apply serializable_release.
  - destruct (X A) as (f & E). destruct (ex_rejected Wrapping) as (_ & R & _). congruence.
Qed.
