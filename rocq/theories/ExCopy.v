(** Non-vacuity of C105: a file whose elements change when read, and whose copy is the file; what a
    block of several kinds and a bounding box do instead. *)
From Coq Require Import ZArith List Bool Lia Strings.Byte Strings.String Reals.
From Verif Require Import Base BaseFacts Types Proto ProtoFacts Block BlockFacts FloatFacts Spec SpecFacts FileFormat FileFacts
  WriterFacts FileSpec PropBlock PropFile ExBlock ExFile PropCopy.
Import ListNotations.
Local Notation length := List.length.
Local Notation concat := List.concat.
Open Scope Z_scope.

(** nodes with milliseconds and deleted nodes, an end mark, a way and a relation *)
Example ex_copy m k : exists file got,
  write_file m ex_codec ex_info k ex_stream = Ok file /\ elements_run m ex_codec file got Ended /\
  got <> ex_stream' /\ write_file m ex_codec ex_info k got = Ok file /\
  write_file m ex_codec ex_info Uncompressed got = write_file m ex_codec ex_info Uncompressed ex_stream.
Proof.
  destruct (ex_file m k) as (file & W & i' & s' & R & _ & E & F & _).
  destruct (C105_copy_of_the_original m ex_codec ex_info k ex_stream ex_stream' file ex_codec_ok ex_info_ok ltac:(discriminate)
     (ex_info_fits k) ex_info_supported ex_elems_ok ex_stream_ws (ex_blocks_fit m k) W) as (got & Eg & G).
  exists file, got. sconj; auto.
  - destruct (elements_run_det _ _ _ _ _ _ _ E Eg) as (<- & _).
    intros X. subst s'. inversion F as [|? ? ? ? A _]; subst. cbn in A. destruct A as (_ & _ & _ & _ & _ & _ & _ & (s & T & _) & _).
    cbn [ex_node1 n_timestamp] in T. lia.
  - rewrite G. exact W.
Qed.

(** a program that copies a file without a bounding box: header and elements as they were read *)
Definition ex_info0 : file_info :=
  FileInfo None [str "OsmSchema-V0.6"; str "DenseNodes"] [str "Sort.Type_then_ID"]
    (Some (str "prog")) None (Some 1700000000) None (Some (str "http://x")).
Lemma ex_info0_ok : info_ok ex_info0.
Proof. unfold info_ok, utf8_all, utf8_opt, i64_opt; cbn. sconj; first [solve [repeat constructor]|intros ? H; first [discriminate|injection H as <-; first [reflexivity|unfold I64; lia]]]. Qed.
Lemma ex_info0_fits k : header_fits ex_codec k ex_info0.
Proof.
  split; [vm_compute; congruence|]. intros m w H. rewrite write_header_spec in H. injection H as <-.
  destruct k; vm_compute; congruence.
Qed.
Example ex_same m k : exists file i' got,
  write_file m ex_codec ex_info0 k ex_stream = Ok file /\ reader_new m ex_codec file = Ok i' /\
  elements_run m ex_codec file got Ended /\ write_file m ex_codec i' k got = Ok file.
Proof.
  assert (W : exists file, write_file m ex_codec ex_info0 k ex_stream = Ok file).
  { apply (proj2 (C17_order_enforced_partial m ex_codec ex_info0 k ex_stream ex_stream' ex_stream_ws)
      [ENode ex_node1; ENode ex_node2] [EWay ex_way] [ERelation ex_rel]); try reflexivity; try (repeat constructor; eauto; fail).
    - right. discriminate.
    - intros a b d E _. pose proof (pieces_in a b d) as P. rewrite <- E in P.
      assert (F : Forall (fun b => exists bs, osm_data_serialize m b = Ok bs) (pieces ex_stream')).
      { destruct m; repeat constructor; eexists; vm_compute; reflexivity. }
      rewrite Forall_forall in F. apply F, P. }
  destruct W as (file & W).
  assert (SU : Forall supported (fi_required ex_info0)) by exact ex_info_supported.
  destruct (C16_whole_file_round_trip m ex_codec ex_info0 k ex_stream ex_stream' file ex_codec_ok ex_info0_ok ltac:(discriminate)
     (ex_info0_fits k) SU ex_elems_ok ex_stream_ws (ex_blocks_fit m k) W) as (i' & got & R & _ & E & _).
  exists file, i', got. sconj; auto.
  destruct (C105_same_bytes m ex_codec ex_info0 k ex_stream ex_stream' file i' got Ended ex_codec_ok ex_info0_ok ltac:(discriminate)
     (ex_info0_fits k) SU ex_elems_ok ex_stream_ws (ex_blocks_fit m k) W R E) as (_ & _ & G). apply G. reflexivity.
Qed.

(** a block of several kinds loses elements (C57), so writing it again gives another block *)
Example ex_mixed :
  match osm_data_serialize Checked [ENode ex_node1; ERelation ex_rel] with
  | Ok bs => match osm_data_new Checked bs with
             | Ok [ENode n] => match osm_data_serialize Checked [ENode n] with Ok bs' => negb (bytes_eqb bs bs') | _ => false end
             | _ => false end
  | _ => false end = true.
Proof. vm_compute. reflexivity. Qed.
(** a copy of a copy, with another header, compression and build *)
Example ex_copies : exists file file' got,
  write_file Checked ex_codec ex_info Zlib ex_stream = Ok file /\ elements_run Checked ex_codec file got Ended /\
  write_file Wrapping ex_codec ex_info0 Uncompressed got = Ok file' /\ elements_run Wrapping ex_codec file' got Ended.
Proof.
  destruct (ex_file Checked Zlib) as (file & W & _). destruct (ex_same Wrapping Uncompressed) as (file' & _ & _ & W' & _).
  assert (HY : file_hyps Checked ex_codec ex_info Zlib ex_stream ex_stream').
  { red. sconj; [exact ex_codec_ok|exact ex_info_ok|discriminate|exact (ex_info_fits Zlib)|exact ex_info_supported|exact ex_elems_ok|exact ex_stream_ws|exact (ex_blocks_fit Checked Zlib)]. }
  destruct (file_exact _ _ _ _ _ _ _ HY W) as (_ & R).
  destruct HY as (A1 & A2 & A3 & A4 & A5 & A6 & A7 & A8).
  destruct (C105_copy_of_the_original _ _ _ _ _ _ _ A1 A2 A3 A4 A5 A6 A7 A8 W) as (got & R' & G).
  destruct (elements_run_det _ _ _ _ _ _ _ R R') as (<- & _).
  exists file, file', (map norm ex_stream'). specialize (G Wrapping ex_codec ex_info0 Uncompressed). rewrite W' in G. sconj; auto.
  refine (C105_copies_read_the_same _ _ _ _ _ _ _ _ _ Wrapping ex_codec ex_info0 Uncompressed file' A1 A2 A3 A4 A5 A6 A7 A8 W R
    ex_codec_ok ex_info0_ok _ (ex_info0_fits _) ex_info_supported _ G); [discriminate|].
  apply pieces_fit. vm_compute. reflexivity.
Qed.
