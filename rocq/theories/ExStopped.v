(** Non-vacuity of C95. *)
From Coq Require Import ZArith List Bool Lia Strings.Byte Strings.String.
From Verif Require Import Base BaseFacts Types Proto ProtoFacts Block BlockFacts FloatFacts FileFormat FileFacts WriterFacts Spec SpecFacts FileSpec FormatSpec ModelSpec
  PropBlock PropFile PropWire PropLegal CallSpec PropCalls FileInfoModel InfoSpec PropInfo Pipelines PropPipelines Pipelines2 Stopped PropStopped ExBlock ExFile ExFails ExPipelines.
From Verif Require ApidbRead ApidbWrite StopSpec PropToc PropToc ExTools ExApidb ExStop ExConvert.
Import ListNotations.
Local Notation length := List.length.
Local Notation concat := List.concat.
Open Scope Z_scope.

(** the element iterator as a function, with its end *)
Fixpoint el_ends (fuel : nat) m c file s (it : option (list element)) : option (list element * ending) :=
  match fuel with
  | O => None
  | S f => match it with
           | None => Some ([], Ended)
           | Some (e :: r) => option_map (fun p => (e :: fst p, snd p)) (el_ends f m c file s (Some r))
           | Some [] => match create_element_iterator m c file s with Ok (it', s') => el_ends f m c file s' it' | Err => None | Panic => Some ([], Panicked) end
           end
  end.
Lemma el_ends_run fuel m c file : forall s it p, el_ends fuel m c file s it = Some p -> el_run m c file s it (fst p) (snd p).
Proof.
  induction fuel as [|f IH]; intros s it p H; [discriminate H|]. cbn [el_ends] in H. destruct it as [[|e r]|].
  - destruct (create_element_iterator m c file s) as [(it', s')| |] eqn:E; [eapply elr_refill; eauto|discriminate H|]. injection H as <-. apply elr_panic. exact E.
  - destruct (el_ends f m c file s (Some r)) as [p'|] eqn:E; [|discriminate H]. injection H as <-. cbn [fst snd]. constructor. apply IH. exact E.
  - injection H as <-. constructor.
Qed.
Definition els_ends (fuel : nat) m c file : option (list element * ending) :=
  match fb_next m c file bit_new with
  | Ok (_, s) => match create_element_iterator m c file s with Ok (it, s') => el_ends fuel m c file s' it | _ => None end
  | _ => None
  end.
Lemma els_ends_run fuel m c file l o : els_ends fuel m c file = Some (l, o) -> elements_run m c file l o.
Proof.
  unfold els_ends. destruct (fb_next m c file bit_new) as [(ob, s)| |] eqn:E; try discriminate.
  destruct (create_element_iterator m c file s) as [(it, s')| |] eqn:E2; try discriminate. intros H. eapply els_loop; eauto. exact (el_ends_run _ _ _ _ _ _ _ H).
Qed.

(** the file of [ex_copy] with a blob that cannot be decoded behind it *)
Definition ex_broken : bytes := ex_in ++ file_of_blobs [bad_blob].
Lemma ex_broken_run : elements_run Checked ex_codec ex_broken ex_in_read Panicked.
Proof. apply (els_ends_run 100). vm_compute. reflexivity. Qed.
Lemma ex_broken_new : reader_new Checked ex_codec ex_broken = Ok ex_in_info. Proof. vm_compute. reflexivity. Qed.
(** pbf-io panics; in the output are the node and the way, the relation was still in the accumulator *)
Example ex_stopped : exists file i' got, copy_leaves Checked ex_codec pbf_io_filter_out (str "pbf-io-example") Zlib ex_broken Panic (Some file) /\
  reader_new Checked ex_codec file = Ok i' /\ fi_program i' = Some (str "pbf-io-example") /\ elements_run Checked ex_codec file got Ended /\ length got = 2%nat.
Proof.
  destruct (writes Checked ex_codec (set_field ex_in_info (SetProgramStr (str "pbf-io-example"))) Zlib (fun e => negb (pbf_io_filter_out e)) ex_in_read Panicked) as (r, file) eqn:W.
  pose proof (writes_panicked _ _ _ _ _ _ _ _ W) as ->.
  assert (CL : copy_leaves Checked ex_codec pbf_io_filter_out (str "pbf-io-example") Zlib ex_broken Panic (Some file)).
  { eapply cl_run; [exact ex_broken_new|exact ex_broken_run|exact W]. }
  destruct (C95_copy Checked ex_codec pbf_io_filter_out (str "pbf-io-example") Zlib ex_broken ex_in_info ex_in_read Panicked ex_kept Panic (Some file)) as (f & st & pe & re & i' & got & F & _ & _ & _ & _ & _ & _ & R1 & R2 & R3 & R4).
  - exact ex_codec_ok.
  - reflexivity.
  - exact ex_broken_new.
  - exact ex_broken_run.
  - apply picked_filter.
  - split; [vm_compute; congruence|]. intros m w H. rewrite write_header_spec in H. apply ok_eq in H. rewrite <- H. clear H. vm_compute; congruence.
  - exact ex_kept_ok.
  - apply pieces_fit. vm_compute. reflexivity.
  - exact CL.
  - injection F as <-. exists file, i', got. sconj; auto.
    + destruct R2 as (_ & _ & R2 & _). rewrite R2. reflexivity.
    + assert (X : match els_ends 100 Checked ex_codec file with Some (l, Ended) => length l = 2%nat | _ => False end).
      { apply (f_equal snd) in W. cbn [snd] in W. subst file. vm_compute. reflexivity. }
      destruct (els_ends 100 Checked ex_codec file) as [(l, [|])|] eqn:E; try contradiction. apply els_ends_run in E. destruct (C16_unique _ _ _ _ _ _ _ R3 E) as (-> & _). exact X.
Qed.
(** the loop of apidb-to-pbf with a way after a relation: the writer panics at the way, and the node before is stored *)
Example ex_out_of_order : exists r file got, writes Checked ex_codec apidb_to_pbf_info Zlib (fun _ => true) [ENode ex_node1; EWay ex_way; ERelation ex_rel; EWay ex_way] Ended = (r, file) /\ r = Panic /\
  elements_run Checked ex_codec file got Ended /\ length got = 2%nat.
Proof.
  destruct (writes Checked ex_codec apidb_to_pbf_info Zlib (fun _ => true) [ENode ex_node1; EWay ex_way; ERelation ex_rel; EWay ex_way] Ended) as (r, file) eqn:W.
  assert (X : match els_ends 100 Checked ex_codec file with Some (l, Ended) => length l = 2%nat | _ => False end /\ r = Panic).
  { pose proof (f_equal snd W) as A. pose proof (f_equal fst W) as B. cbn [fst snd] in A, B. clear W. subst r file. vm_compute. auto. }
  destruct X as (X & ->). destruct (els_ends 100 Checked ex_codec file) as [(l, [|])|] eqn:E; try contradiction. exists Panic, file, l. split; auto. split; auto. split; auto. exact (els_ends_run _ _ _ _ _ _ E).
Qed.
(** pbf-to-apidb on such a file: the tables are not empty, but there is nothing to read *)
Definition ex_broken_pbf : bytes := ExConvert.ex_pbf ++ file_of_blobs [bad_blob].
Definition ex_stopped_writer : ApidbWrite.writer := match ApidbWrite.write_elements ExTools.ex_escape ExConvert.ex_short ApidbWrite.writer_new with Ok w => w | _ => ApidbWrite.writer_new end.
Example ex_stopped_dump : let disk := ApidbWrite.files ex_stopped_writer in pbf_to_apidb_stops Wrapping ex_codec ExTools.ex_escape ex_broken_pbf disk /\
  disk ApidbWrite.T_nodes <> [] /\ StopSpec.leaves disk (ExApidb.ex_directory disk) /\
  exists rd k s, ApidbRead.reader_new ExTools.ex_sort (ExApidb.ex_directory disk) = Ok rd /\ ApidbRead.elements ExTools.ex_unescape rd = Ok (k, s) /\
    forall l o, run (ApidbRead.element_next k) s l o -> Forall (eq ESentinel) l.
Proof.
  intros disk.
  assert (ST : pbf_to_apidb_stops Wrapping ex_codec ExTools.ex_escape ex_broken_pbf disk).
  { destruct (reader_new Wrapping ex_codec ex_broken_pbf) as [i| |] eqn:RN; [|vm_compute in RN; discriminate RN|vm_compute in RN; discriminate RN].
    exists i, ExConvert.ex_short, ex_stopped_writer. split; [exact RN|]. split; [apply (els_ends_run 100); vm_compute; reflexivity|]. split; [|reflexivity]. vm_compute. reflexivity. }
  assert (LV : StopSpec.leaves disk (ExApidb.ex_directory disk)).
  { split; [exists PropToc.shipped_toc; split; [apply ExApidb.ex_directory_toc|exact (proj1 PropToc.C54_shipped_toc)]|apply ExApidb.ex_directory_table]. }
  split; auto. split; [vm_compute; discriminate|]. split; auto.
  assert (X : match ApidbRead.reader_new ExTools.ex_sort (ExApidb.ex_directory disk) with Ok rd => match ApidbRead.elements ExTools.ex_unescape rd with Ok _ => true | _ => false end | _ => false end = true) by (vm_compute; reflexivity).
  destruct (ApidbRead.reader_new ExTools.ex_sort (ExApidb.ex_directory disk)) as [rd| |] eqn:RN; try discriminate X. destruct (ApidbRead.elements ExTools.ex_unescape rd) as [(k, s)| |] eqn:EL; try discriminate X.
  exists rd, k, s. split; auto. split; auto. intros l o R. exact (C95_to_dump _ _ _ ExTools.ex_unescape _ _ _ _ ExStop.ex_sorts_nothing ST LV _ _ _ _ _ RN EL R).
Qed.
