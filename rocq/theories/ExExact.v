(** Concrete instances of C72-C74. *)
From Coq Require Import ZArith List Bool Lia Strings.Byte Strings.String.
From Verif Require Import Base Types Block FileFormat FileFacts WriterFacts Spec FileSpec ModelSpec Model2 PropFile PropExact ParallelWriteSpec ParallelWrite PropParallelWrite ExBlock ExFile ExPipelines ExParallelWrite.
Import ListNotations.
Open Scope Z_scope.

(** a < Sentinel < b although b precedes a *)
Example ex_middle : element_cmp (EWay ex_way) ESentinel = Lt /\ element_cmp ESentinel (ENode ex_node1) = Lt /\ element_cmp (EWay ex_way) (ENode ex_node1) <> Lt.
Proof. split; [reflexivity|]. split; [reflexivity|]. discriminate. Qed.
(** a header that requires LocationsOnWays is written, but the library's own reader refuses it *)
Definition ex_unsupported : file_info := FileInfo None [str "OsmSchema-V0.6"; str "LocationsOnWays"] [] None None None None None.
Example ex_unsupported_header : exists w, write_header Checked ex_codec (writer_new ex_unsupported Zlib) = Ok w /\ reader_new Checked ex_codec (wr_file w) = Err.
Proof.
  destruct (C73_header Checked ex_codec Zlib ex_unsupported ex_codec_ok) as (w & W & _ & _ & (_ & E) & _).
  - unfold info_ok, utf8_all, utf8_opt, i64_opt. cbn. repeat split; try discriminate; repeat constructor.
  - split; [vm_compute; congruence|]. intros m w H. rewrite write_header_spec in H. apply ok_eq in H. rewrite <- H. clear H. vm_compute; congruence.
  - exists w. split; auto. apply E. split; [discriminate|]. intros F. inversion F as [|? ? _ F2]. inversion F2 as [|? ? S _]. destruct S as [S|[S|[S|S]]]; discriminate S.
Qed.
(** block size 0: close returns if nothing was written, and not otherwise *)
Example ex_zero : (exists blocks, blocks_submitted 2 0 isort [] blocks) /\ ~ (exists blocks, blocks_submitted 2 0 isort [WriteElement (ENode ex_node1)] blocks) /\
  exists st, do_calls 2 0 isort ord_new [WriteElement (ENode ex_node1)] = Ok st.
Proof.
  split; [|split].
  - apply (C74_close_returns 2 0 isort []); [exact isort_ok|]. split; [eexists; reflexivity|right; reflexivity].
  - intros H. apply (C74_close_returns 2 0 isort _ isort_ok) in H. destruct H as (_ & [H|H]); [lia|discriminate H].
  - eexists. reflexivity.
Qed.
