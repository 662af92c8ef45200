(** Non-vacuity of C81: a program that uses the low level calls, and a file that loses elements when it is copied block by block. *)
From Coq Require Import ZArith List Bool Strings.Byte Strings.String Lia.
From Verif Require Import Base BaseFacts Types Proto ProtoFacts Block BlockFacts FloatFacts Spec SpecFacts BlockRead PropBlock ExBlock.
From Verif Require Import FileFormat FileFacts WriterFacts FileSpec PropFile ExFile CallSpec Calls PropCalls ExCalls PropPipelines PropReadAny Pool ParallelSpec ParallelRead ExParallelRead LowCalls LowSpec PropLow.
Import ListNotations.
Open Scope Z_scope.
Local Notation length := List.length.

Definition ex_low : list lcall :=
  [LHeader; LElement (ENode ex_node1); LElements ex_mixed; LBlock (FData 7 [EWay ex_way]); LElement (ENode ex_node2); LHeader; LElement (EWay ex_way); LClose].
Lemma block_small m c k b : piece_small m c k b = true -> block_fits m c k b.
Proof.
  intros H. unfold piece_small in H. unfold block_fits. rewrite serialize_data. destruct (osm_data_serialize m b) as [x| |]; [|split; intros; discriminate|split; intros; discriminate].
  apply andb_prop in H. destruct H as [H1 H2]. split.
  - intros data [= <-]. red. lia.
  - cbn [bind]. intros h body [= <- <-]. red. unfold data_frame in H2. cbn [snd frame_of] in H2. lia.
Qed.
Lemma ex_low_ok m k : Forall (low_ok m ex_codec k ex_info) ex_low.
Proof.
  assert (H : low_ok m ex_codec k ex_info LHeader) by (split; [exact ex_info_ok|split; [discriminate|apply ex_info_fits]]).
  unfold ex_low. constructor; [exact H|]. constructor; [exact ex_node1_ok|]. constructor; [split; [exact ex_mixed_ok|apply block_small; destruct m, k; vm_compute; reflexivity]|].
  constructor; [split; [constructor; [exact ex_way_ok|constructor]|apply block_small; destruct m, k; vm_compute; reflexivity]|].
  constructor; [exact ex_node2_ok|]. constructor; [exact H|]. constructor; [exact ex_way_ok|]. constructor; [exact I|constructor].
Qed.
Lemma ex_low_fit m k : low_fit m ex_codec k ex_low.
Proof. intros stream W _. apply no_sentinels_spec in W. subst stream. apply pieces_fit. destruct m, k; vm_compute; reflexivity. Qed.
Example ex_low_file m k : exists file, low_file m ex_codec ex_info k ex_low = Ok file.
Proof. destruct m, k; eexists; vm_compute; reflexivity. Qed.
Example ex_low_laid : laid ex_info ex_low [PHeader ex_info; PData [ENode ex_node2]; PData [EWay ex_way]; PHeader ex_info; PData [ENode ex_node1; ENode ex_node2]; PData [EWay ex_way]] [] KWay.
Proof.
  pose proof (laid_nothing ex_info) as L.
  apply laid_header in L. apply laid_pending with (e := ENode ex_node1) in L; [|cbn; eexists; reflexivity|reflexivity].
  pose proof (laid_batch _ _ _ _ _ _ _ L ex_keeps) as L1.
  assert (KW : block_keeps [EWay ex_way] [EWay ex_way]) by (change [EWay ex_way] with (survivors [EWay ex_way]) at 2; apply survivors_keeps).
  pose proof (laid_block _ _ _ _ _ 7 _ _ L1 KW) as L2.
  apply laid_pending with (e := ENode ex_node2) in L2; [|cbn; eexists; reflexivity|reflexivity].
  apply laid_header in L2. apply laid_next with (k' := KWay) (e := EWay ex_way) in L2; [|left; auto|cbn; eexists; reflexivity].
  apply laid_close in L2; [|discriminate]. exact L2.
Qed.
Example ex_low_reads m k : exists file i' got, low_file m ex_codec ex_info k ex_low = Ok file /\ reader_new m ex_codec file = Ok i' /\ elements_run m ex_codec file got Ended.
Proof.
  destruct (ex_low_file m k) as (file & F). destruct (C81_any_calls m ex_codec ex_info k ex_low file ex_codec_ok (ex_low_ok m k) (ex_low_fit m k) F) as (parts & p & kd & L & (blks & R & F2) & _).
  destruct (C81_reading m ex_codec file parts blks R F2) as (A & B).
  assert (N : reader_new m ex_codec file <> Err).
  { assert (G : match low_file m ex_codec ex_info k ex_low with Ok f => match reader_new m ex_codec f with Err => false | _ => true end | _ => true end = true) by (destruct m, k; vm_compute; reflexivity).
    rewrite F in G. intros E. rewrite E in G. discriminate G. }
  destruct parts as [|[j|es] rest]; [exfalso; apply N, B; intros j0 rest0 X; discriminate X| |exfalso; apply N, B; intros j0 rest0 X; discriminate X].
  assert (S : Forall supported (fi_required j)).
  { assert (D : find_missing supported_features (fi_required j) = [] \/ find_missing supported_features (fi_required j) <> []) by (destruct (find_missing supported_features (fi_required j)); [left; auto|right; discriminate]).
    destruct D as [D|D]; [apply find_missing_iff; auto|]. exfalso. apply N, B. intros j' rest' X. injection X as <- _. rewrite <- find_missing_iff. exact D. }
  destruct (A _ _ eq_refl S) as (i' & got & X & _ & Y & _). exists file, i', got. auto.
Qed.

(** a file with a block of a node, a way and a node: its copy has no way *)
Example ex_copy_loses : exists output es es', copies_blocks Checked ex_codec ex_info Zlib mixed_file (Ok output) /\ elements_run Checked ex_codec mixed_file es Ended /\
  elements_run Checked ex_codec output es' Ended /\ length es = 3%nat /\ (length es' < length es)%nat.
Proof.
  assert (R : exists l j, run (fb_next Checked ex_codec mixed_file) bit_new l Ended /\ reader_new Checked ex_codec mixed_file = Ok j /\
    exists h a w b output, l = [FHeader 0 h; FData 1 [ENode a; EWay w; ENode b]] /\ low_file Checked ex_codec ex_info Zlib (map LBlock l) = Ok output /\
      n_coord a = Coordinate (grid_f64 10000000) (grid_f64 10000000) /\ n_coord b = Coordinate (grid_f64 20000000) (grid_f64 20000000) /\
      ~ info_empty h /\ header_fits ex_codec Zlib h /\ piece_small Checked ex_codec Zlib [ENode a; EWay w; ENode b] = true).
  { eexists _, _. split; [do 2 (eapply run_step; [vm_compute; reflexivity|]); eapply run_end; vm_compute; reflexivity|]. split; [vm_compute; reflexivity|].
    eexists _, _, _, _, _. split; [reflexivity|]. split; [vm_compute; reflexivity|]. split; [vm_compute; reflexivity|]. split; [vm_compute; reflexivity|]. split; [discriminate|].
    split; [|vm_compute; reflexivity]. split; [vm_compute; congruence|]. intros m w H. rewrite write_header_spec in H. injection H as <-. vm_compute. congruence. }
  destruct R as (l & j & R & RN & h & a & w & b & output & -> & W & A & B & NE & HF & PS).
  assert (CP : copies_blocks Checked ex_codec ex_info Zlib mixed_file (Ok output)) by (rewrite <- W; eapply cb_write; eauto).
  destruct (C81_copy_elements Checked ex_codec ex_info Zlib mixed_file j _ output ex_codec_ok RN R) as (i' & es & es' & X1 & X2 & X3 & X4 & X5 & X6 & X7 & _); auto.
  - constructor; [split; auto|]. constructor; [|constructor]. split; [|apply block_small; auto].
    constructor; [cbn; rewrite A; split; apply ex_deg; lia|constructor; [exact I|constructor; [cbn; rewrite B; split; apply ex_deg; lia|constructor]]].
  - exists output, es, es'. sconj; auto; [subst es; reflexivity|].
    assert (NX : length es' <> length es); [|lia]. intros E. apply X7 in E. cbn in E. inversion E as [|? ? T ?]; subst.
    destruct T as [T|[T|T]]; inversion T as [|? ? T1 T2]; subst; [inversion T2 as [|? ? T3 ?]; subst; destruct T3; discriminate|destruct T1; discriminate|destruct T1; discriminate].
Qed.
