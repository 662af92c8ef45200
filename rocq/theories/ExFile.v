(** Non-vacuity of the file properties and concrete refutations. *)
From Coq Require Import ZArith List Bool Strings.Byte Strings.String Reals Lia Lra.
From Verif Require Import Base BaseFacts Types Proto ProtoFacts Block BlockFacts FloatFacts.
From Verif Require Import Spec SpecFacts BlockOverflow FormatSpec BlockRead PropBlock ExBlock.
From Verif Require Import FileFormat FileFacts WriterFacts FileSpec PropFile.
Import ListNotations.
Open Scope Z_scope.
Local Notation length := List.length.

(** a codec: "compression" that prefixes a byte *)
Definition ex_codec : codec := Codec (fun _ b => x78 :: b) (fun b => match b with [] => [] | _ :: r => r end).
Lemma ex_codec_ok : codec_ok ex_codec. Proof. intros l b. reflexivity. Qed.

Definition ex_box : bbox := BBox (f_of_Z (-3)) (f_of_Z 35) (f_of_Z 14) (f_of_Z 36).
Definition ex_info : file_info :=
  FileInfo (Some ex_box) [str "OsmSchema-V0.6"; str "DenseNodes"] [str "Sort.Type_then_ID"]
    (Some (str "prog")) None (Some 1700000000) None (Some (str "http://x")).
Lemma ex_info_ok : info_ok ex_info.
Proof. unfold info_ok, utf8_all, utf8_opt, i64_opt; cbn. sconj; first [solve [repeat constructor]|intros ? H; first [discriminate|injection H as <-; first [reflexivity|unfold I64; lia]]]. Qed.
Lemma ex_info_fits k : header_fits ex_codec k ex_info.
Proof.
  split; [vm_compute; congruence|]. intros m w H. rewrite write_header_spec in H. injection H as <-.
  destruct k; vm_compute; congruence.
Qed.
Lemma ex_info_supported : Forall supported (fi_required ex_info).
Proof. unfold supported; cbn. constructor; auto. Qed.
Definition ex_stream : list element := [ENode ex_node1; ESentinel; ENode ex_node2; EWay ex_way; ERelation ex_rel].
Definition ex_stream' : list element := [ENode ex_node1; ENode ex_node2; EWay ex_way; ERelation ex_rel].
Lemma ex_stream_ws : without_sentinels ex_stream ex_stream'.
Proof. repeat constructor; discriminate. Qed.

Lemma ex_elems_ok : Forall element_ok ex_stream.
Proof. apply Forall_forall. intros e H. cbn in H. destruct H as [H|[H|[H|[H|[H|[]]]]]]; subst e; cbn; first [exact ex_node1_ok|exact ex_node2_ok|exact ex_way_ok|exact ex_rel_ok|exact I]. Qed.
(** the size hypothesis of C16 holds for any short stream whose pieces are small *)
Fixpoint prefixes {A} (l : list A) : list (list A) := match l with [] => [[]] | a :: r => [] :: map (cons a) (prefixes r) end.
Fixpoint pieces {A} (l : list A) : list (list A) := prefixes l ++ match l with [] => [] | _ :: r => pieces r end.
Lemma prefixes_in {A} (b d : list A) : In b (prefixes (b ++ d)).
Proof. induction b; cbn; [destruct d; cbn; auto|]. right. apply in_map. auto. Qed.
Lemma pieces_in {A} (a b d : list A) : In b (pieces (a ++ b ++ d)).
Proof.
  induction a as [|x a IH]; cbn [app].
  - pose proof (prefixes_in b d). destruct (b ++ d); cbn [pieces]; apply in_or_app; auto.
  - cbn [pieces]. apply in_or_app. auto.
Qed.
Definition piece_small m c k (b : list element) : bool :=
  match osm_data_serialize m b with
  | Ok d => (zlen d <=? 2147483647) && (zlen (snd (data_frame c k d)) <=? 2147483647)
  | _ => true
  end.
Lemma pieces_fit m c k l : forallb (piece_small m c k) (pieces l) = true -> blocks_fit m c k l.
Proof.
  intros H a b d -> _. rewrite forallb_forall in H. specialize (H b (pieces_in a b d)). unfold piece_small in H.
  rewrite serialize_data. destruct (osm_data_serialize m b) as [x| |]; [|split; intros; discriminate|split; intros; discriminate].
  apply andb_prop in H. destruct H as [H1 H2]. split.
  - intros data [= <-]. red. lia.
  - cbn [bind]. intros h body [= <- <-]. red. unfold data_frame in H2. cbn [snd frame_of] in H2. lia.
Qed.
Example ex_blocks_fit m k : blocks_fit m ex_codec k ex_stream'.
Proof. apply pieces_fit. destruct m, k; vm_compute; reflexivity. Qed.

(** C12-C19: a file with nodes, a sentinel, a way and a relation, written in both modes and both compressions *)
Example ex_file m k : exists file, write_file m ex_codec ex_info k ex_stream = Ok file /\
  exists i' stream', reader_new m ex_codec file = Ok i' /\ info_written_read ex_info i' /\
    elements_run m ex_codec file stream' Ended /\ Forall2 written_read ex_stream' stream' /\ length stream' = 4%nat.
Proof.
  assert (W : exists file, write_file m ex_codec ex_info k ex_stream = Ok file).
  { apply (proj2 (C17_order_enforced_partial m ex_codec ex_info k ex_stream ex_stream' ex_stream_ws)
      [ENode ex_node1; ENode ex_node2] [EWay ex_way] [ERelation ex_rel]); try reflexivity; try (repeat constructor; eauto; fail).
    - right. discriminate.
    - intros a b d E _. pose proof (pieces_in a b d) as P. rewrite <- E in P.
      assert (F : Forall (fun b => exists bs, osm_data_serialize m b = Ok bs) (pieces ex_stream')).
      { destruct m; repeat constructor; eexists; vm_compute; reflexivity. }
      rewrite Forall_forall in F. apply F, P. }
  destruct W as (file & W). exists file. split; auto.
  destruct (C16_whole_file_round_trip m ex_codec ex_info k ex_stream ex_stream' file ex_codec_ok ex_info_ok ltac:(discriminate)
     (ex_info_fits k) ex_info_supported ex_elems_ok ex_stream_ws (ex_blocks_fit m k) W) as (i' & s' & A & B & C & D).
  exists i', s'. sconj; auto. clear - D; do 4 (inversion D as [|? ? ? ? _ D0]; subst; clear D; rename D0 into D); inversion D; reflexivity.
Qed.

(** C12: an entirely empty header *)
Example ex_empty_header : info_empty (FileInfo None [] [] None None None None None). Proof. reflexivity. Qed.

(** C13 refuted: a box read back is not the box written. The box of the single node at
    (157, 161) steps no longer contains that node after one write and read of the header *)
Theorem C13_refuted : exists x, on_grid x /\ exists i i' m c k w, codec_ok c /\
    fi_bbox i = Some (bb_from_point (Coordinate x x)) /\ write_header m c (writer_new i k) = Ok w /\
    reader_new m c (wr_file w) = Ok i' /\
    exists b', fi_bbox i' = Some b' /\ flt (bb_right b') x = true /\ flt (bb_top b') x = true.
Proof.
  exists (grid_f64 157). split; [exists 157; split; [lia|apply grid_f64_value; lia]|].
  exists (FileInfo (Some (bb_from_point (Coordinate (grid_f64 157) (grid_f64 157)))) [] [] None None None None None).
  eexists _, Checked, ex_codec, Zlib, _. split; [exact ex_codec_ok|]. split; [reflexivity|]. split; [vm_compute; reflexivity|].
  split; [vm_compute; reflexivity|]. eexists. split; [reflexivity|]. split; vm_compute; reflexivity.
Qed.
(** and rewriting a header repeatedly keeps moving an edge: 0.130368523 loses one nanodegree per
    write/read, 13 times in a row *)
Fixpoint rewrites (n : nat) (x : f64) : f64 := match n with O => x | S n => of_nano (to_nano (rewrites n x)) end.
Example C13_drift : forall n, (n <= 13)%nat -> rewrites n (of_nano 130368523) = of_nano (130368523 - Z.of_nat n) /\
  (0 < n -> flt (rewrites n (of_nano 130368523)) (rewrites (n - 1) (of_nano 130368523)) = true)%nat.
Proof.
  intros n H. do 14 (destruct n as [|n]; [split; [vm_compute; reflexivity|intros; try lia; vm_compute; reflexivity]|]). lia.
Qed.

(** C14: a required feature that is not supported *)
Example ex_refused m k : exists w, write_header m ex_codec (writer_new (FileInfo None [str "LocationsOnWays"] [] None None None None None) k) = Ok w /\
  reader_new m ex_codec (wr_file w) = Err.
Proof. destruct k, m; eexists; (split; [vm_compute; reflexivity|vm_compute; reflexivity]). Qed.

(** C15: two blobs, one of an unknown type, one with an empty body *)
Definition ex_blobs : list (blob_header * bytes) :=
  [(BlobHeader (str "OSMHeader") None 3, [x01; x02; x03]); (BlobHeader (str "Foo") (Some [x09]) 0, [])].
Example ex_blobs_ok : Forall consistent_blob ex_blobs.
Proof. repeat constructor; vm_compute; congruence. Qed.
Example ex_blobs_run : run (blob_next (file_of_blobs ex_blobs)) bit_new
  [BlobDesc 0 17 3 (str "OSMHeader"); BlobDesc 1 34 0 (str "Foo")] Ended.
Proof.
  eapply run_step; [vm_compute; reflexivity|]. eapply run_step; [vm_compute; reflexivity|]. eapply run_end. vm_compute. reflexivity.
Qed.

(** C17: ordered streams that are rejected *)
Example ex_rejected m : in_osm_order [ENode ex_node1; ERelation ex_rel] /\
  write_file m ex_codec ex_info Zlib [ENode ex_node1; ERelation ex_rel] = Panic /\
  in_osm_order [ERelation ex_rel] /\ write_file m ex_codec ex_info Zlib [ERelation ex_rel] = Panic.
Proof.
  destruct (C17_refuted m ex_codec ex_info Zlib ex_rel [ENode ex_node1]) as [A B]; [repeat constructor; eauto|].
  destruct (C17_refuted m ex_codec ex_info Zlib ex_rel []) as [C D]; [repeat constructor; eauto|]. auto.
Qed.

(** C21: a zlib blob without raw_size *)
Example ex_no_raw_size m : let body := blob_encode (Blob None (Some (ZlibData [x78; x01]))) in
  from_blob_desc m ex_codec body (BlobDesc 0 0 (zlen body) (str "OSMData")) = Panic.
Proof. reflexivity. Qed.
