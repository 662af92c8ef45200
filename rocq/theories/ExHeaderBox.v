(** Non-vacuity of C79: every box can be copied, and one that keeps moving. *)
From Coq Require Import ZArith List Bool Strings.Byte Strings.String Reals Lia Lra ZifyBool.
From Flocq Require Import Core.
From Verif Require Import Base BaseFacts Types Proto ProtoFacts Block BlockFacts FloatFacts.
From Verif Require Import Spec SpecFacts FileFormat FileFacts WriterFacts FileSpec PropFile HeaderBoxSpec PropHeaderBox ExFile.
Import ListNotations.
Open Scope Z_scope.

Definition only_box (b : bbox) : file_info := FileInfo (Some b) [] [] None None None None None.
Fixpoint fsize (fs : list field) : Z :=
  match fs with [] => 0 | (_, WBytes b) :: r => 22 + zlen b + fsize r | _ :: r => 22 + fsize r end.
Definition plain (f : field) : Prop := match snd f with WBytes _ | WVarint _ => True | _ => False end.
Lemma size_fields fs : Forall plain fs -> zlen (enc_fields fs) <= fsize fs.
Proof.
  assert (V : forall z, zlen (enc_varint z) <= 11) by apply enc_varint_short.
  induction 1 as [|(t, v) fs P F IH]; [vm_compute; discriminate|]. unfold enc_fields in *. cbn [flat_map fsize]. rewrite zlen_app. unfold plain in P. cbn [snd] in P.
  destruct v; try destruct P; cbn [enc_field fsize] in *; unfold enc_key; rewrite ?zlen_app.
  - change (enc_field (t, WVarint u)) with (enc_varint (t * 8 + 0) ++ enc_varint u). rewrite zlen_app. pose proof (V (t * 8 + 0)). pose proof (V u). lia.
  - change (enc_field (t, WBytes b)) with (enc_varint (t * 8 + 2) ++ enc_varint (zlen b) ++ b). rewrite !zlen_app. pose proof (V (t * 8 + 2)). pose proof (V (zlen b)). lia.
Qed.
Lemma only_box_size b : 0 < zlen (osm_header_serialize (only_box b)) <= 110.
Proof.
  split.
  - assert (Q : forall t p fs, 0 < zlen (enc_fields ((t, WBytes p) :: fs))).
    { intros t p fs. change (enc_fields ((t, WBytes p) :: fs)) with ((enc_varint (t * 8 + 2) ++ enc_varint (zlen p) ++ p) ++ enc_fields fs). rewrite !zlen_app.
      pose proof (enc_varint_nonempty (t * 8 + 2)) as N. pose proof (zlen_nonneg (enc_varint (zlen p))). pose proof (zlen_nonneg p). pose proof (zlen_nonneg (enc_fields fs)). unfold zlen at 1. lia. }
    apply Q.
  - unfold osm_header_serialize, header_block_encode. eapply Z.le_trans; [apply size_fields; repeat constructor|].
    cbn [header_block_fields h_bbox header_bbox_of fi_bbox app only_box f_rep_bytes map fi_required fi_optional h_required h_optional f_opt_bytes f_opt_int h_program h_source h_ts h_seq h_url fi_program fi_source fi_ts fi_seq fi_url fsize].
    assert (Q : forall hb, zlen (enc_fields (header_bbox_fields hb)) <= 88) by (intros hb; eapply Z.le_trans; [apply size_fields; repeat constructor|cbn; lia]).
    pose proof (Q (HeaderBBox (to_nano (bb_left b)) (to_nano (bb_right b)) (to_nano (bb_top b)) (to_nano (bb_bottom b)))). lia.
Qed.
Lemma only_box_fits b : header_fits ex_codec Uncompressed (only_box b).
Proof.
  pose proof (only_box_size b) as (P & H). split; [red; unfold max_i32; lia|].
  intros m w W. rewrite write_header_spec in W. injection W as <-. cbn [wr_file]. unfold header_frame, frame_of, blob_of. red.
  set (d := osm_header_serialize (only_box b)) in *. clearbody d. destruct d as [|d0 d1] eqn:E; [discriminate P|]. rewrite <- E in *. clear E d0 d1.
  assert (S1 : zlen (blob_encode (Blob (Some (wrap32 (zlen d))) (Some (packed ex_codec Uncompressed LevelNone d)))) <= 160).
  { unfold blob_encode. eapply Z.le_trans; [apply size_fields; repeat constructor|]. cbn [blob_fields b_data b_raw_size packed app f_opt_int fsize]. lia. }
  unfold frame_bytes, write_blob. cbn [fst snd]. rewrite !zlen_app.
  set (e := blob_encode _) in *. clearbody e.
  assert (S2 : zlen (blob_header_encode (BlobHeader (str "OSMHeader") None (wrap32 (zlen e)))) <= 160).
  { unfold blob_header_encode. eapply Z.le_trans; [apply size_fields; repeat constructor|]. cbn -[Z.add wrap32 zlen]. change (zlen _) with 9. lia. }
  change (zlen (be32 _)) with 4. unfold max_i32. lia.
Qed.
(** every box of degrees can be copied *)
Example ex_copied b : bbox_degrees b -> exists b', copied b b'.
Proof.
  intros D. destruct (C13_header_bbox_partial Checked ex_codec Uncompressed (only_box b) b ex_codec_ok) as (w & i' & b' & W & R & E & _); auto.
  - unfold info_ok, utf8_all, utf8_opt, i64_opt; cbn. sconj; try (constructor); intros; discriminate.
  - apply only_box_fits.
  - exists b', Checked, ex_codec, Uncompressed, (only_box b), w, i'. sconj; auto; try apply ex_codec_ok; try apply only_box_fits.
    unfold info_ok, utf8_all, utf8_opt, i64_opt; cbn. sconj; try (constructor); intros; discriminate.
Qed.
(** 0.130368523 degrees moves with every one of the first copies *)
Example ex_moves : let b n := nbox (130368523 - n) (130368523 - n) (130368523 - n) (130368523 - n) in
  copied (b 0) (b 1) /\ copied (b 1) (b 2) /\ copied (b 2) (b 3) /\ b 0 <> b 1.
Proof.
  assert (X : forall k, Z.abs k <= 180000000000 -> to_nano (of_nano k) = k - 1 -> copied (nbox k k k k) (nbox (k - 1) (k - 1) (k - 1) (k - 1))).
  { intros k K E. destruct (ex_copied (nbox k k k k)) as (b' & C); [unfold bbox_degrees, nbox; cbn; sconj; apply nano_degrees; exact K|].
    pose proof (copied_inv _ _ C) as ->. unfold nbox in *. cbn [bb_left bb_bottom bb_right bb_top] in C. rewrite E in C. exact C. }
  cbv zeta. sconj.
  - apply X; [lia|vm_compute; reflexivity].
  - apply X; [lia|vm_compute; reflexivity].
  - apply X; [lia|vm_compute; reflexivity].
  - intros H. unfold nbox in H. apply (f_equal bb_left) in H. cbn [bb_left] in H. apply of_nano_inj in H; lia.
Qed.
