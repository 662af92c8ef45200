(** Properties of whole files: C05, C12-C21 (see ../../properties.jsonl). *)
From Coq Require Import ZArith List Bool Strings.Byte Strings.String Reals Lia Lra ZifyBool.
From Flocq Require Import Core.
From Verif Require Import Base BaseFacts Types Proto ProtoFacts Block BlockFacts FloatFacts.
From Verif Require Import Spec SpecFacts BlockOverflow FormatSpec BlockRead PropBlock.
From Verif Require Import FileFormat FileFacts WriterFacts FileSpec.
Import ListNotations.
Open Scope Z_scope.
Local Notation length := List.length.
Local Notation concat := List.concat.

(** ** Headers *)
Lemma to_nano_i64 x : I64 (to_nano x).
Proof.
  unfold to_nano, f_trunc_i64, f_int, clamp. destruct (fmul x nanodeg) as [s|s| |s mm e]; try (unfold I64, min_i64, max_i64; lia).
  - destruct s; unfold I64, min_i64, max_i64; lia.
  - set (z := if s then _ else _). unfold I64, min_i64, max_i64. destruct (z <? _) eqn:?; [lia|]. destruct (_ <? z) eqn:?; lia.
Qed.
Definition header_of (i : file_info) : header_block :=
  HeaderBlock (header_bbox_of (fi_bbox i)) (fi_required i) (fi_optional i) (fi_program i) (fi_source i) (fi_ts i) (fi_seq i) (fi_url i).
Definition info_read (i : file_info) : file_info :=
  FileInfo (bbox_of_header (header_bbox_of (fi_bbox i))) (fi_required i) (fi_optional i) (fi_program i) (fi_source i) (fi_ts i) (fi_seq i) (fi_url i).
Lemma header_of_ok i : info_ok i -> header_block_ok (header_of i).
Proof.
  intros (A & B & C & D & E & F & G). unfold header_block_ok, header_of; cbn. sconj; auto.
  - destruct (fi_bbox i); cbn; auto. unfold header_bbox_ok; cbn. sconj; apply to_nano_i64.
  - destruct (fi_program i); cbn; auto. apply C; auto.
  - destruct (fi_source i); cbn; auto. apply D; auto.
  - destruct (fi_ts i); cbn; auto.
  - destruct (fi_seq i); cbn; auto.
  - destruct (fi_url i); cbn; auto. apply G; auto.
Qed.
Lemma header_rt i : info_ok i -> zlen (osm_header_serialize i) <= 2147483647 ->
  osm_header_from_bytes (osm_header_serialize i) = Ok (info_read i).
Proof.
  intros H L. unfold osm_header_from_bytes, osm_header_serialize in *. fold (header_of i) in *.
  rewrite header_block_rt; [reflexivity|apply header_of_ok; auto|unfold two64; lia].
Qed.
Lemma info_read_spec i : info_written_read i (info_read i).
Proof. unfold info_written_read, info_read; cbn. sconj; auto. destruct (fi_bbox i); cbn; split; congruence. Qed.

Lemma enc_field_nonempty f : enc_field f <> [].
Proof.
  destruct f as [t v]. unfold enc_field, enc_key. destruct v; cbn [enc_field];
  match goal with |- enc_varint ?x ++ _ <> [] => pose proof (enc_varint_nonempty x); destruct (enc_varint x); cbn in *; [lia|congruence] end.
Qed.
Lemma header_nonempty i : ~ info_empty i -> osm_header_serialize i <> [].
Proof.
  intros N E. apply N. unfold osm_header_serialize, header_block_encode, enc_fields in E.
  set (fs := header_block_fields _) in E. assert (X : fs = []).
  { destruct fs as [|f fs]; auto. cbn in E. apply app_eq_nil in E. destruct E as [E _]. destruct (enc_field_nonempty _ E). }
  clear E. unfold fs, header_block_fields in X. cbn in X. destruct i as [bb rq op pr so ts sq ur]; cbn in X.
  destruct bb; cbn in X; [discriminate|]. destruct rq; cbn in X; [|discriminate]. destruct op; cbn in X; [|discriminate].
  destruct pr; cbn in X; [discriminate|]. destruct so; cbn in X; [discriminate|]. destruct ts; cbn in X; [discriminate|].
  destruct sq; cbn in X; [discriminate|]. destruct ur; cbn in X; [discriminate|]. reflexivity.
Qed.

Definition header_frame (c : codec) (k : compression) (i : file_info) : frame :=
  frame_of (str "OSMHeader") (blob_of c k LevelNone (osm_header_serialize i)).
Definition data_frame (c : codec) (k : compression) (d : bytes) : frame :=
  frame_of (str "OSMData") (blob_of c k LevelDefault d).
Lemma write_header_spec m c k i : write_header m c (writer_new i k) = Ok (Writer i k (frame_bytes (header_frame c k i)) acc_new).
Proof. unfold write_header, write_file_block. cbn [wr_info wr_comp writer_new]. rewrite serialize_header. reflexivity. Qed.

(** sizes a header can have *)
Definition header_fits (c : codec) (k : compression) (i : file_info) : Prop :=
  below_2GiB (osm_header_serialize i) /\
  forall m w, write_header m c (writer_new i k) = Ok w -> below_2GiB (wr_file w).
Lemma header_fits_frame c k i : header_fits c k i -> frame_ok (header_frame c k i) /\
  zlen (osm_header_serialize i) <= max_i32 /\ zlen (blob_encode (blob_of c k LevelNone (osm_header_serialize i))) <= max_i32.
Proof.
  intros [A B]. specialize (B Checked _ (write_header_spec _ _ _ _)). cbn [wr_file] in B. red in A, B.
  assert (L : zlen (blob_encode (blob_of c k LevelNone (osm_header_serialize i))) <= max_i32).
  { unfold frame_bytes, write_blob in B. rewrite !zlen_app in B. cbn [fst snd header_frame frame_of] in B.
    match type of B with ?a + (?b + ?d) <= _ => pose proof (zlen_nonneg (be32 (wrap32 (zlen (blob_header_encode (fst (header_frame c k i)))))));
      assert (0 <= a) by apply zlen_nonneg; assert (0 <= b) by apply zlen_nonneg end. unfold max_i32. lia. }
  sconj; auto. apply frame_of_ok; auto; cbv; congruence.
Qed.
Lemma header_decode m c k i n : codec_ok c -> info_ok i -> ~ info_empty i -> header_fits c k i ->
  fblock_deserialize m c (BlobDesc n 0 0 (str "OSMHeader")) (snd (header_frame c k i)) = Ok (FHeader n (info_read i)).
Proof.
  intros C O N F. destruct (header_fits_frame _ _ _ F) as (_ & L1 & L2). unfold header_frame.
  rewrite deserialize_packed by (auto using header_nonempty). unfold fblock_new.
  rewrite bytes_eqb_refl, header_rt; auto.
Qed.

Lemma frames_one f : [] ++ frames_bytes [f] = frame_bytes f.
Proof. unfold frames_bytes. cbn [flat_map app]. apply app_nil_r. Qed.

(** *** C12 *)
Theorem C12_header_round_trip_partial m c k i : codec_ok c -> info_ok i -> ~ info_empty i -> header_fits c k i ->
  exists w i', write_header m c (writer_new i k) = Ok w /\
    run (fb_next m c (wr_file w)) bit_new [FHeader 0 i'] Ended /\ info_written_read i i' /\
    (Forall supported (fi_required i) -> reader_new m c (wr_file w) = Ok i').
Proof.
  intros C O N F. destruct (header_fits_frame _ _ _ F) as (FO & L1 & L2).
  exists (Writer i k (frame_bytes (header_frame c k i)) acc_new), (info_read i).
  assert (R : run (fb_next m c (frame_bytes (header_frame c k i))) bit_new [FHeader 0 (info_read i)] Ended).
  { replace (frame_bytes (header_frame c k i)) with ([] ++ frames_bytes [header_frame c k i]) by apply frames_one.
    apply fb_run_frames; auto using at_end_new. constructor; [|constructor]. apply header_decode; auto. }
  sconj; auto using write_header_spec, info_read_spec.
  intros S. cbn [wr_file]. inversion R as [| |s a s' l o E R']; subst. unfold reader_new. rewrite E. cbn [bind fi_required info_read].
  replace (find_missing supported_features (fi_required i)) with (@nil bytes); auto.
  unfold find_missing. clear - S. induction S as [|x l X S IH]; cbn [filter]; auto.
  replace (existsb (bytes_eqb x) supported_features) with true; auto.
  symmetry. apply existsb_exists. exists x. split; [|apply bytes_eqb_refl]. unfold supported_features.
  destruct X as [E|[E|[E|E]]]; subst x; cbn; auto.
Qed.

(** a header without any content at all is written as an empty blob, which the reader refuses by
    panicking: the full C12 is false *)
Theorem C12_refuted_empty_header m c k i : info_empty i ->
  exists w, write_header m c (writer_new i k) = Ok w /\ reader_new m c (wr_file w) = Panic /\
            forall l o, run (fb_next m c (wr_file w)) bit_new l o -> l = [] /\ o = Panicked.
Proof.
  intros ->. eexists. split; [apply write_header_spec|]. cbn [wr_file].
  set (f := header_frame c k _).
  assert (FO : frame_ok f) by (apply frame_of_ok; cbv; congruence).
  assert (P : fb_next m c (frame_bytes f) bit_new = Panic).
  { rewrite <- (app_nil_r (frame_bytes f)). change (frame_bytes f ++ []) with ([] ++ frame_bytes f ++ []).
    unfold fb_next. rewrite blob_next_complete by (auto using at_end_new). reflexivity. }
  split.
  - unfold reader_new. rewrite P. reflexivity.
  - intros l o R. inversion R; subst; auto; congruence.
Qed.

(** *** C13 *)
(** a bounding box with every edge a number of degrees *)
Definition bbox_degrees (b : bbox) : Prop :=
  degrees (bb_left b) /\ degrees (bb_bottom b) /\ degrees (bb_right b) /\ degrees (bb_top b).
(** each edge moved toward zero by at most 1.0001 nanodegrees (1e-13 degree of it either way: rounding) *)
Definition edge_kept (x x' : f64) : Prop :=
  f_finite x' /\ (Rabs (f2r x' - f2r x) <= 10001 / 10000 * / 1000000000)%R /\
  (Rabs (f2r x') <= Rabs (f2r x) + / 10000000000000)%R.
Definition bbox_kept (b b' : bbox) : Prop :=
  edge_kept (bb_left b) (bb_left b') /\ edge_kept (bb_bottom b) (bb_bottom b') /\
  edge_kept (bb_right b) (bb_right b') /\ edge_kept (bb_top b) (bb_top b').
Lemma nano_edge x : degrees x -> edge_kept x (of_nano (to_nano x)).
Proof.
  intros (V & F & H). assert (X : is_f x (f2r x)) by (split; [exact V|split; [exact F|reflexivity]]).
  set (r := f2r x) in *. clearbody r. unfold edge_kept. fold (f2r x).
  assert (Er : f2r x = r) by (destruct X as (_ & _ & E); exact E). rewrite Er. clear Er.
  apply Rabs_le_inv in H.
  assert (B : (Rabs (r * 1000000000) <= 180000000000)%R) by (apply Rabs_le; lra).
  pose proof (fmul_ok _ _ _ _ X (f_of_Z_ok 1000000000 ltac:(lia)) ltac:(apply small_1023; lra)) as M.
  pose proof (rnd_err (r * 1000000000)) as E1. set (y := rnd (r * 1000000000)) in *.
  assert (Eb : (Rabs (y - r * 1000000000) <= / 40000)%R) by (unfold uu in E1; lra). apply Rabs_le_inv in Eb.
  assert (By : (Rabs y <= 180000000001)%R) by (apply Rabs_le; lra).
  destruct (f_trunc_spec _ _ M ltac:(lra)) as (T1 & T2 & T3).
  set (z := to_nano x). change (f_trunc_i64 (fmul x (f_of_Z 1000000000))) with z in *.
  apply Rabs_def2 in T1.
  assert (Bz : Z.abs z <= 180000000001).
  { apply le_IZR. rewrite abs_IZR. apply Rle_trans with (Rabs y); [exact T2|exact By]. }
  assert (Rz : (-180000000001 <= IZR z <= 180000000001)%R) by (split; apply IZR_le; lia).
  assert (Q : is_f (of_nano z) (rnd (IZR z / 1000000000))).
  { unfold of_nano, nanodeg. apply fdiv_ok; [apply f_of_Z_ok; lia|apply f_of_Z_ok; lia|lra|].
    apply small_1023. apply Rabs_le. lra. }
  pose proof (rnd_err (IZR z / 1000000000)) as E2.
  assert (Bq : (Rabs (IZR z / 1000000000) <= 181)%R) by (apply Rabs_le; lra).
  destruct Q as (_ & Fq & Eq). rewrite Eq. set (x' := rnd (IZR z / 1000000000)) in *.
  assert (Ec : (Rabs (x' - IZR z / 1000000000) <= / 40000000000000)%R) by (unfold uu in E2; lra).
  sconj; auto.
  - apply Rabs_le_inv in Ec. apply Rabs_le. lra.
  - assert (A1 : (Rabs x' <= Rabs (IZR z / 1000000000) + / 40000000000000)%R).
    { replace x' with ((x' - IZR z / 1000000000) + IZR z / 1000000000)%R by ring. eapply Rle_trans; [apply Rabs_triang|]. lra. }
    assert (A2 : (Rabs (IZR z / 1000000000) <= Rabs y / 1000000000)%R).
    { unfold Rdiv. rewrite Rabs_mult. rewrite (Rabs_pos_eq (/ 1000000000)) by lra. apply Rmult_le_compat_r; [lra|exact T2]. }
    assert (A3 : (Rabs y <= Rabs r * 1000000000 + / 40000)%R).
    { replace y with ((y - r * 1000000000) + r * 1000000000)%R by ring. eapply Rle_trans; [apply Rabs_triang|].
      rewrite Rabs_mult, (Rabs_pos_eq 1000000000) by lra. assert (Rabs (y - r * 1000000000) <= /40000)%R by (apply Rabs_le; lra). lra. }
    lra.
Qed.
Theorem C13_header_bbox_partial m c k i b : codec_ok c -> info_ok i -> header_fits c k i ->
  fi_bbox i = Some b -> bbox_degrees b ->
  exists w i' b', write_header m c (writer_new i k) = Ok w /\
    run (fb_next m c (wr_file w)) bit_new [FHeader 0 i'] Ended /\ fi_bbox i' = Some b' /\ bbox_kept b b'.
Proof.
  intros C O F E (D1 & D2 & D3 & D4). destruct (header_fits_frame _ _ _ F) as (FO & L1 & L2).
  assert (N : ~ info_empty i) by (intros ->; discriminate).
  exists (Writer i k (frame_bytes (header_frame c k i)) acc_new), (info_read i).
  exists (BBox (of_nano (to_nano (bb_left b))) (of_nano (to_nano (bb_bottom b))) (of_nano (to_nano (bb_right b))) (of_nano (to_nano (bb_top b)))).
  sconj; auto using write_header_spec.
  - cbn [wr_file]. replace (frame_bytes (header_frame c k i)) with ([] ++ frames_bytes [header_frame c k i]) by apply frames_one.
    apply fb_run_frames; auto using at_end_new. constructor; [|constructor]. apply header_decode; auto.
  - unfold info_read. cbn. rewrite E. reflexivity.
  - unfold bbox_kept. cbn. sconj; apply nano_edge; auto.
Qed.

(** ** C14 *)
Lemma of_be32_value lb n : big_endian lb n -> n <= 2147483647 -> zlen lb = 4 /\ of_be32 lb = n.
Proof.
  intros (b0 & b1 & b2 & b3 & -> & ->) L. split; [reflexivity|]. unfold of_be32, fold_left.
  pose proof (b2z_range b0). pose proof (b2z_range b1). pose proof (b2z_range b2). pose proof (b2z_range b3).
  rewrite wrap32_id by (unfold I32; lia). lia.
Qed.
Lemma of_be32_back lb : zlen lb = 4 -> 0 <= of_be32 lb -> big_endian lb (of_be32 lb).
Proof.
  intros L P. assert (length lb = 4%nat) by (unfold zlen in L; lia).
  destruct lb as [|b0 [|b1 [|b2 [|b3 [|]]]]]; try discriminate. exists b0, b1, b2, b3. split; auto.
  unfold of_be32, fold_left in *.
  pose proof (b2z_range b0). pose proof (b2z_range b1). pose proof (b2z_range b2). pose proof (b2z_range b3).
  unfold wrap32, two31, two32 in *. Z.to_euclidean_division_equations. lia.
Qed.
Lemma bh_datasize_i32 hb h : blob_header_decode hb = Some h -> I32 (bh_datasize h).
Proof.
  assert (S : forall x t v h', I32 (bh_datasize x) -> blob_header_merge x t v = Some h' -> I32 (bh_datasize h')).
  { intros x t v h' I M. unfold blob_header_merge in M.
    destruct (t =? 1); [destruct (as_string v); inversion M; subst; auto|].
    destruct (t =? 2); [destruct (as_bytes v); inversion M; subst; auto|].
    destruct (t =? 3); [destruct (as_varint v); inversion M; subst; cbn; apply wrap32_range|]. inversion M; subst; auto. }
  unfold blob_header_decode, decode_into. destruct (dec_fields hb) as [fs|]; [|discriminate].
  assert (I : I32 (bh_datasize blob_header_default)) by (cbn; unfold I32; lia). revert I. generalize blob_header_default.
  induction fs as [|[t v] fs IH]; intros x I H; cbn in H; [injection H as <-; auto|].
  destruct (blob_header_merge x t v) eqn:E; [|discriminate]. eapply IH; [|exact H]. eapply S; eauto.
Qed.
Lemma read_blob_data_spec c b p : read_blob_data c b = Ok p <-> carries c b p.
Proof.
  unfold read_blob_data, carries. split.
  - destruct (b_data b) as [[d|z|z|z|z|z]|] eqn:E; try discriminate.
    + injection 1 as <-. auto.
    + intros H. right. destruct (b_raw_size b) as [n|] eqn:N; [|discriminate]. cbn in H. unfold zlib_decode in H.
      destruct (n <? 0) eqn:P; [discriminate|]. destruct (take_exact n (inflate c z)) as [[d r]|] eqn:T; [|discriminate].
      injection H as <-. apply take_exact_some in T. destruct T as (T1 & T2 & T3). exists z, r. subst. auto.
  - intros [E|(z & rest & E & N & I)]; rewrite E; auto. rewrite N. cbn. unfold zlib_decode.
    pose proof (zlen_nonneg p). destruct (zlen p <? 0) eqn:?; [lia|]. rewrite I, take_exact_app. reflexivity.
Qed.
Lemma header_means_spec p hd i : header_block_decode p = Some hd -> (osm_header_from_bytes p = Ok i <-> header_means hd i).
Proof.
  intros D. unfold osm_header_from_bytes. rewrite D. cbn [of_option bind]. unfold header_means. split.
  - injection 1 as <-. cbn. sconj; auto. destruct (h_bbox hd); cbn; auto. unfold bbox_means, nano_value; cbn; auto.
  - destruct i as [bb rq op pr so ts sq ur]; cbn. intros (-> & -> & -> & -> & -> & -> & -> & B). do 2 f_equal.
    destruct (h_bbox hd) as [hb|], bb as [b|]; cbn; try contradiction; auto. destruct B as (A1 & A2 & A3 & A4).
    destruct b; cbn in *. unfold nano_value in *. subst. reflexivity.
Qed.
Lemma starts_next file h body : starts_with_blob file h body ->
  exists d s, blob_next file bit_new = Ok (Some d, s) /\ bd_type d = bh_type h /\ bd_index d = 0 /\
    take_exact (bd_length d) (from_pos file (bd_start d)) = Some (body, from_pos file (bd_start d + bd_length d)) /\ bd_length d <= max_i64.
Proof.
  intros (lb & hb & rest & -> & BE & L & D & S). destruct (of_be32_value _ _ BE L) as [L4 V].
  pose proof (bh_datasize_i32 _ _ D) as I. pose proof (zlen_nonneg body). pose proof (zlen_nonneg hb).
  unfold blob_next. cbn [bi_pos bi_jump bit_new]. change (0 + wrap64 0) with 0. cbn [Z.ltb Z.compare].
  change (from_pos (lb ++ hb ++ body ++ rest) 0) with (lb ++ hb ++ body ++ rest). replace (take_exact 4 (lb ++ hb ++ body ++ rest)) with (Some (lb, hb ++ body ++ rest)) by (rewrite <- L4; symmetry; apply take_exact_app).
  rewrite V.
  destruct (zlen hb <? 0) eqn:E; [lia|]. rewrite from_pos_app' by lia. rewrite take_exact_app, D.
  eexists _, _. split; [reflexivity|]. cbn [bd_type bd_index bd_length bd_start].
  rewrite S, Z.mod_small by (rewrite S in I; unfold I32, two64 in *; lia). sconj; auto.
  - replace (from_pos (lb ++ hb ++ body ++ rest) (0 + 4 + zlen hb)) with (body ++ rest).
    2: { rewrite app_assoc. symmetry. apply from_pos_app'. rewrite zlen_app. lia. }
    rewrite take_exact_app. f_equal. f_equal. symmetry. rewrite !app_assoc. apply from_pos_app'. rewrite !zlen_app. lia.
  - rewrite S in I. unfold I32, max_i64 in *. lia.
Qed.
Theorem C14_feature_gate m c file i :
  reader_new m c file = Ok i <->
  exists h body b p hd,
    starts_with_blob file h body /\ bh_type h = str "OSMHeader" /\ blob_decode body = Some b /\ carries c b p /\
    header_block_decode p = Some hd /\ header_means hd i /\ Forall supported (fi_required i).
Proof.
  assert (SUP : forall l, find_missing supported_features l = [] <-> Forall supported l).
  { induction l as [|x l IH]; cbn [find_missing filter]; [split; auto|].
    destruct (existsb (bytes_eqb x) supported_features) eqn:E; cbn [negb].
    - rewrite IH. split; [intros F; constructor; auto|intros F; inversion F; auto].
      apply existsb_exists in E. destruct E as (y & I & E). apply bytes_eqb_eq in E. subst y. unfold supported_features in I. unfold supported. cbn in I. intuition.
    - split; [discriminate|]. intros F; inversion F as [|? ? S]; subst. exfalso. rewrite <- not_true_iff_false in E. apply E.
      apply existsb_exists. exists x. split; [|apply bytes_eqb_refl]. unfold supported_features. destruct S as [S|[S|[S|S]]]; subst x; cbn; auto. }
  split.
  - unfold reader_new. intros H. bok H pr E. destruct pr as [ob s]. destruct ob as [[ix inf|]|]; try discriminate.
    destruct (find_missing _ _) eqn:M; [|discriminate]. injection H as <-. apply SUP in M.
    unfold fb_next in E. bok E pr N. destruct pr as [od s']. destruct od as [d|]; [|discriminate].
    bok E blk U. injection E as -> <-. unfold unwrap_res in U. destruct (from_blob_desc m c file d) as [x| |] eqn:B; try discriminate. injection U as ->.
    unfold blob_next in N. cbn [bi_pos bi_jump bit_new] in N. change (0 + wrap64 0) with 0 in N. cbn [Z.ltb Z.compare] in N.
    change (from_pos file 0) with file in N.
    destruct (take_exact 4 file) as [[lb r]|] eqn:T; [|discriminate]. apply take_exact_some in T. destruct T as (-> & L4 & _).
    destruct (of_be32 lb <? 0) eqn:NN; [discriminate|]. rewrite from_pos_app' in N by lia.
    destruct (take_exact (of_be32 lb) r) as [[hb r2]|] eqn:T2; [|discriminate]. apply take_exact_some in T2. destruct T2 as (-> & L5 & _).
    destruct (blob_header_decode hb) as [h|] eqn:D; [|discriminate]. injection N as <- <-.
    unfold from_blob_desc in B. cbn [bd_length bd_start] in B. pose proof (bh_datasize_i32 _ _ D) as I.
    destruct (max_i64 <? bh_datasize h mod two64) eqn:MX; [discriminate|].
    assert (P : 0 <= bh_datasize h). { unfold I32, two64, max_i64 in *. Z.to_euclidean_division_equations. lia. }
    rewrite Z.mod_small in B by (unfold I32, two64 in *; lia).
    rewrite app_assoc in B. rewrite from_pos_app' in B by (rewrite zlen_app; lia).
    destruct (take_exact (bh_datasize h) r2) as [[body rest]|] eqn:T3; [|discriminate]. apply take_exact_some in T3. destruct T3 as (-> & L6 & _).
    unfold fblock_deserialize in B. bok B b E1. destruct (blob_decode body) as [b'|] eqn:BD; [|discriminate]. injection E1 as ->.
    bok B p E2. apply read_blob_data_spec in E2. unfold fblock_new in B. cbn [bd_index bd_type] in B.
    destruct (bytes_eqb (bh_type h) (str "OSMHeader")) eqn:TY.
    2: { destruct (bytes_eqb (bh_type h) (str "OSMData")); [|discriminate]. bok B es' E3. discriminate. }
    bok B inf' E3. injection B as <- <-. apply bytes_eqb_eq in TY.
    assert (HD : exists hd, header_block_decode p = Some hd).
    { unfold osm_header_from_bytes in E3. bok E3 hd HD. destruct (header_block_decode p); [eauto|discriminate]. }
    destruct HD as (hd & HD). exists h, body, b, p, hd. sconj; auto.
    + exists lb, hb, rest. sconj; auto.
      * rewrite L5. apply of_be32_back; lia.
      * red. rewrite L5. unfold of_be32. set (q := fold_left _ _ _). pose proof (wrap32_range q) as W. unfold I32 in W. lia.
    + apply (header_means_spec p); auto.
  - intros (h & body & b & p & hd & S & TY & BD & CA & HD & HM & F).
    destruct (starts_next _ _ _ S) as (d & s & N & T & I0 & TK & LM).
    unfold reader_new, fb_next. rewrite N. cbn [bind]. unfold from_blob_desc.
    destruct (max_i64 <? bd_length d) eqn:X; [lia|]. rewrite TK. unfold fblock_deserialize. rewrite BD. cbn [of_option bind].
    apply read_blob_data_spec in CA. rewrite CA. cbn [bind]. unfold fblock_new. rewrite T, TY, bytes_eqb_refl.
    apply (header_means_spec p hd i HD) in HM. rewrite HM. cbn [bind unwrap_res].
    apply SUP in F. rewrite F. reflexivity.
Qed.
(** consequences a user cares about: another required feature is refused, optional ones are irrelevant *)
Theorem C14_unsupported_is_refused m c file i f : reader_new m c file = Ok i -> In f (fi_required i) -> supported f.
Proof. rewrite C14_feature_gate. intros (h & body & b & p & hd & _ & _ & _ & _ & _ & _ & F) I. rewrite Forall_forall in F. auto. Qed.

(** ** C15 *)
(** blobs with headers that state the size of their bodies *)
Definition consistent_blob (hb : blob_header * bytes) : Prop :=
  utf8_ok (bh_type (fst hb)) = true /\ bh_datasize (fst hb) = zlen (snd hb) /\ below_2GiB (snd hb) /\
  below_2GiB (blob_header_encode (fst hb)).
Definition file_of_blobs (l : list (blob_header * bytes)) : bytes :=
  flat_map (fun hb => write_blob (blob_header_encode (fst hb), snd hb)) l.
Lemma consistent_frame hb : consistent_blob hb -> frame_ok hb.
Proof.
  intros (A & B & C & D). red in C, D. unfold frame_ok, blob_header_ok, max_i32. sconj; auto. rewrite B.
  pose proof (zlen_nonneg (snd hb)). unfold I32. lia.
Qed.
Lemma descs_spec l : forall i pre, Forall frame_ok l ->
  forall j d, nth_error (descs i (zlen pre) l) j = Some d -> exists h body, nth_error l j = Some (h, body) /\
    bd_index d = i + Z.of_nat j /\ bd_type d = bh_type h /\
    bd_start d = zlen pre + zlen (frames_bytes (firstn j l)) + 4 + zlen (blob_header_encode h) /\
    slice (pre ++ frames_bytes l) (bd_start d) (bd_length d) body.
Proof.
  induction l as [|f l IH]; intros i pre H j d N; [destruct j; discriminate|].
  inversion H as [|? ? Hf Hl]; subst. destruct j as [|j]; cbn [descs nth_error firstn] in *.
  - injection N as <-. destruct f as [h body]. exists h, body. cbn [bd_index bd_type bd_start bd_length fst snd]. sconj; auto; try lia.
    + change (frames_bytes []) with (@nil byte). change (zlen (@nil byte)) with 0. unfold head_len. cbn [fst]. lia.
    + exists (pre ++ be32 (zlen (blob_header_encode h)) ++ blob_header_encode h), (frames_bytes l). sconj; auto.
      * rewrite frames_bytes_cons, frame_bytes_eq by auto. cbn [fst snd]. rewrite !app_assoc. reflexivity.
      * rewrite !zlen_app, be32_len. unfold head_len. cbn [fst]. ring.
  - rewrite <- Z.add_assoc, <- frame_bytes_len, <- zlen_app in N by auto.
    destruct (IH _ _ Hl _ _ N) as (h & body & A & B & C & D & E). exists h, body. sconj; auto.
    + rewrite B. lia.
    + rewrite frames_bytes_cons. rewrite D, !zlen_app. ring.
    + rewrite frames_bytes_cons, app_assoc. exact E.
Qed.
Lemma descs_length i off l : length (descs i off l) = length l.
Proof. revert i off. induction l; cbn; intros; auto. Qed.
Theorem C15_blob_framing l : Forall consistent_blob l ->
  exists ds, run (blob_next (file_of_blobs l)) bit_new ds Ended /\ length ds = length l /\
    forall j d, nth_error ds j = Some d -> exists h body, nth_error l j = Some (h, body) /\
      bd_index d = Z.of_nat j /\ bd_type d = bh_type h /\
      bd_start d = zlen (file_of_blobs (firstn j l)) + 4 + zlen (blob_header_encode h) /\
      slice (file_of_blobs l) (bd_start d) (bd_length d) body.
Proof.
  intros H. assert (F : Forall frame_ok l) by (eapply Forall_impl; [|exact H]; apply consistent_frame).
  exists (descs 0 0 l). sconj.
  - apply (blob_run_frames l [] bit_new F at_end_new).
  - apply descs_length.
  - intros j d N. destruct (descs_spec l 0 [] F j d N) as (h & body & A & B & C & D & E). exists h, body. sconj; auto.
Qed.

(** ** The sequential writer: C16, C17, C18 *)
Lemma acc_inv_new : acc_inv acc_new.
Proof. split; [reflexivity|constructor]. Qed.
Lemma write_file_spec m c i k es file : write_file m c i k es = Ok file ->
  exists blocks ds, Forall2 (fun b d => osm_data_serialize m b = Ok d) blocks ds /\
    file = frames_bytes (header_frame c k i :: map (data_frame c k) ds) /\
    concat blocks = no_sentinels es /\ Forall block_shape blocks.
Proof.
  unfold write_file. intros H. bok H w0 E0. rewrite write_header_spec in E0. injection E0 as <-.
  bok H w1 E1. bok H w2 E2. injection H as <-.
  destruct (write_all_spec _ _ _ _ _ E1) as (bs & hbs & R & F & X & C). cbn [wr_acc wr_comp wr_file] in *.
  destruct (acc_run_spec _ _ _ _ acc_inv_new R) as ((I1 & I2) & Y & S). cbn [acc_new acc_elements app] in Y.
  assert (G : forall bs hbs, Forall2 (ser_block m c k) bs hbs -> exists ds, Forall2 (fun b d => osm_data_serialize m b = Ok d) bs ds /\
     flat_map write_blob hbs = frames_bytes (map (data_frame c k) ds)).
  { clear. induction 1 as [|b hb bs hbs E F (ds & IH & W)]; [exists []; auto|].
    unfold ser_block in E. rewrite serialize_data in E. bok E d D. injection E as <-. exists (d :: ds). split; auto.
    cbn [flat_map map]. rewrite frames_bytes_cons, W. reflexivity. }
  unfold writer_close in E2. destruct (acc_elements (wr_acc w1)) as [|e r] eqn:A.
  - injection E2 as <-. cbn [wr_file]. rewrite app_nil_r in Y. destruct (G _ _ F) as (ds & D & W).
    exists bs, ds. sconj; auto. rewrite X, W. reflexivity.
  - unfold write_elements, write_file_block in E2. bok E2 hb S2. injection E2 as <-. cbn [wr_file wr_comp] in *.
    rewrite C in S2. assert (F2 : Forall2 (ser_block m c k) (bs ++ [e :: r]) (hbs ++ [hb])) by (apply Forall2_app; [auto|constructor; [exact S2|constructor]]).
    destruct (G _ _ F2) as (ds & D & W). exists (bs ++ [e :: r]), ds. sconj; auto.
    + rewrite X. rewrite frames_bytes_cons, <- W, flat_map_app, <- app_assoc. cbn [flat_map]. rewrite app_nil_r. reflexivity.
    + rewrite concat_app. cbn [concat]. rewrite app_nil_r. exact Y.
    + apply Forall_app. split; auto. constructor; [|constructor]. split; [lia|]. eexists; eauto.
Qed.
Lemma no_sentinels_spec es l : without_sentinels es l <-> l = no_sentinels es.
Proof.
  split.
  - unfold no_sentinels. induction 1; cbn; auto. destruct e; cbn; congruence.
  - intros ->. induction es as [|e es IH]; cbn; [constructor|]. destruct e; cbn; constructor; auto; discriminate.
Qed.
Lemma kinds l : (all_nodes l <-> all is_node l) /\ (all_ways l <-> all is_way l) /\ (all_relations l <-> all is_relation l).
Proof.
  unfold all_nodes, all_ways, all_relations, all. sconj; rewrite !Forall_forall; split; intros H e I; specialize (H e I);
  try (destruct H as (n & ->); reflexivity); destruct e; try discriminate; eauto.
Qed.
Lemma shape_single b : block_shape b -> zlen b <= 8000 /\ single_type b.
Proof.
  intros (L & st & F). split; auto. unfold single_type. destruct (kinds b) as (A & B & C).
  destruct st; [left; apply A|right; left; apply B|right; right; apply C]; exact F.
Qed.

(** *** C18 *)
Theorem C18_block_structure m c i k es file : write_file m c i k es = Ok file ->
  exists header blocks bodies stream,
    file = write_blob header ++ flat_map write_blob bodies /\
    fblock_serialize m c k (FHeader 0 i) = Ok header /\
    Forall2 (fun b body => fblock_serialize m c k (FData 0 b) = Ok body) blocks bodies /\
    Forall (fun b => zlen b <= 8000 /\ single_type b) blocks /\
    without_sentinels es stream /\ concat blocks = stream.
Proof.
  intros H. destruct (write_file_spec _ _ _ _ _ _ H) as (blocks & ds & F & -> & C & S).
  exists (blob_header_encode (fst (header_frame c k i)), snd (header_frame c k i)), blocks,
    (map (fun d => (blob_header_encode (fst (data_frame c k d)), snd (data_frame c k d))) ds), (no_sentinels es). sconj; auto.
  - rewrite frames_bytes_cons. f_equal. clear. unfold frames_bytes. induction ds; cbn [map flat_map]; auto. rewrite IHds. reflexivity.
  - clear - F. induction F as [|b d bs ds E F IH]; cbn [map]; constructor; auto. rewrite serialize_data, E. reflexivity.
  - eapply Forall_impl; [|exact S]. apply shape_single.
  - apply no_sentinels_spec. reflexivity.
Qed.

(** *** C17 *)
(** every contiguous piece of at most 8000 elements can be serialized; in a release build this is
    always so (C09), with overflow checks when neighbouring values do not differ too much (C09) *)
Definition serializable (m : mode) (l : list element) : Prop :=
  forall a b d, l = a ++ b ++ d -> zlen b <= 8000 -> exists bs, osm_data_serialize m b = Ok bs.
Lemma serializable_release l : serializable Wrapping l.
Proof. intros a b d _ _. apply C09_release_never_panics. Qed.
Lemma concat_pieces {A} (bs : list (list A)) : Forall (fun b => exists a d, concat bs = a ++ b ++ d) bs.
Proof.
  induction bs as [|x bs IH]; constructor.
  - exists [], (concat bs). reflexivity.
  - eapply Forall_impl; [|exact IH]. intros b (a & d & E). exists (x ++ a), d. cbn. rewrite E, <- app_assoc. reflexivity.
Qed.
Theorem C17_order_enforced_partial m c i k es stream : without_sentinels es stream ->
  (* not in order: panic *)
  (~ in_osm_order stream -> write_file m c i k es = Panic) /\
  (* in order, and a way comes before the first relation: accepted *)
  (forall ns ws rs, stream = ns ++ ws ++ rs -> all_nodes ns -> all_ways ws -> all_relations rs ->
     (rs = [] \/ ws <> []) -> serializable m stream -> exists file, write_file m c i k es = Ok file).
Proof.
  intros WS. apply no_sentinels_spec in WS. subst stream. split.
  - intros N. unfold write_file. rewrite write_header_spec. cbn [bind].
    destruct (acc_run acc_new es) as [r| |] eqn:R.
    + exfalso. apply N. destruct (proj1 (acc_run_accepts es acc_new)) as (ns & ws & rs & E & A & B & C & _); [eauto|].
      exists ns, ws, rs. sconj; auto; apply kinds; auto.
    + exfalso. clear - R. revert R. generalize acc_new. induction es as [|e es IH]; intros a R; cbn in R; [discriminate|].
      pose proof (acc_add_total a e) as T. destruct (acc_add a e) as [[o a1]| |]; cbn in R; try discriminate; try contradiction.
      specialize (IH a1). destruct (acc_run a1 es) as [[]| |]; cbn in R; try discriminate. auto.
    + rewrite write_all_panic; auto.
  - intros ns ws rs E A B C D S.
    assert (AC : accepts ANodes (no_sentinels es)).
    { exists ns, ws, rs. sconj; auto; try (apply kinds; auto). intros X. destruct D; congruence. }
    apply (acc_run_accepts es acc_new) in AC. destruct AC as ([bs a] & R).
    destruct (acc_run_spec _ _ _ _ acc_inv_new R) as (I & Y & SH). cbn [acc_new acc_elements app] in Y.
    set (all_bs := bs ++ match acc_elements a with [] => [] | es => [es] end).
    assert (CB : concat all_bs = no_sentinels es).
    { unfold all_bs. rewrite concat_app, <- Y. destruct (acc_elements a); cbn; rewrite ?app_nil_r; reflexivity. }
    assert (SB : Forall (fun b => zlen b <= 8000) all_bs).
    { apply Forall_app. split; [eapply Forall_impl; [|exact SH]; intros ? [? _]; auto|]. destruct I as [I _].
      destruct (acc_elements a); constructor; [lia|constructor]. }
    assert (Ex : Forall (fun b => exists hb, ser_block m c k b hb) all_bs).
    { pose proof (concat_pieces all_bs) as P. rewrite CB in P. rewrite Forall_forall in *. intros b Ib.
      destruct (P b Ib) as (x & y & E2). destruct (S x b y E2 (SB b Ib)) as (d & Ed).
      unfold ser_block. rewrite serialize_data, Ed. cbn. eauto. }
    apply Forall_app in Ex. destruct Ex as [E1 E2].
    assert (F : exists hbs, Forall2 (ser_block m c k) bs hbs).
    { clear - E1. induction E1 as [|b l (hb & X) _ (hbs & IH)]; [exists []; auto|exists (hb :: hbs); auto]. }
    destruct F as (hbs & F). unfold write_file. rewrite write_header_spec. cbn [bind].
    edestruct (write_all_complete m c es (Writer i k (frame_bytes (header_frame c k i)) acc_new)) as (w' & -> & W & CC); eauto. cbn [bind].
    unfold writer_close. rewrite W. destruct (acc_elements a) as [|e r]; cbn [bind]; eauto.
    inversion E2 as [|? ? (hb & X) _]; subst. unfold write_elements, write_file_block. cbn [wr_comp]. rewrite CC. cbn [wr_comp].
    rewrite (serialize_data_index _ _ _ _ 0). unfold ser_block in X. rewrite X. cbn. eauto.
Qed.
(** the full C17 is false: a relation that is not preceded by a way is rejected although the stream is ordered *)
Theorem C17_refuted m c i k r ns : all_nodes ns -> in_osm_order (ns ++ [ERelation r]) /\ write_file m c i k (ns ++ [ERelation r]) = Panic.
Proof.
  intros N. split.
  - exists ns, [], [ERelation r]. sconj; auto. constructor. constructor; eauto.
  - unfold write_file. rewrite write_header_spec. cbn [bind]. rewrite write_all_panic; auto. cbn [wr_acc].
    assert (G : forall a, acc_st a = ANodes -> acc_run a (ns ++ [ERelation r]) = Panic).
    { induction N as [|e l (n & ->) N IH]; intros a S; cbn [app acc_run].
      - unfold acc_add. rewrite S. reflexivity.
      - unfold acc_add. rewrite S. destruct (acc_push a (ENode n)) as [o a1] eqn:P. cbn [bind]. rewrite IH; [reflexivity|].
        change a1 with (snd (o, a1)). rewrite <- P, acc_push_st. auto. }
    apply G. reflexivity.
Qed.

(** *** C16 *)
(** every contiguous piece of at most 8000 elements makes a block below 2 GiB, before and after compression *)
Definition blocks_fit (m : mode) (c : codec) (k : compression) (l : list element) : Prop :=
  forall a b d, l = a ++ b ++ d -> zlen b <= 8000 ->
    (forall data, osm_data_serialize m b = Ok data -> below_2GiB data) /\
    (forall h body, fblock_serialize m c k (FData 0 b) = Ok (h, body) -> below_2GiB body).
Lemma data_frames_decode_gen m c k blocks ds : codec_ok c ->
  Forall2 (fun b d => osm_data_serialize m b = Ok d) blocks ds ->
  Forall (fun b => same_kind is_node b \/ same_kind is_way b \/ same_kind is_relation b) blocks ->
  Forall (fun b => Forall element_ok b) blocks ->
  Forall (fun b => (forall data, osm_data_serialize m b = Ok data -> below_2GiB data) /\
    (forall h body, fblock_serialize m c k (FData 0 b) = Ok (h, body) -> below_2GiB body)) blocks ->
  Forall frame_ok (map (data_frame c k) ds) /\
  forall i, exists blks, frames_decode m c i (map (data_frame c k) ds) blks /\ Forall is_data blks /\
    Forall2 (fun b blk => Forall2 written_read b (block_elements blk)) blocks blks.
Proof.
  intros C F S O G.
  induction F as [|b d bs ds E F IH]; [cbn; split; auto; intros i; exists []; cbn; sconj; constructor|].
  inversion S as [|? ? K S']; subst. inversion O as [|? ? Ob O']; subst. inversion G as [|? ? [G1 G2] G']; subst.
  destruct (IH S' O' G') as (IH1 & IH2). clear IH. specialize (G1 _ E). red in G1.
  assert (L2 : zlen (blob_encode (blob_of c k LevelDefault d)) <= max_i32).
  { specialize (G2 (blob_header_encode (fst (data_frame c k d))) (snd (data_frame c k d))).
    rewrite serialize_data, E in G2. apply G2. reflexivity. }
  split.
  - cbn [map]. constructor; auto. apply frame_of_ok; auto; cbv; congruence.
  - intros i. destruct (IH2 (i + 1)) as (blks & D & DD & W).
    destruct (C05_homogeneous_block_partial m b d Ob K E G1) as (es' & R & FW).
    exists (FData i es' :: blks). sconj.
    + cbn [map]. constructor; auto. unfold data_frame. cbn [frame_of fst bh_type]. fold (frame_of (str "OSMData") (blob_of c k LevelDefault d)).
      rewrite deserialize_packed by (eauto using serialize_data_nonempty). unfold fblock_new.
      change (bytes_eqb (str "OSMData") (str "OSMHeader")) with false. rewrite bytes_eqb_refl. cbv iota. rewrite R. reflexivity.
    + constructor; cbn; auto.
    + constructor; cbn; auto.
Qed.
Lemma data_frames_decode m c k blocks ds : codec_ok c ->
  Forall2 (fun b d => osm_data_serialize m b = Ok d) blocks ds -> Forall block_shape blocks ->
  Forall (fun b => Forall element_ok b) blocks -> blocks_fit m c k (concat blocks) ->
  Forall frame_ok (map (data_frame c k) ds) /\
  forall i, exists blks, frames_decode m c i (map (data_frame c k) ds) blks /\ Forall is_data blks /\
    Forall2 (fun b blk => Forall2 written_read b (block_elements blk)) blocks blks.
Proof.
  intros C F S O FIT. apply data_frames_decode_gen; auto.
  - eapply Forall_impl; [|exact S]. intros b (_ & st & K). destruct st; unfold same_kind; auto.
  - pose proof (concat_pieces blocks) as P. rewrite Forall_forall in *. intros b I. destruct (P b I) as (x & y & E).
    apply (FIT x b y E). destruct (S b I). auto.
Qed.
Lemma Forall2_concat {A B} (R : A -> B -> Prop) ls ls' : Forall2 (Forall2 R) ls ls' -> Forall2 R (concat ls) (concat ls').
Proof. induction 1; cbn; auto. apply Forall2_app; auto. Qed.
Lemma ok_blocks es blocks : Forall element_ok es -> concat blocks = no_sentinels es -> Forall (fun b => Forall element_ok b) blocks.
Proof.
  intros H E. assert (F : Forall element_ok (concat blocks)).
  { rewrite E. unfold no_sentinels. rewrite Forall_forall in *. intros e I. apply filter_In in I. destruct I; auto. }
  clear E. induction blocks as [|b bs IH]; constructor; cbn in F; apply Forall_app in F; destruct F; auto.
Qed.
Definition file_hyps m c i k es stream : Prop :=
  codec_ok c /\ info_ok i /\ ~ info_empty i /\ header_fits c k i /\ Forall supported (fi_required i) /\
  Forall element_ok es /\ without_sentinels es stream /\ blocks_fit m c k stream.
Lemma file_frames m c i k es stream file : file_hyps m c i k es stream -> write_file m c i k es = Ok file ->
  exists l blks, file = frames_bytes (header_frame c k i :: l) /\ Forall frame_ok (header_frame c k i :: l) /\
    frames_decode m c 0 (header_frame c k i :: l) (FHeader 0 (info_read i) :: blks) /\ Forall is_data blks /\
    Forall2 written_read stream (flat_map block_elements blks) /\
    exists blocks, concat blocks = stream /\ Forall2 (fun b blk => Forall2 written_read b (block_elements blk)) blocks blks.
Proof.
  intros (C & IO & NE & HF & SU & EO & WS & BF) H. apply no_sentinels_spec in WS. subst stream.
  destruct (write_file_spec _ _ _ _ _ _ H) as (blocks & ds & F & -> & CB & S). rewrite <- CB in *.
  destruct (data_frames_decode m c k blocks ds C F S (ok_blocks _ _ EO CB) BF) as (FO & DEC).
  destruct (DEC (0 + 1)) as (blks & D & DD & W). exists (map (data_frame c k) ds), blks.
  destruct (header_fits_frame _ _ _ HF) as (HO & _). sconj; auto.
  - constructor; [apply header_decode; auto|auto].
  - rewrite flat_map_concat_map. apply Forall2_concat. clear - W. induction W; cbn; constructor; auto.
  - exists blocks. auto.
Qed.
Lemma supported_reader m c i l blks o file : Forall supported (fi_required i) ->
  run (fb_next m c file) bit_new (FHeader 0 (info_read i) :: blks) o -> l = blks -> reader_new m c file = Ok (info_read i).
Proof.
  intros S R _. inversion R as [| |s a s' l' o' E R']; subst. unfold reader_new. rewrite E. cbn [bind fi_required info_read].
  replace (find_missing supported_features (fi_required i)) with (@nil bytes); auto.
  unfold find_missing. clear - S. induction S as [|x l X S IH]; cbn [filter]; auto.
  replace (existsb (bytes_eqb x) supported_features) with true; auto.
  symmetry. apply existsb_exists. exists x. split; [|apply bytes_eqb_refl]. unfold supported_features.
  destruct X as [E|[E|[E|E]]]; subst x; cbn; auto.
Qed.
Theorem C16_whole_file_round_trip m c i k es stream file :
  codec_ok c -> info_ok i -> ~ info_empty i -> header_fits c k i -> Forall supported (fi_required i) ->
  Forall element_ok es -> without_sentinels es stream -> blocks_fit m c k stream ->
  write_file m c i k es = Ok file ->
  exists i' stream',
    reader_new m c file = Ok i' /\ info_written_read i i' /\
    elements_run m c file stream' Ended /\ Forall2 written_read stream stream'.
Proof.
  intros H1 H2 H3 H4 H5 H6 H7 H8 H.
  destruct (file_frames m c i k es stream file) as (l & blks & -> & FO & D & DD & W & _); [red; auto 10|auto|].
  pose proof (fb_run_frames m c _ _ [] bit_new FO at_end_new D) as R. cbn [app] in R.
  exists (info_read i), (flat_map block_elements blks). sconj; auto using info_read_spec.
  - eapply supported_reader; eauto.
  - eapply elements_run_blocks; eauto.
Qed.
(** in a release build such a file is always produced for an ordered stream (C17) and the elements of
    the file are the only possible result of the loop *)
Theorem C16_unique m c file l o l' o' : elements_run m c file l o -> elements_run m c file l' o' -> l = l' /\ o = o'.
Proof. apply elements_run_det. Qed.

(** *** C19 *)
(** blobs that are framed consistently and decode to blocks, numbered from 0 *)
Definition decodes_to m c (l : list (blob_header * bytes)) (blks : list fblock) : Prop :=
  length blks = length l /\
  forall j h body, nth_error l j = Some (h, body) ->
    exists d, bd_index d = Z.of_nat j /\ bd_type d = bh_type h /\ match nth_error blks j with
      | Some blk => fblock_deserialize m c d body = Ok blk | None => False end.
Lemma decodes_frames m c l : forall blks i,
  length blks = length l ->
  (forall j h body, nth_error l j = Some (h, body) ->
    exists d, bd_index d = i + Z.of_nat j /\ bd_type d = bh_type h /\ match nth_error blks j with
      | Some blk => fblock_deserialize m c d body = Ok blk | None => False end) -> frames_decode m c i l blks.
Proof.
  induction l as [|[h body] l IH]; intros blks i L H; destruct blks as [|b blks]; try discriminate; constructor.
  - destruct (H 0%nat h body eq_refl) as (d & A & B & E). cbn in E. rewrite <- E. unfold fblock_deserialize. cbn [bd_index bd_type fst snd].
    rewrite A, B. change (Z.of_nat 0) with 0. rewrite Z.add_0_r. reflexivity.
  - apply IH; [cbn in L; lia|]. intros j h' body' N. destruct (H (S j) h' body' N) as (d & A & B & E). exists d. sconj; auto. lia.
Qed.
Definition prefix {A} (p f : list A) : Prop := exists r, f = p ++ r.
Theorem C19_truncated_file m c l blks p : Forall consistent_blob l -> decodes_to m c l blks ->
  prefix p (file_of_blobs l) ->
  exists k o, run (fb_next m c p) bit_new (firstn k blks) o /\ (k <= length l)%nat /\
    (* exactly the blobs that are completely contained *)
    zlen (file_of_blobs (firstn k l)) <= zlen p /\
    (forall f, nth_error l k = Some f -> zlen p < zlen (file_of_blobs (firstn (S k) l))) /\
    (* a panic exactly when the cut is inside the body of the next blob *)
    (o = Panicked <-> exists h body, nth_error l k = Some (h, body) /\
                      zlen (file_of_blobs (firstn k l)) + 4 + zlen (blob_header_encode h) <= zlen p).
Proof.
  intros H (DL & D) (r & E). assert (F : Forall frame_ok l) by (eapply Forall_impl; [|exact H]; apply consistent_frame).
  destruct (fb_run_prefix m c l blks [] p r bit_new F at_end_new (decodes_frames m c l blks 0 DL D) E) as (k & o & R & K & L & T & O).
  exists k, o. sconj; auto.
  - intros f N. specialize (T f N). apply nth_error_split in N. destruct N as (l1 & l2 & -> & <-).
    rewrite firstn_app, firstn_all2, Nat.sub_diag in T by lia. cbn [firstn] in T. rewrite app_nil_r in T.
    rewrite firstn_app, firstn_all2 by lia. replace (S (length l1) - length l1)%nat with 1%nat by lia. cbn [firstn].
    change (file_of_blobs (l1 ++ [f])) with (frames_bytes (l1 ++ [f])). rewrite frames_bytes_app, zlen_app, frames_bytes_cons.
    apply Forall_app in F. destruct F as [_ F]. inversion F; subst. rewrite zlen_app, frame_bytes_len by auto.
    change (frames_bytes []) with (@nil byte). change (zlen (@nil byte)) with 0. lia.
  - rewrite O. split.
    + intros ([h body] & N & X). exists h, body. split; auto. unfold head_len in X. cbn [fst] in X. change (frames_bytes (firstn k l)) with (file_of_blobs (firstn k l)) in X. lia.
    + intros (h & body & N & X). exists (h, body). split; auto. unfold head_len. cbn [fst]. change (frames_bytes (firstn k l)) with (file_of_blobs (firstn k l)). lia.
Qed.
(** the elements of a truncated file of the sequential writer: a prefix of what was written *)
Theorem C19_truncated_elements m c i k es stream file p :
  codec_ok c -> info_ok i -> ~ info_empty i -> header_fits c k i -> Forall supported (fi_required i) ->
  Forall element_ok es -> without_sentinels es stream -> blocks_fit m c k stream ->
  write_file m c i k es = Ok file -> prefix p file ->
  (reader_new m c p = Err \/ reader_new m c p = Panic) \/
  exists i' got o, reader_new m c p = Ok i' /\ info_written_read i i' /\ elements_run m c p got o /\
    exists written, prefix written stream /\ Forall2 written_read written got.
Proof.
  intros H1 H2 H3 H4 H5 H6 H7 H8 H (r & Er).
  destruct (file_frames m c i k es stream file) as (l & blks & E & FO & D & DD & W & blocks & CB & WB); [red; auto 10|auto|].
  rewrite E in Er. destruct (fb_run_prefix m c _ _ [] p r bit_new FO at_end_new D Er) as (n & o & R & K & L & T & O).
  cbn [app] in R. destruct n as [|n]; cbn [firstn] in R.
  - left. inversion R as [s s' N|s N|]; subst; unfold reader_new; rewrite N; cbn; auto.
  - right. exists (info_read i), (flat_map block_elements (firstn n blks)), o. sconj; auto using info_read_spec.
    + eapply supported_reader; eauto.
    + eapply elements_run_blocks; eauto. clear - DD. revert n. induction DD; intros [|n]; cbn; constructor; auto.
    + exists (concat (firstn n blocks)). split.
      * exists (concat (skipn n blocks)). rewrite <- concat_app, firstn_skipn. auto.
      * rewrite flat_map_concat_map. apply Forall2_concat. clear - WB. revert n. induction WB; intros [|n]; cbn; constructor; auto.
Qed.

(** ** C20 *)
Lemma blob_next_progress file s d s' : blob_next file s = Ok (Some d, s') ->
  0 <= bi_pos s + wrap64 (bi_jump s) /\ bi_pos s + wrap64 (bi_jump s) + 4 <= zlen file /\
  bi_pos s + wrap64 (bi_jump s) + 4 <= bi_pos s' /\ bi_jump s' = bd_length d /\ bd_index d = bi_index s /\
  0 <= bd_length d < two64.
Proof.
  unfold blob_next. set (p := bi_pos s + wrap64 (bi_jump s)). destruct (p <? 0) eqn:P; [discriminate|].
  destruct (take_exact 4 (from_pos file p)) as [[lb r]|] eqn:T; [|discriminate]. apply take_exact_some in T. destruct T as (T & L & _).
  destruct (of_be32 lb <? 0) eqn:N; [discriminate|].
  destruct (take_exact (of_be32 lb) (from_pos file (p + 4))) as [[hb r2]|]; [|discriminate].
  destruct (blob_header_decode hb) as [h|]; [|discriminate]. injection 1 as <- <-. cbn [bi_pos bi_jump bi_index bd_length bd_index].
  assert (zlen (from_pos file p) = zlen lb + zlen r) by (rewrite T; apply zlen_app). rewrite from_pos_len in H by lia.
  pose proof (zlen_nonneg r). sconj; try lia. apply Z.mod_pos_bound. reflexivity. apply Z.mod_pos_bound. reflexivity.
Qed.
Lemma blob_next_not_err file s : blob_next file s <> Err.
Proof.
  unfold blob_next. destruct (_ <? 0); [discriminate|]. destruct (take_exact 4 _) as [[]|]; [|discriminate].
  destruct (_ <? 0); [discriminate|]. destruct (take_exact _ _) as [[]|]; [|discriminate]. destruct (blob_header_decode _); discriminate.
Qed.
Inductive steps {S A} (next : S -> res (option A * S)) : S -> list A -> S -> Prop :=
| steps_nil s : steps next s [] s
| steps_cons s a s1 l s2 : next s = Ok (Some a, s1) -> steps next s1 l s2 -> steps next s (a :: l) s2.

Definition todo (file : bytes) (s : bit) : Z := zlen file - (bi_pos s + wrap64 (bi_jump s)).
Lemma todo_new file : todo file bit_new = zlen file.
Proof. unfold todo. cbn [bi_pos bi_jump bit_new]. change (wrap64 0) with 0. ring. Qed.
(** iterating over the raw blobs ends, or some blob header states a negative size
    (a u64 length above i64::MAX) *)
Theorem C20_blobs_terminate_partial file :
  (exists ds o, run (blob_next file) bit_new ds o /\ 4 * zlen ds <= zlen file) \/
  (exists ds d s, steps (blob_next file) bit_new (ds ++ [d]) s /\ bd_length d > max_i64).
Proof.
  assert (G : forall n s, todo file s <= 4 * Z.of_nat n -> todo file s <= zlen file ->
    (exists ds o, run (blob_next file) s ds o /\ 4 * zlen ds <= Z.max 0 (todo file s)) \/
    (exists ds d s', steps (blob_next file) s (ds ++ [d]) s' /\ bd_length d > max_i64)).
  { induction n as [|n IH]; intros s L L0.
    - left. destruct (blob_next file s) as [[[d|] s']| |] eqn:E.
      + apply blob_next_progress in E. unfold todo in L. lia.
      + exists [], Ended. split; [econstructor; eauto|]. change (zlen (@nil blob_desc)) with 0. lia.
      + destruct (blob_next_not_err _ _ E).
      + exists [], Panicked. split; [constructor; auto|]. change (zlen (@nil blob_desc)) with 0. lia.
    - destruct (blob_next file s) as [[[d|] s']| |] eqn:E.
      + destruct (blob_next_progress _ _ _ _ E) as (P1 & P2 & P3 & P4 & P5 & P6).
        destruct (Z_lt_le_dec max_i64 (bd_length d)) as [X|X].
        * right. exists [], d, s'. split; [econstructor; [eauto|constructor]|lia].
        * assert (W : wrap64 (bi_jump s') = bd_length d) by (rewrite P4; apply wrap64_id; unfold I64, max_i64 in *; lia).
          destruct (IH s') as [(ds & o & R & B)|(ds & d' & s'' & R & B)].
          -- unfold todo in *. lia.
          -- unfold todo in *. lia.
          -- left. exists (d :: ds), o. split; [econstructor; eauto|]. rewrite zlen_cons. unfold todo in *. lia.
          -- right. exists (d :: ds), d', s''. split; [econstructor; eauto|auto].
      + left. exists [], Ended. split; [econstructor; eauto|]. change (zlen (@nil blob_desc)) with 0. lia.
      + destruct (blob_next_not_err _ _ E).
      + left. exists [], Panicked. split; [constructor; auto|]. change (zlen (@nil blob_desc)) with 0. lia. }
  pose proof (zlen_nonneg file).
  destruct (G (Z.to_nat (zlen file)) bit_new) as [(ds & o & R & B)|X].
  - rewrite todo_new. lia.
  - rewrite todo_new. lia.
  - left. exists ds, o. split; auto. rewrite todo_new in B. lia.
  - right. exact X.
Qed.
(** iterating over blocks, and over elements, ends for every file: such a block makes them panic *)
Lemma fb_terminates m c file s : exists blks o, run (fb_next m c file) s blks o /\ 4 * zlen blks <= Z.max 0 (todo file s).
Proof.
  assert (G : forall n s, todo file s <= 4 * Z.of_nat n -> exists blks o, run (fb_next m c file) s blks o /\ 4 * zlen blks <= Z.max 0 (todo file s)).
  { clear s. induction n as [|n IH]; intros s L.
    - destruct (blob_next file s) as [[[d|] s']| |] eqn:E.
      + apply blob_next_progress in E. unfold todo in L. lia.
      + exists [], Ended. split; [eapply run_end; unfold fb_next; rewrite E; reflexivity|]. change (zlen (@nil fblock)) with 0. lia.
      + destruct (blob_next_not_err _ _ E).
      + exists [], Panicked. split; [eapply run_panic; unfold fb_next; rewrite E; reflexivity|]. change (zlen (@nil fblock)) with 0. lia.
    - destruct (blob_next file s) as [[[d|] s']| |] eqn:E.
      + destruct (blob_next_progress _ _ _ _ E) as (P1 & P2 & P3 & P4 & P5 & P6).
        destruct (from_blob_desc m c file d) as [b| |] eqn:B.
        2,3: exists [], Panicked; (split; [eapply run_panic; unfold fb_next; rewrite E; cbn [bind]; rewrite B; reflexivity|]; change (zlen (@nil fblock)) with 0; lia).
        assert (X : bd_length d <= max_i64) by (unfold from_blob_desc in B; destruct (max_i64 <? bd_length d) eqn:X; [discriminate|lia]).
        assert (W : wrap64 (bi_jump s') = bd_length d) by (rewrite P4; apply wrap64_id; unfold I64, max_i64 in *; lia).
        destruct (IH s') as (blks & o & R & Z).
        * unfold todo in *. lia.
        * exists (b :: blks), o. split; [|rewrite zlen_cons; unfold todo in *; lia].
          eapply run_step; [|exact R]. unfold fb_next. rewrite E. cbn [bind]. rewrite B. reflexivity.
      + exists [], Ended. split; [eapply run_end; unfold fb_next; rewrite E; reflexivity|]. change (zlen (@nil fblock)) with 0. lia.
      + destruct (blob_next_not_err _ _ E).
      + exists [], Panicked. split; [eapply run_panic; unfold fb_next; rewrite E; reflexivity|]. change (zlen (@nil fblock)) with 0. lia. }
  apply (G (Z.to_nat (todo file s))). lia.
Qed.
Theorem C20_blocks_terminate m c file : exists blks o, run (fb_next m c file) bit_new blks o /\ 4 * zlen blks <= zlen file.
Proof.
  destruct (fb_terminates m c file bit_new) as (b & o & R & L). exists b, o. split; auto. rewrite todo_new in L.
  pose proof (zlen_nonneg file). lia.
Qed.
Theorem C20_elements_terminate m c file : exists es o, elements_run m c file es o.
Proof.
  assert (G : forall s blks o, run (fb_next m c file) s blks o -> forall r, exists es o', el_run m c file s (Some r) es o').
  { intros s blks o R. assert (X : exists es o', el_run m c file s (Some []) es o').
    { induction R as [s s' E|s E|s b s' l o E R IH].
      - exists [], Ended. eapply elr_refill with (it := None); [|constructor]. unfold create_element_iterator. rewrite E. reflexivity.
      - exists [], Panicked. apply elr_panic. unfold create_element_iterator. rewrite E. reflexivity.
      - destruct b as [i inf|i es].
        + exists [], Ended. eapply elr_refill with (it := None); [|constructor]. unfold create_element_iterator. rewrite E. reflexivity.
        + destruct IH as (l' & o' & IH). exists (es ++ l'), o'. eapply elr_refill with (it := Some es); [unfold create_element_iterator; rewrite E; reflexivity|].
          clear - IH. induction es; cbn; [auto|constructor; auto]. }
    destruct X as (l' & o' & X). intros r. exists (r ++ l'), o'. induction r; cbn; [auto|constructor; auto]. }
  destruct (fb_next m c file bit_new) as [[ob s]| |] eqn:E.
  - destruct (create_element_iterator m c file s) as [[it s']| |] eqn:C.
    + destruct it as [r|].
      * destruct (fb_terminates m c file s') as (b & o & R & _). destruct (G _ _ _ R r) as (es & o' & X). exists es, o'. eapply els_loop; eauto.
      * exists [], Ended. eapply els_loop; eauto. constructor.
    + exfalso. unfold create_element_iterator in C. destruct (fb_next m c file s) as [[[[]|] ?]| |] eqn:F; cbn in C; try discriminate.
      unfold fb_next in F. destruct (blob_next file s) as [[[d|] ?]| |] eqn:B; cbn in F; try discriminate.
      * destruct (from_blob_desc m c file d); discriminate.
      * destruct (blob_next_not_err _ _ B).
    + exists [], Panicked. eapply els_new_panic; eauto.
  - exfalso. unfold fb_next in E. destruct (blob_next file bit_new) as [[[d|] ?]| |] eqn:B; cbn in E; try discriminate.
    + destruct (from_blob_desc m c file d); discriminate.
    + destruct (blob_next_not_err _ _ B).
  - exists [], Panicked. apply els_skip_panic; auto.
Qed.
(** a 24 byte file whose only blob header has datasize -24: iterating over its blobs never ends *)
Definition looping_file : bytes := be32 20 ++ blob_header_encode (BlobHeader (str "OSMData") None (-24)).
Lemma looping_next i : blob_next looping_file (Bit 24 (two64 - 24) i) =
  Ok (Some (BlobDesc i 24 (two64 - 24) (str "OSMData")), Bit 24 (two64 - 24) (i + 1)).
Proof. vm_compute. destruct i as [|p|p]; try reflexivity. Qed.
Theorem C20_refuted : forall ds o, ~ run (blob_next looping_file) bit_new ds o.
Proof.
  assert (G : forall s ds o, run (blob_next looping_file) s ds o -> forall i, s = Bit 24 (two64 - 24) i -> False).
  { induction 1 as [s s' E|s E|s a s' l o E R IH]; intros i ->; rewrite looping_next in E; try discriminate.
    injection E as <- <-. eapply IH. reflexivity. }
  intros ds o R. assert (N : blob_next looping_file bit_new = Ok (Some (BlobDesc 0 24 (two64 - 24) (str "OSMData")), Bit 24 (two64 - 24) 1)) by (vm_compute; reflexivity).
  inversion R as [s s' E|s E|s a s' l o' E R']; subst; rewrite N in E; try discriminate. injection E as <- <-. eapply G; eauto.
Qed.

(** ** C21 *)
Lemma slice_take file st n body : 0 <= st -> (slice file st n body <-> exists r, take_exact n (from_pos file st) = Some (body, r) /\ 0 <= n /\ st + n <= zlen file).
Proof.
  intros Hs. split.
  - intros (pre & post & -> & <- & <-). exists post. rewrite from_pos_app, take_exact_app. sconj; auto using zlen_nonneg.
    rewrite !zlen_app. pose proof (zlen_nonneg post). lia.
  - intros (r & T & N & L). apply take_exact_some in T. destruct T as (T & <- & _).
    exists (firstn (Z.to_nat st) file), r. sconj; auto.
    + rewrite <- T. unfold from_pos. rewrite firstn_skipn. reflexivity.
    + unfold zlen in *. rewrite firstn_length. lia.
Qed.
(** decoding the blob described by [d] in [file] *)
Definition described file d (body : bytes) : Prop := slice file (bd_start d) (bd_length d) body /\ 0 <= bd_start d /\ bd_length d <= max_i64.
Lemma from_described m c file d body : described file d body -> from_blob_desc m c file d = fblock_deserialize m c d body.
Proof.
  intros (S & P & L). apply slice_take in S; auto. destruct S as (r & T & _). unfold from_blob_desc.
  destruct (max_i64 <? bd_length d) eqn:X; [lia|]. rewrite T. reflexivity.
Qed.
(** whatever is decoded is what the bytes of the blob mean *)
Theorem C21_only_valid_blobs m c file d blk : 0 <= bd_start d <= zlen file -> from_blob_desc m c file d = Ok blk ->
  exists body b p, slice file (bd_start d) (bd_length d) body /\ blob_decode body = Some b /\ carries c b p /\
    ((bd_type d = str "OSMHeader" /\ exists h i, header_block_decode p = Some h /\ header_means h i /\ blk = FHeader (bd_index d) i) \/
     (bd_type d = str "OSMData" /\ exists pb es, pblock_decode p = Some pb /\ block_means pb es /\ blk = FData (bd_index d) es)).
Proof.
  intros P H. unfold from_blob_desc in H. destruct (max_i64 <? bd_length d) eqn:X; [discriminate|].
  destruct (take_exact (bd_length d) (from_pos file (bd_start d))) as [[body r]|] eqn:T; [|discriminate].
  unfold fblock_deserialize in H. bok H b E1. destruct (blob_decode body) as [b'|] eqn:BD; [|discriminate]. injection E1 as ->.
  bok H p E2. apply read_blob_data_spec in E2. exists body, b, p. sconj; auto.
  - apply slice_take; [lia|]. exists r. split; auto. pose proof T as T'. apply take_exact_some in T'. destruct T' as (T' & L & N). split; auto.
    assert (Q : zlen (from_pos file (bd_start d)) = zlen body + zlen r) by (rewrite T'; apply zlen_app). rewrite from_pos_len in Q by lia.
    pose proof (zlen_nonneg r). lia.
  - unfold fblock_new in H. destruct (bytes_eqb (bd_type d) (str "OSMHeader")) eqn:T1.
    + left. apply bytes_eqb_eq in T1. split; auto. bok H i E3. injection H as <-.
      assert (HD : exists hd, header_block_decode p = Some hd).
      { unfold osm_header_from_bytes in E3. bok E3 hd HD. destruct (header_block_decode p); [eauto|discriminate]. }
      destruct HD as (hd & HD). exists hd, i. sconj; auto. apply (header_means_spec p); auto.
    + destruct (bytes_eqb (bd_type d) (str "OSMData")) eqn:T2; [|discriminate]. right. apply bytes_eqb_eq in T2. split; auto.
      bok H es E3. injection H as <-. unfold osm_data_new in E3. bok E3 pb E4. destruct (pblock_decode p) as [pb'|]; [|discriminate]. injection E4 as ->.
      exists pb, es. sconj; auto. eapply read_block_sound; eauto.
Qed.
(** and each kind of malformed blob is refused *)
Theorem C21_malformed_refused m c file d body : described file d body ->
  (blob_decode body = None -> from_blob_desc m c file d = Err) /\
  forall b, blob_decode body = Some b ->
    (b_data b = None -> from_blob_desc m c file d = Err) /\
    (forall z, b_data b = Some (LzmaData z) \/ b_data b = Some (Bzip2Data z) \/ b_data b = Some (Lz4Data z) \/ b_data b = Some (ZstdData z) ->
       from_blob_desc m c file d = Err) /\
    (forall z, b_data b = Some (ZlibData z) ->
       (b_raw_size b = None -> from_blob_desc m c file d = Panic) /\
       (forall n, b_raw_size b = Some n -> n < 0 -> from_blob_desc m c file d = Panic) /\
       (forall n, b_raw_size b = Some n -> 0 <= n -> zlen (inflate c z) < n -> from_blob_desc m c file d = Err)) /\
    (forall p, carries c b p ->
       (bd_type d <> str "OSMHeader" -> bd_type d <> str "OSMData" -> from_blob_desc m c file d = Err) /\
       (bd_type d = str "OSMHeader" -> header_block_decode p = None -> from_blob_desc m c file d = Err) /\
       (bd_type d = str "OSMData" -> pblock_decode p = None -> from_blob_desc m c file d = Err)).
Proof.
  intros D. rewrite (from_described m c _ _ _ D). unfold fblock_deserialize. split; [intros ->; reflexivity|]. intros b ->. cbn [of_option bind]. sconj.
  - intros E. unfold read_blob_data. rewrite E. reflexivity.
  - intros z E. unfold read_blob_data. destruct E as [E|[E|[E|E]]]; rewrite E; reflexivity.
  - intros z E. unfold read_blob_data. rewrite E. sconj.
    + intros ->. reflexivity.
    + intros n -> N. cbn. unfold zlib_decode. destruct (n <? 0) eqn:X; [reflexivity|lia].
    + intros n -> N L. cbn. unfold zlib_decode. destruct (n <? 0) eqn:X; [lia|]. rewrite take_exact_short by auto. reflexivity.
  - intros p C. apply read_blob_data_spec in C. rewrite C. cbn [bind]. unfold fblock_new. sconj.
    + intros A B. apply bytes_eqb_neq in A, B. rewrite A, B. reflexivity.
    + intros -> E. rewrite bytes_eqb_refl. unfold osm_header_from_bytes. rewrite E. reflexivity.
    + intros -> E. change (bytes_eqb (str "OSMData") (str "OSMHeader")) with false. rewrite bytes_eqb_refl.
      unfold osm_data_new. rewrite E. reflexivity.
Qed.
(** a refused blob yields no block: the loop over the blocks panics there *)
Theorem C21_refused_blob_yields_nothing m c file s d s' l o : blob_next file s = Ok (Some d, s') ->
  (forall blk, from_blob_desc m c file d <> Ok blk) -> run (fb_next m c file) s l o -> l = [] /\ o = Panicked.
Proof.
  intros N R H. assert (P : fb_next m c file s = Panic).
  { unfold fb_next. rewrite N. cbn [bind]. destruct (from_blob_desc m c file d); [destruct (R a); auto|reflexivity|reflexivity]. }
  inversion H; subst; auto; congruence.
Qed.
