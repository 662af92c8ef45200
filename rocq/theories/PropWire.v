(** C56: every byte string is decoded to the message that the protobuf wire format and the .proto files
    assign to it, or refused when they assign none. *)
From Coq Require Import ZArith List Bool Strings.Byte Strings.String Lia ZifyBool.
From Verif Require Import Base BaseFacts Proto ProtoFacts Types Block FormatSpec FileFormat FileSpec Spec PropBlock PropFile WireSpec WireFacts WireMsg.
Import ListNotations.
Open Scope Z_scope.
Local Notation length := List.length.
Local Notation concat := List.concat.

Lemma occ_cons num t v fs : occurrences num ((t, v) :: fs) = if t =? num then v :: occurrences num fs else occurrences num fs.
Proof. unfold occurrences. cbn [filter fst]. destruct (t =? num); reflexivity. Qed.
Lemma decode_into_spec {M} (mf : M -> Z -> wval -> option M) d (P : list (Z * wval) -> Prop) bs m :
  (forall fs, message bs fs -> (merge_all mf fs d = Some m <-> P fs)) -> (decode_into mf d bs = Some m <-> exists fs, message bs fs /\ P fs).
Proof.
  intros H. unfold decode_into. destruct (dec_fields bs) as [fs|] eqn:D.
  - apply dec_fields_spec in D. rewrite (H _ D). split; [eauto|]. intros (fs' & M' & Q). apply dec_fields_spec in D, M'. congruence.
  - split; [discriminate|]. intros (fs' & M' & _). apply dec_fields_spec in M'. congruence.
Qed.

(** the fields of a message are merged independently of each other *)
Ltac one t k := destruct (t =? k) eqn:?; [assert (t = k) by (apply Z.eqb_eq; assumption); subst t; cbn [Z.eqb Pos.eqb]|].
Ltac neqs := repeat match goal with E : (?t =? ?k) = false |- _ => rewrite ?E; clear E end.
Lemma st_opt_eq {A} (f : Z -> A) v o : st_opt f v o = omap (fun u => Some (f u)) (as_varint v). Proof. reflexivity. Qed.
Lemma st_req_eq {A} (f : Z -> A) v o : st_req f v o = omap f (as_varint v). Proof. reflexivity. Qed.
Lemma st_rep_eq {A} (f : Z -> A) v l : st_rep f v l = omap (fun us => l ++ map f us) (dec_packed v). Proof. reflexivity. Qed.
Lemma st_bytes_eq v o : st_bytes v o = omap Some (as_bytes v). Proof. reflexivity. Qed.
Lemma st_string_eq v o : st_string v o = omap Some (as_string v). Proof. reflexivity. Qed.
Lemma st_req_string_eq v o : st_req_string v o = as_string v. Proof. reflexivity. Qed.
Lemma st_rep_bytes_eq v l : st_rep_bytes v l = omap (fun s => l ++ [s]) (as_bytes v). Proof. reflexivity. Qed.
Lemma st_rep_string_eq v l : st_rep_string v l = omap (fun s => l ++ [s]) (as_string v). Proof. reflexivity. Qed.
Lemma st_msg_eq {M} (mf : M -> Z -> wval -> option M) d v o : st_msg mf d v o = omap Some (merge_msg mf (or_default d o) v). Proof. reflexivity. Qed.
Lemma st_rep_msg_eq {M} (mf : M -> Z -> wval -> option M) d v l : st_rep_msg mf d v l = omap (fun m => l ++ [m]) (merge_msg mf d v). Proof. reflexivity. Qed.
Lemma st_req_msg_eq {M} (mf : M -> Z -> wval -> option M) v m : st_req_msg mf v m = merge_msg mf m v. Proof. reflexivity. Qed.
Lemma omap_some {A B} (f : A -> B) a : omap f (Some a) = Some (f a). Proof. reflexivity. Qed.
Lemma omap_none {A B} (f : A -> B) : omap f None = None. Proof. reflexivity. Qed.
Ltac projs := cbn [bh_type bh_indexdata bh_datasize hb_left hb_right hb_top hb_bottom h_bbox h_required h_optional h_program h_source h_ts h_seq h_url
  i_version i_timestamp i_changeset i_uid i_user_sid i_visible di_version di_timestamp di_changeset di_uid di_user_sid di_visible
  pn_id pn_keys pn_vals pn_info pn_lat pn_lon d_id d_info d_lat d_lon d_kv pw_id pw_keys pw_vals pw_info pw_refs pw_lat pw_lon
  pr_id pr_keys pr_vals pr_info pr_roles pr_memids pr_types g_nodes g_dense g_ways g_relations g_changesets
  pb_strings pb_groups pb_granularity pb_date_granularity pb_lat_offset pb_lon_offset].
Ltac fin IH := projs; cbn [foldM]; rewrite ?st_opt_eq, ?st_req_eq, ?st_rep_eq, ?st_bytes_eq, ?st_string_eq, ?st_req_string_eq,
    ?st_rep_bytes_eq, ?st_rep_string_eq, ?st_msg_eq, ?st_rep_msg_eq, ?st_req_msg_eq;
  lazymatch goal with
  | |- match omap _ ?x with _ => _ end = _ <-> _ => destruct x as [?x1|]; rewrite ?omap_some, ?omap_none;
       [rewrite IH; projs; tauto | split; [discriminate | intros; repeat match goal with H : _ /\ _ |- _ => destruct H end; discriminate]]
  | |- _ => rewrite IH; projs; tauto
  end.
Ltac msg h h' fs IH mf nums :=
  induction fs as [|[t v] fs IH]; intros h h';
  [cbn [merge_all]; destruct h, h'; split; [intros X; injection X; intros; subst; repeat split | intros; repeat match goal with H : _ /\ _ |- _ => destruct H end;
     repeat match goal with H : foldM _ _ _ = Some _ |- _ => cbn in H; injection H as -> end; reflexivity]
  |cbn [merge_all]; rewrite !occ_cons; unfold mf; destruct h;
   let rec go l := lazymatch l with ?k :: ?r => one t k; [fin IH|go r] | [] => rewrite IH; projs; tauto end in go nums].

Lemma blob_header_split fs : forall h h', merge_all blob_header_merge fs h = Some h' <->
  foldM st_req_string (occurrences 1 fs) (bh_type h) = Some (bh_type h') /\
  foldM st_bytes (occurrences 2 fs) (bh_indexdata h) = Some (bh_indexdata h') /\
  foldM (st_req int32_dec) (occurrences 3 fs) (bh_datasize h) = Some (bh_datasize h').
Proof. msg h h' fs IH blob_header_merge [1; 2; 3]. Qed.
Lemma header_bbox_split fs : forall h h', merge_all header_bbox_merge fs h = Some h' <->
  foldM (st_req sint64_dec) (occurrences 1 fs) (hb_left h) = Some (hb_left h') /\
  foldM (st_req sint64_dec) (occurrences 2 fs) (hb_right h) = Some (hb_right h') /\
  foldM (st_req sint64_dec) (occurrences 3 fs) (hb_top h) = Some (hb_top h') /\
  foldM (st_req sint64_dec) (occurrences 4 fs) (hb_bottom h) = Some (hb_bottom h').
Proof. msg h h' fs IH header_bbox_merge [1; 2; 3; 4]. Qed.
Lemma header_block_split fs : forall h h', merge_all header_block_merge fs h = Some h' <->
  foldM (st_msg header_bbox_merge header_bbox_default) (occurrences 1 fs) (h_bbox h) = Some (h_bbox h') /\
  foldM st_rep_string (occurrences 4 fs) (h_required h) = Some (h_required h') /\
  foldM st_rep_string (occurrences 5 fs) (h_optional h) = Some (h_optional h') /\
  foldM st_string (occurrences 16 fs) (h_program h) = Some (h_program h') /\
  foldM st_string (occurrences 17 fs) (h_source h) = Some (h_source h') /\
  foldM (st_opt int64_dec) (occurrences 32 fs) (h_ts h) = Some (h_ts h') /\
  foldM (st_opt int64_dec) (occurrences 33 fs) (h_seq h) = Some (h_seq h') /\
  foldM st_string (occurrences 34 fs) (h_url h) = Some (h_url h').
Proof. msg h h' fs IH header_block_merge [1; 4; 5; 16; 17; 32; 33; 34]. Qed.
Lemma string_table_split fs : forall h h', merge_all string_table_merge fs h = Some h' <-> foldM st_rep_bytes (occurrences 1 fs) h = Some h'.
Proof.
  induction fs as [|[t v] fs IH]; intros h h'; [reflexivity|]. cbn [merge_all]. rewrite !occ_cons. unfold string_table_merge.
  one t 1; [fin IH|]. rewrite IH. tauto.
Qed.
Lemma info_split fs : forall h h', merge_all info_merge fs h = Some h' <->
  foldM (st_opt int32_dec) (occurrences 1 fs) (i_version h) = Some (i_version h') /\
  foldM (st_opt int64_dec) (occurrences 2 fs) (i_timestamp h) = Some (i_timestamp h') /\
  foldM (st_opt int64_dec) (occurrences 3 fs) (i_changeset h) = Some (i_changeset h') /\
  foldM (st_opt int32_dec) (occurrences 4 fs) (i_uid h) = Some (i_uid h') /\
  foldM (st_opt uint32_dec) (occurrences 5 fs) (i_user_sid h) = Some (i_user_sid h') /\
  foldM (st_opt bool_dec) (occurrences 6 fs) (i_visible h) = Some (i_visible h').
Proof. msg h h' fs IH info_merge [1; 2; 3; 4; 5; 6]. Qed.
Lemma dense_info_split fs : forall h h', merge_all dense_info_merge fs h = Some h' <->
  foldM (st_rep int32_dec) (occurrences 1 fs) (di_version h) = Some (di_version h') /\
  foldM (st_rep sint64_dec) (occurrences 2 fs) (di_timestamp h) = Some (di_timestamp h') /\
  foldM (st_rep sint64_dec) (occurrences 3 fs) (di_changeset h) = Some (di_changeset h') /\
  foldM (st_rep sint32_dec) (occurrences 4 fs) (di_uid h) = Some (di_uid h') /\
  foldM (st_rep sint32_dec) (occurrences 5 fs) (di_user_sid h) = Some (di_user_sid h') /\
  foldM (st_rep bool_dec) (occurrences 6 fs) (di_visible h) = Some (di_visible h').
Proof. msg h h' fs IH dense_info_merge [1; 2; 3; 4; 5; 6]. Qed.
Lemma changeset_split fs : forall h h', merge_all changeset_merge fs h = Some h' <-> foldM (st_req int64_dec) (occurrences 1 fs) h = Some h'.
Proof.
  induction fs as [|[t v] fs IH]; intros h h'; [reflexivity|]. cbn [merge_all]. rewrite !occ_cons. unfold changeset_merge.
  one t 1; [fin IH|]. rewrite IH. tauto.
Qed.
Lemma pnode_split fs : forall h h', merge_all pnode_merge fs h = Some h' <->
  foldM (st_req sint64_dec) (occurrences 1 fs) (pn_id h) = Some (pn_id h') /\
  foldM (st_rep uint32_dec) (occurrences 2 fs) (pn_keys h) = Some (pn_keys h') /\
  foldM (st_rep uint32_dec) (occurrences 3 fs) (pn_vals h) = Some (pn_vals h') /\
  foldM (st_msg info_merge info_default) (occurrences 4 fs) (pn_info h) = Some (pn_info h') /\
  foldM (st_req sint64_dec) (occurrences 8 fs) (pn_lat h) = Some (pn_lat h') /\
  foldM (st_req sint64_dec) (occurrences 9 fs) (pn_lon h) = Some (pn_lon h').
Proof. msg h h' fs IH pnode_merge [1; 2; 3; 4; 8; 9]. Qed.
Lemma dense_split fs : forall h h', merge_all dense_merge fs h = Some h' <->
  foldM (st_rep sint64_dec) (occurrences 1 fs) (d_id h) = Some (d_id h') /\
  foldM (st_msg dense_info_merge dense_info_default) (occurrences 5 fs) (d_info h) = Some (d_info h') /\
  foldM (st_rep sint64_dec) (occurrences 8 fs) (d_lat h) = Some (d_lat h') /\
  foldM (st_rep sint64_dec) (occurrences 9 fs) (d_lon h) = Some (d_lon h') /\
  foldM (st_rep int32_dec) (occurrences 10 fs) (d_kv h) = Some (d_kv h').
Proof. msg h h' fs IH dense_merge [1; 5; 8; 9; 10]. Qed.
Lemma pway_split fs : forall h h', merge_all pway_merge fs h = Some h' <->
  foldM (st_req int64_dec) (occurrences 1 fs) (pw_id h) = Some (pw_id h') /\
  foldM (st_rep uint32_dec) (occurrences 2 fs) (pw_keys h) = Some (pw_keys h') /\
  foldM (st_rep uint32_dec) (occurrences 3 fs) (pw_vals h) = Some (pw_vals h') /\
  foldM (st_msg info_merge info_default) (occurrences 4 fs) (pw_info h) = Some (pw_info h') /\
  foldM (st_rep sint64_dec) (occurrences 8 fs) (pw_refs h) = Some (pw_refs h') /\
  foldM (st_rep sint64_dec) (occurrences 9 fs) (pw_lat h) = Some (pw_lat h') /\
  foldM (st_rep sint64_dec) (occurrences 10 fs) (pw_lon h) = Some (pw_lon h').
Proof. msg h h' fs IH pway_merge [1; 2; 3; 4; 8; 9; 10]. Qed.
Lemma prelation_split fs : forall h h', merge_all prelation_merge fs h = Some h' <->
  foldM (st_req int64_dec) (occurrences 1 fs) (pr_id h) = Some (pr_id h') /\
  foldM (st_rep uint32_dec) (occurrences 2 fs) (pr_keys h) = Some (pr_keys h') /\
  foldM (st_rep uint32_dec) (occurrences 3 fs) (pr_vals h) = Some (pr_vals h') /\
  foldM (st_msg info_merge info_default) (occurrences 4 fs) (pr_info h) = Some (pr_info h') /\
  foldM (st_rep int32_dec) (occurrences 8 fs) (pr_roles h) = Some (pr_roles h') /\
  foldM (st_rep sint64_dec) (occurrences 9 fs) (pr_memids h) = Some (pr_memids h') /\
  foldM (st_rep int32_dec) (occurrences 10 fs) (pr_types h) = Some (pr_types h').
Proof. msg h h' fs IH prelation_merge [1; 2; 3; 4; 8; 9; 10]. Qed.
Lemma pgroup_split fs : forall h h', merge_all pgroup_merge fs h = Some h' <->
  foldM (st_rep_msg pnode_merge pnode_default) (occurrences 1 fs) (g_nodes h) = Some (g_nodes h') /\
  foldM (st_msg dense_merge dense_default) (occurrences 2 fs) (g_dense h) = Some (g_dense h') /\
  foldM (st_rep_msg pway_merge pway_default) (occurrences 3 fs) (g_ways h) = Some (g_ways h') /\
  foldM (st_rep_msg prelation_merge prelation_default) (occurrences 4 fs) (g_relations h) = Some (g_relations h') /\
  foldM (st_rep_msg changeset_merge 0) (occurrences 5 fs) (g_changesets h) = Some (g_changesets h').
Proof. msg h h' fs IH pgroup_merge [1; 2; 3; 4; 5]. Qed.
Lemma pblock_split fs : forall h h', merge_all pblock_merge fs h = Some h' <->
  foldM (st_req_msg string_table_merge) (occurrences 1 fs) (pb_strings h) = Some (pb_strings h') /\
  foldM (st_rep_msg pgroup_merge pgroup_default) (occurrences 2 fs) (pb_groups h) = Some (pb_groups h') /\
  foldM (st_opt int32_dec) (occurrences 17 fs) (pb_granularity h) = Some (pb_granularity h') /\
  foldM (st_opt int32_dec) (occurrences 18 fs) (pb_date_granularity h) = Some (pb_date_granularity h') /\
  foldM (st_opt int64_dec) (occurrences 19 fs) (pb_lat_offset h) = Some (pb_lat_offset h') /\
  foldM (st_opt int64_dec) (occurrences 20 fs) (pb_lon_offset h) = Some (pb_lon_offset h').
Proof. msg h h' fs IH pblock_merge [1; 2; 17; 18; 19; 20]. Qed.

(** ** The messages *)
Ltac kinds bs fs M := rewrite
  ?(opt_ok _ _ int32_ok), ?(opt_ok _ _ int64_ok), ?(opt_ok _ _ uint32_ok), ?(opt_ok _ _ bool_ok),
  ?(req_ok _ _ int32_ok), ?(req_ok _ _ int64_ok), ?(req_ok _ _ sint64_ok),
  ?(rep_ok _ _ int32_ok), ?(rep_ok _ _ sint64_ok), ?(rep_ok _ _ sint32_ok), ?(rep_ok _ _ uint32_ok), ?(rep_ok _ _ bool_ok),
  ?bytes_ok, ?string_ok, ?req_string_ok, ?rep_bytes_ok, ?rep_string_ok by (eapply occ_nonneg; exact M).
Lemma header_bbox_dec bs b : decode_into header_bbox_merge header_bbox_default bs = Some b <-> header_bbox_is bs b.
Proof. unfold header_bbox_is; apply decode_into_spec. intros fs M. rewrite header_bbox_split. cbn [header_bbox_default hb_left hb_right hb_top hb_bottom]. kinds bs fs M. reflexivity. Qed.
Lemma string_table_dec bs b : decode_into string_table_merge [] bs = Some b <-> string_table_is bs b.
Proof. unfold string_table_is; apply decode_into_spec. intros fs M. rewrite string_table_split. kinds bs fs M. reflexivity. Qed.
Lemma info_dec bs b : decode_into info_merge info_default bs = Some b <-> info_is bs b.
Proof. unfold info_is; apply decode_into_spec. intros fs M. rewrite info_split. cbn [info_default i_version i_timestamp i_changeset i_uid i_user_sid i_visible]. kinds bs fs M. reflexivity. Qed.
Lemma dense_info_dec bs b : decode_into dense_info_merge dense_info_default bs = Some b <-> dense_info_is bs b.
Proof. unfold dense_info_is; apply decode_into_spec. intros fs M. rewrite dense_info_split. cbn [dense_info_default di_version di_timestamp di_changeset di_uid di_user_sid di_visible]. kinds bs fs M. reflexivity. Qed.
Lemma changeset_dec bs b : decode_into changeset_merge 0 bs = Some b <-> changeset_is bs b.
Proof. unfold changeset_is; apply decode_into_spec. intros fs M. rewrite changeset_split. kinds bs fs M. reflexivity. Qed.
Lemma node_dec bs b : decode_into pnode_merge pnode_default bs = Some b <-> node_is bs b.
Proof.
  unfold node_is; apply decode_into_spec. intros fs M. rewrite pnode_split. cbn [pnode_default pn_id pn_keys pn_vals pn_info pn_lat pn_lon].
  kinds bs fs M. rewrite (msg_ok _ _ _ info_dec). reflexivity.
Qed.
Lemma dense_dec bs b : decode_into dense_merge dense_default bs = Some b <-> dense_is bs b.
Proof.
  unfold dense_is; apply decode_into_spec. intros fs M. rewrite dense_split. cbn [dense_default d_id d_info d_lat d_lon d_kv].
  kinds bs fs M. rewrite (msg_ok _ _ _ dense_info_dec). reflexivity.
Qed.
Lemma way_dec bs b : decode_into pway_merge pway_default bs = Some b <-> way_is bs b.
Proof.
  unfold way_is; apply decode_into_spec. intros fs M. rewrite pway_split. cbn [pway_default pw_id pw_keys pw_vals pw_info pw_refs pw_lat pw_lon].
  kinds bs fs M. rewrite (msg_ok _ _ _ info_dec). reflexivity.
Qed.
Lemma relation_dec bs b : decode_into prelation_merge prelation_default bs = Some b <-> relation_is bs b.
Proof.
  unfold relation_is; apply decode_into_spec. intros fs M. rewrite prelation_split. cbn [prelation_default pr_id pr_keys pr_vals pr_info pr_roles pr_memids pr_types].
  kinds bs fs M. rewrite (msg_ok _ _ _ info_dec). reflexivity.
Qed.
Lemma group_dec bs b : decode_into pgroup_merge pgroup_default bs = Some b <-> group_is bs b.
Proof.
  unfold group_is; apply decode_into_spec. intros fs M. rewrite pgroup_split. cbn [pgroup_default g_nodes g_dense g_ways g_relations g_changesets].
  rewrite (msg_ok _ _ _ dense_dec), (rep_msg_ok _ _ _ node_dec), (rep_msg_ok _ _ _ way_dec), (rep_msg_ok _ _ _ relation_dec), (rep_msg_ok _ _ _ changeset_dec).
  reflexivity.
Qed.
Lemma block_dec bs b : pblock_decode bs = Some b <-> block_is bs b.
Proof.
  unfold pblock_decode, block_is; apply decode_into_spec. intros fs M. rewrite pblock_split. cbn [pblock_default pb_strings pb_groups pb_granularity pb_lat_offset pb_lon_offset pb_date_granularity].
  kinds bs fs M. rewrite (req_msg_ok _ _ _ string_table_dec), (rep_msg_ok _ _ _ group_dec). reflexivity.
Qed.
Lemma header_block_dec bs b : header_block_decode bs = Some b <-> header_block_is bs b.
Proof.
  unfold header_block_decode, header_block_is; apply decode_into_spec. intros fs M. rewrite header_block_split.
  cbn [header_block_default h_bbox h_required h_optional h_program h_source h_ts h_seq h_url].
  kinds bs fs M. rewrite (msg_ok _ _ _ header_bbox_dec). reflexivity.
Qed.
Lemma blob_header_dec bs b : blob_header_decode bs = Some b <-> blob_header_is bs b.
Proof.
  unfold blob_header_decode, blob_header_is; apply decode_into_spec. intros fs M. rewrite blob_header_split. cbn [blob_header_default bh_type bh_indexdata bh_datasize].
  kinds bs fs M. reflexivity.
Qed.
(** the oneof of Blob *)
Definition datas (fs : list (Z * wval)) : list (Z * bytes) :=
  flat_map (fun f => match f with (num, WBytes x) => if (num =? 1) || ((3 <=? num) && (num <=? 7)) then [(num, x)] else [] | _ => [] end) fs.
Definition datas_ok (fs : list (Z * wval)) : Prop := forall num v, In (num, v) fs -> data_number num -> exists x, v = WBytes x.
Lemma datas_ok_cons num v fs : datas_ok ((num, v) :: fs) <-> (data_number num -> exists x, v = WBytes x) /\ datas_ok fs.
Proof.
  unfold datas_ok. split.
  - intros H. split; [apply H; left; auto|]. intros; eapply H; eauto; right; eauto.
  - intros [H1 H2] n w [[= <- <-]|I]; auto. eapply H2; eauto.
Qed.
Lemma blob_split fs : forall b b', merge_all blob_merge fs b = Some b' <->
  foldM (st_opt int32_dec) (occurrences 2 fs) (b_raw_size b) = Some (b_raw_size b') /\ datas_ok fs /\
  exists ds, map blob_data_number ds = datas fs /\ b_data b' = match last_opt ds with Some d => Some d | None => b_data b end.
Proof.
  induction fs as [|[t v] fs IH]; intros [r d] [r' d'].
  - cbn. split; [intros [= <- <-]; sconj; auto; [intros ? ? []|exists []; auto]|]. intros ([= <-] & _ & [|x ds] & E & F); [|discriminate]. cbn in F. subst; auto.
  - cbn [merge_all]. rewrite occ_cons, datas_ok_cons. unfold blob_merge; cbn [b_raw_size b_data].
    assert (K : forall n (mk : bytes -> blob_data), (forall x, blob_data_number (mk x) = (n, x)) -> (forall y x, blob_data_number y = (n, x) -> y = mk x) -> n = 1 \/ 3 <= n <= 7 ->
      match omap (fun x => Blob r (Some (mk x))) (as_bytes v) with Some m' => merge_all blob_merge fs m' | None => None end = Some (Blob r' d') <->
      foldM (st_opt int32_dec) (occurrences 2 fs) r = Some r' /\ ((data_number n -> exists x, v = WBytes x) /\ datas_ok fs) /\
      exists ds, map blob_data_number ds = datas ((n, v) :: fs) /\ d' = match last_opt ds with Some d0 => Some d0 | None => d end).
    { intros n mk M1 M2 R. assert (R' : (n =? 1) || ((3 <=? n) && (n <=? 7)) = true) by lia.
      destruct v as [| |x| |]; cbn [as_bytes omap]; try (split; [discriminate|intros (_ & (Q & _) & _); destruct (Q R); discriminate]).
      rewrite IH. cbn [b_raw_size b_data]. unfold datas at 2. cbn [flat_map]. rewrite R'. cbn [app]. fold (datas fs). split.
      - intros (A & B & ds & E & F). sconj; eauto. exists (mk x :: ds). cbn [map]. rewrite M1, E. split; auto. rewrite F, last_opt_cons.
        destruct (last_opt ds); auto.
      - intros (A & [_ B] & [|y ds] & E & F); [discriminate|]. cbn [map] in E. injection E as E1 E2. apply M2 in E1. subst y. sconj; auto. exists ds. split; auto.
        rewrite F, last_opt_cons. destruct (last_opt ds); auto. }
    Ltac kk K n mk := rewrite (K n mk); [reflexivity|reflexivity|intros [] ?; cbn; congruence|lia].
    one t 1; [kk K 1 Raw|].
    one t 2. { clear K. cbn [foldM]. destruct (st_opt int32_dec v r) as [r1|] eqn:S; cbn [omap].
      - destruct (as_varint v) eqn:V; cbn [omap]; [|rewrite st_opt_eq, V in S; discriminate]. rewrite st_opt_eq, V in S. injection S as <-.
        rewrite IH. cbn [b_raw_size b_data]. assert (D : datas (@cons field (2, v) fs) = datas fs) by (destruct v; reflexivity). rewrite D. split.
        + intros (A & B & C). sconj; auto. intros [?|?]; lia.
        + intros (A & (_ & B) & C). auto.
      - destruct (as_varint v) eqn:V; cbn [omap]; [rewrite st_opt_eq, V in S; discriminate|]. split; [discriminate|intros [? _]; discriminate]. }
    one t 3; [kk K 3 ZlibData|]. one t 4; [kk K 4 LzmaData|]. one t 5; [kk K 5 Bzip2Data|]. one t 6; [kk K 6 Lz4Data|]. one t 7; [kk K 7 ZstdData|].
    rewrite IH. cbn [b_raw_size b_data].
    assert (D : datas (@cons field (t, v) fs) = datas fs).
    { unfold datas. cbn [flat_map]. destruct v; auto. replace ((t =? 1) || ((3 <=? t) && (t <=? 7))) with false by lia. auto. }
    rewrite D. split; [intros (A & B & C); sconj; auto; intros [?|?]; lia|intros (A & (_ & B) & C); auto].
Qed.
Lemma blob_dec bs b : blob_decode bs = Some b <-> blob_is bs b.
Proof.
  unfold blob_decode, blob_is; apply decode_into_spec. intros fs M. rewrite blob_split. cbn [blob_default b_raw_size b_data].
  kinds bs fs M. split.
  - intros (A & B & ds & C & D). split; auto. exists ds. sconj; auto. rewrite D. destruct (last_opt ds); auto.
  - intros (A & ds & B & C & D). sconj; auto. exists ds. split; auto. rewrite D. destruct (last_opt ds); auto.
Qed.

(** ** C56 *)
Theorem C56_decoders_mean_the_wire_format bs :
  (forall h, blob_header_decode bs = Some h <-> blob_header_is bs h) /\
  (forall b, blob_decode bs = Some b <-> blob_is bs b) /\
  (forall h, header_block_decode bs = Some h <-> header_block_is bs h) /\
  (forall b, pblock_decode bs = Some b <-> block_is bs b).
Proof. sconj; intros; auto using blob_header_dec, blob_dec, header_block_dec, block_dec. Qed.
(** what is refused has no meaning in the format *)
Theorem C56_refused_means_invalid bs :
  (blob_header_decode bs = None <-> ~ exists h, blob_header_is bs h) /\
  (blob_decode bs = None <-> ~ exists b, blob_is bs b) /\
  (header_block_decode bs = None <-> ~ exists h, header_block_is bs h) /\
  (pblock_decode bs = None <-> ~ exists b, block_is bs b).
Proof.
  assert (K : forall M (d : option M) (P : M -> Prop), (forall m, d = Some m <-> P m) -> (d = None <-> ~ exists m, P m)).
  { intros M d P H. split.
    - intros -> (m & X). apply H in X. discriminate.
    - intros N. destruct d as [m|]; auto. destruct N. exists m. apply H. auto. }
  sconj; apply K; intros; auto using blob_header_dec, blob_dec, header_block_dec, block_dec.
Qed.
(** the meaning of a byte string is unique *)
Theorem C56_meaning_unique bs :
  (forall h h', blob_header_is bs h -> blob_header_is bs h' -> h = h') /\
  (forall b b', blob_is bs b -> blob_is bs b' -> b = b') /\
  (forall h h', header_block_is bs h -> header_block_is bs h' -> h = h') /\
  (forall b b', block_is bs b -> block_is bs b' -> b = b').
Proof.
  sconj; intros a a' H H'; [apply blob_header_dec in H, H'|apply blob_dec in H, H'|apply header_block_dec in H, H'|apply block_dec in H, H']; congruence.
Qed.
(** what the encoders write means the message *)
Theorem C56_encoders_write_the_wire_format :
  (forall h, blob_header_ok h -> zlen (blob_header_encode h) < two64 -> blob_header_is (blob_header_encode h) h) /\
  (forall b, blob_ok b -> zlen (blob_encode b) < two64 -> blob_is (blob_encode b) b) /\
  (forall h, header_block_ok h -> zlen (header_block_encode h) < two64 -> header_block_is (header_block_encode h) h) /\
  (forall b, pblock_ok b -> zlen (pblock_encode b) < two64 -> block_is (pblock_encode b) b).
Proof.
  destruct C10_wire_round_trip as (A & B & C & D).
  sconj; intros; [apply blob_header_dec|apply blob_dec|apply header_block_dec|apply block_dec]; auto.
Qed.
(** strings of the header and of blob headers are UTF-8 texts *)
Theorem C56_utf8 bs : utf8_ok bs = true <-> utf8_text bs.
Proof. apply utf8_ok_spec. Qed.

(** ** Examples *)
Definition ex_bytes (l : list Z) : bytes := map z2b l.
(** a PrimitiveBlock as an encoder other than prost's may write it: unknown field, group to skip, overlong varint, unpacked and
    packed keys in one message, granularity given twice, two string tables to be merged *)
Definition ex_foreign : bytes := ex_bytes
  ([136; 1; 5] ++                                            (* granularity = 5 *)
   [10; 2; 10; 0] ++                                          (* string table [""] *)
   [10; 3; 10; 1; 65] ++                                      (* and "A" *)
   [203; 6; 8; 1; 204; 6] ++                                 (* group 105 { 1: 1 } *)
   [18; 14; 26; 12; 8; 134; 128; 0; 16; 1; 18; 2; 0; 1; 24; 7] ++ (* group with way 6, keys 1, 0, 1, vals 7 *)
   [136; 1; 100]).                                            (* granularity = 100 *)
Definition ex_foreign_block : pblock :=
  PBlock [[]; [z2b 65]] [PGroup [] None [PWay 6 [1; 0; 1] [7] None [] [] []] [] []] (Some 100) None None None.
Example ex_foreign_ok : pblock_decode ex_foreign = Some ex_foreign_block.
Proof. vm_compute. reflexivity. Qed.
Example ex_foreign_is : block_is ex_foreign ex_foreign_block.
Proof. apply C56_decoders_mean_the_wire_format, ex_foreign_ok. Qed.
(** surrogates, overlong characters and field number 0 are refused *)
Example ex_refused : blob_header_decode (ex_bytes [10; 3; 237; 160; 128]) = None /\ blob_header_decode (ex_bytes [10; 2; 192; 128]) = None /\
  blob_header_decode (ex_bytes [0; 1]) = None /\ blob_header_decode (ex_bytes [11; 20]) = None /\ blob_header_decode (ex_bytes [24; 255; 255; 255; 255; 255; 255; 255; 255; 255; 2]) = None.
Proof. vm_compute. auto 10. Qed.
(** the same with values inside the string table, so that it has a meaning as elements *)
Definition ex_foreign2 : bytes := ex_bytes
  ([10; 2; 10; 0] ++ [10; 3; 10; 1; 65] ++ [18; 12; 26; 10; 8; 134; 128; 0; 16; 1; 24; 1; 64; 3] ++ [203; 6; 8; 1; 204; 6]).
Definition ex_foreign_way : way := Way 6 0 (-1) (-1) (-1) [] true [-2] [Tag [z2b 65] [z2b 65]].

(** ** From the bytes of a file to elements: the three layers of the format together *)
(** the elements that the bytes of a data payload, and the information that those of a header payload, mean *)
Definition payload_means (p : bytes) (es : list element) : Prop :=
  exists b, block_is p b /\ Forall utf8_text (pb_strings b) /\ block_means b es.
Definition header_payload_means (p : bytes) (i : file_info) : Prop := exists h, header_block_is p h /\ header_means h i.
Theorem C56_data_payload :
  (forall m p es, osm_data_new m p = Ok es -> payload_means p es) /\
  (forall p es, payload_means p es -> osm_data_new Wrapping p = Ok es).
Proof.
  destruct C48_reader_means_the_format as (A & B & _). split.
  - intros m p es H. unfold osm_data_new in H. destruct (pblock_decode p) as [b|] eqn:D; [|discriminate]. apply block_dec in D. apply A in H.
    exists b. sconj; auto. destruct H as [H _]. revert H. apply Forall_impl. intros s. apply utf8_ok_spec.
  - intros p es (b & D & _ & H). apply block_dec in D. unfold osm_data_new. rewrite D. apply B. auto.
Qed.
Theorem C56_header_payload p i : osm_header_from_bytes p = Ok i <-> header_payload_means p i.
Proof.
  split.
  - intros H. destruct (header_block_decode p) as [h|] eqn:D; [|unfold osm_header_from_bytes in H; rewrite D in H; discriminate].
    exists h. split; [apply header_block_dec; auto|]. apply (header_means_spec p h i D); auto.
  - intros (h & D & H). apply header_block_dec in D. apply (header_means_spec p h i D); auto.
Qed.
(** a blob of a file is read as what its bytes mean *)
Theorem C56_file_blob m c file d blk : 0 <= bd_start d <= zlen file -> from_blob_desc m c file d = Ok blk ->
  exists body b p, slice file (bd_start d) (bd_length d) body /\ blob_is body b /\ carries c b p /\
    ((bd_type d = str "OSMHeader" /\ exists i, header_payload_means p i /\ blk = FHeader (bd_index d) i) \/
     (bd_type d = str "OSMData" /\ exists es, payload_means p es /\ blk = FData (bd_index d) es)).
Proof.
  intros P H. destruct (C21_only_valid_blobs _ _ _ _ _ P H) as (body & b & p & S & B & C & K). exists body, b, p. sconj; auto; [apply blob_dec; auto|].
  destruct K as [(T & h & i & D & M & E)|(T & pb & es & D & M & E)]; [left|right]; (split; [exact T|]).
  - exists i. split; auto. exists h. split; auto. apply header_block_dec; auto.
  - exists es. split; auto. exists pb. sconj; auto; [apply block_dec; auto|]. destruct M as [M _]. revert M. apply Forall_impl. intros s. apply utf8_ok_spec.
Qed.
Example ex_foreign_payload : payload_means ex_foreign2 [EWay ex_foreign_way].
Proof. apply (proj1 C56_data_payload Wrapping). vm_compute. reflexivity. Qed.
