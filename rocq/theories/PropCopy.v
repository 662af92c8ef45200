(** C105: what is read back from a block or file of this library, written again, is that block or
    file, byte for byte. *)
From Coq Require Import ZArith List Bool Lia Strings.Byte Strings.String Reals.
From Verif Require Import Base BaseFacts Types Proto ProtoFacts Block BlockFacts FloatFacts Spec SpecFacts FileFormat FileFacts
  BlockRead WriterFacts FileSpec PropBlock PropFile.
Import ListNotations.
Local Notation length := List.length.
Local Notation concat := List.concat.
Open Scope Z_scope.

(** ** reading and writing again gives the same numbers *)
Lemma quot_norm_ts t : Z.quot (norm_ts t) 1000 = Z.quot t 1000.
Proof. unfold norm_ts. apply Z.quot_mul. lia. Qed.
Lemma step_grid_f64 x : degrees x -> enc_coord 100 0 (grid_f64 (step_of x)) = enc_coord 100 0 x.
Proof.
  intros H. pose proof (step_range x H) as R. change (step_of (grid_f64 (step_of x)) = step_of x).
  apply step_value_step; [exact R|]. apply grid_f64_value. exact R.
Qed.

Definition std (s : bstate) : Prop :=
  match bs_dense s with Some d => db_granularity d = 100 /\ db_date d = 1000 /\ db_lat_off d = 0 /\ db_lon_off d = 0 | None => True end.
Lemma dgb_new_std m g d a o n b x b' : dgb_new m g d a o n b = Ok (x, b') ->
  db_granularity x = g /\ db_date x = d /\ db_lat_off x = a /\ db_lon_off x = o.
Proof.
  unfold dgb_new. cbv zeta. intros H. destruct (stb_add m b (n_user n)) as [[s b1]| |]; cbn [bind] in H; [|discriminate H|discriminate H].
  destruct (add_tags m b1 (n_tags n)) as [[t b2]| |]; cbn [bind] in H; [|discriminate H|discriminate H].
  injection H as <- _. cbn. auto.
Qed.
Lemma dgb_add_std m s n b x b' : dgb_add m s n b = Ok (x, b') ->
  db_granularity x = db_granularity s /\ db_date x = db_date s /\ db_lat_off x = db_lat_off s /\ db_lon_off x = db_lon_off s.
Proof.
  unfold dgb_add. cbv zeta. intros H.
  repeat match type of H with
  | bind ?r _ = _ => let E := fresh "E" in destruct r as [?| |] eqn:E; cbn [bind] in H; [|discriminate H|discriminate H]; clear E
  | (let (_, _) := ?p in _) = _ => destruct p
  end.
  match type of H with match ?d with _ => _ end = _ => destruct d as [[]|]; [|discriminate H] end. injection H as <- _. cbn. auto.
Qed.
Lemma ser_step_std m s e s' : std s -> ser_step m s e = Ok s' -> std s'.
Proof.
  intros S H. destruct e as [n|w|r|]; cbn [ser_step] in H.
  - destruct (bs_dense s) as [d|] eqn:D.
    + destruct (dgb_add m d n (bs_st s)) as [[d' b]| |] eqn:E; cbn [bind] in H; [|discriminate H|discriminate H].
      injection H as <-. red in S |- *. rewrite D in S. cbn [bs_dense].
      destruct (dgb_add_std _ _ _ _ _ _ E) as (A & B & C & F). rewrite A, B, C, F. exact S.
    + destruct (dgb_new m 100 1000 0 0 n (bs_st s)) as [[d' b]| |] eqn:E; cbn [bind] in H; [|discriminate H|discriminate H].
      injection H as <-. red. cbn [bs_dense]. eapply dgb_new_std; eauto.
  - destruct (way_convert m 1000 w (bs_st s)) as [[p b]| |]; cbn [bind] in H; [|discriminate H|discriminate H]. injection H as <-. exact S.
  - destruct (relation_convert m 1000 r (bs_st s)) as [[p b]| |]; cbn [bind] in H; [|discriminate H|discriminate H]. injection H as <-. exact S.
  - injection H as <-. exact S.
Qed.
Lemma ser_step_norm m s e : std s -> element_ok e -> ser_step m s (norm e) = ser_step m s e.
Proof.
  intros S O. destruct e as [n|w|r|]; cbn [norm ser_step].
  - destruct O as (_ & A & B). cbn in A, B. destruct (bs_dense s) as [d|] eqn:D.
    + red in S. rewrite D in S. destruct S as (G & T & LA & LO).
      unfold dgb_add, norm_node, norm_coord. cbn [n_id n_version n_coord n_timestamp n_changeset n_uid n_user n_visible n_tags lat lon].
      rewrite G, T, LA, LO, !step_grid_f64, quot_norm_ts by assumption. reflexivity.
    + unfold dgb_new, norm_node, norm_coord. cbn [n_id n_version n_coord n_timestamp n_changeset n_uid n_user n_visible n_tags lat lon].
      rewrite !step_grid_f64, quot_norm_ts by assumption. reflexivity.
  - unfold way_convert, norm_way. cbn [w_id w_version w_timestamp w_changeset w_uid w_user w_visible w_refs w_tags].
    rewrite quot_norm_ts. reflexivity.
  - unfold relation_convert, norm_relation. cbn [r_id r_version r_timestamp r_changeset r_uid r_user r_visible r_members r_tags].
    rewrite quot_norm_ts. reflexivity.
  - reflexivity.
Qed.
Lemma ser_loop_norm m es : Forall element_ok es -> forall s, std s -> ser_loop m s (map norm es) = ser_loop m s es.
Proof.
  induction 1 as [|e l O F IH]; intros s S; cbn [map ser_loop]; [reflexivity|].
  rewrite (ser_step_norm m s e S O). destruct (ser_step m s e) as [s'| |] eqn:E; cbn [bind]; [|reflexivity|reflexivity].
  apply IH. eapply ser_step_std; eauto.
Qed.
Lemma serialize_norm m es : Forall element_ok es -> osm_data_serialize m (map norm es) = osm_data_serialize m es.
Proof.
  intros H. unfold osm_data_serialize, build_block. rewrite ser_loop_norm; auto. exact I.
Qed.

(** *** a block *)
Theorem C105_block_written_again m es bs es' : Forall element_ok es ->
  same_kind is_node es \/ same_kind is_way es \/ same_kind is_relation es ->
  osm_data_serialize m es = Ok bs -> below_2GiB bs -> osm_data_new m bs = Ok es' ->
  forall m', osm_data_serialize m' es' = osm_data_serialize m' es.
Proof.
  intros H K S L R m'. destruct (survivors_wr m es bs H S L) as (x & Rx & Ex & _).
  rewrite survivors_kind in Ex.
  - assert (es' = map norm es) as -> by (rewrite R in Rx; injection Rx as ->; exact Ex). apply serialize_norm; auto.
  - unfold same_kind in K. rewrite !Forall_forall in K. exact K.
Qed.

(** ** files *)
Definition norm_acc (a : accumulator) : accumulator := Acc (map norm (acc_elements a)) (acc_st a) (acc_index a).
Definition norm_wr (w : writer) : writer := Writer (wr_info w) (wr_comp w) (wr_file w) (norm_acc (wr_acc w)).
Definition norm_res (r : res writer) : res writer := match r with Ok w => Ok (norm_wr w) | Err => Err | Panic => Panic end.

Lemma norm_push a e : acc_push (norm_acc a) (norm e) =
  (option_map (map norm) (fst (acc_push a e)), norm_acc (snd (acc_push a e))).
Proof.
  unfold acc_push. cbn [norm_acc acc_elements acc_st acc_index].
  replace (map norm (acc_elements a) ++ [norm e]) with (map norm (acc_elements a ++ [e])) by (rewrite map_app; reflexivity).
  assert (L : zlen (map norm (acc_elements a ++ [e])) = zlen (acc_elements a ++ [e])) by (unfold zlen; rewrite map_length; reflexivity).
  rewrite L. match goal with |- context [if ?b then _ else _] => destruct b end; reflexivity.
Qed.
Lemma norm_add a e : acc_add (norm_acc a) (norm e) =
  match acc_add a e with Ok (o, a') => Ok (option_map (map norm) o, norm_acc a') | Err => Err | Panic => Panic end.
Proof.
  pose proof (norm_push a e) as P.
  assert (Q : forall st i, acc_push (Acc [] st i) (norm e) = (option_map (map norm) (fst (acc_push (Acc [] st i) e)), norm_acc (snd (acc_push (Acc [] st i) e))))
    by (intros st i; exact (norm_push (Acc [] st i) e)).
  unfold acc_add. change (acc_st (norm_acc a)) with (acc_st a). change (acc_elements (norm_acc a)) with (map norm (acc_elements a)).
  change (acc_index (norm_acc a)) with (acc_index a). cbv zeta.
  destruct (acc_st a), e as [n|w|r|]; cbn [norm] in *; try reflexivity.
  all: try (rewrite P; match goal with |- context [acc_push ?a ?y] => destruct (acc_push a y) end; reflexivity).
  all: rewrite Q; reflexivity.
Qed.

Section files.
Variables (m : mode) (c : codec).

Lemma write_elements_norm w es : Forall element_ok es ->
  write_elements m c (norm_wr w) (map norm es) = norm_res (write_elements m c w es).
Proof.
  intros O. unfold write_elements, write_file_block. cbn [norm_wr wr_acc wr_comp wr_info wr_file norm_acc acc_index].
  rewrite !serialize_data, serialize_norm by exact O. unfold norm_res.
  destruct (osm_data_serialize m es) as [d| |]; reflexivity.
Qed.
Definition acc_ok (a : accumulator) : Prop := Forall element_ok (acc_elements a).
Lemma push_ok a e : acc_ok a -> element_ok e ->
  acc_ok (snd (acc_push a e)) /\ forall es, fst (acc_push a e) = Some es -> Forall element_ok es.
Proof.
  intros A O. assert (F : Forall element_ok (acc_elements a ++ [e])) by (apply Forall_app; split; [exact A|constructor; auto]).
  unfold acc_push. destruct (zlen _ =? acc_block_size); cbn [fst snd].
  - split; [constructor|]. intros es E. injection E as <-. exact F.
  - split; [exact F|]. intros es E. discriminate E.
Qed.
Lemma add_ok a e o a' : acc_ok a -> element_ok e -> acc_add a e = Ok (o, a') ->
  acc_ok a' /\ forall es, o = Some es -> Forall element_ok es.
Proof.
  intros A O. unfold acc_add.
  pose proof (push_ok a e A O) as P.
  assert (Q : forall st i, acc_ok (snd (acc_push (Acc [] st i) e))) by (intros st i; apply push_ok; [constructor|exact O]).
  destruct (acc_st a), e; intros H; try discriminate H.
  all: try (assert (H1 : acc_push a _ = (o, a')) by (injection H as H1; exact H1); rewrite H1 in P; cbn in P; exact P).
  all: injection H as <- <-.
  all: try (split; [exact A|intros es E; discriminate E]).
  all: split; [apply Q|]; intros es E; injection E as <-; exact A.
Qed.
Lemma write_element_norm w e : acc_ok (wr_acc w) -> element_ok e ->
  write_element m c (norm_wr w) (norm e) = norm_res (write_element m c w e) /\
  forall w', write_element m c w e = Ok w' -> acc_ok (wr_acc w').
Proof.
  intros A O. unfold write_element. cbn [norm_wr wr_acc]. rewrite norm_add.
  destruct (acc_add (wr_acc w) e) as [[o a']| |] eqn:E; cbn [bind]; [|split; [reflexivity|intros w' X; discriminate X]..].
  destruct (add_ok _ _ _ _ A O E) as (A' & F). destruct o as [es|]; cbn [option_map].
  - split.
    + apply (write_elements_norm (Writer (wr_info w) (wr_comp w) (wr_file w) a') es). auto.
    + intros w' X. unfold write_elements, write_file_block in X. bok X hb S. injection X as <-. exact A'.
  - split; [reflexivity|]. intros w' X. injection X as <-. exact A'.
Qed.
Lemma write_all_norm es : Forall element_ok es -> forall w, acc_ok (wr_acc w) ->
  write_all m c (norm_wr w) (map norm es) = norm_res (write_all m c w es) /\
  forall w', write_all m c w es = Ok w' -> acc_ok (wr_acc w').
Proof.
  induction 1 as [|e l O F IH]; intros w A; cbn [map write_all].
  - split; [reflexivity|]. intros w' X. injection X as <-. exact A.
  - destruct (write_element_norm w e A O) as (E & K). rewrite E.
    destruct (write_element m c w e) as [w1| |]; cbn [norm_res bind]; [|split; [reflexivity|intros w' X; discriminate X]..].
    apply IH. apply K. reflexivity.
Qed.
Lemma close_norm w : acc_ok (wr_acc w) -> writer_close m c (norm_wr w) = norm_res (writer_close m c w).
Proof.
  intros A. unfold writer_close. cbn [norm_wr norm_acc wr_acc wr_info wr_comp wr_file acc_elements acc_st acc_index].
  red in A. destruct (acc_elements (wr_acc w)) as [|e l] eqn:E; cbn [map]; [reflexivity|].
  change (norm e :: map norm l) with (map norm (e :: l)).
  change (Writer (wr_info w) (wr_comp w) (wr_file w) (Acc [] (acc_st (wr_acc w)) (acc_index (wr_acc w) + 1)))
    with (norm_wr (Writer (wr_info w) (wr_comp w) (wr_file w) (Acc [] (acc_st (wr_acc w)) (acc_index (wr_acc w) + 1)))) at 1.
  apply write_elements_norm. exact A.
Qed.
Lemma write_file_norm i k es : Forall element_ok es -> write_file m c i k (map norm es) = write_file m c i k es.
Proof.
  intros O. unfold write_file. rewrite write_header_spec. cbn [bind].
  set (w0 := Writer i k (frame_bytes (header_frame c k i)) acc_new).
  destruct (write_all_norm es O w0) as (E & K); [constructor|].
  change (norm_wr w0) with w0 in E. rewrite E.
  destruct (write_all m c w0 es) as [w1| |]; cbn [norm_res bind]; [|reflexivity|reflexivity].
  rewrite close_norm by (apply K; reflexivity).
  destruct (writer_close m c w1) as [w2| |]; reflexivity.
Qed.
(** end marks make no difference *)
Lemma write_all_marks es stream : without_sentinels es stream -> forall w, write_all m c w es = write_all m c w stream.
Proof.
  intros H. apply no_sentinels_spec in H. subst stream. induction es as [|e es IH]; intros w; [reflexivity|].
  assert (G : forall e, (w' <- write_element m c w e ;; write_all m c w' es) = (w' <- write_element m c w e ;; write_all m c w' (no_sentinels es))).
  { intros e'. destruct (write_element m c w e') as [w1| |]; cbn [bind]; [apply IH|reflexivity|reflexivity]. }
  destruct e as [n|y|r|]; [exact (G (ENode n))|exact (G (EWay y))|exact (G (ERelation r))|].
  change (no_sentinels (ESentinel :: es)) with (no_sentinels es). rewrite <- (IH w). cbn [write_all].
  unfold write_element. destruct w as [wi wk wf a]. cbn [wr_acc wr_info wr_comp wr_file].
  replace (acc_add a ESentinel) with (@Ok (option (list element) * accumulator) (None, a)) by (unfold acc_add; destruct (acc_st a); reflexivity).
  reflexivity.
Qed.
Lemma write_file_marks i k es stream : without_sentinels es stream -> write_file m c i k es = write_file m c i k stream.
Proof.
  intros H. unfold write_file. destruct (write_header m c (writer_new i k)) as [w0| |]; cbn [bind]; [|reflexivity|reflexivity].
  rewrite (write_all_marks _ _ H w0). reflexivity.
Qed.
End files.

(** *** what the reader yields, exactly *)
Lemma data_frames_exact m c k blocks ds : codec_ok c ->
  Forall2 (fun b d => osm_data_serialize m b = Ok d) blocks ds -> Forall block_shape blocks ->
  Forall (fun b => Forall element_ok b) blocks -> blocks_fit m c k (concat blocks) ->
  forall i, exists blks, frames_decode m c i (map (data_frame c k) ds) blks /\ Forall is_data blks /\
    map block_elements blks = map (map norm) blocks.
Proof.
  intros C F S O FIT.
  assert (G : Forall (fun b => (forall data, osm_data_serialize m b = Ok data -> below_2GiB data) /\
    (forall h body, fblock_serialize m c k (FData 0 b) = Ok (h, body) -> below_2GiB body)) blocks).
  { pose proof (concat_pieces blocks) as P. rewrite Forall_forall in *. intros b I. destruct (P b I) as (x & y & E).
    destruct (S b I) as (Z1 & _). exact (FIT x b y E Z1). }
  clear FIT. induction F as [|b d bs ds E F IH]; intros i; [exists []; cbn; sconj; constructor|].
  inversion S as [|? ? K S']; subst. inversion O as [|? ? Ob O']; subst. inversion G as [|? ? [G1 G2] G']; subst.
  assert (L2 : zlen (blob_encode (blob_of c k LevelDefault d)) <= max_i32).
  { specialize (G2 (blob_header_encode (fst (data_frame c k d))) (snd (data_frame c k d))).
    rewrite serialize_data, E in G2. apply G2. reflexivity. }
  destruct (IH S' O' G' (i + 1)) as (blks & D & DD & W).
  destruct (survivors_wr m b d Ob E (G1 _ E)) as (es' & R & EE & _).
  rewrite survivors_kind in EE.
  2: { destruct K as (_ & st & K). rewrite Forall_forall in K. destruct st; [left|right; left|right; right]; exact K. }
  pose proof (G1 _ E) as L1. red in L1. subst es'. exists (FData i (map norm b) :: blks). sconj.
  - cbn [map]. constructor; auto. unfold data_frame. cbn [frame_of fst bh_type]. fold (frame_of (str "OSMData") (blob_of c k LevelDefault d)).
    rewrite deserialize_packed by (eauto using serialize_data_nonempty). unfold fblock_new.
    change (bytes_eqb (str "OSMData") (str "OSMHeader")) with false. rewrite bytes_eqb_refl. cbv iota. rewrite R. reflexivity.
  - constructor; [cbn; auto|exact DD].
  - cbn [map block_elements]. f_equal. exact W.
Qed.
Lemma file_exact m c i k es stream file : file_hyps m c i k es stream -> write_file m c i k es = Ok file ->
  reader_new m c file = Ok (info_read i) /\ elements_run m c file (map norm stream) Ended.
Proof.
  intros HY H. pose proof HY as (C & IO & NE & HF & SU & EO & WS & BF).
  pose proof (proj1 (no_sentinels_spec _ _) WS) as NS. subst stream.
  destruct (write_file_spec _ _ _ _ _ _ H) as (blocks & ds & F & -> & CB & S). rewrite <- CB in BF |- *.
  destruct (data_frames_decode m c k blocks ds C F S (ok_blocks _ _ EO CB) BF) as (FO & _).
  destruct (data_frames_exact m c k blocks ds C F S (ok_blocks _ _ EO CB) BF (0 + 1)) as (blks & D & DD & W).
  destruct (header_fits_frame _ _ _ HF) as (HO & _).
  assert (RR : run (fb_next m c (frames_bytes (header_frame c k i :: map (data_frame c k) ds))) bit_new (FHeader 0 (info_read i) :: blks) Ended).
  { pose proof (fb_run_frames m c (header_frame c k i :: map (data_frame c k) ds) (FHeader 0 (info_read i) :: blks) [] bit_new (Forall_cons _ HO FO) at_end_new) as X.
    cbn [app] in X. apply X. constructor; [apply header_decode; auto|exact D]. }
  split.
  - eapply supported_reader; eauto.
  - replace (map norm (concat blocks)) with (flat_map block_elements blks).
    + eapply elements_run_blocks; eauto.
    + rewrite flat_map_concat_map, W, concat_map. reflexivity.
Qed.

(** *** a file: a copy of the elements that were read is the copy of the elements that were written *)
Theorem C105_copy_of_the_original m c i k es stream file :
  codec_ok c -> info_ok i -> ~ info_empty i -> header_fits c k i -> Forall supported (fi_required i) ->
  Forall element_ok es -> without_sentinels es stream -> blocks_fit m c k stream ->
  write_file m c i k es = Ok file ->
  exists got, elements_run m c file got Ended /\
    forall m' c' i' k', write_file m' c' i' k' got = write_file m' c' i' k' es.
Proof.
  intros C IO NE HF SU EO WS BF H.
  destruct (file_exact m c i k es stream file) as (_ & R); [red; auto 10|exact H|].
  exists (map norm stream). split; [exact R|]. intros m' c' i' k'. rewrite write_file_norm.
  - symmetry. apply write_file_marks. exact WS.
  - apply no_sentinels_spec in WS. subst stream. unfold no_sentinels. rewrite Forall_forall in EO |- *.
    intros e I. apply filter_In in I. apply EO. exact (proj1 I).
Qed.
(** with the settings the file was written with the copy is the file *)
Theorem C105_same_bytes m c i k es stream file i' got o :
  codec_ok c -> info_ok i -> ~ info_empty i -> header_fits c k i -> Forall supported (fi_required i) ->
  Forall element_ok es -> without_sentinels es stream -> blocks_fit m c k stream ->
  write_file m c i k es = Ok file ->
  reader_new m c file = Ok i' -> elements_run m c file got o ->
  o = Ended /\ write_file m c i k got = Ok file /\
  (fi_bbox i = None -> write_file m c i' k got = Ok file).
Proof.
  intros C IO NE HF SU EO WS BF H RN R.
  destruct (C105_copy_of_the_original m c i k es stream file C IO NE HF SU EO WS BF H) as (g & Rg & G).
  destruct (elements_run_det _ _ _ _ _ _ _ R Rg) as (-> & ->). sconj.
  - reflexivity.
  - rewrite G. exact H.
  - intros B. destruct (file_exact m c i k es stream file) as (RN' & _); [red; auto 10|exact H|].
    rewrite RN in RN'. injection RN' as ->. replace (info_read i) with i.
    + rewrite G. exact H.
    + destruct i as [bb rf of pr sr ts sq ur]. cbn in B. subst bb. reflexivity.
Qed.
(** every copy, with any settings, reads as the file it was made from: copies of copies never drift *)
Theorem C105_copies_read_the_same m c i k es stream file got o m' c' i' k' file' :
  codec_ok c -> info_ok i -> ~ info_empty i -> header_fits c k i -> Forall supported (fi_required i) ->
  Forall element_ok es -> without_sentinels es stream -> blocks_fit m c k stream ->
  write_file m c i k es = Ok file -> elements_run m c file got o ->
  codec_ok c' -> info_ok i' -> ~ info_empty i' -> header_fits c' k' i' -> Forall supported (fi_required i') ->
  blocks_fit m' c' k' got -> write_file m' c' i' k' got = Ok file' ->
  elements_run m' c' file' got Ended.
Proof.
  intros C IO NE HF SU EO WS BF H R C' IO' NE' HF' SU' BF' H'.
  destruct (file_exact m c i k es stream file) as (_ & R0); [red; auto 10|exact H|].
  destruct (elements_run_det _ _ _ _ _ _ _ R R0) as (-> & _).
  assert (G : Forall (fun e => element_ok e /\ e <> ESentinel) stream).
  { clear - EO WS. apply no_sentinels_spec in WS. subst stream. unfold no_sentinels. rewrite Forall_forall in EO |- *.
    intros e I. apply filter_In in I. destruct I as [I J]. split; [auto|]. intros ->. discriminate J. }
  assert (O : Forall element_ok (map norm stream) /\ map norm (map norm stream) = map norm stream /\ without_sentinels (map norm stream) (map norm stream)).
  { rewrite no_sentinels_spec. clear - G. induction G as [|e l [A B] F (I1 & I2 & I3)]; [cbn; auto|].
    destruct (norm_ok e A B) as [P Q]. cbn [map]. sconj; [constructor; auto|f_equal; auto|].
    destruct e; cbn [norm no_sentinels filter is_sentinel negb]; try contradiction; f_equal; exact I3. }
  destruct O as (O1 & O2 & O3).
  destruct (file_exact m' c' i' k' (map norm stream) (map norm stream) file') as (_ & R1); [red; auto 10|exact H'|].
  rewrite O2 in R1. exact R1.
Qed.
