(** C57, C58, C59: exactly what a block keeps, what any program using a sequential writer gets, and
    which streams it accepts. *)
From Coq Require Import ZArith List Bool Lia Strings.Byte Strings.String Reals.
From Verif Require Import Base BaseFacts Types Proto ProtoFacts Block BlockFacts BlockRead Spec SpecFacts FileFormat FileFacts
  WriterFacts FileSpec PropBlock PropFile CallSpec Calls.
Import ListNotations.
Local Notation length := List.length.
Local Notation concat := List.concat.
Open Scope Z_scope.

(** ** C57 *)
Lemma picked_unique {A} (P : A -> Prop) l a : picked P l a -> forall b, picked P l b -> a = b.
Proof. induction 1; intros b H'; inversion H'; subst; try contradiction; auto; f_equal; auto. Qed.
Lemma picked_nodes es : picked a_node es (map ENode (nodes_of es)).
Proof. induction es as [|e es IH]; [constructor|]. destruct e; cbn; constructor; auto; try (intros (? & ?); discriminate). red; eauto. Qed.
Lemma picked_ways es : picked a_way es (map EWay (ways_of es)).
Proof. induction es as [|e es IH]; [constructor|]. destruct e; cbn; constructor; auto; try (intros (? & ?); discriminate). red; eauto. Qed.
Lemma picked_relations es : picked a_relation es (map ERelation (relations_of es)).
Proof. induction es as [|e es IH]; [constructor|]. destruct e; cbn; constructor; auto; try (intros (? & ?); discriminate). red; eauto. Qed.
Lemma exists_node es : Exists a_node es <-> nodes_of es <> [].
Proof.
  induction es as [|e es IH]; [split; [inversion 1|cbn; congruence]|].
  destruct e; rewrite Exists_cons; split.
  all: try (intros _; cbn; discriminate).
  all: try (intros _; left; red; eauto; fail).
  all: try (intros [(x & E)|H]; [discriminate|apply IH; exact H]).
  all: intros H; right; apply IH; exact H.
Qed.
Lemma exists_way es : Exists a_way es <-> ways_of es <> [].
Proof.
  induction es as [|e es IH]; [split; [inversion 1|cbn; congruence]|].
  destruct e; rewrite Exists_cons; split.
  all: try (intros _; cbn; discriminate).
  all: try (intros _; left; red; eauto; fail).
  all: try (intros [(x & E)|H]; [discriminate|apply IH; exact H]).
  all: intros H; right; apply IH; exact H.
Qed.
Lemma survivors_keeps es : block_keeps es (survivors es).
Proof.
  unfold block_keeps, survivors. pose proof (picked_nodes es). pose proof (picked_ways es). pose proof (picked_relations es).
  rewrite exists_node, exists_way. destruct (nodes_of es); [destruct (ways_of es)|].
  - right. right. sconj; auto.
  - right. left. sconj; auto. discriminate.
  - left. split; auto. discriminate.
Qed.
Lemma keeps_unique es k k' : block_keeps es k -> block_keeps es k' -> k = k'.
Proof.
  unfold block_keeps. intros [[A B]|[(A & B & C)|(A & B & C)]] [[A' B']|[(A' & B' & C')|(A' & B' & C')]]; try contradiction; eauto using picked_unique.
Qed.
Theorem C57_block_content m es bs : Forall element_ok es ->
  osm_data_serialize m es = Ok bs -> below_2GiB bs ->
  exists kept es', block_keeps es kept /\ osm_data_new m bs = Ok es' /\ Forall2 written_read kept es'.
Proof.
  intros H S L. destruct (survivors_wr m es bs H S L) as (es' & R & _ & F).
  exists (survivors es), es'. sconj; auto using survivors_keeps.
Qed.
Lemma picked_all {A} (P : A -> Prop) l : picked P l l -> Forall P l.
Proof.
  assert (G : forall l l', picked P l l' -> (length l' <= length l)%nat /\ (length l' = length l -> Forall P l)).
  { clear. induction 1 as [|x l l' K H [U V]|x l l' K H [U V]]; cbn; split; auto; try lia. }
  intros H. apply (G _ _ H). reflexivity.
Qed.
Lemma picked_len {A} (P : A -> Prop) l l' : picked P l l' -> length l' = length l -> Forall P l.
Proof.
  assert (G : forall l l', picked P l l' -> (length l' <= length l)%nat /\ (length l' = length l -> Forall P l)).
  { clear. induction 1 as [|x l l' K H [U V]|x l l' K H [U V]]; cbn; split; auto; try lia. }
  intros H. apply (G _ _ H).
Qed.
Lemma F2_length {A B} (R : A -> B -> Prop) l l' : Forall2 R l l' -> length l = length l'.
Proof. induction 1; cbn; congruence. Qed.
(** nothing is lost exactly when all elements have one type *)
Theorem C57_lossless_iff_one_type m es bs es' : Forall element_ok es ->
  osm_data_serialize m es = Ok bs -> below_2GiB bs -> osm_data_new m bs = Ok es' ->
  (length es' = length es <-> single_type es) /\ (single_type es -> Forall2 written_read es es').
Proof.
  intros H S L R. destruct (C57_block_content m es bs H S L) as (kept & x & K & R' & F).
  assert (x = es') by congruence. subst x.
  assert (T : single_type es -> kept = es).
  { intros T. apply (keeps_unique es); auto. destruct (kinds es) as (A & B & C). replace es with (survivors es) at 2; [apply survivors_keeps|].
    apply survivors_kind. destruct T as [T|[T|T]]; [left; apply A in T|right; left; apply B in T|right; right; apply C in T];
    unfold all in T; rewrite Forall_forall in T; auto. }
  split; [split|].
  - intros E. apply F2_length in F. unfold single_type. destruct K as [[_ K]|[(_ & _ & K)|(_ & _ & K)]].
    + left. apply picked_len in K; [exact K|]. congruence.
    + right. left. apply picked_len in K; [exact K|]. congruence.
    + right. right. apply picked_len in K; [exact K|]. congruence.
  - intros X. apply T in X. subst kept. symmetry. eapply F2_length; eauto.
  - intros X. apply T in X. subst kept. auto.
Qed.

(** ** C58 *)
(** the blocks as they are handed to the serializer: batches unreduced *)
Fixpoint calls_run (a : accumulator) (cs : list wcall) : res (list wblock * accumulator) :=
  match cs with
  | [] => Ok ([], a)
  | x :: r =>
    '(o, a1) <- match x with
      | CElement e => '(o, a1) <- acc_add a e ;; Ok (match o with Some b => [FromSingles b] | None => [] end, a1)
      | CElements es => Ok ([FromBatch es], a)
      | CClose => Ok (match acc_elements a with [] => [] | es => [FromSingles es] end, Acc [] (acc_st a) (acc_index a + 1))
      end ;;
    '(bs, a2) <- calls_run a1 r ;;
    Ok (o ++ bs, a2)
  end.
Lemma calls_run_app c1 : forall a c2 bs a', calls_run a (c1 ++ c2) = Ok (bs, a') ->
  exists b1 b2 a1, bs = b1 ++ b2 /\ calls_run a c1 = Ok (b1, a1) /\ calls_run a1 c2 = Ok (b2, a').
Proof.
  induction c1 as [|x c1 IH]; intros a c2 bs a' H.
  - exists [], bs, a. auto.
  - cbn [app calls_run] in *. bok H p E. destruct p as [o a1]. bok H p R. destruct p as [bs' a2]. injection H as <- <-.
    destruct (IH _ _ _ _ R) as (b1 & b2 & a3 & -> & R1 & R2). exists (o ++ b1), b2, a3. rewrite E. cbn [bind]. rewrite R1. cbn [bind].
    rewrite app_assoc. auto.
Qed.
Lemma do_wcalls_spec m c cs : forall w w', do_wcalls m c w cs = Ok w' ->
  exists bs hbs, calls_run (wr_acc w) cs = Ok (bs, wr_acc w') /\ Forall2 (fun b hb => ser_block m c (wr_comp w) (content b) hb) bs hbs /\
    wr_file w' = wr_file w ++ flat_map write_blob hbs /\ wr_comp w' = wr_comp w.
Proof.
  induction cs as [|x cs IH]; intros w w' H.
  - injection H as <-. exists [], []. cbn. rewrite app_nil_r. auto.
  - cbn [do_wcalls] in H. bok H w1 E.
    assert (X : exists o hbs a1, wr_acc w1 = a1 /\ match x with
      | CElement e => '(o, a1) <- acc_add (wr_acc w) e ;; Ok (match o with Some b => [FromSingles b] | None => [] end, a1)
      | CElements es => Ok ([FromBatch es], (wr_acc w))
      | CClose => Ok (match acc_elements (wr_acc w) with [] => [] | es => [FromSingles es] end, Acc [] (acc_st (wr_acc w)) (acc_index (wr_acc w) + 1))
      end = Ok (o, a1) /\ Forall2 (fun b hb => ser_block m c (wr_comp w) (content b) hb) o hbs /\
      wr_file w1 = wr_file w ++ flat_map write_blob hbs /\ wr_comp w1 = wr_comp w).
    { assert (W : forall w es w2, write_elements m c w es = Ok w2 -> exists hb, ser_block m c (wr_comp w) es hb /\
         wr_file w2 = wr_file w ++ flat_map write_blob [hb] /\ wr_comp w2 = wr_comp w /\ wr_acc w2 = wr_acc w).
      { intros v es w2 X. unfold write_elements, write_file_block in X. bok X hb S. injection X as <-. exists hb. cbn [wr_file wr_comp wr_acc flat_map].
        rewrite app_nil_r. auto. }
      destruct x as [e|es|]; cbn [do_wcall] in E.
      - unfold write_element in E. bok E p A. destruct p as [o a]. rewrite A. cbn [bind]. destruct o as [b|].
        + destruct (W _ _ _ E) as (hb & S & F & C & AC). cbn [wr_file wr_comp wr_acc] in *.
          exists [FromSingles b], [hb], a. sconj; auto.
        + injection E as <-. exists [], [], a. cbn. rewrite app_nil_r. auto.
      - destruct (W _ _ _ E) as (hb & S & F & C & AC). exists [FromBatch es], [hb], (wr_acc w). sconj; auto.
      - unfold writer_close in E. destruct (acc_elements (wr_acc w)) as [|e r] eqn:A.
        + injection E as <-. exists [], [], (Acc [] (acc_st (wr_acc w)) (acc_index (wr_acc w) + 1)). cbn. rewrite app_nil_r. auto.
        + destruct (W _ _ _ E) as (hb & S & F & C & AC). cbn [wr_file wr_comp wr_acc] in *.
          exists [FromSingles (e :: r)], [hb], (wr_acc w1). sconj; auto. rewrite AC. reflexivity. }
    destruct X as (o & h1 & a1 & <- & X & F1 & G1 & C1).
    destruct (IH _ _ H) as (bs & hbs & R & F & Y & C). rewrite C1 in *. cbn [calls_run]. rewrite X. cbn [bind]. rewrite R. cbn [bind].
    exists (o ++ bs), (h1 ++ hbs). sconj; auto.
    + apply Forall2_app; auto.
    + rewrite Y, G1, flat_map_app, app_assoc. reflexivity.
Qed.
Lemma from_singles_app a b : from_singles (a ++ b) = from_singles a ++ from_singles b.
Proof. apply flat_map_app. Qed.
Lemma from_batches_app a b : from_batches (a ++ b) = from_batches a ++ from_batches b.
Proof. apply flat_map_app. Qed.
Lemma calls_run_spec cs : forall a bs a', acc_inv a -> calls_run a cs = Ok (bs, a') ->
  acc_inv a' /\ concat (from_singles bs) ++ acc_elements a' = acc_elements a ++ no_sentinels (singles cs) /\
  Forall block_shape (from_singles bs) /\ from_batches bs = batches cs.
Proof.
  induction cs as [|x cs IH]; intros a bs a' I H; cbn [calls_run] in H.
  - injection H as <- <-. cbn. rewrite app_nil_r. auto.
  - bok H p E. destruct p as [o a1]. bok H p R. destruct p as [bs' a2]. injection H as <- <-.
    assert (X : acc_inv a1 /\ concat (from_singles o) ++ acc_elements a1 = acc_elements a ++ no_sentinels (singles [x]) /\
      Forall block_shape (from_singles o) /\ from_batches o = batches [x]).
    { destruct x as [e|es|].
      - bok E p A. destruct p as [q a3]. injection E as <- <-. destruct (acc_add_spec _ _ _ _ I A) as (I1 & X & S).
        destruct q; cbn [from_singles from_batches flat_map concat app] in *; rewrite ?app_nil_r; cbn; sconj; auto.
      - injection E as <- <-. cbn. rewrite app_nil_r. auto.
      - injection E as <- <-. unfold acc_inv at 1. cbn [acc_elements acc_st]. destruct I as [L K].
        destruct (acc_elements a) as [|e r] eqn:AE; cbn [from_singles from_batches flat_map concat app]; rewrite ?app_nil_r; cbn; sconj; auto; try reflexivity.
        constructor; auto. split; [lia|]. eexists; eauto. }
    destruct X as (I1 & X & S & B). destruct (IH _ _ _ I1 R) as (I2 & Y & F & B2).
    rewrite from_singles_app, from_batches_app. sconj; auto.
    + rewrite concat_app, <- app_assoc, Y, app_assoc, X, <- app_assoc. f_equal. unfold no_sentinels. rewrite <- filter_app. f_equal.
      change (singles [x] ++ singles cs = singles ([x] ++ cs)). unfold singles. rewrite flat_map_app. reflexivity.
    + apply Forall_app; auto.
    + rewrite B, B2. change (batches [x] ++ batches cs = batches ([x] ++ cs)). unfold batches. rewrite flat_map_app. reflexivity.
Qed.
(** the blocks with what they keep *)
Definition kept_of (b : wblock) : wblock := match b with FromSingles es => FromSingles es | FromBatch es => FromBatch (survivors es) end.
Lemma kept_singles bs : from_singles (map kept_of bs) = from_singles bs.
Proof. unfold from_singles. induction bs as [|b bs IH]; auto. destruct b; cbn [map kept_of flat_map app]; rewrite IH; reflexivity. Qed.
Lemma kept_batches bs : from_batches (map kept_of bs) = map survivors (from_batches bs).
Proof. unfold from_batches. induction bs as [|b bs IH]; auto. destruct b; cbn [map kept_of flat_map app]; rewrite IH; reflexivity. Qed.
Lemma run_laid_out cs bs a : calls_run acc_new cs = Ok (bs, a) -> laid_out cs (map kept_of bs) (acc_elements a).
Proof.
  intros R. destruct (calls_run_spec _ _ _ _ acc_inv_new R) as (I & X & S & B). cbn [acc_new acc_elements app] in X.
  split.
  - rewrite kept_singles, X. apply no_sentinels_spec. reflexivity.
  - destruct I as [L K]. split; auto. apply (shape_single (acc_elements a)). split; [lia|]. eexists; eauto.
  - rewrite kept_singles. eapply Forall_impl; [|exact S]. apply shape_single.
  - rewrite kept_batches, B. clear. induction (batches cs); cbn; constructor; auto using survivors_keeps.
  - intros cs' ->. destruct (calls_run_app _ _ _ _ _ R) as (b1 & b2 & a1 & -> & R1 & R2). cbn in R2. injection R2 as <- <-. reflexivity.
  - intros cs' es ->. destruct (calls_run_app _ _ _ _ _ R) as (b1 & b2 & a1 & -> & R1 & R2). cbn in R2. injection R2 as <- <-.
    exists (map kept_of b1), (survivors es). rewrite map_app. split; auto using survivors_keeps.
Qed.
(** the sizes of the blocks are below 2 GiB, before and after compression *)
Definition block_fits (m : mode) (c : codec) (k : compression) (b : list element) : Prop :=
  (forall data, osm_data_serialize m b = Ok data -> below_2GiB data) /\
  (forall h body, fblock_serialize m c k (FData 0 b) = Ok (h, body) -> below_2GiB body).
Definition calls_fit (m : mode) (c : codec) (k : compression) (cs : list wcall) : Prop :=
  (forall stream, without_sentinels (singles cs) stream -> blocks_fit m c k stream) /\ Forall (block_fits m c k) (batches cs).
Definition call_ok (x : wcall) : Prop :=
  match x with CElement e => element_ok e | CElements es => Forall element_ok es | CClose => True end.
(** blocks of any composition *)
Lemma data_frames_decode_any m c k blocks ds : codec_ok c ->
  Forall2 (fun b d => osm_data_serialize m b = Ok d) blocks ds ->
  Forall (fun b => Forall element_ok b) blocks -> Forall (block_fits m c k) blocks ->
  Forall frame_ok (map (data_frame c k) ds) /\
  forall i, exists blks, frames_decode m c i (map (data_frame c k) ds) blks /\ Forall is_data blks /\
    Forall2 (fun b blk => Forall2 written_read (survivors b) (block_elements blk)) blocks blks.
Proof.
  intros C F O G.
  induction F as [|b d bs ds E F IH]; [cbn; split; auto; intros i; exists []; cbn; sconj; constructor|].
  inversion O as [|? ? Ob O']; subst. inversion G as [|? ? [G1 G2] G']; subst.
  destruct (IH O' G') as (IH1 & IH2). clear IH. specialize (G1 _ E).
  assert (L2 : zlen (blob_encode (blob_of c k LevelDefault d)) <= max_i32).
  { specialize (G2 (blob_header_encode (fst (data_frame c k d))) (snd (data_frame c k d))).
    rewrite serialize_data, E in G2. apply G2. reflexivity. }
  split.
  - cbn [map]. constructor; auto. apply frame_of_ok; auto; cbv; congruence.
  - intros i. destruct (IH2 (i + 1)) as (blks & D & DD & W).
    destruct (survivors_wr m b d Ob E G1) as (es' & R & _ & FW).
    exists (FData i es' :: blks). sconj.
    + cbn [map]. constructor; auto. unfold data_frame. cbn [frame_of fst bh_type]. fold (frame_of (str "OSMData") (blob_of c k LevelDefault d)).
      rewrite deserialize_packed by (eauto using serialize_data_nonempty). unfold fblock_new.
      change (bytes_eqb (str "OSMData") (str "OSMHeader")) with false. rewrite bytes_eqb_refl. cbv iota. rewrite R. reflexivity.
    + constructor; cbn; auto.
    + constructor; cbn; auto.
Qed.
Lemma calls_content cs bs a : calls_run acc_new cs = Ok (bs, a) -> Forall call_ok cs ->
  Forall (fun b => Forall element_ok (content b)) bs.
Proof.
  intros R O. destruct (calls_run_spec _ _ _ _ acc_inv_new R) as (_ & X & _ & B). cbn [acc_new acc_elements app] in X.
  assert (OS : Forall element_ok (no_sentinels (singles cs))).
  { unfold no_sentinels, singles. rewrite Forall_forall in *. intros e I. apply filter_In in I. destruct I as [I _].
    apply in_flat_map in I. destruct I as (x & Ix & I). specialize (O x Ix). destruct x; cbn in I; try tauto. destruct I as [<-|[]]. exact O. }
  assert (OB : Forall (Forall element_ok) (batches cs)).
  { unfold batches. rewrite Forall_forall in *. intros b I. apply in_flat_map in I. destruct I as (x & Ix & I). specialize (O x Ix).
    destruct x; cbn in I; try tauto. destruct I as [<-|[]]. exact O. }
  rewrite <- X in OS. apply Forall_app in OS. destruct OS as [OS _]. rewrite <- B in OB. clear - OS OB.
  induction bs as [|b bs IH]; constructor; destruct b; cbn in *; try (inversion OB; subst); try (apply Forall_app in OS; destruct OS); auto.
Qed.
Lemma calls_content_fit m c k cs bs a : calls_run acc_new cs = Ok (bs, a) -> calls_fit m c k cs ->
  Forall (fun b => block_fits m c k (content b)) bs.
Proof.
  intros R (FS & FB). destruct (calls_run_spec _ _ _ _ acc_inv_new R) as (_ & X & S & B). cbn [acc_new acc_elements app] in X.
  specialize (FS _ (proj2 (no_sentinels_spec _ _) eq_refl)). rewrite <- X in FS. rewrite <- B in FB.
  pose proof (concat_pieces (from_singles bs)) as P.
  assert (G : Forall (block_fits m c k) (from_singles bs)).
  { rewrite Forall_forall in *. intros b I. destruct (P b I) as (x & y & E). specialize (S b I). destruct S as [S _].
    rewrite E in FS. apply (FS x b (y ++ acc_elements a)); auto. rewrite <- !app_assoc. reflexivity. }
  clear - FB G. induction bs as [|b bs IH]; constructor; destruct b; cbn in *; try (inversion FB; subst; auto; fail); try (inversion G; subst; auto; fail).
Qed.
Lemma calls_file_frames m c i k cs file : codec_ok c -> info_ok i -> ~ info_empty i -> header_fits c k i ->
  Forall call_ok cs -> calls_fit m c k cs -> calls_file m c i k cs = Ok file ->
  exists l blks bs a, calls_run acc_new cs = Ok (bs, a) /\
    file = frames_bytes (header_frame c k i :: l) /\ Forall frame_ok (header_frame c k i :: l) /\
    frames_decode m c 0 (header_frame c k i :: l) (FHeader 0 (info_read i) :: blks) /\ Forall is_data blks /\
    Forall2 (fun b blk => Forall2 written_read (content (kept_of b)) (block_elements blk)) bs blks.
Proof.
  intros C IO NE HF CO CF H. unfold calls_file in H. bok H w0 E0. rewrite write_header_spec in E0. injection E0 as <-.
  bok H w1 E1. injection H as <-. destruct (do_wcalls_spec _ _ _ _ _ E1) as (bs & hbs & R & F & X & _). cbn [wr_acc wr_comp wr_file] in *.
  assert (G : exists ds, Forall2 (fun b d => osm_data_serialize m b = Ok d) (map content bs) ds /\
     flat_map write_blob hbs = frames_bytes (map (data_frame c k) ds)).
  { clear - F. induction F as [|b hb bs hbs E F (ds & IH & W)]; [exists []; cbn; auto|].
    unfold ser_block in E. rewrite serialize_data in E. bok E d D. injection E as <-. exists (d :: ds). split; [cbn; auto|].
    cbn [flat_map map]. rewrite frames_bytes_cons, W. reflexivity. }
  destruct G as (ds & D & W).
  destruct (data_frames_decode_any m c k (map content bs) ds C D) as (FO & DEC).
  - apply Forall_map. eapply calls_content; eauto.
  - apply Forall_map. eapply calls_content_fit; eauto.
  - destruct (DEC (0 + 1)) as (blks & DE & DD & WR). exists (map (data_frame c k) ds), blks, bs, (wr_acc w1).
    destruct (header_fits_frame _ _ _ HF) as (HO & _). sconj; auto.
    + rewrite X, W, frames_bytes_cons. reflexivity.
    + constructor; [apply header_decode; auto|auto].
    + apply Forall2_map_l in WR.
      assert (OK : Forall2 (fun b blk => Forall2 written_read (survivors (content b)) (block_elements blk)) bs blks) by exact WR.
      pose proof (calls_run_spec _ _ _ _ acc_inv_new R) as (_ & _ & S & _).
      clear - OK S. induction OK as [|b blk bs blks E F IH]; constructor.
      * destruct b; cbn [content kept_of] in *; auto.
        cbn [from_singles flat_map app] in S. inversion S as [|? ? [_ (st & K)] _]; subst.
        rewrite survivors_kind in E; auto. rewrite Forall_forall in K. destruct st; cbn in K; auto.
      * apply IH. destruct b; cbn in S; auto. inversion S; auto.
Qed.
(** *** after any calls, however many and in whatever order: what the file holds *)
Theorem C58_any_calls m c i k cs file :
  codec_ok c -> info_ok i -> ~ info_empty i -> header_fits c k i -> Forall supported (fi_required i) ->
  Forall call_ok cs -> calls_fit m c k cs -> calls_file m c i k cs = Ok file ->
  exists bs pending i' got,
    laid_out cs bs pending /\ reader_new m c file = Ok i' /\ info_written_read i i' /\
    elements_run m c file got Ended /\ Forall2 written_read (flat_map content bs) got.
Proof.
  intros C IO NE HF SU CO CF H.
  destruct (calls_file_frames m c i k cs file) as (l & blks & bs & a & R & -> & FO & D & DD & W); auto.
  pose proof (fb_run_frames m c _ _ [] bit_new FO at_end_new D) as RR. cbn [app] in RR.
  exists (map kept_of bs), (acc_elements a), (info_read i), (flat_map block_elements blks). sconj; auto using info_read_spec, run_laid_out.
  - eapply supported_reader; eauto.
  - eapply elements_run_blocks; eauto.
  - clear - W. induction W; cbn; auto. apply Forall2_app; auto.
Qed.
(** *** the file only ever grows: what is in it is never taken back *)
Theorem C58_file_grows m c i k cs cs' file : calls_file m c i k (cs ++ cs') = Ok file ->
  exists file0, calls_file m c i k cs = Ok file0 /\ prefix file0 file.
Proof.
  unfold calls_file. intros H. bok H w0 E0. bok H w1 E1. injection H as <-. rewrite E0. cbn [bind].
  assert (G : forall cs w w', do_wcalls m c w (cs ++ cs') = Ok w' -> exists w1, do_wcalls m c w cs = Ok w1 /\ do_wcalls m c w1 cs' = Ok w').
  { clear. induction cs as [|x cs IH]; intros w w' H; cbn [app do_wcalls] in *; [eauto|]. bok H w1 E. rewrite E. cbn [bind]. auto. }
  destruct (G _ _ _ E1) as (w2 & E2 & E3). rewrite E2. cbn [bind]. exists (wr_file w2). split; auto.
  destruct (do_wcalls_spec _ _ _ _ _ E3) as (? & ? & _ & _ & X & _). eexists. exact X.
Qed.
(** *** a crash at any moment, in the middle of any write: any byte prefix of the file is refused or reads as the first blocks *)
Theorem C58_crash_at_any_moment m c i k cs file p :
  codec_ok c -> info_ok i -> ~ info_empty i -> header_fits c k i -> Forall supported (fi_required i) ->
  Forall call_ok cs -> calls_fit m c k cs -> calls_file m c i k cs = Ok file -> prefix p file ->
  (reader_new m c p = Err \/ reader_new m c p = Panic) \/
  exists bs pending n i' got o, laid_out cs bs pending /\ reader_new m c p = Ok i' /\ info_written_read i i' /\
    elements_run m c p got o /\ Forall2 written_read (flat_map content (firstn n bs)) got.
Proof.
  intros C IO NE HF SU CO CF H (r & Er).
  destruct (calls_file_frames m c i k cs file) as (l & blks & bs & a & R & E & FO & D & DD & W); auto.
  rewrite E in Er. destruct (fb_run_prefix m c _ _ [] p r bit_new FO at_end_new D Er) as (n & o & RR & K & L & T & O).
  cbn [app] in RR. destruct n as [|n]; cbn [firstn] in RR.
  - left. inversion RR as [s s' N|s N|]; subst; unfold reader_new; rewrite N; cbn; auto.
  - right. exists (map kept_of bs), (acc_elements a), n, (info_read i), (flat_map block_elements (firstn n blks)), o. sconj; auto using info_read_spec, run_laid_out.
    + eapply supported_reader; eauto.
    + eapply elements_run_blocks; eauto. clear - DD. revert n. induction DD; intros [|n]; cbn; constructor; auto.
    + clear - W. revert n. induction W; intros [|n]; cbn; auto. apply Forall2_app; auto.
Qed.

(** ** C59 *)
Lemma acc_run_ne es : forall a, acc_run a es <> Err.
Proof.
  induction es as [|e es IH]; intros a R; cbn in R; [discriminate|].
  pose proof (acc_add_total a e) as T. destruct (acc_add a e) as [[o a1]| |]; cbn in R; try discriminate; try contradiction.
  specialize (IH a1). destruct (acc_run a1 es) as [[]| |]; cbn in R; try discriminate. auto.
Qed.
(** the streams write_element takes: in order, and relations only after a way *)
Definition acceptable (l : list element) : Prop :=
  exists ns ws rs, l = ns ++ ws ++ rs /\ all_nodes ns /\ all_ways ws /\ all_relations rs /\ (rs <> [] -> ws <> []).
Theorem C59_exactly_these_streams m c i k es stream : without_sentinels es stream -> serializable m stream ->
  (acceptable stream <-> exists file, write_file m c i k es = Ok file) /\
  (~ acceptable stream <-> write_file m c i k es = Panic).
Proof.
  intros WS SE. destruct (C17_order_enforced_partial m c i k es stream WS) as [_ ACC].
  assert (A : acceptable stream -> exists file, write_file m c i k es = Ok file).
  { intros (ns & ws & rs & E & N & W & R & X). apply (ACC ns ws rs); auto. destruct rs; auto. right. apply X. discriminate. }
  assert (B : ~ acceptable stream -> write_file m c i k es = Panic).
  { intros N. apply no_sentinels_spec in WS. subst stream. unfold write_file. rewrite write_header_spec. cbn [bind].
    destruct (acc_run acc_new es) as [r| |] eqn:R.
    - exfalso. apply N. destruct (proj1 (acc_run_accepts es acc_new)) as (ns & ws & rs & E & A1 & B1 & C1 & D1); [eauto|].
      exists ns, ws, rs. sconj; auto; apply kinds; auto.
    - destruct (acc_run_ne _ _ R).
    - rewrite write_all_panic; auto. }
  assert (DEC : acceptable stream \/ ~ acceptable stream).
  { apply no_sentinels_spec in WS. subst stream. destruct (acc_run acc_new es) as [r| |] eqn:R.
    - left. destruct (proj1 (acc_run_accepts es acc_new)) as (ns & ws & rs & E & A1 & B1 & C1 & D1); [eauto|].
      exists ns, ws, rs. sconj; auto; apply kinds; auto.
    - destruct (acc_run_ne _ _ R).
    - right. intros (ns & ws & rs & E & N & W & RL & X).
      assert (AC : accepts ANodes (no_sentinels es)). { exists ns, ws, rs. sconj; auto; try (apply kinds; auto). }
      apply (acc_run_accepts es acc_new) in AC. destruct AC as (q & Q). congruence. }
  split; split; auto.
  - intros (f & E). destruct DEC; auto. rewrite B in E; [discriminate|auto].
  - intros E X. destruct (A X) as (f & E'). congruence.
Qed.
