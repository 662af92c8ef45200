(** Property C101: PBF files put one after another. *)
From Coq Require Import ZArith List Bool Strings.Byte Strings.String Permutation Lia.
From Verif Require Import Base BaseFacts Types Proto ProtoFacts Spec FileFormat FileFacts FileSpec ModelSpec ModelFacts Pool ParallelSpec PoolFacts ParallelRead ParallelReadFacts PropParallelRead PropFile ReadSpec PropReadAny BoxSpec PropBox CountSpec PropCount JoinSpec.
From Verif Require Block ParallelWrite ParallelWriteSpec PropDump Calls PropCalls PropParallelWrite.
Import ListNotations.
Open Scope Z_scope.
Local Notation length := List.length.
Local Notation concat := List.concat.

Lemma fb_next_frame m c pre f q s : frame_ok f -> at_end pre s ->
  fb_next m c (pre ++ frame_bytes f ++ q) s = (b <- unwrap_res (fblock_deserialize m c (BlobDesc (bi_index s) 0 0 (bh_type (fst f))) (snd f)) ;; Ok (Some b, Bit (zlen pre + head_len f) (zlen (snd f)) (bi_index s + 1))).
Proof.
  intros H P. unfold fb_next. rewrite blob_next_complete by auto. cbn [bind].
  pose proof (frame_ok_len f H) as L. rewrite frame_bytes_eq by auto.
  replace (pre ++ (be32 (zlen (blob_header_encode (fst f))) ++ blob_header_encode (fst f) ++ snd f) ++ q)
    with ((pre ++ be32 (zlen (blob_header_encode (fst f))) ++ blob_header_encode (fst f)) ++ snd f ++ q)
    by (rewrite !app_assoc; reflexivity).
  rewrite from_blob_desc_at by (try lia; rewrite !zlen_app, be32_len; reflexivity).
  rewrite deserialize_irr. reflexivity.
Qed.
Lemma run_frames_decode m c l : forall pre s blks, Forall frame_ok l -> at_end pre s ->
  run (fb_next m c (pre ++ frames_bytes l)) s blks Ended -> frames_decode m c (bi_index s) l blks.
Proof.
  induction l as [|f l IH]; intros pre s blks F A R.
  - pose proof (fb_run_frames m c [] [] pre s F A (fd_nil _ _ _)) as R'. destruct (run_det _ _ _ _ _ _ R R') as (-> & _). constructor.
  - inversion F as [|? ? F1 F2]; subst. rewrite frames_bytes_cons in R. pose proof (fb_next_frame m c pre f (frames_bytes l) s F1 A) as N.
    inversion R as [? s' E|? E|? b s' bs o E R']; subst; rewrite E in N.
    + destruct (fblock_deserialize _ _ _ _); cbn in N; discriminate N.
    + destruct (fblock_deserialize m c _ (snd f)) as [b'| |] eqn:D; cbn in N; try discriminate N. injection N as -> ->.
      constructor; [exact D|]. rewrite app_assoc in R'. exact (IH _ _ _ F2 (at_end_next pre f (bi_index s + 1) F1) R').
Qed.
Lemma deserialize_number m c i j t buf b : fblock_deserialize m c (BlobDesc i 0 0 t) buf = Ok b ->
  fblock_deserialize m c (BlobDesc j 0 0 t) buf = Ok (match b with FHeader _ x => FHeader j x | FData _ es => FData j es end).
Proof.
  unfold fblock_deserialize, fblock_new. cbn [bd_index bd_type]. destruct (of_option (blob_decode buf)) as [bl| |]; cbn [bind]; try discriminate. destruct (read_blob_data c bl) as [d| |]; cbn [bind]; try discriminate.
  destruct (bytes_eqb t (str "OSMHeader")); [destruct (osm_header_from_bytes d); cbn [bind]; try discriminate; intros E; injection E as <-; reflexivity|].
  destruct (bytes_eqb t (str "OSMData")); [destruct (Block.osm_data_new m d); cbn [bind]; try discriminate; intros E; injection E as <-; reflexivity|discriminate].
Qed.
Lemma frames_number m c i l blks : frames_decode m c i l blks -> forall j, frames_decode m c j l (numbered j blks).
Proof.
  induction 1 as [i|i f l b bs D R IH]; intros j; cbn [numbered]; [constructor|]. apply (deserialize_number _ _ _ j) in D. destruct b; constructor; auto.
Qed.
Lemma numbered_app a b : forall i, numbered i (a ++ b) = numbered i a ++ numbered (i + zlen a) b.
Proof.
  induction a as [|x a IH]; intros i; cbn [numbered app]; [rewrite Z.add_0_r; reflexivity|]. destruct x; cbn [app]; f_equal; rewrite IH; do 2 f_equal; rewrite zlen_cons; lia.
Qed.
Lemma frames_decode_app m c i l1 b1 : frames_decode m c i l1 b1 -> forall l2 b2, frames_decode m c (i + zlen l1) l2 b2 -> frames_decode m c i (l1 ++ l2) (b1 ++ b2).
Proof.
  induction 1 as [i|i f l b bs D R IH]; intros l2 b2 H; cbn [app]; [rewrite Z.add_0_r in H; exact H|]. constructor; [exact D|]. apply IH. rewrite zlen_cons in H. replace (i + 1 + zlen l) with (i + (zlen l + 1)) by lia. exact H.
Qed.
Lemma numbered_elements blks : forall i, flat_map elements_of (numbered i blks) = flat_map elements_of blks.
Proof. induction blks as [|[ix x|ix es] blks IH]; intros i; cbn [numbered flat_map elements_of]; auto; rewrite IH; reflexivity. Qed.
Lemma consistent_ok l : Forall consistent_blob l -> Forall frame_ok l.
Proof. intros F. eapply Forall_impl; [|exact F]; apply consistent_frame. Qed.
Lemma joined_frames m c files parts : Forall blob_file files -> Forall2 (file_blocks m c) files parts ->
  exists l, Forall frame_ok l /\ concat files = frames_bytes l /\ forall i, frames_decode m c i l (numbered i (concat parts)).
Proof.
  intros FF F. induction F as [|f blks files parts B F IH].
  - exists []. split; [constructor|]. split; [reflexivity|]. intros i. constructor.
  - inversion FF as [|? ? (l1 & C1 & ->) FF2]; subst. destruct (IH FF2) as (l2 & O2 & E2 & D2). apply consistent_ok in C1. pose proof (run_frames_decode m c l1 [] bit_new blks C1 at_end_new B) as D1.
    exists (l1 ++ l2). split; [apply Forall_app; auto|]. split; [cbn [List.concat]; rewrite E2, frames_bytes_app; reflexivity|]. intros i. cbn [List.concat]. rewrite numbered_app. eapply frames_decode_app; [eapply frames_number; exact D1|].
    assert (L : zlen blks = zlen l1) by (unfold zlen; rewrite (firstn_length_decode _ _ _ _ _ D1); reflexivity). rewrite L. apply D2.
Qed.

(** C101: the blocks of files put one after another are the blocks of the first, of the second and so on, numbered through *)
Theorem C101_blocks m c files parts : Forall blob_file files -> Forall2 (file_blocks m c) files parts -> file_blocks m c (concat files) (numbered 0 (concat parts)).
Proof.
  intros FF F. destruct (joined_frames _ _ _ _ FF F) as (l & O & -> & D). exact (fb_run_frames m c l _ [] bit_new O at_end_new (D 0)).
Qed.

Lemma el_run_frames m c l : forall pre s blks g q ix i r, Forall frame_ok l -> at_end pre s -> frames_decode m c (bi_index s) l blks -> Forall is_data blks ->
  frame_ok g -> fblock_deserialize m c (BlobDesc (bi_index s + zlen l) 0 0 (bh_type (fst g))) (snd g) = Ok (FHeader ix i) ->
  el_run m c (pre ++ frames_bytes l ++ frame_bytes g ++ q) s (Some r) (r ++ flat_map block_elements blks) Ended.
Proof.
  induction l as [|f l IH]; intros pre s blks g q ix i r F A D ID G H.
  - inversion D; subst. cbn [frames_bytes flat_map app]. rewrite app_nil_r. induction r as [|e r IHr]; [|constructor; exact IHr].
    rewrite Z.add_0_r in H. eapply elr_refill with (it := None); [|constructor]. unfold create_element_iterator. rewrite (fb_next_complete _ _ _ _ _ _ _ G A H). reflexivity.
  - inversion F as [|? ? F1 F2]; inversion D as [|? ? ? b bs Db Dr]; subst. inversion ID as [|? ? I1 I2]; subst. destruct b as [|k es]; [contradiction|]. cbn [flat_map block_elements].
    pose proof (at_end_next pre f (bi_index s + 1) F1) as A1.
    assert (X : el_run m c (pre ++ frames_bytes (f :: l) ++ frame_bytes g ++ q) (Bit (zlen pre + head_len f) (zlen (snd f)) (bi_index s + 1)) (Some es) (es ++ flat_map block_elements bs) Ended).
    { rewrite frames_bytes_cons, <- (app_assoc (frame_bytes f)), (app_assoc pre). eapply IH; eauto. cbn [bi_index]. rewrite zlen_cons in H. replace (bi_index s + 1 + zlen l) with (bi_index s + (zlen l + 1)) by lia. exact H. }
    induction r as [|e r IHr]; [|cbn [app]; constructor; exact IHr].
    cbn [app]. eapply elr_refill; [|exact X]. unfold create_element_iterator. rewrite frames_bytes_cons, <- (app_assoc (frame_bytes f)), (fb_next_complete _ _ _ _ _ _ _ F1 A Db). reflexivity.
Qed.
(** C101: reading element by element stops where the second file begins, without an error: the elements and the header are those of the first
    file, whatever follows the header of the second *)
Theorem C101_first_only m c f i blks g b gs rest : blob_file f -> file_blocks m c f blks -> header_first blks i ->
  blob_file g -> file_blocks m c g (b :: gs) -> (match b with FHeader _ _ => True | _ => False end) ->
  reader_new m c (f ++ g ++ rest) = reader_new m c f /\
  (forall l o, elements_run m c (f ++ g ++ rest) l o <-> elements_run m c f l o) /\ elements_run m c f (flat_map elements_of blks) Ended.
Proof.
  intros (l & C1 & ->) B (ix & r & -> & ID) (lg & C2 & ->) B2 HB. apply consistent_ok in C1, C2.
  pose proof (run_frames_decode m c l [] bit_new _ C1 at_end_new B) as D1. pose proof (run_frames_decode m c lg [] bit_new _ C2 at_end_new B2) as D2.
  inversion D1 as [|? h l1 ? ? Dh Dr]; subst. inversion D2 as [|? g1 lg1 ? ? Dg _]; subst. destruct b as [ixg ig|]; [|contradiction]. inversion C1 as [|? ? Oh Ol]; inversion C2 as [|? ? Og _]; subst.
  fold frame in *. change (file_of_blobs (h :: l1)) with (frames_bytes (h :: l1)) in *. change (file_of_blobs (g1 :: lg1)) with (frames_bytes (g1 :: lg1)). rewrite (frames_bytes_cons g1 lg1), <- (app_assoc (frame_bytes g1)). set (q := frames_bytes lg1 ++ rest). 
  assert (N0 : forall q0, fb_next m c (frame_bytes h ++ q0) bit_new = Ok (Some (FHeader ix i), Bit (0 + head_len h) (zlen (snd h)) 1)) by (intros q0; exact (fb_next_complete m c [] h q0 bit_new _ Oh at_end_new Dh)).
  assert (IDd : Forall is_data r) by (eapply Forall_impl; [|exact ID]; intros [?|?]; auto).
  assert (R1 : elements_run m c (frames_bytes (h :: l1)) (flat_map elements_of (FHeader ix i :: r)) Ended).
  { cbn [flat_map elements_of app]. apply (elements_run_blocks m c _ _ r Ended B IDd). }
  assert (A1 : at_end (frame_bytes h) (Bit (0 + head_len h) (zlen (snd h)) 1)) by (exact (at_end_next [] h 1 Oh)).
  assert (R2 : elements_run m c (frames_bytes (h :: l1) ++ frame_bytes g1 ++ q) (flat_map elements_of (FHeader ix i :: r)) Ended).
  { rewrite frames_bytes_cons, <- app_assoc. cbn [flat_map elements_of app]. apply (deserialize_number _ _ _ (0 + zlen (h :: l1))) in Dg.
    inversion Dr as [E1|i0 f2 l2 b2 r2 Db Dr2 E1 E2 E3]; subst.
    - eapply els_loop with (it := None); [exact (N0 _)| |constructor]. unfold create_element_iterator. cbn [frames_bytes flat_map app].
      rewrite (fb_next_complete m c (frame_bytes h) g1 q _ _ Og A1 Dg). reflexivity.
    - inversion Ol as [|? ? O2 O3]; subst. inversion IDd as [|? ? I1 I2]; subst. destruct b2 as [|k es]; [contradiction|]. eapply els_loop; [exact (N0 _)| |].
      + unfold create_element_iterator. rewrite frames_bytes_cons, <- app_assoc. rewrite (fb_next_complete m c (frame_bytes h) f2 _ _ _ O2 A1 Db). reflexivity.
      + cbn [flat_map elements_of]. rewrite (frames_bytes_cons f2), <- (app_assoc (frame_bytes f2)), (app_assoc (frame_bytes h)).
        pose proof (at_end_next (frame_bytes h) f2 2 O2) as A2. change (flat_map elements_of r2) with (flat_map block_elements r2).
        eapply el_run_frames; [exact O3|exact A2|exact Dr2|exact I2|exact Og|]. cbn [bi_index]. rewrite !zlen_cons in Dg. replace (1 + 1 + zlen l2) with (0 + (zlen l2 + 1 + 1)) by lia. exact Dg. }
  split; [|split; [|exact R1]].
  - unfold reader_new. rewrite frames_bytes_cons, <- app_assoc, !N0. reflexivity.
  - intros l o. split; intros R; [destruct (C16_unique _ _ _ _ _ _ _ R R2) as (-> & ->); exact R1|destruct (C16_unique _ _ _ _ _ _ _ R R1) as (-> & ->); exact R2].
Qed.
(** ** the second file cut off *)
Lemma fb_next_begun m c pre f q s b p : frame_ok f -> at_end pre s ->
  fblock_deserialize m c (BlobDesc (bi_index s) 0 0 (bh_type (fst f))) (snd f) = Ok b -> (exists r, frame_bytes f ++ q = p ++ r) ->
  (exists p', p = frame_bytes f ++ p') \/
  (zlen p < head_len f /\ exists s', fb_next m c (pre ++ p) s = Ok (None, s')) \/
  (head_len f <= zlen p /\ fb_next m c (pre ++ p) s = Panic).
Proof.
  intros H A D (r & E). destruct (prefix_split _ _ _ _ E) as [(p' & -> & _)|(L & r' & E')]; [left; eauto|]. right.
  assert (D1 : frames_decode m c (bi_index s) [f] [b]) by (constructor; [exact D|constructor]).
  assert (E1 : frames_bytes [f] = p ++ r') by (rewrite frames_bytes_cons, app_nil_r; exact E').
  destruct (fb_run_prefix m c [f] [b] pre p r' s (Forall_cons _ H (Forall_nil _)) A D1 E1) as (k & o & R & K & Le & Lt & O). rewrite frame_bytes_len in L by exact H.
  destruct k as [|[|k]]; [|exfalso; cbn [firstn] in Le; rewrite frames_bytes_cons, app_nil_r, frame_bytes_len in Le by exact H; lia|cbn in K; lia].
  cbn [firstn nth_error] in *. change (zlen (frames_bytes [])) with 0 in *. destruct o.
  - left. split.
    + destruct (Z_lt_le_dec (zlen p) (head_len f)) as [|G]; auto. exfalso. assert (X : Ended = Panicked) by (apply O; exists f; split; [reflexivity|lia]). discriminate X.
    + inversion R; subst. eauto.
  - right. destruct (proj1 O eq_refl) as (f' & X & Y). injection X as <-. split; [lia|]. inversion R; subst. auto.
Qed.
(** what stops the iteration between two blocks *)
Definition stops_with (m : mode) (c : codec) (file : bytes) (s : bit) (o : ending) : Prop :=
  match o with Ended => exists s', create_element_iterator m c file s = Ok (None, s') | Panicked => create_element_iterator m c file s = Panic end.
Lemma el_run_frames_stop m c o q l : forall pre s blks r, Forall frame_ok l -> at_end pre s -> frames_decode m c (bi_index s) l blks -> Forall is_data blks ->
  (forall s', at_end (pre ++ frames_bytes l) s' -> bi_index s' = bi_index s + zlen l -> stops_with m c (pre ++ frames_bytes l ++ q) s' o) ->
  el_run m c (pre ++ frames_bytes l ++ q) s (Some r) (r ++ flat_map block_elements blks) o.
Proof.
  induction l as [|f l IH]; intros pre s blks r F A D ID H.
  - inversion D; subst. cbn [frames_bytes flat_map app] in *. rewrite app_nil_r. induction r as [|e r IHr]; [|constructor; exact IHr].
    assert (X : stops_with m c (pre ++ q) s o) by (apply H; [rewrite app_nil_r; exact A|change (zlen (@nil frame)) with 0; lia]).
    destruct o; cbn [stops_with] in X; [destruct X as (s' & X); eapply elr_refill; [exact X|constructor]|apply elr_panic; exact X].
  - inversion F as [|? ? F1 F2]; inversion D as [|? ? ? b bs Db Dr]; subst. inversion ID as [|? ? I1 I2]; subst. destruct b as [|k es]; [contradiction|]. cbn [flat_map block_elements].
    pose proof (at_end_next pre f (bi_index s + 1) F1) as A1.
    assert (X : el_run m c (pre ++ frames_bytes (f :: l) ++ q) (Bit (zlen pre + head_len f) (zlen (snd f)) (bi_index s + 1)) (Some es) (es ++ flat_map block_elements bs) o).
    { rewrite frames_bytes_cons, <- (app_assoc (frame_bytes f)), (app_assoc pre). eapply IH; eauto. cbn [bi_index]. intros s' A' N'. rewrite <- (app_assoc pre), (app_assoc (frame_bytes f)), <- frames_bytes_cons. apply H.
      - rewrite frames_bytes_cons, app_assoc. exact A'.
      - rewrite zlen_cons. lia. }
    induction r as [|e r IHr]; [|cbn [app]; constructor; exact IHr].
    cbn [app]. eapply elr_refill; [|exact X]. unfold create_element_iterator. rewrite frames_bytes_cons, <- (app_assoc (frame_bytes f)), (fb_next_complete _ _ _ _ _ _ _ F1 A Db). reflexivity.
Qed.
(** C101: a second file cut off anywhere does not change what is read of the first; the loop panics instead of ending exactly if reading the
    piece alone panics before its first block *)
Theorem C101_cut m c f i blks g b gs p r : blob_file f -> file_blocks m c f blks -> header_first blks i ->
  blob_file g -> file_blocks m c g (b :: gs) -> (match b with FHeader _ _ => True | _ => False end) -> g = p ++ r ->
  reader_new m c (f ++ p) = reader_new m c f /\
  exists o, elements_run m c (f ++ p) (flat_map elements_of blks) o /\ (o = Panicked <-> run (fb_next m c p) bit_new [] Panicked).
Proof.
  intros (l & C1 & ->) B (ix & rb & -> & ID) (lg & C2 & ->) B2 HB Eg. apply consistent_ok in C1, C2.
  pose proof (run_frames_decode m c l [] bit_new _ C1 at_end_new B) as D1. pose proof (run_frames_decode m c lg [] bit_new _ C2 at_end_new B2) as D2.
  inversion D1 as [|? h l1 ? ? Dh Dr]; subst. inversion D2 as [|? g1 lg1 ? ? Dg _]; subst. destruct b as [ixg ig|]; [|contradiction]. inversion C1 as [|? ? Oh Ol]; inversion C2 as [|? ? Og _]; subst.
  fold frame in *. change (file_of_blobs (h :: l1)) with (frames_bytes (h :: l1)) in *. change (file_of_blobs (g1 :: lg1)) with (frames_bytes (g1 :: lg1)) in *. rewrite frames_bytes_cons in Eg.
  assert (N0 : forall q0, fb_next m c (frame_bytes h ++ q0) bit_new = Ok (Some (FHeader ix i), Bit (0 + head_len h) (zlen (snd h)) 1)) by (intros q0; exact (fb_next_complete m c [] h q0 bit_new _ Oh at_end_new Dh)).
  split; [unfold reader_new; rewrite frames_bytes_cons, <- app_assoc, !N0; reflexivity|].
  assert (IDd : Forall is_data rb) by (eapply Forall_impl; [|exact ID]; intros [?|?]; auto).
  assert (A1 : at_end (frame_bytes h) (Bit (0 + head_len h) (zlen (snd h)) 1)) by (exact (at_end_next [] h 1 Oh)).
  (* what happens at the end of the first file, and alone *)
  assert (Stop : exists o, (o = Panicked <-> run (fb_next m c p) bit_new [] Panicked) /\ forall pre s, at_end pre s -> stops_with m c (pre ++ p) s o).
  { assert (DD : forall s, fblock_deserialize m c (BlobDesc (bi_index s) 0 0 (bh_type (fst g1))) (snd g1) = Ok (FHeader (bi_index s) ig)) by (intros s; exact (deserialize_number _ _ _ (bi_index s) _ _ _ Dg)).
    assert (Ex : exists r0, frame_bytes g1 ++ frames_bytes lg1 = p ++ r0) by eauto.
    destruct (fb_next_begun m c [] g1 (frames_bytes lg1) bit_new _ p Og at_end_new (DD bit_new) Ex) as [(p' & ->)|[(L & s0 & N)|(L & N)]]; cbn [app] in *.
    - exists Ended. split.
      + split; [intros X; discriminate X|]. intros R. inversion R as [|? E|]; subst. pose proof (fb_next_complete m c [] g1 p' bit_new _ Og at_end_new (DD bit_new)) as Q. cbn [app] in Q. rewrite Q in E. discriminate E.
      + intros pre s A. cbn [stops_with]. unfold create_element_iterator. rewrite (fb_next_complete m c pre g1 p' s _ Og A (DD s)). cbn. eauto.
    - exists Ended. split.
      + split; [intros X; discriminate X|]. intros R. inversion R as [|? E|]; subst. rewrite N in E. discriminate E.
      + intros pre s A. cbn [stops_with]. unfold create_element_iterator.
        destruct (fb_next_begun m c pre g1 (frames_bytes lg1) s _ p Og A (DD s) Ex) as [(p' & ->)|[(_ & s1 & ->)|(L' & _)]]; [|cbn; eauto|lia].
        rewrite (fb_next_complete m c pre g1 p' s _ Og A (DD s)). cbn. eauto.
    - exists Panicked. split; [split; [intros _; apply run_panic; exact N|reflexivity]|].
      intros pre s A. cbn [stops_with]. unfold create_element_iterator.
      destruct (fb_next_begun m c pre g1 (frames_bytes lg1) s _ p Og A (DD s) Ex) as [(p' & ->)|[(L' & _)|(_ & ->)]]; [|lia|reflexivity].
      pose proof (fb_next_complete m c [] g1 p' bit_new _ Og at_end_new (DD bit_new)) as Q. cbn [app] in Q. rewrite Q in N. discriminate N. }
  destruct Stop as (o & Oo & Stop). exists o. split; [|exact Oo].
  rewrite frames_bytes_cons, <- app_assoc. cbn [flat_map elements_of app].
  inversion Dr as [E1|i0 f2 l2 b2 r2 Db Dr2 E1 E2 E3]; subst.
  - cbn [frames_bytes flat_map app]. pose proof (Stop _ _ A1) as X. destruct o; cbn [stops_with] in X.
    + destruct X as (s' & X). eapply els_loop; [exact (N0 p)|exact X|constructor].
    + eapply els_new_panic; [exact (N0 p)|exact X].
  - inversion Ol as [|? ? O2 O3]; subst. inversion IDd as [|? ? I1 I2]; subst. destruct b2 as [|k es]; [contradiction|]. eapply els_loop; [exact (N0 _)| |].
    + unfold create_element_iterator. rewrite frames_bytes_cons, <- app_assoc. rewrite (fb_next_complete m c (frame_bytes h) f2 _ _ _ O2 A1 Db). reflexivity.
    + cbn [flat_map elements_of]. rewrite (frames_bytes_cons f2), <- (app_assoc (frame_bytes f2)), (app_assoc (frame_bytes h)).
      pose proof (at_end_next (frame_bytes h) f2 2 O2) as A2. change (flat_map elements_of r2) with (flat_map block_elements r2).
      eapply el_run_frames_stop; [exact O3|exact A2|exact Dr2|exact I2|]. intros s' A' _. rewrite (app_assoc (frame_bytes h ++ frame_bytes f2)). apply Stop. exact A'.
Qed.
(** reading in parallel gives the elements of all the files *)
Theorem C101_all_in_parallel {S} m c files parts tasks (f : nat -> element -> S -> option S) s0 tr k p : Forall blob_file files -> Forall2 (file_blocks m c) files parts ->
  for_each_exec m c (concat files) tasks f s0 tr k p -> finished p ->
  Permutation (filter (fun e => negb (is_sentinel e)) (map snd tr)) (flat_map (flat_map elements_of) parts).
Proof.
  intros FF F E Fi. destruct (C23_exactly_once _ _ _ _ _ _ _ _ _ E Fi) as (blks & owners & B & _ & _ & P & NS & _). pose proof (C101_blocks _ _ _ _ FF F) as B'. destruct (run_det _ _ _ _ _ _ B B') as (-> & _).
  rewrite (filter_permutation _ _ _ P). change (filter (fun e => negb (is_sentinel e))) with calls_that_count. rewrite counted_calls by exact NS. rewrite numbered_elements. clear. induction parts as [|a parts IH]; cbn [List.concat flat_map]; auto. rewrite flat_map_app, IH. reflexivity.
Qed.
Theorem C101_counts m c files parts tasks tr k p : Forall blob_file files -> Forall2 (file_blocks m c) files parts ->
  for_each_exec m c (concat files) tasks count_one (Counters 0 0 0) tr k p -> finished p ->
  let es := flat_map (flat_map elements_of) parts in
  zlen es <= max_i64 -> counted (p_shared p) = (number_of is_node es, number_of is_way es, number_of is_relation es).
Proof.
  intros FF F E Fi es L. destruct (C24_count_objects _ _ _ _ _ _ _ E Fi) as (blks & B & X). pose proof (C101_blocks _ _ _ _ FF F) as B'. destruct (run_det _ _ _ _ _ _ B B') as (-> & _). cbv zeta in X. rewrite numbered_elements in X.
  assert (EQ : flat_map elements_of (concat parts) = es) by (unfold es; clear; induction parts as [|a parts IH]; cbn [List.concat flat_map]; auto; rewrite flat_map_app, IH; reflexivity). rewrite EQ in X. exact (X L).
Qed.

Lemma leading_numbered blks p : forall i, leading_at (numbered i blks) p <-> leading_at blks p.
Proof.
  assert (G : forall l, leading_at l p <-> Exists (fun es => exists pre n post, es = pre ++ ENode n :: post /\ Forall (fun e => exists n', e = ENode n') pre /\ n_coord n = p) (map elements_of l)).
  { intros l. unfold leading_at, leads. rewrite Exists_map, Exists_exists. split.
    - intros (b & n & I & (pre & post & E & A) & C). exists b. split; auto. exists pre, n, post. auto.
    - intros (b & I & pre & n & post & E & A & C). exists b, n. split; auto. split; eauto. }
  intros i. rewrite !G. replace (map elements_of (numbered i blks)) with (map elements_of blks); [reflexivity|]. clear. revert i. induction blks as [|[ix x|ix es] blks IH]; intros i; cbn [numbered map elements_of]; auto; f_equal; auto.
Qed.
(** the result of calc_bounding_box on a file *)
Definition box_of (m : mode) (c : codec) (file : bytes) (r : res bbox) : Prop :=
  exists tasks tr k p, calc_exec m c file tasks tr k p /\ finished p /\ r = calc_result (p_shared p).
(** C101: the bounding box of the whole is the least box around the boxes of the files that have one; a panic exactly if none has one *)
Theorem C101_bounding_box m c files rs r : Forall blob_file files -> Forall2 (box_of m c) files rs -> box_of m c (concat files) r ->
  match r with
  | Ok b => box_ok b /\ (exists a, In (Ok a) rs) /\ (forall a, In (Ok a) rs -> box_le a b) /\ (forall o, (forall a, In (Ok a) rs -> box_le a o) -> box_le b o)
  | _ => forall a, ~ In (Ok a) rs
  end.
Proof.
  intros FF F (tasks & tr & k & p & E & Fi & ->).
  assert (G : exists parts, Forall2 (file_blocks m c) files parts /\
    Forall2 (fun blks x => match x with Ok a => (exists q, leading_at blks q) /\ leading_hull blks a | _ => forall q, ~ leading_at blks q end) parts rs).
  { clear - F. induction F as [|f x files rs (tasks & tr & k & p & E & Fi & ->) F (parts & A & B)]; [exists []; split; constructor|].
    destruct (C60_exact_bounding_box _ _ _ _ _ _ _ E Fi) as (blks & Bf & X). exists (blks :: parts). split; constructor; auto. }
  destruct G as (parts & A & B). destruct (C60_exact_bounding_box _ _ _ _ _ _ _ E Fi) as (blks & Bf & X). pose proof (C101_blocks _ _ _ _ FF A) as B'. destruct (run_det _ _ _ _ _ _ Bf B') as (-> & _).
  assert (LA : forall q, leading_at (numbered 0 (concat parts)) q <-> Exists (fun bs => leading_at bs q) parts).
  { intros q. rewrite leading_numbered. clear. unfold leading_at. rewrite Exists_exists. split.
    - intros (b & n & I & L & C). apply in_concat in I as (bs & I1 & I2). exists bs. split; auto. exists b, n. auto.
    - intros (bs & I1 & b & n & I2 & L & C). exists b, n. split; [apply in_concat; eauto|auto]. }
  assert (FromPart : forall q, Exists (fun bs => leading_at bs q) parts -> exists a, In (Ok a) rs /\ in_box q a).
  { intros q H. clear - B H. induction B as [|bs x parts rs X B IH]; [inversion H|]. inversion H as [? ? L|? ? L]; subst.
    - destruct x as [a| |]; [|exfalso; exact (X _ L)..]. exists a. split; [left; auto|]. destruct X as (_ & _ & X & _). auto.
    - destruct (IH L) as (a & I & Q). exists a. split; [right; auto|auto]. }
  assert (ToPart : forall a, In (Ok a) rs -> exists bs, In bs parts /\ (exists q, leading_at bs q) /\ leading_hull bs a).
  { intros a H. clear - B H. induction B as [|bs x parts rs X B IH]; [destruct H|]. destruct H as [->|H]; [exists bs; split; [left; auto|exact X]|]. destruct (IH H) as (bs' & I & Y). exists bs'. split; [right; auto|exact Y]. }
  destruct (calc_result (p_shared p)) as [b| |].
  - destruct X as ((q & Lq) & OK & In1 & Le). split; [exact OK|]. split; [|split].
    + apply LA, FromPart in Lq as (a & I & _). eauto.
    + intros a I. destruct (ToPart a I) as (bs & Ib & _ & (_ & _ & Lea)). apply Lea. intros q' L'. apply In1, LA, Exists_exists. eauto.
    + intros o H. apply Le. intros q' L'. apply LA, FromPart in L' as (a & I & Q). eapply in_box_le; eauto.
  - intros a I. destruct (ToPart a I) as (bs & Ib & (q & Lq) & _). apply (X q), LA, Exists_exists. eauto.
  - intros a I. destruct (ToPart a I) as (bs & Ib & (q & Lq) & _). apply (X q), LA, Exists_exists. eauto.
Qed.

(** every file the sequential or the parallel writer leaves is such a file *)
Lemma frames_blob_file l : Forall frame_ok l -> blob_file (frames_bytes l).
Proof.
  intros F. exists l. split; [|reflexivity]. eapply Forall_impl; [|exact F]. intros f ((U & I) & D & H). pose proof (frame_ok_len f (conj (conj U I) (conj D H))) as L.
  unfold consistent_blob, below_2GiB. unfold max_i32 in *. sconj; auto; lia.
Qed.

(** a file left by the sequential writer after any calls, or by the parallel writer in any schedule *)
Inductive pbf_written (m : mode) (c : codec) (file : bytes) : Prop :=
| by_writer i k cs : info_ok i -> ~ info_empty i -> PropFile.header_fits c k i -> Forall PropCalls.call_ok cs -> PropCalls.calls_fit m c k cs ->
    Calls.calls_file m c i k cs = Ok file -> pbf_written m c file
| by_parallel_writer i k B K sort n cs : info_ok i -> ~ info_empty i -> PropFile.header_fits c k i -> ParallelWriteSpec.sort_ok sort ->
    Forall element_ok (flat_map ParallelWrite.written cs) -> Forall not_sentinel (flat_map ParallelWrite.written cs) ->
    PropParallelWrite.choices_fit m c k K (flat_map ParallelWrite.written cs) ->
    PropParallelWrite.parallel_file m c k i B K sort n cs file -> pbf_written m c file.
Theorem C101_written m c file : codec_ok c -> pbf_written m c file ->
  blob_file file /\ exists i blks, file_blocks m c file blks /\ header_first blks i.
Proof.
  assert (DF : forall blks, Forall is_data blks -> Forall (fun b => match b with FData _ _ => True | FHeader _ _ => False end) blks) by (intros blks F; eapply Forall_impl; [|exact F]; intros [?|?]; auto).
  intros C [i k cs IO NE HF CO CF E|i k B K sort n cs IO NE HF S EO NS CF E].
  - destruct (PropCalls.calls_file_frames m c i k cs file C IO NE HF CO CF E) as (l & blks & bs & a & _ & -> & FO & D & ID & _).
    split; [apply frames_blob_file; exact FO|]. eexists _, _. split; [exact (fb_run_frames m c _ _ [] bit_new FO at_end_new D)|]. eexists _, _. split; [reflexivity|auto].
  - destruct (PropParallelWrite.parallel_file_frames m c k i B K sort n cs file C IO NE HF S EO NS CF E) as (_ & l & blks & _ & _ & -> & FO & D & ID & _).
    split; [apply frames_blob_file; exact FO|]. eexists _, _. split; [exact (fb_run_frames m c _ _ [] bit_new FO at_end_new D)|]. eexists _, _. split; [reflexivity|auto].
Qed.
(** C101: in particular for files written by this library *)
Theorem C101_appended m c f g rest : codec_ok c -> pbf_written m c f -> pbf_written m c g ->
  reader_new m c (f ++ g ++ rest) = reader_new m c f /\ (forall l o, elements_run m c (f ++ g ++ rest) l o <-> elements_run m c f l o).
Proof.
  intros C F G. destruct (C101_written _ _ _ C F) as (BF & i & blks & B & H). destruct (C101_written _ _ _ C G) as (BG & ig & blksg & BB & (ix & r & -> & _)).
  destruct (C101_first_only m c f i blks g (FHeader ix ig) r rest BF B H BG BB I) as (A1 & A2 & _). auto.
Qed.
Theorem C101_appended_cut m c f p r : codec_ok c -> pbf_written m c f -> pbf_written m c (p ++ r) ->
  reader_new m c (f ++ p) = reader_new m c f /\
  forall l o, elements_run m c f l o -> exists o', elements_run m c (f ++ p) l o' /\ (o' = Panicked <-> run (fb_next m c p) bit_new [] Panicked).
Proof.
  intros C F G. destruct (C101_written _ _ _ C F) as (BF & i & blks & B & H). destruct (C101_written _ _ _ C G) as (BG & ig & blksg & BB & (ix & rb & -> & _)).
  destruct (C101_cut m c f i blks (p ++ r) (FHeader ix ig) rb p r BF B H BG BB I eq_refl) as (A1 & o' & R & O). split; [exact A1|]. intros l o R0.
  assert (l = flat_map elements_of blks) as ->; [|eauto].
  destruct (C101_first_only m c f i blks (p ++ r) (FHeader ix ig) rb [] BF B H BG BB I) as (_ & _ & R1). destruct (C16_unique _ _ _ _ _ _ _ R0 R1) as (-> & _). reflexivity.
Qed.
