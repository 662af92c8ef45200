(** C69: what the reader does with any file. *)
From Coq Require Import ZArith List Bool Lia Strings.Byte Strings.String.
From Verif Require Import Base BaseFacts Types Proto ProtoFacts Block BlockFacts FormatSpec FileFormat FileFacts WriterFacts Spec FileSpec PropBlock PropFile WireSpec WireFacts WireMsg PropWire ReadSpec.
Import ListNotations.
Local Notation length := List.length.
Local Notation concat := List.concat.
Open Scope Z_scope.

Lemma big_endian_len lb n : big_endian lb n -> zlen lb = 4. Proof. intros (a & b & c & d & -> & _). reflexivity. Qed.
Lemma big_endian_unique lb n n' : big_endian lb n -> big_endian lb n' -> n = n'.
Proof. intros (a & b & c & d & -> & ->) (a' & b' & c' & d' & E & ->). injection E as <- <- <- <-. reflexivity. Qed.
Lemma big_endian_total lb : zlen lb = 4 -> exists n, big_endian lb n.
Proof.
  intros H. destruct lb as [|a [|b [|c [|d [|]]]]]; try (unfold zlen in H; cbn in H; lia). eexists. exists a, b, c, d. split; reflexivity.
Qed.
Lemma big_endian_negative lb n : big_endian lb n -> (2147483648 <= n <-> of_be32 lb < 0).
Proof.
  intros B. split.
  - intros L. destruct B as (a & b & c & d & -> & ->). unfold of_be32, fold_left, wrap32, two31, two32.
    pose proof (b2z_range a). pose proof (b2z_range b). pose proof (b2z_range c). pose proof (b2z_range d).
    replace ((((0 * 256 + b2z a) * 256 + b2z b) * 256 + b2z c) * 256 + b2z d) with (b2z a * 16777216 + b2z b * 65536 + b2z c * 256 + b2z d) by ring.
    set (n := b2z a * 16777216 + b2z b * 65536 + b2z c * 256 + b2z d) in *. assert (n < 4294967296) by (unfold n; lia).
    replace (n + 2147483648) with ((n - 2147483648) + 1 * 4294967296) by ring. rewrite Z.mod_add, Z.mod_small by lia. lia.
  - intros N. destruct (Z_lt_le_dec n 2147483648) as [L|L]; auto. destruct (of_be32_value lb n B) as (_ & E); [lia|]. rewrite E in N.
    destruct B as (a & b & c & d & -> & ->). pose proof (b2z_range a). pose proof (b2z_range b). pose proof (b2z_range c). pose proof (b2z_range d). lia.
Qed.
Lemma split_same {A} (a b a' b' : list A) : a ++ b = a' ++ b' -> length a = length a' -> a = a' /\ b = b'.
Proof. revert a'. induction a as [|x a IH]; intros [|x' a'] E L; try discriminate L; cbn in *; auto. injection E as <- E. destruct (IH a' E) as (-> & ->); auto. Qed.
Lemma zlen_same {A} (a b : list A) : zlen a = zlen b -> length a = length b. Proof. unfold zlen. lia. Qed.

(** ** One blob *)
Lemma block_in_deserialize c d body blk : fblock_deserialize Wrapping c d body = Ok blk <-> block_in c (bd_index d) (bd_type d) body blk.
Proof.
  unfold fblock_deserialize, block_in. split.
  - destruct (blob_decode body) as [b|] eqn:B; [|discriminate]. cbn [of_option bind]. destruct (read_blob_data c b) as [p| |] eqn:R; try discriminate. cbn [bind].
    apply read_blob_data_spec in R. apply blob_dec in B. intros H. exists b, p. sconj; auto. unfold fblock_new in H.
    destruct (bytes_eqb (bd_type d) (str "OSMHeader")) eqn:E1; [|destruct (bytes_eqb (bd_type d) (str "OSMData")) eqn:E2; [|discriminate]].
    + left. apply bytes_eqb_eq in E1. split; auto. destruct (osm_header_from_bytes p) as [i| |] eqn:E; try discriminate. cbn [bind] in H. injection H as <-. exists i. split; auto. apply C56_header_payload; auto.
    + right. apply bytes_eqb_eq in E2. split; auto. destruct (osm_data_new Wrapping p) as [es| |] eqn:E; try discriminate. cbn [bind] in H. injection H as <-. exists es. split; auto. eapply (proj1 C56_data_payload); eauto.
  - intros (b & p & B & R & H). apply blob_dec in B. apply read_blob_data_spec in R. rewrite B. cbn [of_option bind]. rewrite R. cbn [bind]. unfold fblock_new.
    destruct H as [(-> & i & P & ->)|(-> & es & P & ->)].
    + rewrite bytes_eqb_refl. apply C56_header_payload in P. rewrite P. reflexivity.
    + replace (bytes_eqb (str "OSMData") (str "OSMHeader")) with false by (vm_compute; reflexivity). rewrite bytes_eqb_refl. apply (proj2 C56_data_payload) in P. rewrite P. reflexivity.
Qed.
(** what one step of the block iterator does at position [p] of the file *)
Inductive one_step (c : codec) (i : Z) (file : bytes) (p : Z) : res (option fblock * bit) -> Prop :=
| os_end s' : blocks_of c i (from_pos file p) [] Ended -> one_step c i file p (Ok (None, s'))
| os_panic : blocks_of c i (from_pos file p) [] Panicked -> one_step c i file p Panic
| os_block blk s' : i + 1 = bi_index s' -> p < bi_pos s' + wrap64 (bi_jump s') <= zlen file ->
    (forall l o, blocks_of c (i + 1) (from_pos file (bi_pos s' + wrap64 (bi_jump s'))) l o -> blocks_of c i (from_pos file p) (blk :: l) o) ->
    one_step c i file p (Ok (Some blk, s')).
Lemma skipn_more {A} (l : list A) : forall n m, skipn (n + m) l = skipn m (skipn n l).
Proof. intros n. revert l. induction n as [|n IH]; intros [|x l] m; cbn; auto; rewrite ?skipn_nil; auto. Qed.
Lemma from_pos_more file p a r : 0 <= p -> from_pos file p = a ++ r -> from_pos file (p + zlen a) = r.
Proof. intros P E. unfold from_pos in *. rewrite Z2Nat.inj_add by (auto; apply zlen_nonneg). rewrite skipn_more, E. unfold zlen. rewrite Nat2Z.id, skipn_app, skipn_all, Nat.sub_diag. reflexivity. Qed.
Lemma fb_one_step c file s : let p := bi_pos s + wrap64 (bi_jump s) in 0 <= p <= zlen file -> one_step c (bi_index s) file p (fb_next Wrapping c file s).
Proof.
  intros p P. unfold fb_next, blob_next. fold p. replace (p <? 0) with false by (symmetry; apply Z.ltb_ge; lia).
  destruct (take_exact 4 (from_pos file p)) as [[lb r]|] eqn:T.
  2:{ cbn [bind]. apply os_end, bo_no_length. apply take_exact_none in T; lia. }
  apply take_exact_some in T. destruct T as (T & L4 & _). destruct (big_endian_total lb L4) as (n & BE). pose proof (big_endian_negative lb n BE) as NEG.
  destruct (of_be32 lb <? 0) eqn:SG.
  { cbn [bind]. apply os_panic. rewrite T. eapply bo_huge_length; eauto. apply NEG. lia. }
  assert (n < 2147483648) by (destruct (Z_lt_le_dec n 2147483648) as [|X]; auto; apply NEG in X; lia).
  destruct (of_be32_value lb n BE) as (_ & V); [lia|]. rewrite V in *. assert (FP : from_pos file (p + 4) = r) by (rewrite <- L4; apply (from_pos_more file p lb r); auto; lia). rewrite FP.
  destruct (take_exact n r) as [[hb r2]|] eqn:T2.
  2:{ cbn [bind]. apply os_end. rewrite T. eapply bo_header_cut; eauto. apply take_exact_none in T2; lia. }
  apply take_exact_some in T2. destruct T2 as (-> & L5 & _). rewrite <- L5 in BE.
  destruct (blob_header_decode hb) as [h|] eqn:HD.
  2:{ cbn [bind]. apply os_end. rewrite T. apply bo_header_invalid; auto; [lia|]. intros h X. apply blob_header_dec in X. congruence. }
  cbn [bind]. pose proof (proj1 (blob_header_dec _ _) HD) as HI.
  assert (FP2 : from_pos file (p + 4 + n) = r2) by (rewrite <- L5; apply (from_pos_more file (p + 4) hb r2); auto; lia).
  unfold from_blob_desc. cbn [bd_start bd_length bd_index bd_type].
  assert (RANGE : -2147483648 <= bh_datasize h <= 2147483647).
  { destruct HI as (fs & _ & _ & _ & o & (us & _ & O) & ->). destruct (last_opt us) as [u|], o as [z|]; try (destruct O; fail); [destruct O as (O & _); auto|lia]. }
  destruct (Z_lt_le_dec (bh_datasize h) 0) as [ND|ND].
  { replace (max_i64 <? bh_datasize h mod two64) with true.
    - cbn [unwrap_res bind]. apply os_panic. rewrite T. eapply bo_body_invalid; eauto; [lia|]. intros body r' blk _ Z0. pose proof (zlen_nonneg body). lia.
    - symmetry. apply Z.ltb_lt. unfold max_i64, two64. replace (bh_datasize h) with ((bh_datasize h + 18446744073709551616) + (-1) * 18446744073709551616) by ring. rewrite Z.mod_add, Z.mod_small by lia. lia. }
  rewrite Z.mod_small by (unfold two64; lia). replace (max_i64 <? bh_datasize h) with false by (symmetry; apply Z.ltb_ge; unfold max_i64; lia).
  rewrite FP2. destruct (take_exact (bh_datasize h) r2) as [[body r3]|] eqn:T3.
  2:{ cbn [unwrap_res bind]. apply os_panic. rewrite T. eapply bo_body_invalid; eauto; [lia|]. intros body r' blk -> Z0. apply take_exact_none in T3; auto. rewrite zlen_app in T3. pose proof (zlen_nonneg r'). lia. }
  apply take_exact_some in T3. destruct T3 as (-> & L6 & _).
  set (d := BlobDesc (bi_index s) (p + 4 + n) (bh_datasize h) (bh_type h)).
  destruct (fblock_deserialize Wrapping c d body) as [blk| |] eqn:DS.
  - cbn [unwrap_res bind]. pose proof (proj1 (block_in_deserialize _ _ _ _) DS) as BI. cbn [bd_index bd_type d] in BI.
    assert (W : wrap64 (bh_datasize h) = bh_datasize h) by (apply wrap64_id; unfold I64; lia).
    apply os_block; cbn [bi_index bi_pos bi_jump]; auto; rewrite W.
    + assert (Q : zlen (from_pos file p) = zlen file - p) by (rewrite from_pos_len; lia). rewrite T, !zlen_app in Q. pose proof (zlen_nonneg r3). pose proof (zlen_nonneg hb). lia.
    + intros l o B. rewrite T. eapply bo_block; eauto; [lia|]. rewrite <- L6 in B. rewrite (from_pos_more file (p + 4 + n) body r3) in B; auto. lia.
  - cbn [unwrap_res bind]. apply os_panic. rewrite T. eapply bo_body_invalid; eauto; [lia|]. intros body' r' blk E Z0 BI.
    apply split_same in E; [|apply zlen_same; lia]. destruct E as (-> & _). apply (block_in_deserialize c d) in BI. congruence.
  - cbn [unwrap_res bind]. apply os_panic. rewrite T. eapply bo_body_invalid; eauto; [lia|]. intros body' r' blk E Z0 BI.
    apply split_same in E; [|apply zlen_same; lia]. destruct E as (-> & _). apply (block_in_deserialize c d) in BI. congruence.
Qed.
(** ** All blobs *)
Lemma run_blocks c file s l o : run (fb_next Wrapping c file) s l o -> 0 <= bi_pos s + wrap64 (bi_jump s) <= zlen file ->
  blocks_of c (bi_index s) (from_pos file (bi_pos s + wrap64 (bi_jump s))) l o.
Proof.
  induction 1 as [s s' E|s E|s b s' l o E R IH]; intros P; pose proof (fb_one_step c file s P) as O; rewrite E in O; inversion O as [? B|B|? ? I0 Q B]; subst; auto.
  rewrite I0 in B. apply B. apply IH. lia.
Qed.
Lemma block_in_unique c i t body b b' : block_in c i t body b -> block_in c i t body b' -> b = b'.
Proof.
  intros H H'. apply (block_in_deserialize c (BlobDesc i 0 0 t)) in H, H'. congruence.
Qed.
Lemma header_unique hb h h' : blob_header_is hb h -> blob_header_is hb h' -> h = h'.
Proof. apply C56_meaning_unique. Qed.
(** every file has exactly one list of blocks *)
Lemma blocks_of_unique c i rest l o : blocks_of c i rest l o -> forall l' o', blocks_of c i rest l' o' -> l = l' /\ o = o'.
Proof.
  assert (SP : forall lb n lb' n' (r r' : bytes), big_endian lb n -> big_endian lb' n' -> lb ++ r = lb' ++ r' -> lb = lb' /\ n = n' /\ r = r').
  { intros lb n lb' n' r r' B B' E. apply split_same in E; [|apply zlen_same; rewrite (big_endian_len _ _ B), (big_endian_len _ _ B'); auto]. destruct E as (-> & ->). sconj; auto. eapply big_endian_unique; eauto. }
  assert (SH : forall (r : bytes) lb n, zlen (lb ++ r) < 4 -> big_endian lb n -> False).
  { intros r lb n L B. rewrite zlen_app, (big_endian_len _ _ B) in L. pose proof (zlen_nonneg r). lia. }
  assert (SB : forall (hb r hb' r' : bytes), zlen hb = zlen hb' -> hb ++ r = hb' ++ r' -> hb = hb' /\ r = r') by (intros; apply split_same; auto; apply zlen_same; auto).
  induction 1 as [i rest L|i lb n rest B L|i lb n rest B L C|i lb hb rest B L N|i lb hb h rest B L H N|i lb hb h body rest blk l o B L H Z0 BI R IH];
    intros l' o' H'; inversion H' as [i' rest' L' E1 E2 E3|i' lb' n' rest' B' L' E1 E2 E3|i' lb' n' rest' B' L' C' E1 E2 E3|i' lb' hb' rest' B' L' N' E1 E2 E3|i' lb' hb' h' rest' B' L' H0' N' E1 E2 E3|i' lb' hb' h' body' rest' blk' l0 o0 B' L' H0' Z0' BI' R' E1 E2 E3]; subst; auto;
    try (exfalso; eapply SH; eauto; fail);
    match goal with X : _ ++ _ = _ ++ _ |- _ => eapply SP in X; [|eauto|eauto]; destruct X as (-> & X1 & X2) end; subst; try lia; auto.
  all: try (exfalso; rewrite zlen_app in *; match goal with X : zlen ?a + zlen ?b < _ |- _ => pose proof (zlen_nonneg b) end; lia).
  all: try (apply SB in X2; auto; destruct X2 as (-> & X2)).
  all: try (exfalso; match goal with N : forall h, ~ blob_header_is ?hb h, H : blob_header_is ?hb ?h |- _ => exact (N h H) end).
  all: match goal with H : blob_header_is ?hb ?a, H' : blob_header_is ?hb ?b |- _ => pose proof (header_unique _ _ _ H H'); subst end; auto.
  - exfalso. eapply N; eauto.
  - exfalso. eapply N'; eauto.
  - apply SB in X2; [|lia]. destruct X2 as (-> & ->). assert (blk = blk') as -> by (eapply block_in_unique; eauto). destruct (IH _ _ R') as (-> & ->). auto.
Qed.
(** ** C69 *)
Lemma from_pos_0 file : from_pos file 0 = file. Proof. reflexivity. Qed.
Theorem C69_blocks c file l o : run (fb_next Wrapping c file) bit_new l o <-> blocks_of c 0 file l o.
Proof.
  assert (F : forall l o, run (fb_next Wrapping c file) bit_new l o -> blocks_of c 0 file l o).
  { intros l0 o0 R. apply run_blocks in R; [exact R|]. cbn [bi_pos bi_jump bit_new]. change (wrap64 0) with 0. pose proof (zlen_nonneg file). lia. }
  split; auto. intros B. destruct (C20_blocks_terminate Wrapping c file) as (l0 & o0 & R & _). destruct (blocks_of_unique _ _ _ _ _ B _ _ (F _ _ R)) as (-> & ->). exact R.
Qed.
Theorem C69_one_meaning c file : exists l o, blocks_of c 0 file l o /\ forall l' o', blocks_of c 0 file l' o' -> l' = l /\ o' = o.
Proof.
  destruct (C20_blocks_terminate Wrapping c file) as (l0 & o0 & R & _). apply C69_blocks in R. exists l0, o0. split; auto. intros l' o' B. apply (blocks_of_unique _ _ _ _ _ B _ _ R).
Qed.
Lemma missing_supported l : find_missing supported_features l = [] <-> Forall supported l.
Proof.
  unfold find_missing. induction l as [|x l IH]; cbn [filter]; [split; auto|]. destruct (existsb (bytes_eqb x) supported_features) eqn:E; cbn [negb].
  - rewrite IH. apply existsb_exists in E. destruct E as (y & I & E). apply bytes_eqb_eq in E. subst y. split.
    + intros F. constructor; auto. unfold supported. cbn in I. intuition.
    + intros F. inversion F; auto.
  - split; [discriminate|]. intros F. inversion F as [|? ? S _]; subst. exfalso. rewrite <- not_true_iff_false in E. apply E. apply existsb_exists. exists x. split; [|apply bytes_eqb_refl].
    unfold supported_features. destruct S as [S|[S|[S|S]]]; subst x; cbn; auto.
Qed.
Lemma first_block c file : (exists b s l o, fb_next Wrapping c file bit_new = Ok (Some b, s) /\ run (fb_next Wrapping c file) s l o /\ blocks_of c 0 file (b :: l) o) \/
  (exists s, fb_next Wrapping c file bit_new = Ok (None, s) /\ blocks_of c 0 file [] Ended) \/
  (fb_next Wrapping c file bit_new = Panic /\ blocks_of c 0 file [] Panicked).
Proof.
  destruct (C20_blocks_terminate Wrapping c file) as (l & o & R & _). pose proof (proj1 (C69_blocks _ _ _ _) R) as B. inversion R as [? s' E|? E|? b s' l' o' E R']; subst; eauto 12.
Qed.
Theorem C69_reader_new c file :
  (forall i, FileFormat.reader_new Wrapping c file = Ok i <-> Forall supported (fi_required i) /\ exists l o, blocks_of c 0 file (FHeader 0 i :: l) o) /\
  (FileFormat.reader_new Wrapping c file = Panic <-> blocks_of c 0 file [] Panicked).
Proof.
  unfold FileFormat.reader_new. destruct (first_block c file) as [(b & s & l & o & -> & R & B)|[(s & -> & B)|(-> & B)]]; cbn [bind].
  - assert (IX : forall ix i, b = FHeader ix i -> ix = 0).
    { intros ix i ->. inversion B as [| | | | |? ? ? ? ? ? ? ? ? ? ? ? ? (? & ? & _ & _ & [(_ & ? & _ & E)|(_ & ? & _ & E)]) ?]; congruence. }
    split.
    + intros i. split.
      * destruct b as [ix i0|ix es]; [|discriminate]. rewrite (IX _ _ eq_refl) in *. destruct (find_missing supported_features (fi_required i0)) eqn:M; [|discriminate]. intros H. injection H as <-. apply missing_supported in M. eauto.
      * intros (S & l' & o' & B'). destruct (blocks_of_unique _ _ _ _ _ B _ _ B') as (E & _). injection E as -> _. apply missing_supported in S. rewrite S. reflexivity.
    + split.
      * destruct b as [ix i0|ix es]; [|discriminate]. destruct (find_missing supported_features (fi_required i0)); discriminate.
      * intros B'. destruct (blocks_of_unique _ _ _ _ _ B _ _ B') as (E & _). discriminate E.
  - split; [intros i|]; split; try discriminate.
    + intros (_ & l' & o' & B'). destruct (blocks_of_unique _ _ _ _ _ B _ _ B') as (E & _). discriminate E.
    + intros B'. destruct (blocks_of_unique _ _ _ _ _ B _ _ B') as (_ & E). discriminate E.
  - split; [intros i|]; split; try discriminate; auto.
    intros (_ & l' & o' & B'). destruct (blocks_of_unique _ _ _ _ _ B _ _ B') as (E & _). discriminate E.
Qed.
Lemma el_run_items m c file s r l o : el_run m c file s (Some []) l o -> el_run m c file s (Some r) (r ++ l) o.
Proof. induction r; cbn; auto. intros. constructor; auto. Qed.
Lemma el_run_blocks m c file s l o : run (fb_next m c file) s l o -> exists es o', elements_in l o es o' /\ el_run m c file s (Some []) es o'.
Proof.
  induction 1 as [s s' E|s E|s b s' l o E R (es & o' & IN & IH)].
  - exists [], Ended. split; [constructor|]. eapply elr_refill with (it := None); [|constructor]. unfold create_element_iterator. rewrite E. reflexivity.
  - exists [], Panicked. split; [constructor|]. apply elr_panic. unfold create_element_iterator. rewrite E. reflexivity.
  - destruct b as [ix i|ix es0].
    + exists [], Ended. split; [constructor|]. eapply elr_refill with (it := None); [|constructor]. unfold create_element_iterator. rewrite E. reflexivity.
    + exists (es0 ++ es), o'. split; [constructor; auto|]. eapply elr_refill with (it := Some es0); [unfold create_element_iterator; rewrite E; reflexivity|]. apply el_run_items; auto.
Qed.
Lemma elements_after_first m c file b s l o : fb_next m c file bit_new = Ok (Some b, s) -> run (fb_next m c file) s l o -> exists es o', elements_in l o es o' /\ elements_run m c file es o'.
Proof.
  intros E R. inversion R as [? s' E2|? E2|? b2 s' l' o' E2 R']; subst.
  - exists [], Ended. split; [constructor|]. eapply els_loop; [exact E|unfold create_element_iterator; rewrite E2; reflexivity|constructor].
  - exists [], Panicked. split; [constructor|]. eapply els_new_panic; [exact E|unfold create_element_iterator; rewrite E2; reflexivity].
  - destruct b2 as [ix i|ix es0].
    + exists [], Ended. split; [constructor|]. eapply els_loop; [exact E|unfold create_element_iterator; rewrite E2; reflexivity|constructor].
    + destruct (el_run_blocks _ _ _ _ _ _ R') as (es & oo & IN & X). exists (es0 ++ es), oo. split; [constructor; auto|].
      eapply els_loop; [exact E|unfold create_element_iterator; rewrite E2; reflexivity|]. apply el_run_items; auto.
Qed.
Lemma elements_in_unique l o es o' : elements_in l o es o' -> forall es2 o2, elements_in l o es2 o2 -> es = es2 /\ o' = o2.
Proof. induction 1 as [|ix i l o|ix es l o es' o' H IH]; intros es2 o2 H2; inversion H2; subst; auto. match goal with X : elements_in l o _ _ |- _ => destruct (IH _ _ X) as (-> & ->) end. auto. Qed.
Theorem C69_elements c file i es o : FileFormat.reader_new Wrapping c file = Ok i ->
  (elements_run Wrapping c file es o <-> exists l o', blocks_of c 0 file (FHeader 0 i :: l) o' /\ elements_in l o' es o).
Proof.
  intros RN. apply C69_reader_new in RN. destruct RN as (_ & l & o' & B). pose proof (proj2 (C69_blocks _ _ _ _) B) as R. inversion R as [| |? b s l' oo E R']; subst.
  destruct (elements_after_first _ _ _ _ _ _ _ E R') as (es' & o2 & IN & X). split.
  - intros H. destruct (C16_unique _ _ _ _ _ _ _ H X) as (-> & ->). eauto.
  - intros (l2 & o3 & B2 & IN2). destruct (blocks_of_unique _ _ _ _ _ B _ _ B2) as (EQ & ->). injection EQ as ->. destruct (elements_in_unique _ _ _ _ IN _ _ IN2) as (-> & ->). exact X.
Qed.
(** ** Debug builds: the same, except that arithmetic overflow panics *)
Lemma checked_block c d body blk : fblock_deserialize Checked c d body = Ok blk -> fblock_deserialize Wrapping c d body = Ok blk.
Proof.
  unfold fblock_deserialize. destruct (blob_decode body) as [b|]; [|discriminate]. cbn [of_option bind]. destruct (read_blob_data c b) as [p| |]; try discriminate. cbn [bind]. unfold fblock_new.
  destruct (bytes_eqb (bd_type d) (str "OSMHeader")); auto. destruct (bytes_eqb (bd_type d) (str "OSMData")); [|discriminate].
  destruct (osm_data_new Checked p) as [es| |] eqn:E; try discriminate. apply (proj1 C56_data_payload), (proj2 C56_data_payload) in E. rewrite E. auto.
Qed.
Lemma checked_next c file s : fb_next Checked c file s = fb_next Wrapping c file s \/ fb_next Checked c file s = Panic.
Proof.
  unfold fb_next. destruct (blob_next file s) as [[[d|] s']| |]; cbn [bind]; auto. unfold from_blob_desc. destruct (max_i64 <? bd_length d); auto.
  destruct (take_exact (bd_length d) (from_pos file (bd_start d))) as [[buf r]|]; auto.
  destruct (fblock_deserialize Checked c d buf) as [b| |] eqn:E; cbn [unwrap_res bind]; auto. apply checked_block in E. rewrite E. auto.
Qed.
(** a debug build yields the same blocks, or panics after some of them *)
Lemma checked_run c file s l o : run (fb_next Wrapping c file) s l o ->
  exists l' o', run (fb_next Checked c file) s l' o' /\ ((l' = l /\ o' = o) \/ (o' = Panicked /\ exists r, l = l' ++ r)).
Proof.
  induction 1 as [s s' E|s E|s b s' l o E R (l' & o' & R' & IH)]; destruct (checked_next c file s) as [X|X]; try rewrite E in X.
  - exists [], Ended. split; [eapply run_end; eauto|auto].
  - exists [], Panicked. split; [eapply run_panic; eauto|right; split; auto; exists []; auto].
  - exists [], Panicked. split; [eapply run_panic; eauto|auto].
  - exists [], Panicked. split; [eapply run_panic; eauto|auto].
  - exists (b :: l'), o'. split; [eapply run_step; eauto|]. destruct IH as [(-> & ->)|(-> & r & ->)]; [auto|right; split; auto; exists r; auto].
  - exists [], Panicked. split; [eapply run_panic; eauto|right; split; auto; exists (b :: l); auto].
Qed.
Lemma elements_in_cut l1 l2 o es o' : elements_in (l1 ++ l2) o es o' -> exists es1 o1, elements_in l1 Panicked es1 o1 /\ ((es1 = es /\ o1 = o') \/ (o1 = Panicked /\ exists r, es = es1 ++ r)).
Proof.
  revert es o'. induction l1 as [|b l1 IH]; intros es o' H.
  - exists [], Panicked. split; [constructor|]. right. split; auto. exists es. auto.
  - cbn in H. inversion H as [|ix i l oo|ix es0 l oo es' oo' H']; subst.
    + exists [], Ended. split; [constructor|auto].
    + destruct (IH _ _ H') as (es1 & o1 & IN & D). exists (es0 ++ es1), o1. split; [constructor; auto|]. destruct D as [(-> & ->)|(-> & r & ->)]; [auto|right; split; auto; exists r; rewrite app_assoc; auto].
Qed.
Lemma run_unique m c file s l o : run (fb_next m c file) s l o -> forall l' o', run (fb_next m c file) s l' o' -> l = l' /\ o = o'.
Proof.
  induction 1 as [s s' E|s E|s b s' l o E R IH]; intros l' o' H; inversion H as [? ? E'|? E'|? b2 s2 l2 o2 E' R']; subst; rewrite E in E'; try discriminate E'; auto.
  injection E' as <- <-. destruct (IH _ _ R') as (-> & ->). auto.
Qed.
Theorem C69_debug_build c file :
  (forall l o, blocks_of c 0 file l o -> exists l' o', run (fb_next Checked c file) bit_new l' o' /\ ((l' = l /\ o' = o) \/ (o' = Panicked /\ exists r, l = l' ++ r))) /\
  (forall i, FileFormat.reader_new Checked c file = Ok i <-> FileFormat.reader_new Wrapping c file = Ok i) /\
  (forall i es o, FileFormat.reader_new Wrapping c file = Ok i -> elements_run Wrapping c file es o ->
     exists es' o', elements_run Checked c file es' o' /\ ((es' = es /\ o' = o) \/ (o' = Panicked /\ exists r, es = es' ++ r))).
Proof.
  sconj.
  - intros l o B. apply checked_run. apply C69_blocks. exact B.
  - intros i. rewrite !C14_feature_gate. reflexivity.
  - intros i es o RN H. pose proof RN as RW. rewrite C14_feature_gate in RN.
    assert (RC : FileFormat.reader_new Checked c file = Ok i) by (apply C14_feature_gate; exact RN). clear RN.
    apply (C69_elements c file i es o RW) in H. destruct H as (l & o' & B & IN). apply C69_blocks in B. destruct (checked_run _ _ _ _ _ B) as (l' & o2 & R & D).
    destruct l' as [|b l'].
    { exfalso. unfold FileFormat.reader_new in RC. inversion R as [? ? E|? E|]; subst; rewrite E in RC; discriminate RC. }
    assert (exists s, fb_next Checked c file bit_new = Ok (Some b, s) /\ run (fb_next Checked c file) s l' o2) as (s & E & R') by (inversion R; subst; eauto).
    destruct (elements_after_first _ _ _ _ _ _ _ E R') as (es' & o3 & IN' & X). exists es', o3. split; auto.
    destruct D as [(D & ->)|(-> & r & D)].
    + injection D as -> ->. destruct (elements_in_unique _ _ _ _ IN _ _ IN') as (-> & ->). auto.
    + cbn in D. injection D as <- ->. apply elements_in_cut in IN. destruct IN as (es1 & o1 & IN1 & D1). destruct (elements_in_unique _ _ _ _ IN' _ _ IN1) as (-> & ->). auto.
Qed.
