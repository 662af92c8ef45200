(** Property C97: how many nested calls the files of the library's own writers need. *)
From Coq Require Import ZArith List Bool Strings.Byte Strings.String Lia Permutation.
From Verif Require Import Base BaseFacts Types Proto ProtoFacts Block BlockFacts FloatFacts.
From Verif Require Import Spec SpecFacts BlockOverflow FormatSpec BlockRead PropBlock.
From Verif Require Import FileFormat FileFacts WriterFacts FileSpec PropFile CallSpec Calls PropCalls ModelSpec Model2 ModelFacts.
From Verif Require Import Pool ParallelSpec PoolFacts ParallelRead ParallelReadFacts PropParallelRead.
From Verif Require Import ParallelWriteSpec ParallelWrite OrderFacts EncodeFacts PropParallelWrite PropLow Stack StackSpec PropStack.
Import ListNotations.
Open Scope nat_scope.
Local Notation length := List.length.
Local Notation concat := List.concat.

(** ** rows of empty chunks *)
Definition no_pair (l : list (list element)) : Prop := forall x y, l <> x ++ [] :: [] :: y.
Definition starts_empty (l : list (list element)) : Prop := exists y, l = [] :: y.
Lemma no_pair_cons b l : no_pair l -> (b = [] -> ~ starts_empty l) -> no_pair (b :: l).
Proof.
  intros N S x y E. destruct x as [|z x].
  - injection E as E1 E2. apply (S E1). exists y. exact E2.
  - injection E as E1 E2. exact (N _ _ E2).
Qed.
Lemma calls_pairs cs : forall a bs a', acc_inv a -> calls_run a cs = Ok (bs, a') ->
  no_pair (from_singles bs) /\ (starts_empty (from_singles bs) -> acc_elements a = []).
Proof.
  induction cs as [|x cs IH]; intros a bs a' I H; cbn [calls_run] in H.
  - injection H as <- <-. cbn. split; [intros [|? x] ? X; discriminate X|intros (y & X); discriminate X].
  - bok H p E. destruct p as [o a1]. bok H p R. destruct p as [bs' a2]. injection H as <- <-. rewrite from_singles_app. destruct x as [e|es|].
    + bok E p A. destruct p as [q a3]. injection E as <- <-. destruct (acc_add_spec _ _ _ _ I A) as (I1 & _). destruct (IH _ _ _ I1 R) as (N & S).
      destruct (acc_add_cases _ _ _ _ I A) as [(_ & -> & ->)|[(_ & _ & [(_ & -> & X)|(_ & -> & X)])|(_ & _ & -> & X)]]; cbn [from_singles flat_map app].
      * split; auto.
      * split; auto. intros Q. apply S in Q. rewrite X in Q. destruct (acc_elements a); discriminate Q.
      * split; [apply no_pair_cons; auto; intros Q; destruct (acc_elements a); discriminate Q|]. intros (y & Q). injection Q as Q _. destruct (acc_elements a); discriminate Q.
      * split; [apply no_pair_cons; auto; intros _ Q; apply S in Q; rewrite X in Q; discriminate Q|]. intros (y & Q). injection Q as Q _. exact Q.
    + injection E as <- <-. cbn [from_singles flat_map app]. eapply IH; eauto.
    + injection E as <- <-. assert (I1 : acc_inv (Acc [] (acc_st a) (acc_index a + 1))).
      { split; [cbn; lia|constructor]. }
      destruct (IH _ _ _ I1 R) as (N & S). destruct (acc_elements a) as [|e r]; cbn [from_singles flat_map app]; split; auto.
      * apply no_pair_cons; auto. intros Q. discriminate Q.
      * intros (y & Q). discriminate Q.
Qed.
Lemma all_empty_short l : Forall (fun b => b = []) l -> no_pair l -> length l <= 1.
Proof.
  intros F N. destruct l as [|a [|b l]]; cbn; try lia. inversion F as [|? ? -> F1]; subst. inversion F1 as [|? ? -> _]; subst. destruct (N [] l eq_refl).
Qed.
Lemma no_pair_part a b c : no_pair (a ++ b ++ c) -> no_pair b.
Proof. intros N x y ->. apply (N (a ++ x) (y ++ c)). rewrite <- !app_assoc. reflexivity. Qed.
Lemma pieces_length bs : length bs = length (from_singles bs) + length (from_batches bs).
Proof. unfold from_singles, from_batches. induction bs as [|b bs IH]; auto. destruct b; cbn [flat_map app length]; rewrite IH; lia. Qed.
Lemma F2_split {A B} (R : A -> B -> Prop) l x y : Forall2 R l (x ++ y) -> exists l1 l2, l = l1 ++ l2 /\ Forall2 R l1 x /\ Forall2 R l2 y.
Proof. intros F. apply Forall2_app_inv_r in F. destruct F as (l1 & l2 & F1 & F2 & ->). eauto. Qed.
Lemma elements_in_blocks blks : elements_in blks = flat_map block_elements blks.
Proof. reflexivity. Qed.
Lemma is_data_blocks blks : Forall is_data blks -> Forall data_block blks.
Proof. intros F. eapply Forall_impl; [|exact F]. intros [i es|i es]; cbn; intros X; try (exists i, es; reflexivity); destruct X. Qed.

(** *** the files of a sequential writer used in any way *)
Theorem C97_written m c i k cs file room :
  codec_ok c -> info_ok i -> ~ info_empty i -> header_fits c k i ->
  Forall call_ok cs -> calls_fit m c k cs -> calls_file m c i k cs = Ok file ->
  length (batches cs) + 3 <= room ->
  exists got, elements_run m c file got Ended /\ elements_within m c file room got (Some Ended).
Proof.
  intros C IO NE HF CO CF H RM.
  destruct (calls_file_frames m c i k cs file) as (l & blks & bs & a & R & -> & FO & D & DD & W); auto.
  pose proof (fb_run_frames m c _ _ [] bit_new FO at_end_new D) as RR. cbn [app] in RR.
  assert (RR' : run (fb_next m c (frames_bytes (header_frame c k i :: l))) bit_new (FHeader 0 (info_read i) :: blks ++ []) Ended) by (rewrite app_nil_r; exact RR).
  destruct (C97_depth m c _ _ _ _ _ room RR' (is_data_blocks _ DD) (or_introl eq_refl)) as (_ & X & _).
  destruct X as (o & X1 & X2).
  { intros (b & r & h & E & F & _ & L). rewrite E in W. apply F2_split in W. destruct W as (w1 & w2 & -> & _ & W). apply F2_split in W. destruct W as (w3 & w4 & -> & W & _).
    assert (ME : Forall (fun x => content (kept_of x) = []) w3).
    { clear - W F. induction W as [|x y l l' E W IH]; constructor; inversion F as [|? ? (j & ->) F']; subst; auto. cbn in E. inversion E. reflexivity. }
    destruct (calls_run_spec _ _ _ _ acc_inv_new R) as (_ & _ & _ & B). destruct (calls_pairs _ _ _ _ acc_inv_new R) as (N & _).
    rewrite !from_singles_app in N. apply no_pair_part in N. rewrite !from_batches_app in B. apply (f_equal (@length _)) in B. rewrite !app_length in B.
    pose proof (pieces_length w3) as PL. apply F2_length in W. assert (ML : length (from_singles w3) <= 1).
    { apply all_empty_short; auto. clear - ME. induction ME as [|x l E F IH]; [constructor|]. destruct x; cbn [from_singles flat_map app] in *; [constructor; auto|exact IH]. }
    clear - RM L PL ML B W. lia. }
  assert (o = Ended).
  { pose proof (elements_run_blocks m c _ _ _ _ RR DD) as Y. destruct (elements_run_det m c _ _ _ _ _ X1 Y) as (_ & Z). exact Z. }
  subst o. eauto.
Qed.
(** *** the files of a parallel writer *)
Theorem C97_parallel m c k i B K sort n cs file room :
  codec_ok c -> info_ok i -> ~ info_empty i -> header_fits c k i ->
  sort_ok sort -> Forall element_ok (flat_map written cs) -> Forall not_sentinel (flat_map written cs) ->
  choices_fit m c k K (flat_map written cs) -> 1 <= K ->
  parallel_file m c k i B K sort n cs file -> 2 <= room ->
  exists got, elements_run m c file got Ended /\ elements_within m c file room got (Some Ended).
Proof.
  intros C IO NE HF S EO NS FIT HK (blocks & w & j & t & H & W & X & Cl & Fi) RM.
  destruct (C27_nothing_lost _ _ _ _ _ S H) as (P & Bl & Full & _). specialize (Full HK).
  destruct (C28_schedule_independent _ _ _ _ _ _ _ _ _ _ _ _ S H X) as (w' & blobs & _ & F & Fi2 & W2).
  rewrite (W2 Cl), firstn_all in F. rewrite Fi in Fi2. injection Fi2 as ->.
  rewrite write_header_spec in W. injection W as <-. cbn [wr_file].
  assert (G : exists ds, Forall2 (fun b d => osm_data_serialize m b = Ok d) (map snd blocks) ds /\
     concat (map write_blob blobs) = frames_bytes (map (data_frame c k) ds)).
  { clear - F. induction F as [|b hb bs hbs E F (ds & IH & W)]; [exists []; split; constructor|].
    rewrite serialize_data in E. destruct (osm_data_serialize m (snd b)) as [d| |] eqn:D; try discriminate. injection E as <-. exists (d :: ds). split; [constructor; auto|].
    cbn [concat map]. rewrite frames_bytes_cons, W. reflexivity. }
  destruct G as (ds & D & ->). rewrite <- frames_bytes_cons.
  assert (EOb : Forall element_ok (concat (map snd blocks))) by (eapply Permutation_Forall; [apply Permutation_sym; exact P|exact EO]).
  assert (NSb : Forall not_sentinel (concat (map snd blocks))) by (eapply Permutation_Forall; [apply Permutation_sym; exact P|exact NS]).
  assert (InC : forall Q, Forall Q (concat (map snd blocks)) -> forall b, In b blocks -> Forall Q (snd b)).
  { intros Q FQ b I. destruct (block_of_stream blocks b I) as (rest & PB). pose proof (Permutation_Forall PB FQ) as X2. apply Forall_app in X2. tauto. }
  destruct (data_frames_decode_gen m c k (map snd blocks) ds C D) as (FO & DEC).
  { apply Forall_map. rewrite Forall_forall in *. intros b I. apply one_type_kind; [apply Bl; auto|apply InC; auto; apply Forall_forall; auto]. }
  { apply Forall_map. apply Forall_forall. intros b I. apply InC; auto. }
  { apply Forall_map. apply Forall_forall. intros b I. destruct (block_of_stream blocks b I) as (rest & PB).
    rewrite Forall_forall in Bl. apply (FIT (snd b) rest); [|apply Bl; auto]. etransitivity; [apply Permutation_sym; exact P|exact PB]. }
  destruct (DEC (0 + 1)%Z) as (blks & DD & IsD & WR). destruct (header_fits_frame _ _ _ HF) as (HO & _).
  assert (R : run (fb_next m c (frames_bytes (header_frame c k i :: map (data_frame c k) ds))) bit_new (FHeader 0 (info_read i) :: blks) Ended).
  { apply (fb_run_frames m c (header_frame c k i :: map (data_frame c k) ds) _ [] bit_new); auto using at_end_new.
    constructor; auto. apply header_decode; auto. }
  assert (R' : run (fb_next m c (frames_bytes (header_frame c k i :: map (data_frame c k) ds))) bit_new (FHeader 0 (info_read i) :: blks ++ []) Ended) by (rewrite app_nil_r; exact R).
  destruct (C97_depth m c _ _ _ _ _ room R' (is_data_blocks _ IsD) (or_introl eq_refl)) as (_ & Y & _).
  destruct Y as (o & X1 & X2).
  { intros (b & r & h & E & FE & _ & L). assert (r = []); [|subst r; cbn in L; lia]. destruct r as [|x r]; auto. exfalso. inversion FE as [|? ? (q & ->) _]; subst.
    apply F2_split in WR. destruct WR as (w1 & w2 & E2 & _ & WR). inversion WR as [|y z l1 l2 WY _]; subst. cbn in WY. inversion WY; subst.
    assert (I : In [] (map snd blocks)) by (rewrite E2; apply in_or_app; right; left; reflexivity). apply in_map_iff in I. destruct I as (bb & E3 & I). rewrite Forall_forall in Full. exact (Full bb I E3). }
  assert (o = Ended).
  { pose proof (elements_run_blocks m c _ _ _ _ R IsD) as Y. destruct (elements_run_det m c _ _ _ _ _ X1 Y) as (_ & Z). exact Z. }
  subst o. eauto.
Qed.
(** *** a list without elements, written n times: one call inside another for each *)
Theorem C97_crafted m c i k n : codec_ok c -> info_ok i -> ~ info_empty i -> header_fits c k i -> block_fits m c k [] ->
  exists file, calls_file m c i k (repeat (CElements []) n) = Ok file /\
    forall room, (room <= n -> elements_within m c file room [] None) /\ (n < room -> elements_within m c file room [] (Some Ended)).
Proof.
  intros C IO NE HF BF.
  assert (X : exists d, osm_data_serialize m [] = Ok d) by (destruct m; eexists; vm_compute; reflexivity). destruct X as (d & D).
  assert (T : forall n w, exists w', do_wcalls m c w (repeat (CElements []) n) = Ok w').
  { clear - D. induction n as [|n IH]; intros w; cbn [repeat do_wcalls]; [eauto|]. cbn [do_wcall]. unfold write_elements, write_file_block. rewrite serialize_data, D. cbn [bind]. apply IH. }
  assert (H : exists file, calls_file m c i k (repeat (CElements []) n) = Ok file).
  { unfold calls_file. rewrite write_header_spec. cbn [bind]. destruct (T n (Writer i k (frame_bytes (header_frame c k i)) acc_new)) as (w3 & E3). eexists. rewrite E3. reflexivity. }
  destruct H as (file & H). exists file. split; auto.
  assert (BA : batches (repeat (CElements []) n) = repeat [] n) by (clear; unfold batches; induction n as [|n IH]; cbn [repeat flat_map app]; [reflexivity|rewrite IH; reflexivity]).
  assert (SI : singles (repeat (CElements []) n) = []) by (clear; unfold singles; induction n as [|n IH]; cbn [repeat flat_map app]; [reflexivity|exact IH]).
  destruct (calls_file_frames m c i k (repeat (CElements []) n) file) as (l & blks & bs & a & R & -> & FO & De & DD & W); auto.
  { clear. induction n; cbn; constructor; auto. constructor. }
  { split; [|rewrite BA; clear - BF; induction n; constructor; auto]. rewrite SI. intros stream WS. inversion WS; subst. intros x b y E3 _. destruct x; [|discriminate E3]. destruct b; [|discriminate E3]. exact BF. }
  pose proof (fb_run_frames m c _ _ [] bit_new FO at_end_new De) as RR. cbn [app] in RR.
  assert (RR' : run (fb_next m c (frames_bytes (header_frame c k i :: l))) bit_new (FHeader 0 (info_read i) :: blks ++ []) Ended) by (rewrite app_nil_r; exact RR).
  assert (BS : Forall empty_block blks /\ length blks = n).
  { destruct (calls_run_spec _ _ _ _ acc_inv_new R) as (_ & CS & _ & B). rewrite BA in B.
    assert (RS : bs = repeat (FromBatch []) n).
    { clear - R. revert bs a R. generalize acc_new. induction n as [|n IH]; intros a0 bs a R; cbn in R; [injection R as <- _; reflexivity|].
      bok R p R2. destruct p as [bs' a2]. injection R as <- _. cbn. f_equal. eapply IH; eauto. }
    subst bs. clear - W DD. pose proof (F2_length _ _ _ W) as L. rewrite repeat_length in L. split; auto. clear L.
    remember (repeat (FromBatch []) n) as bs eqn:EB. assert (FB : Forall (fun b => b = FromBatch []) bs) by (subst bs; apply Forall_forall; intros x I; apply repeat_spec in I; exact I). clear EB.
    induction W as [|x y xs ys E W IH]; constructor; inversion DD; inversion FB; subst; auto.
    destruct y as [j es|j es]; cbn in *; try contradiction. inversion E; subst. exists j. reflexivity. }
  destruct BS as (BE & BL). intros room.
  destruct (C97_depth m c _ _ _ _ _ room RR' (is_data_blocks _ DD) (or_introl eq_refl)) as (Y1 & Y2 & _).
  assert (EI : elements_in blks = []) by (clear - BE; induction BE as [|x l (j & ->) F IH]; cbn; auto).
  rewrite EI in *. split; intros RM.
  - destruct Y1 as (l1 & l2 & E1 & Y); [|destruct l1; [exact Y|discriminate E1]].
    exists [], blks, []. split; [rewrite app_nil_r; reflexivity|]. split; [exact BE|]. split; [right; right; reflexivity|]. left. lia.
  - destruct Y2 as (o & X1 & X2).
    { intros (b & r & h & E3 & _ & _ & L). apply (f_equal (@length _)) in E3. rewrite !app_length in E3. destruct b; cbn in *; [destruct L as [L|(L & _)]; [lia|destruct (L eq_refl)]|lia]. }
    assert (o = Ended).
    { pose proof (elements_run_blocks m c _ _ _ _ RR DD) as Y. destruct (elements_run_det m c _ _ _ _ _ X1 Y) as (_ & Z). exact Z. }
    subst o. exact X2.
Qed.
