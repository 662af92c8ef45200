(** Properties of the parallel writer: C27-C31, C33, C51, C52 (see ../../properties.jsonl). *)
From Coq Require Import ZArith List Bool Strings.Byte Strings.String Lia Permutation Sorted.
From Verif Require Import Base BaseFacts Types Proto ProtoFacts Block BlockFacts FloatFacts.
From Verif Require Import Spec SpecFacts BlockOverflow FormatSpec BlockRead PropBlock.
From Verif Require Import FileFormat FileFacts WriterFacts FileSpec PropFile ModelSpec Model2 ModelFacts.
From Verif Require Import Pool ParallelSpec PoolFacts ParallelRead ParallelReadFacts PropParallelRead.
From Verif Require Import ParallelWriteSpec ParallelWrite OrderFacts EncodeFacts.
Import ListNotations.
Open Scope nat_scope.
Local Notation length := List.length.
Local Notation concat := List.concat.

(** *** C27 *)
Theorem C27_nothing_lost B K sort cs blocks : sort_ok sort -> blocks_submitted B K sort cs blocks ->
  Permutation (concat (map snd blocks)) (flat_map written cs) /\
  Forall (fun b => length (snd b) <= K /\ one_type (snd b)) blocks /\
  (1 <= K -> Forall (fun b => snd b <> []) blocks) /\
  map fst blocks = seq 1 (length blocks).
Proof.
  intros S H. destruct (blocks_basic B K sort S cs blocks H) as (P & Bl & NE & I).
  split; [apply Permutation_sym; exact P|]. auto.
Qed.

(** *** C28 *)
(** [n] encoders, any schedule: what is in the file at any moment *)
Theorem C28_schedule_independent m c k B K sort cs blocks header n j t :
  sort_ok sort -> blocks_submitted B K sort cs blocks -> texec m c k (threads_new header n blocks) j t ->
  exists w blobs, w <= length blocks /\
    Forall2 (fun b blob => fblock_serialize m c k (FData 0 (snd b)) = Ok blob) (firstn w blocks) blobs /\
    t_file t = Some (header ++ concat (map write_blob blobs)) /\
    (closed t -> w = length blocks).
Proof.
  intros S H X. destruct (blocks_basic B K sort S cs blocks H) as (_ & _ & _ & I).
  exact (file_spec m c k blocks header n j t I X).
Qed.
Lemma blobs_unique m c k bs l1 : Forall2 (fun (b : nat * list element) blob => fblock_serialize m c k (FData 0 (snd b)) = Ok blob) bs l1 ->
  forall l2, Forall2 (fun b blob => fblock_serialize m c k (FData 0 (snd b)) = Ok blob) bs l2 -> l1 = l2.
Proof. induction 1 as [|b x bs l1 E F IH]; intros l2 G; inversion G as [|? y ? ? E2 F2]; subst; auto. f_equal; [congruence|auto]. Qed.
(** the finished file does not depend on the schedule or the number of encoders *)
Theorem C28_same_file m c k B K sort cs blocks header n1 j1 t1 n2 j2 t2 :
  sort_ok sort -> blocks_submitted B K sort cs blocks ->
  texec m c k (threads_new header n1 blocks) j1 t1 -> closed t1 ->
  texec m c k (threads_new header n2 blocks) j2 t2 -> closed t2 -> t_file t1 = t_file t2.
Proof.
  intros S H X1 C1 X2 C2.
  destruct (C28_schedule_independent _ _ _ _ _ _ _ _ _ _ _ _ S H X1) as (w1 & l1 & _ & F1 & -> & W1).
  destruct (C28_schedule_independent _ _ _ _ _ _ _ _ _ _ _ _ S H X2) as (w2 & l2 & _ & F2 & -> & W2).
  rewrite (W1 C1), firstn_all in F1. rewrite (W2 C2), firstn_all in F2. rewrite (blobs_unique _ _ _ _ _ F1 _ F2). reflexivity.
Qed.

(** *** C52 *)
Theorem C52_encoders_terminate m c k B K sort cs blocks header n j t :
  sort_ok sort -> blocks_submitted B K sort cs blocks -> texec m c k (threads_new header n blocks) j t ->
  j <= 7 * length blocks /\
  (1 <= n -> no_failed t -> closed t \/ exists t', tstep m c k t t').
Proof.
  intros S H X. destruct (blocks_basic B K sort S cs blocks H) as (_ & _ & _ & I). split.
  - pose proof (texec_bounded _ _ _ _ _ _ X) as L. unfold tmeasure in L. cbn in L.
    assert (E : sum (fun e => match e with Encoding _ _ => 5 | Encoded _ _ => 4 | _ => 0 end) (repeat EIdle n) = 0) by (clear; induction n; auto).
    rewrite E in L. lia.
  - intros N F. eapply tprogress; eauto.
Qed.
(** the encoders fail only if the blocks cannot be serialized, never in a release build *)
Lemma no_failures m c k header n blocks j t : (forall b, In b blocks -> exists d, osm_data_serialize m (snd b) = Ok d) ->
  map fst blocks = seq 1 (length blocks) -> texec m c k (threads_new header n blocks) j t -> no_failed t.
Proof.
  intros Ser I X. pose proof (texec_inv m c k blocks header n j t I X) as [hbs lost _ _ _ _ _ _ _ _ _ W]. split; [|exact W]. clear hbs lost W.
  remember (threads_new header n blocks) as t0 eqn:E. revert E I. induction X as [t0|t0 j t1 t2 X IH H]; intros E I.
  - subst. cbn. apply Forall_forall. intros e J. apply repeat_spec in J. subst. discriminate.
  - specialize (IH E I). subst t0. destruct (texec_inv m c k blocks header n j t1 I X) as [hbs lost _ _ _ _ _ _ En _ _ _].
    destruct H; cbn [t_encs] in *; auto;
      try (match goal with N : nth_error ?es ?e = Some _ |- context [set_nth ?e ?x ?es] => destruct (set_enc e x _ _ N) as (l & r & -> & ->) end;
           apply Forall_app in IH; destruct IH as [IH1 IH2]; inversion IH2; subst; apply Forall_app; split; auto; constructor; auto; try discriminate).
    exfalso. match goal with N : nth_error ?es ?e = Some (Encoding ?i ?b) |- _ => apply nth_error_In in N end. rewrite Forall_forall in En.
    match goal with N : In (Encoding _ _) _ |- _ => specialize (En _ N); cbn in En; destruct (Ser _ En) as (d & D) end. cbn in D.
    match goal with N : forall hb, _ <> Ok hb |- _ => rewrite serialize_data, D in N; eapply N; reflexivity end.
Qed.
Theorem C52_release_finishes c k B K sort cs blocks header n j t :
  sort_ok sort -> blocks_submitted B K sort cs blocks -> 1 <= n -> texec Wrapping c k (threads_new header n blocks) j t ->
  (closed t \/ exists t', tstep Wrapping c k t t') /\
  exists j' t', texec Wrapping c k (threads_new header n blocks) j' t' /\ j <= j' /\ closed t'.
Proof.
  intros S H N X. destruct (blocks_basic B K sort S cs blocks H) as (_ & _ & _ & I).
  assert (P : forall j t, texec Wrapping c k (threads_new header n blocks) j t -> closed t \/ exists t', tstep Wrapping c k t t').
  { intros j0 t0 X0. eapply tprogress; eauto. eapply no_failures; eauto. intros b _. apply C09_release_never_panics. }
  split; [eauto|].
  remember (7 * length blocks + 1 - j) as d eqn:D. revert j t X D. induction d as [|d IH]; intros j t X D.
  - destruct (C52_encoders_terminate _ _ _ _ _ _ _ _ _ _ _ _ S H X) as [L _]. lia.
  - destruct (P _ _ X) as [C|(t' & T)]; [exists j, t; auto|].
    assert (X' : texec Wrapping c k (threads_new header n blocks) (Datatypes.S j) t') by (econstructor; eauto).
    destruct (IH _ _ X') as (j' & t2 & X2 & L & C); [lia|]. exists j', t2. split; auto. split; auto. lia.
Qed.

(** *** C29 *)
Theorem C29_order_restored B K sort cs : sort_ok sort -> 1 <= K ->
  Forall not_sentinel (flat_map written cs) -> displaced_at_most (B + 1 - K) (flat_map written cs) ->
  (exists blocks, blocks_submitted B K sort cs blocks) /\
  forall blocks, blocks_submitted B K sort cs blocks -> in_order (concat (map snd blocks)).
Proof.
  intros S HK NS D. destruct (ordered_calls B K sort S cs [] ord_new) as (st & E & O); auto using ordered_new. cbn [app] in O. split.
  - destruct (loop_terminates K HK (sort_buffer sort st)) as (st' & L). exists (o_out st'), st, st'. auto.
  - intros blocks (st1 & st' & E1 & L & ->). rewrite E in E1. injection E1 as <-. change (in_order (out_elements st')).
    rewrite (loop_out K _ _ L). change (out_elements (sort_buffer sort st)) with (out_elements st). cbn [sort_buffer o_buf].
    destruct O as [P So Be _ _]. destruct (S (o_buf st)) as [PS SO]. destruct (in_out_input _ _ P NS) as [_ NB].
    apply in_order_app. split; auto. split; auto. intros a b Ia Ib. apply Be; auto. eapply Permutation_in; [apply Permutation_sym; exact PS|exact Ib].
Qed.
(** with a buffer not smaller than the whole input the order of the input does not matter *)
Theorem C29_large_buffer B K sort cs blocks : sort_ok sort -> 1 <= K ->
  Forall not_sentinel (flat_map written cs) -> length (flat_map written cs) + K <= B + 1 ->
  blocks_submitted B K sort cs blocks -> in_order (concat (map snd blocks)).
Proof.
  intros S HK NS L H. eapply (proj2 (C29_order_restored B K sort cs S HK NS _)); eauto.
  Unshelve. intros before x after big rest E P F. apply (f_equal (@length _)) in E. rewrite app_length in E. cbn in E.
  apply Permutation_length in P. rewrite app_length in P. lia.
Qed.

(** *** C30 *)
(** what is guaranteed for every input that is not rejected: blocks are sorted, and no element of a
    later block precedes the first element of an earlier one; and what is rejected is too disordered *)
Theorem C30_order_check_partial B K sort cs : sort_ok sort -> 1 <= K -> Forall not_sentinel (flat_map written cs) ->
  (forall blocks, blocks_submitted B K sort cs blocks ->
    Forall (fun b => in_order (snd b)) blocks /\
    forall l1 b1 l2 b2 l3 f r e, blocks = l1 ++ b1 :: l2 ++ b2 :: l3 -> snd b1 = f :: r -> In e (snd b2) -> not_after f e) /\
  ((forall blocks, ~ blocks_submitted B K sort cs blocks) ->
    do_calls B K sort ord_new cs = Panic /\ ~ displaced_at_most (B + 1 - K) (flat_map written cs)).
Proof.
  intros S HK NS. split.
  - intros blocks (st & st' & E & L & ->). pose proof (safe_calls B K sort S cs _ _ safe_new E NS) as Sf.
    destruct (safe_sort sort S st Sf) as [S1 S2]. pose proof (safe_loop K _ _ L S1 S2) as [Ly _ _ _]. apply layered_spec. exact Ly.
  - intros N. split.
    + destruct (do_calls B K sort ord_new cs) as [st| |] eqn:E; auto.
      * destruct (loop_terminates K HK (sort_buffer sort st)) as (st' & L). destruct (N (o_out st')). exists st, st'. auto.
      * exfalso. clear - E. assert (T : forall es st, push_all st es <> Err).
        { induction es as [|e es IH]; intros st; cbn; [discriminate|]. unfold push. destruct (assert_order st e); cbn; [apply IH|discriminate]. }
        revert E. generalize ord_new. induction cs as [|c cs IH]; intros st E; cbn in E; [discriminate|].
        destruct c as [e|es]; cbn in E; unfold add_element, add_elements in E.
        { unfold push in E. destruct (assert_order st e); cbn in E; [|discriminate]. eapply IH; eauto. }
        { specialize (T es st). destruct (push_all st es); cbn in E; [eapply IH; eauto|contradiction|discriminate]. }
    + intros D. destruct (C29_order_restored B K sort cs S HK NS D) as [(blocks & H) _]. exact (N _ H).
Qed.

(** *** C31 *)
Theorem C31_close_terminates_partial K sort st : sort_ok sort -> 1 <= K ->
  exists st', flush_all_sorted K sort st st' /\ o_buf st' = [] /\
    (forall st2, flush_all_sorted K sort st st2 -> st2 = st') /\
    length (o_out st') <= length (o_out st) + length (o_buf st).
Proof.
  intros S HK. destruct (loop_terminates K HK (sort_buffer sort st)) as (st' & L). exists st'. split; auto.
  assert (E : o_buf st' = [] /\ length (o_out st') <= length (o_out (sort_buffer sort st)) + length (o_buf (sort_buffer sort st))).
  { clear S. induction L as [st0 E|st0 st' NE L IH]; [split; auto; lia|]. destruct IH as [E1 E2]. split; auto.
    pose proof (flush_block_length K st0 HK NE) as FL. unfold flush_block in *. destruct (split_file_block K (o_buf st0)). cbn in *.
    rewrite app_length in E2. cbn in E2. lia. }
  destruct E as [E1 E2]. split; auto. split.
  - intros st2 L2. symmetry. eapply loop_det; eauto.
  - cbn in E2. destruct (S (o_buf st)) as [P _]. apply Permutation_length in P. lia.
Qed.
(** with file_block_size = 0, which the constructor accepts, close never returns if anything is left *)
Theorem C31_refuted sort st : sort_ok sort -> o_buf st <> [] -> forall st', ~ flush_all_sorted 0 sort st st'.
Proof.
  intros S NE st' L. unfold flush_all_sorted in L.
  assert (N : o_buf (sort_buffer sort st) <> []) by (cbn; apply sort_nonempty; auto).
  induction L as [st0 E|st0 st' N0 L IH]; [congruence|]. apply IH. unfold flush_block, split_file_block. cbn. exact N0.
Qed.

(** ** Whole files *)
(** the life of a ParallelWriter: write_header, the calls, close; [n] encoders *)
Definition parallel_file m c k i B K sort n cs (file : bytes) : Prop :=
  exists blocks w j t, blocks_submitted B K sort cs blocks /\ write_header m c (writer_new i k) = Ok w /\
    texec m c k (threads_new (wr_file w) n blocks) j t /\ closed t /\ t_file t = Some file.
(** any choice of at most K of the elements makes a block below 2 GiB, before and after compression *)
Definition choices_fit m c k K (stream : list element) : Prop :=
  forall b rest, Permutation stream (b ++ rest) -> length b <= K ->
    (forall data, osm_data_serialize m b = Ok data -> below_2GiB data) /\
    (forall h body, fblock_serialize m c k (FData 0 b) = Ok (h, body) -> below_2GiB body).
Lemma one_type_kind b : one_type b -> Forall not_sentinel b -> same_kind is_node b \/ same_kind is_way b \/ same_kind is_relation b.
Proof.
  intros O NS. destruct b as [|e b]; [left; constructor|]. inversion NS as [|? ? N1 _]; subst.
  assert (G : forall x, In x (e :: b) -> type_rank x = type_rank e) by (intros x I; apply O; [exact I|left; auto]).
  destruct e; [left|right; left|right; right|destruct N1; reflexivity]; apply Forall_forall; intros x I; specialize (G x I); destruct x; cbn in G; try discriminate; reflexivity.
Qed.
Lemma block_of_stream (blocks : list (nat * list element)) b : In b blocks -> exists rest, Permutation (concat (map snd blocks)) (snd b ++ rest).
Proof.
  intros I. apply in_split in I. destruct I as (l1 & l2 & ->). exists (concat (map snd l1) ++ concat (map snd l2)).
  rewrite map_app, concat_app. cbn. rewrite !app_assoc. apply Permutation_app_tail, Permutation_app_comm.
Qed.
Lemma written_read_place e e' : written_read e e' -> same_place e e'.
Proof.
  unfold same_place. destruct e, e'; cbn; try contradiction; unfold node_written_read, way_written_read, relation_written_read; intuition congruence.
Qed.
Lemma in_order_read l l' : Forall2 written_read l l' -> in_order l -> in_order l'.
Proof.
  induction 1 as [|e e' l l' W F IH]; intros O; [constructor|]. apply StronglySorted_inv in O. destruct O as [O H].
  constructor; [apply IH; auto|]. apply written_read_place in W. clear - W F H. revert H. induction F as [|x x' l l' X F IH]; intros H; constructor; inversion H; subst; auto.
  apply written_read_place in X. unfold not_after, precedes, same_place in *. lia.
Qed.
Lemma parallel_file_frames m c k i B K sort n cs file :
  codec_ok c -> info_ok i -> ~ info_empty i -> header_fits c k i ->
  sort_ok sort -> Forall element_ok (flat_map written cs) -> Forall not_sentinel (flat_map written cs) ->
  choices_fit m c k K (flat_map written cs) ->
  parallel_file m c k i B K sort n cs file ->
  exists blocks l blks, blocks_submitted B K sort cs blocks /\ Permutation (concat (map snd blocks)) (flat_map written cs) /\
    file = frames_bytes (header_frame c k i :: l) /\ Forall frame_ok (header_frame c k i :: l) /\
    frames_decode m c 0 (header_frame c k i :: l) (FHeader 0 (info_read i) :: blks) /\ Forall is_data blks /\
    Forall2 (fun b blk => Forall2 written_read (snd b) (block_elements blk)) blocks blks.
Proof.
  intros C IO NE HF S EO NS FIT (blocks & w & j & t & H & W & X & Cl & Fi).
  destruct (C27_nothing_lost _ _ _ _ _ S H) as (P & Bl & _ & _).
  destruct (C28_schedule_independent _ _ _ _ _ _ _ _ _ _ _ _ S H X) as (w' & blobs & _ & F & Fi2 & W2).
  rewrite (W2 Cl), firstn_all in F. rewrite Fi in Fi2. injection Fi2 as ->.
  rewrite write_header_spec in W. injection W as <-. cbn [wr_file].
  assert (G : exists ds, Forall2 (fun b d => osm_data_serialize m b = Ok d) (map snd blocks) ds /\
     concat (map write_blob blobs) = frames_bytes (map (data_frame c k) ds)).
  { clear - F. induction F as [|b hb bs hbs E F (ds & IH & W)]; [exists []; split; constructor|].
    rewrite serialize_data in E. destruct (osm_data_serialize m (snd b)) as [d| |] eqn:D; try discriminate. injection E as <-. exists (d :: ds). split; [constructor; auto|].
    cbn [concat map]. rewrite frames_bytes_cons, W. reflexivity. }
  destruct G as (ds & D & ->). rewrite <- frames_bytes_cons.
  assert (EOb : Forall element_ok (concat (map snd blocks))) by (eapply Permutation_Forall; [apply Permutation_sym; exact P|exact EO]).
  assert (NSb : Forall not_sentinel (concat (map snd blocks))) by (eapply Permutation_Forall; [apply Permutation_sym; exact P|exact NS]).
  assert (InC : forall Q, Forall Q (concat (map snd blocks)) -> forall b, In b blocks -> Forall Q (snd b)).
  { intros Q FQ b I. destruct (block_of_stream blocks b I) as (rest & PB). pose proof (Permutation_Forall PB FQ) as X2. apply Forall_app in X2. tauto. }
  destruct (data_frames_decode_gen m c k (map snd blocks) ds C D) as (FO & DEC).
  { apply Forall_map. rewrite Forall_forall in *. intros b I. apply one_type_kind; [apply Bl; auto|apply InC; auto; apply Forall_forall; auto]. }
  { apply Forall_map. apply Forall_forall. intros b I. apply InC; auto. }
  { apply Forall_map. apply Forall_forall. intros b I. destruct (block_of_stream blocks b I) as (rest & PB).
    rewrite Forall_forall in Bl. apply (FIT (snd b) rest); [|apply Bl; auto]. etransitivity; [apply Permutation_sym; exact P|exact PB]. }
  destruct (DEC (0 + 1)%Z) as (blks & DD & IsD & WR). destruct (header_fits_frame _ _ _ HF) as (HO & _).
  exists blocks, (map (data_frame c k) ds), blks. split; [exact H|]. split; [exact P|]. split; [reflexivity|]. split; [constructor; auto|].
  split; [constructor; auto; apply header_decode; auto|]. split; [exact IsD|].
  clear - WR. remember (map snd blocks) as l eqn:E. revert blocks E. induction WR; intros [|b bs] E; try discriminate E; constructor; injection E as -> ->; auto.
Qed.
Theorem C51_parallel_round_trip m c k i B K sort n cs file :
  codec_ok c -> info_ok i -> ~ info_empty i -> header_fits c k i -> Forall supported (fi_required i) ->
  sort_ok sort -> Forall element_ok (flat_map written cs) -> Forall not_sentinel (flat_map written cs) ->
  choices_fit m c k K (flat_map written cs) ->
  parallel_file m c k i B K sort n cs file ->
  exists i' stream stream',
    reader_new m c file = Ok i' /\ info_written_read i i' /\
    elements_run m c file stream' Ended /\ Forall2 written_read stream stream' /\
    Permutation stream (flat_map written cs) /\
    (1 <= K -> displaced_at_most (B + 1 - K) (flat_map written cs) -> in_order stream').
Proof.
  intros C IO NE HF SU S EO NS FIT PF.
  destruct (parallel_file_frames _ _ _ _ _ _ _ _ _ _ C IO NE HF S EO NS FIT PF) as (blocks & l & blks & H & P & -> & FO & D & IsD & WR).
  assert (R : run (fb_next m c (frames_bytes (header_frame c k i :: l))) bit_new (FHeader 0 (info_read i) :: blks) Ended).
  { apply (fb_run_frames m c (header_frame c k i :: l) _ [] bit_new); auto using at_end_new. }
  exists (info_read i), (concat (map snd blocks)), (flat_map block_elements blks).
  split; [eapply supported_reader; eauto|]. split; [apply info_read_spec|]. split; [eapply elements_run_blocks; eauto|].
  assert (WF : Forall2 written_read (concat (map snd blocks)) (flat_map block_elements blks)).
  { clear - WR. induction WR; cbn; auto. apply Forall2_app; auto. }
  split; [exact WF|split; auto].
  intros HK Dis. eapply in_order_read; [exact WF|]. eapply (proj2 (C29_order_restored B K sort cs S HK NS Dis)). exact H.
Qed.

(** *** C33: the filter pipeline of examples/parallel-pbf-io.rs, from file to file *)
Theorem C33_filter_pipeline m c file tasks keep id tr steps p k i B K sort n out :
  codec_ok c -> info_ok i -> ~ info_empty i -> header_fits c k i -> Forall supported (fi_required i) -> sort_ok sort ->
  for_each_exec m c file tasks (pipeline_call keep id) (tl_init, []) tr steps p -> finished p ->
  parallel_file m c k i B K sort n (map WriteElements (snd (p_shared p))) out ->
  exists blks, file_blocks m c file blks /\
    (Forall element_ok (filter keep (flat_map elements_of blks)) ->
     choices_fit m c k K (filter keep (flat_map elements_of blks)) ->
     exists i' stream stream',
       reader_new m c out = Ok i' /\ info_written_read i i' /\
    elements_run m c out stream' Ended /\ Forall2 written_read stream stream' /\
    Permutation stream (filter keep (flat_map elements_of blks)) /\
    (1 <= K -> length (filter keep (flat_map elements_of blks)) + K <= B + 1 -> in_order stream')).
Proof.
  intros C IO NE HF SU S E F PF. destruct (C33_pipeline_batches _ _ _ _ _ _ _ _ _ E F) as (blks & FB & _ & P & _).
  exists blks. split; auto. intros EO FIT. set (kept := filter keep (flat_map elements_of blks)) in *.
  assert (FW : flat_map written (map WriteElements (snd (p_shared p))) = concat (snd (p_shared p))) by (generalize (snd (p_shared p)) as l; induction l as [|x l IH]; [reflexivity|cbn; rewrite IH; reflexivity]).
  assert (NSk : Forall not_sentinel kept).
  { pose proof (blocks_readable _ _ _ _ _ _ FB) as R. apply Forall_forall. intros e I. apply filter_In in I. destruct I as [I _].
    apply in_flat_map in I. destruct I as (b & Ib & Ie). rewrite Forall_forall in R. specialize (R b Ib). cbn in R. rewrite Forall_forall in R. intros ->. exact (R _ Ie). }
  destruct (C51_parallel_round_trip m c k i B K sort n (map WriteElements (snd (p_shared p))) out C IO NE HF SU S) as (i' & st & st' & R1 & R2 & R3 & R4 & R5 & R6);
    rewrite ?FW; auto.
  - eapply Permutation_Forall; [apply Permutation_sym; exact P|exact EO].
  - eapply Permutation_Forall; [apply Permutation_sym; exact P|exact NSk].
  - intros b rest PB L. apply (FIT b rest); auto. etransitivity; [apply Permutation_sym; exact P|exact PB].
  - exists i', st, st'. rewrite FW in *. sconj; auto.
    + etransitivity; eauto.
    + intros HK L. apply R6; auto. intros before x after big rest Eq Pm _. apply (f_equal (@length _)) in Eq. rewrite app_length in Eq. cbn in Eq.
      apply Permutation_length in Pm. rewrite app_length in Pm. apply Permutation_length in P. lia.
Qed.
