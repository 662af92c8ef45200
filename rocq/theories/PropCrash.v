(** C61: a ParallelWriter that is interrupted at any moment leaves a file that reads as a beginning of
    what was submitted. *)
From Coq Require Import ZArith List Bool Lia Strings.Byte Strings.String Sorted Permutation.
From Verif Require Import Base BaseFacts Types Proto ProtoFacts Block BlockFacts BlockRead FileFormat FileFacts WriterFacts Spec FileSpec
  PropBlock PropFile Pool PoolFacts ModelSpec ParallelWriteSpec ParallelWrite OrderFacts EncodeFacts PropParallelWrite CallSpec Calls PropCalls Crash.
Import ListNotations.
Local Notation length := List.length.
Local Notation concat := List.concat.
Local Notation one_type := ParallelWriteSpec.one_type.
Open Scope Z_scope.

Lemma partial_basic K inp st st' : partial_flush K st st' -> basic K inp st -> basic K inp st'.
Proof. induction 1 as [st|st st' NE L IH]; intros Bs; [auto|]. apply IH, basic_flush; auto. Qed.
Lemma so_far_basic B K sort cs blocks : sort_ok sort -> submitted_so_far B K sort cs blocks ->
  exists buffered, Permutation (flat_map written cs) (concat (map snd blocks) ++ buffered) /\
  Forall (fun b => (length (snd b) <= K)%nat /\ one_type (snd b)) blocks /\ map fst blocks = seq 1 (length blocks).
Proof.
  intros S (st & H & X). pose proof (basic_calls B K sort S cs [] _ _ (basic_new K) H) as Bs. cbn [app] in Bs. destruct X as [->|(st' & L & ->)].
  - destruct Bs as [P Bl NE [I _]]. exists (o_buf st). auto.
  - apply (basic_sort K sort S) in Bs. pose proof (partial_basic _ _ _ _ L Bs) as [P Bl NE [I _]]. exists (o_buf st'). auto.
Qed.
Lemma one_type_survivors b : one_type b -> survivors b = no_sentinels b.
Proof.
  intros O. destruct b as [|e b]; [reflexivity|].
  assert (G : forall x, In x (e :: b) -> type_rank x = type_rank e) by (intros x I; apply O; [exact I|left; auto]).
  destruct e as [n|w|r|].
  1-3: rewrite survivors_kind.
  2,4,6: (left; intros x I; specialize (G x I); destruct x; cbn in G; try discriminate; reflexivity) ||
    (right; left; intros x I; specialize (G x I); destruct x; cbn in G; try discriminate; reflexivity) ||
    (right; right; intros x I; specialize (G x I); destruct x; cbn in G; try discriminate; reflexivity).
  1-3: unfold no_sentinels; symmetry; match goal with |- filter ?f ?l = _ => assert (FA : forall x, In x l -> f x = true) end;
    [intros x I; specialize (G x I); destruct x; cbn in G; try discriminate; reflexivity|];
    revert FA; match goal with |- context [filter ?f ?l] => generalize l end; clear; induction l as [|x l IH]; cbn [filter]; intros FA; auto;
    rewrite FA by (left; auto); f_equal; apply IH; intros; apply FA; right; auto.
  assert (N : forall l, (forall x, In x l -> type_rank x = 3) -> nodes_of l = [] /\ ways_of l = [] /\ relations_of l = [] /\ no_sentinels l = []).
  { clear. induction l as [|x l IH]; intros H; [repeat split; reflexivity|]. destruct IH as (A & B & C & D); [intros; apply H; right; auto|].
    pose proof (H x (or_introl eq_refl)) as R. destruct x; cbn in R; try discriminate. cbn. auto. }
  destruct (N _ G) as (A & B & C & D). unfold survivors. rewrite A, B, C, D. reflexivity.
Qed.
Lemma no_sentinels_concat l : no_sentinels (concat l) = concat (map no_sentinels l).
Proof. unfold no_sentinels. induction l as [|x l IH]; cbn; auto. rewrite filter_app, IH. reflexivity. Qed.
Theorem C61_parallel_crash m c k i B K sort n done blocks w j t file p :
  codec_ok c -> info_ok i -> ~ info_empty i -> header_fits c k i -> Forall supported (fi_required i) ->
  sort_ok sort -> Forall element_ok (flat_map written done) -> choices_fit m c k K (flat_map written done) ->
  submitted_so_far B K sort done blocks -> write_header m c (writer_new i k) = Ok w ->
  texec m c k (threads_new (wr_file w) n blocks) j t -> t_file t = Some file -> prefix p file ->
  (* nothing that was not written is submitted *)
  (exists buffered, Permutation (flat_map written done) (concat (map snd blocks) ++ buffered)) /\
  ((reader_new m c p = Err \/ reader_new m c p = Panic) \/
   exists q i' stream got o, reader_new m c p = Ok i' /\ info_written_read i i' /\ elements_run m c p got o /\
     without_sentinels (concat (map snd (firstn q blocks))) stream /\ Forall2 written_read stream got /\
     (* nothing is missing from a complete file *)
     (p = file -> closed t -> q = length blocks /\ o = Ended)).
Proof.
  intros C IO NE HF SU S EO FIT H W X Fi (r & Er).
  destruct (so_far_basic _ _ _ _ _ S H) as (buffered & P & Bl & I). split; [eauto|].
  destruct (file_spec m c k blocks (wr_file w) n j t I X) as (w' & blobs & LW & F & Fi2 & Cl).
  rewrite Fi in Fi2. injection Fi2 as ->.
  rewrite write_header_spec in W. injection W as <-. cbn [wr_file] in *.
  set (bs := firstn w' blocks) in *.
  assert (InB : forall b, In b bs -> In b blocks) by (intros b Ib; rewrite <- (firstn_skipn w' blocks); apply in_or_app; auto).
  assert (G : exists ds, Forall2 (fun b d => osm_data_serialize m b = Ok d) (map snd bs) ds /\
     concat (map write_blob blobs) = frames_bytes (map (data_frame c k) ds)).
  { clear - F. induction F as [|b hb bs hbs E F (ds & IH & W)]; [exists []; split; constructor|].
    unfold blob_made in E. rewrite serialize_data in E. destruct (osm_data_serialize m (snd b)) as [d| |] eqn:D; try discriminate. injection E as <-. exists (d :: ds). split; [constructor; auto|].
    cbn [concat map]. rewrite frames_bytes_cons, W. reflexivity. }
  destruct G as (ds & D & EW). rewrite EW in *. clear EW. rewrite <- frames_bytes_cons in *.
  assert (PB : forall b, In b bs -> exists rest, Permutation (flat_map written done) (snd b ++ rest)).
  { intros b Ib. destruct (block_of_stream blocks b (InB b Ib)) as (rest & PB). exists (rest ++ buffered). rewrite P, PB, app_assoc. reflexivity. }
  destruct (data_frames_decode_any m c k (map snd bs) ds C D) as (FO & DEC).
  { apply Forall_map. apply Forall_forall. intros b Ib. destruct (PB b Ib) as (rest & Pb). pose proof (Permutation_Forall Pb EO) as X2. apply Forall_app in X2. tauto. }
  { apply Forall_map. apply Forall_forall. intros b Ib. destruct (PB b Ib) as (rest & Pb).
    rewrite Forall_forall in Bl. apply (FIT (snd b) rest); [exact Pb|]. apply Bl; auto. }
  destruct (DEC (0 + 1)%Z) as (blks & DD & IsD & WR). destruct (header_fits_frame _ _ _ HF) as (HO & _).
  assert (FO2 : Forall frame_ok (header_frame c k i :: map (data_frame c k) ds)) by (constructor; auto).
  assert (DE2 : frames_decode m c 0 (header_frame c k i :: map (data_frame c k) ds) (FHeader 0 (info_read i) :: blks)) by (constructor; [apply header_decode; auto|exact DD]).
  destruct (fb_run_prefix m c _ _ [] p r bit_new FO2 at_end_new DE2 Er) as (q & o & R & K1 & L & T & O).
  assert (WR2 : Forall2 (fun b blk => Forall2 written_read (no_sentinels (snd b)) (block_elements blk)) bs blks).
  { apply Forall2_map_l in WR. rewrite Forall_forall in Bl. clear - WR Bl InB. induction WR as [|b blk bs blks E F IH]; constructor.
    - rewrite one_type_survivors in E; auto. apply Bl, InB. left; auto.
    - apply IH. intros; apply InB. right; auto. }
  cbn [app] in R. destruct q as [|q]; cbn [firstn] in R.
  - left. inversion R as [s s' N|s N|]; subst; unfold reader_new; rewrite N; cbn; auto.
  - right. exists (Nat.min q w'), (info_read i), (no_sentinels (concat (map snd (firstn q bs)))), (flat_map block_elements (firstn q blks)), o. sconj.
    + eapply supported_reader; eauto.
    + apply info_read_spec.
    + eapply elements_run_blocks; eauto. clear - IsD. revert q. induction IsD; intros [|n]; cbn; constructor; auto.
    + unfold bs. rewrite firstn_firstn. apply no_sentinels_spec. reflexivity.
    + rewrite no_sentinels_concat, flat_map_concat_map. apply Forall2_concat. clear - WR2. revert q. induction WR2; intros [|n]; cbn; constructor; auto.
    + intros -> Ct. specialize (Cl Ct).
      pose proof (fb_run_frames m c _ _ [] bit_new FO2 at_end_new DE2) as RR. cbn [app] in RR.
      destruct (run_det _ _ _ _ _ _ R RR) as [E1 E2]. split; [|exact E2]. injection E1 as E1. apply (f_equal (@length _)) in E1.
      rewrite firstn_length in E1. apply F2_length in WR2. unfold bs in WR2. rewrite firstn_length in WR2. lia.
Qed.
