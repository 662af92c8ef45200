(** C72-C74: exact versions of C22 (order of elements, sentinels included), C12 (which headers can be read back) and
    C31 (when close returns). *)
From Coq Require Import ZArith List Bool Lia Strings.Byte Strings.String Sorted Permutation.
From Verif Require Import Base BaseFacts Types Proto ProtoFacts Block BlockFacts FileFormat FileFacts WriterFacts Spec SpecFacts FileSpec FormatSpec ModelSpec Model2 ModelFacts
  PropBlock PropFile PropModel PropReadAny Pool ParallelWriteSpec ParallelWrite OrderFacts EncodeFacts PropParallelWrite.
Import ListNotations.
Local Notation length := List.length.
Local Notation concat := List.concat.
Open Scope Z_scope.

(** *** C72 *)
Definition sentinel (e : element) : Prop := e = ESentinel.
Lemma sentinel_or e : sentinel e \/ not_sentinel e. Proof. unfold sentinel, not_sentinel. destruct e; auto; right; discriminate. Qed.
Theorem C72_order a b :
  (element_cmp a b = Lt <-> precedes a b \/ (sentinel a /\ not_sentinel b)) /\
  (element_cmp a b = Gt <-> precedes b a /\ not_sentinel a) /\
  (element_cmp a b = Eq <-> same_place a b) /\
  (element_eq a b = true <-> same_place a b) /\
  (element_cmp b a = CompOpp (element_cmp a b) <-> (sentinel a <-> sentinel b)).
Proof.
  destruct (sentinel_or a) as [->|A], (sentinel_or b) as [->|B].
  - unfold sentinel, not_sentinel, precedes, same_place. cbn. sconj; intuition (try discriminate; try lia; try congruence).
  - assert (X : element_cmp ESentinel b = Lt /\ element_cmp b ESentinel = Lt /\ element_eq ESentinel b = false /\ type_rank b < 3) by (destruct b; cbn; auto; try congruence; sconj; auto; lia).
    destruct X as (-> & -> & -> & R). unfold sentinel, not_sentinel, precedes, same_place. cbn [type_rank]. sconj; split; intros H; auto; try discriminate; try (exfalso; intuition (try lia; try congruence); fail).
  - assert (X : element_cmp ESentinel a = Lt /\ element_cmp a ESentinel = Lt /\ element_eq a ESentinel = false /\ type_rank a < 3) by (destruct a; cbn; auto; try congruence; sconj; auto; lia).
    destruct X as (-> & -> & -> & R). unfold sentinel, not_sentinel, precedes, same_place. cbn [type_rank]. sconj; split; intros H; auto; try discriminate; try (exfalso; intuition (try lia; try congruence); fail).
  - destruct (C22_total_order_partial a b a A B A) as (H1 & H2 & H3 & H4 & H5 & _). rewrite H1, H2, H3, H4, H3, H5. unfold sentinel, not_sentinel in *. sconj; tauto.
Qed.
(** with three elements: Less is transitive exactly if no sentinel stands in the middle of two elements in the wrong order, or around an element *)
Theorem C72_transitive a b c : element_cmp a b = Lt -> element_cmp b c = Lt ->
  (element_cmp a c <> Lt <-> (sentinel b /\ ~ precedes a c) \/ (sentinel a /\ sentinel c)).
Proof.
  intros AB BC. apply C72_order in AB. apply C72_order in BC. rewrite (proj1 (C72_order a c)).
  assert (R : forall e, (sentinel e -> type_rank e = 3) /\ (not_sentinel e -> type_rank e < 3)) by (intros [?|?|?|]; unfold sentinel, not_sentinel; cbn; split; intros; try lia; try discriminate; congruence).
  destruct (sentinel_or a) as [A|A], (sentinel_or b) as [B|B], (sentinel_or c) as [C|C]; pose proof (R a) as (RA1 & RA2); pose proof (R b) as (RB1 & RB2); pose proof (R c) as (RC1 & RC2);
    unfold not_sentinel, sentinel, precedes in *; intuition (try lia; try congruence; try (subst; cbn in *; lia)).
Qed.
(** the predicates *)
Theorem C72_predicates a b :
  (is_node a = true <-> exists n, a = ENode n) /\ (is_way a = true <-> exists w, a = EWay w) /\ (is_relation a = true <-> exists r, a = ERelation r) /\ (is_sentinel a = true <-> a = ESentinel) /\
  (same_type a b = true <-> type_rank a = type_rank b) /\ (element_eq a b = true -> same_type a b = true).
Proof.
  assert (ST : same_type a b = true <-> type_rank a = type_rank b) by apply same_type_rank.
  split; [destruct a; cbn; split; intros H; try discriminate; eauto; destruct H; discriminate|].
  split; [destruct a; cbn; split; intros H; try discriminate; eauto; destruct H; discriminate|].
  split; [destruct a; cbn; split; intros H; try discriminate; eauto; destruct H; discriminate|].
  split; [destruct a; cbn; split; intros H; try discriminate; eauto|].
  split; [exact ST|]. intros E. apply ST. apply C72_order in E. apply E.
Qed.

(** *** C73: every header that fits in the format is written; whether it can be read depends only on its contents *)
Theorem C73_header m c k i : codec_ok c -> info_ok i -> header_fits c k i ->
  exists w, write_header m c (writer_new i k) = Ok w /\
    (forall i', reader_new m c (wr_file w) = Ok i' -> info_written_read i i') /\
    ((exists i', reader_new m c (wr_file w) = Ok i') <-> ~ info_empty i /\ Forall supported (fi_required i)) /\
    (reader_new m c (wr_file w) = Err <-> ~ info_empty i /\ ~ Forall supported (fi_required i)) /\
    (reader_new m c (wr_file w) = Panic <-> info_empty i).
Proof.
  intros C O F.
  assert (D : info_empty i \/ ~ info_empty i).
  { unfold info_empty. destruct i as [bb [|] [|] [|] [|] [|] [|] [|]]; try (right; discriminate). destruct bb; [right; discriminate|auto]. }
  destruct D as [E|N].
  - destruct (C12_refuted_empty_header m c k i E) as (w & W & P & _). exists w. rewrite P. split; auto. split; [discriminate|]. split; [split; [intros (? & X); discriminate X|tauto]|]. split; [split; [discriminate|tauto]|tauto].
  - destruct (C12_header_round_trip_partial m c k i C O N F) as (w & i' & W & R & IW & S). exists w. split; auto.
    assert (RQ : fi_required i' = fi_required i) by apply IW.
    assert (X : reader_new m c (wr_file w) = match find_missing supported_features (fi_required i') with [] => Ok i' | _ => Err end).
    { inversion R as [| |s a s' l o E R']; subst. unfold reader_new. rewrite E. reflexivity. }
    rewrite RQ in X. pose proof (missing_supported (fi_required i)) as M. rewrite X. destruct (find_missing supported_features (fi_required i)) as [|x l].
    + assert (Forall supported (fi_required i)) by (apply M; auto). split; [intros i2 [= <-]; auto|]. split; [split; eauto|]. split; split; try discriminate; tauto.
    + assert (~ Forall supported (fi_required i)) by (intros H; apply M in H; discriminate H). split; [discriminate|]. split; [split; [intros (? & Y); discriminate Y|tauto]|]. split; split; try discriminate; tauto.
Qed.

(** *** C74: when close returns *)
Open Scope nat_scope.
Lemma ok_inj {A} (a b : A) : Ok a = Ok b -> a = b. Proof. intros H. injection H. auto. Qed.
Lemma zero_flush sort B st : sort_ok sort -> o_buf (flush_if_full B 0 sort st) = o_buf st \/ o_buf (flush_if_full B 0 sort st) = sort (o_buf st).
Proof. intros S. unfold flush_if_full. destruct (Nat.ltb B (length (o_buf st))); auto. Qed.
Lemma zero_keeps sort B : sort_ok sort -> forall cs st st', do_calls B 0 sort st cs = Ok st' -> length (o_buf st') = length (o_buf st) + length (flat_map written cs).
Proof.
  intros S. assert (L : forall st, length (o_buf (flush_if_full B 0 sort st)) = length (o_buf st)).
  { intros st. destruct (zero_flush sort B st S) as [->| ->]; auto. destruct (S (o_buf st)) as (P & _). symmetry. apply Permutation_length. exact P. }
  assert (PA : forall es st st', push_all st es = Ok st' -> length (o_buf st') = length (o_buf st) + length es).
  { induction es as [|e es IH]; intros st st' H; cbn in H; [injection H as <-; cbn; lia|]. unfold push in H. destruct (assert_order st e); cbn [bind] in H; [|discriminate H]. apply IH in H. rewrite H. cbn. rewrite app_length. cbn. lia. }
  induction cs as [|c cs IH]; intros st st' H; cbn [do_calls] in H; [injection H as <-; cbn; lia|].
  destruct (do_call B 0 sort st c) as [st1| |] eqn:E; cbn [bind] in H; try discriminate H. apply IH in H. rewrite H. cbn [flat_map]. rewrite app_length.
  assert (length (o_buf st1) = length (o_buf st) + length (written c)); [|lia].
  destruct c as [e|es]; cbn [do_call written] in *.
  - unfold add_element in E. unfold push in E. destruct (assert_order st e); cbn [bind] in E; [|discriminate E]. apply ok_inj in E. rewrite <- E, L. cbn. rewrite app_length. reflexivity.
  - unfold add_elements in E. destruct (push_all st es) as [s2| |] eqn:X; cbn [bind] in E; try discriminate E. apply ok_inj in E. rewrite <- E, L. apply PA. exact X.
Qed.
Theorem C74_close_returns B K sort cs : sort_ok sort ->
  ((exists blocks, blocks_submitted B K sort cs blocks) <->
   (exists st, do_calls B K sort ord_new cs = Ok st) /\ (1 <= K \/ flat_map written cs = [])) /\
  (forall blocks blocks', blocks_submitted B K sort cs blocks -> blocks_submitted B K sort cs blocks' -> blocks = blocks').
Proof.
  intros S. split; [split|].
  - intros (blocks & st & st' & E & L & _). split; [eauto|]. destruct K as [|K]; [right|left; lia].
    pose proof (zero_keeps sort B S cs ord_new st E) as Z. cbn in Z. destruct (o_buf st) as [|x l] eqn:X; [destruct (flat_map written cs); [auto|discriminate Z]|].
    exfalso. apply (C31_refuted sort st S) with (2 := L). rewrite X. discriminate.
  - intros ((st & E) & [HK|Z]).
    + destruct (C31_close_terminates_partial K sort st S HK) as (st' & L & _). exists (o_out st'), st, st'. auto.
    + destruct K as [|K].
      * pose proof (zero_keeps sort B S cs ord_new st E) as LZ. rewrite Z in LZ. cbn in LZ. assert (BZ : o_buf st = []) by (destruct (o_buf st); [auto|discriminate LZ]).
        exists (o_out st), st, (sort_buffer sort st). split; auto. split; [|reflexivity]. apply fl_done. cbn. rewrite BZ. destruct (S []) as (P & _). apply Permutation_nil in P. exact P.
      * destruct (C31_close_terminates_partial (Datatypes.S K) sort st S ltac:(lia)) as (st' & L & _). exists (o_out st'), st, st'. auto.
  - intros b1 b2 (s1 & t1 & E1 & L1 & ->) (s2 & t2 & E2 & L2 & ->). rewrite E1 in E2. apply ok_inj in E2. subst s2. f_equal. eapply loop_det; eauto.
Qed.
(** with block size 0 nothing of what was written ever reaches a block *)
Theorem C74_zero_blocks_are_empty B sort cs st : sort_ok sort -> do_calls B 0 sort ord_new cs = Ok st -> Forall (fun b => snd b = []) (o_out st).
Proof.
  intros S. assert (FI : forall st, Forall (fun b => snd b = []) (o_out st) -> Forall (fun b => snd b = []) (o_out (flush_if_full B 0 sort st))).
  { intros s H. unfold flush_if_full. destruct (Nat.ltb B (length (o_buf s))); auto. cbn. apply Forall_app. auto. }
  assert (PA : forall es st st', push_all st es = Ok st' -> o_out st' = o_out st).
  { induction es as [|e es IH]; intros s s' H; cbn in H; [injection H as <-; auto|]. unfold push in H. destruct (assert_order s e); cbn [bind] in H; [|discriminate H]. apply IH in H. exact H. }
  assert (G : forall cs st st', Forall (fun b => snd b = []) (o_out st) -> do_calls B 0 sort st cs = Ok st' -> Forall (fun b => snd b = []) (o_out st')).
  { induction cs0 as [|c cs0 IH]; intros s s' F H; cbn [do_calls] in H; [injection H as <-; auto|].
    destruct (do_call B 0 sort s c) as [s1| |] eqn:E; cbn [bind] in H; try discriminate H. eapply IH; [|exact H]. destruct c as [e|es]; cbn [do_call] in E.
    - unfold add_element, push in E. destruct (assert_order s e); cbn [bind] in E; [|discriminate E]. apply ok_inj in E. rewrite <- E. apply FI. exact F.
    - unfold add_elements in E. destruct (push_all s es) as [s2| |] eqn:X; cbn [bind] in E; try discriminate E. apply ok_inj in E. rewrite <- E. apply FI. rewrite (PA _ _ _ X). exact F. }
  apply G. constructor.
Qed.
