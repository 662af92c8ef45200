(** C103: sorting makes a collection of elements writable, and merging files through it. *)
From Coq Require Import ZArith List Bool Lia Strings.Byte Strings.String Reals Permutation Sorted.
From Verif Require Import Base BaseFacts Types Proto ProtoFacts Block BlockFacts BlockRead Spec SpecFacts FileFormat FileFacts
  WriterFacts FileSpec PropBlock PropFile CallSpec Calls PropCalls ModelSpec Model2 ModelFacts ParallelWriteSpec OrderFacts PropConvert PropConvert2.
Import ListNotations.
Local Notation length := List.length.
Local Notation concat := List.concat.
Open Scope Z_scope.

(** a list has a relation, a way *)
Definition has_relation (l : list element) : Prop := exists r, In (ERelation r) l.
Definition has_way (l : list element) : Prop := exists w, In (EWay w) l.

Lemma ranks_sorted l : Forall not_sentinel l -> in_order l -> in_osm_order l.
Proof.
  intros NS O. induction l as [|e l IH].
  - exists [], [], []. sconj; try reflexivity; constructor.
  - inversion NS as [|? ? N1 N2]; subst. apply StronglySorted_inv in O. destruct O as [O F].
    destruct (IH N2 O) as (ns & ws & rs & E & A & B & C). subst l.
    destruct e as [n|w|r|]; [| | |elim N1; reflexivity].
    + exists (ENode n :: ns), ws, rs. sconj; auto. constructor; eauto.
    + destruct ns as [|x ns].
      * exists [], (EWay w :: ws), rs. sconj; auto. constructor; eauto.
      * exfalso. inversion A as [|? ? (m & ->) _]; subst. inversion F as [|? ? X _]; subst. apply X. left. cbn. lia.
    + destruct ns as [|x ns]; [destruct ws as [|x ws]|].
      * exists [], [], (ERelation r :: rs). sconj; auto. constructor; eauto.
      * exfalso. inversion B as [|? ? (m & ->) _]; subst. inversion F as [|? ? X _]; subst. apply X. left. cbn. lia.
      * exfalso. inversion A as [|? ? (m & ->) _]; subst. inversion F as [|? ? X _]; subst. apply X. left. cbn. lia.
Qed.
Lemma sorted_acceptable l l' : Permutation l l' -> in_osm_order l' ->
  (acceptable l' <-> (has_relation l -> has_way l)).
Proof.
  intros P (ns & ws & rs & E & A & B & C). split.
  - intros (ns' & ws' & rs' & E' & A' & B' & C' & X) (r & H). apply (Permutation_in _ P) in H. rewrite E' in H.
    assert (R : In (ERelation r) rs').
    { rewrite !in_app_iff in H. destruct H as [H|[H|H]]; auto.
      - unfold all_nodes in A'. rewrite Forall_forall in A'. destruct (A' _ H). discriminate.
      - unfold all_ways in B'. rewrite Forall_forall in B'. destruct (B' _ H). discriminate. }
    assert (W : ws' <> []) by (apply X; intros ->; exact R). destruct ws' as [|w ws']; [congruence|].
    inversion B' as [|? ? (w' & ->) _]; subst. exists w'. apply (Permutation_in _ (Permutation_sym P)). rewrite E', !in_app_iff. cbn. auto.
  - intros H. exists ns, ws, rs. sconj; auto. intros NE ->. destruct rs as [|r rs]; [congruence|].
    inversion C as [|? ? (r' & ->) _]; subst. destruct H as (w & W).
    + exists r'. apply (Permutation_in _ (Permutation_sym P)). rewrite !in_app_iff. cbn. auto.
    + apply (Permutation_in _ P) in W. rewrite !in_app_iff in W. destruct W as [W|[[]|[W|W]]]; [| congruence|].
      * unfold all_nodes in A. rewrite Forall_forall in A. destruct (A _ W). discriminate.
      * unfold all_relations in C. inversion C; subst. rewrite Forall_forall in H2. destruct (H2 _ W). discriminate.
Qed.
Lemma without_id l : Forall not_sentinel l -> without_sentinels l l.
Proof. induction 1; constructor; auto. Qed.

(** a collection of elements can be sorted and written exactly if it does not have relations without ways *)
Theorem C103_sorted_is_writable m c i k sort l : sort_ok sort -> Forall not_sentinel l -> serializable m (sort l) ->
  in_osm_order (sort l) /\
  ((has_relation l -> has_way l) <-> exists file, write_file m c i k (sort l) = Ok file) /\
  (~ (has_relation l -> has_way l) <-> write_file m c i k (sort l) = Panic).
Proof.
  intros S NS SE. destruct (S l) as [P O]. specialize (O NS).
  assert (NS' : Forall not_sentinel (sort l)) by (eapply Permutation_Forall; eauto).
  pose proof (ranks_sorted _ NS' O) as R. pose proof (sorted_acceptable _ _ P R) as A.
  destruct (C59_exactly_these_streams m c i k (sort l) (sort l) (without_id _ NS') SE) as [X Y].
  rewrite <- A. auto.
Qed.

Lemma wr_place e e' : written_read e e' -> type_rank e' = type_rank e /\ element_id e' = element_id e /\ element_version e' = element_version e.
Proof. destruct e as [a|a|a|], e' as [b|b|b|]; cbn; try tauto; intros H; destruct H as (A & B & _); auto. Qed.
Lemma wr_in_order l l' : Forall2 written_read l l' -> in_order l -> in_order l'.
Proof.
  intros F O. induction F as [|e e' l l' E F IH]; [constructor|]. apply StronglySorted_inv in O. destruct O as [O X].
  constructor; [apply IH; auto|]. clear IH O. destruct (wr_place _ _ E) as (A1 & A2 & A3).
  induction F as [|x x' l l' E2 F IH]; constructor; inversion X as [|? ? X1 X2]; subst; auto.
  destruct (wr_place _ _ E2) as (B1 & B2 & B3). unfold not_after, precedes in *. rewrite A1, A2, A3, B1, B2, B3. exact X1.
Qed.
Lemma perm_forall2 {A B} (R : A -> B -> Prop) l l' : Permutation l l' -> forall m', Forall2 R l' m' -> exists m, Forall2 R l m /\ Permutation m m'.
Proof.
  intros P m' F. apply Permutation_sym in P.
  destruct (Permutation_Forall2 P F) as (m & Q & G). exists m. split; auto. apply Permutation_sym; auto.
Qed.
(** what the reader gives for the sorted file: in order by id and version, and element for element
    what was put in *)
Theorem C103_sorted_round_trip m c i k sort l file : sort_ok sort -> Forall not_sentinel l ->
  codec_ok c -> info_ok i -> ~ info_empty i -> header_fits c k i -> Forall supported (fi_required i) ->
  Forall element_ok l -> blocks_fit m c k (sort l) -> write_file m c i k (sort l) = Ok file ->
  exists i' images got, reader_new m c file = Ok i' /\ info_written_read i i' /\ elements_run m c file got Ended /\
    in_order got /\ Forall2 written_read l images /\ Permutation images got.
Proof.
  intros S NS CO IO IE HF SU EO BF W. destruct (S l) as [P O]. specialize (O NS).
  assert (NS' : Forall not_sentinel (sort l)) by (eapply Permutation_Forall; eauto).
  assert (EO' : Forall element_ok (sort l)) by (eapply Permutation_Forall; eauto).
  destruct (C16_whole_file_round_trip m c i k (sort l) (sort l) file CO IO IE HF SU EO' (without_id _ NS') BF W) as (i' & got & A & B & D & F).
  destruct (perm_forall2 _ _ _ P _ F) as (im & F' & Q).
  exists i', im, got. sconj; auto. eapply wr_in_order; eauto.
Qed.

(** ** Merging *)
(** a file this library wrote, and what reading it gives *)
Definition own_file (m : mode) (c : codec) (file : bytes) (got : list element) : Prop :=
  exists i k es stream, info_ok i /\ ~ info_empty i /\ header_fits c k i /\ Forall supported (fi_required i) /\
    Forall element_ok es /\ without_sentinels es stream /\ blocks_fit m c k stream /\
    write_file m c i k es = Ok file /\ elements_run m c file got Ended.
Lemma wr_ok e e' : element_ok e -> written_read e e' -> element_ok e' /\ not_sentinel e' /\ lossless e'.
Proof.
  intros O W. assert (N : e <> ESentinel) by (intros ->; destruct W).
  assert (L : lossless e') by (eapply written_read_lossless; eauto).
  split; [|split; auto; intros ->; destruct e; destruct W].
  assert (T : forall a b, I64 a -> truncated_to_second a b -> I64 b).
  { intros a b Ia Tab. rewrite (truncated_unique _ _ _ Tab (norm_ts_spec a)). apply norm_ts_range; auto. }
  destruct e as [a|a|a|], e' as [b|b|b|]; cbn [written_read] in W; try tauto.
  - destruct O as ((O1 & O2 & O3 & O4 & O5 & O6 & O7) & _). destruct W as (E1 & E2 & E3 & E4 & E5 & E6 & E7 & E8 & _).
    split; [|exact (lossless_coordinates _ L)]. unfold wf_node. rewrite E1, E2, E3, E4, E5, E7. sconj; eauto.
  - destruct O as (O1 & O2 & O3 & O4 & O5 & O6 & O7 & O8). destruct W as (E1 & E2 & E3 & E4 & E5 & E6 & E7 & E8 & E9).
    red. unfold wf_way. rewrite E1, E2, E3, E4, E5, E7, E8. sconj; eauto.
  - destruct O as (O1 & O2 & O3 & O4 & O5 & O6 & O7 & O8). destruct W as (E1 & E2 & E3 & E4 & E5 & E6 & E7 & E8 & E9).
    red. unfold wf_relation. rewrite E1, E2, E3, E4, E5, E7, E8. sconj; eauto.
Qed.
Lemma own_good m c file got : codec_ok c -> own_file m c file got -> Forall (fun e => element_ok e /\ not_sentinel e /\ lossless e) got.
Proof.
  intros CO (i & k & es & stream & IO & IE & HF & SU & EO & WS & BF & W & R).
  destruct (C16_whole_file_round_trip m c i k es stream file CO IO IE HF SU EO WS BF W) as (i' & s' & _ & _ & R' & F).
  destruct (C16_unique _ _ _ _ _ _ _ R R') as (-> & _).
  assert (EO' : Forall element_ok stream).
  { clear - EO WS. induction WS; inversion EO; subst; auto. }
  clear - F EO'. induction F; inversion EO'; subst; constructor; eauto using wr_ok.
Qed.
(** reading any number of files this library wrote, sorting all their elements and writing them gives
    a file with exactly those elements, in order, none lost and none changed *)
Theorem C103_merge m c i k sort files gots : sort_ok sort -> codec_ok c ->
  Forall2 (own_file m c) files gots ->
  info_ok i -> ~ info_empty i -> header_fits c k i -> Forall supported (fi_required i) ->
  (has_relation (concat gots) -> has_way (concat gots)) ->
  serializable m (sort (concat gots)) -> blocks_fit m c k (sort (concat gots)) ->
  exists merged i' got, write_file m c i k (sort (concat gots)) = Ok merged /\ reader_new m c merged = Ok i' /\ info_written_read i i' /\
    elements_run m c merged got Ended /\ Permutation (concat gots) got /\ in_order got.
Proof.
  intros S CO OF IO IE HF SU HW SE BF. set (l := concat gots) in *.
  assert (G : Forall (fun e => element_ok e /\ not_sentinel e /\ lossless e) l).
  { subst l. clear - CO OF. induction OF; cbn; [constructor|]. apply Forall_app. split; auto. eapply own_good; eauto. }
  assert (NS : Forall not_sentinel l) by (eapply Forall_impl; [|exact G]; intros ? (A1 & A2 & A3); auto).
  destruct (S l) as [P O]. specialize (O NS).
  assert (G' : Forall (fun e => element_ok e /\ not_sentinel e /\ lossless e) (sort l)) by (eapply Permutation_Forall; eauto).
  destruct (C103_sorted_is_writable m c i k sort l S NS SE) as (_ & [W _] & _). destruct (W HW) as (file & F).
  assert (NS' : Forall not_sentinel (sort l)) by (eapply Forall_impl; [|exact G']; intros ? (A1 & A2 & A3); auto).
  assert (EO' : Forall element_ok (sort l)) by (eapply Forall_impl; [|exact G']; intros ? (A1 & A2 & A3); auto).
  destruct (C16_whole_file_round_trip m c i k (sort l) (sort l) file CO IO IE HF SU EO' (without_id _ NS') BF F) as (i' & got & A & B & D & F2).
  exists file, i', (sort l). assert (E : got = sort l).
  { clear - F2 G'. induction F2; inversion G'; subst; auto. f_equal; auto. match goal with K : element_ok _ /\ _ |- _ => destruct K as (K1 & K2 & K3) end. apply written_read_same; auto. }
  subst got. sconj; auto.
Qed.
