(** Property C91: sequential and parallel reading of the same file. *)
From Coq Require Import ZArith List Bool Strings.Byte Strings.String Permutation Lia.
From Verif Require Import Base BaseFacts Types FileFormat FileFacts FileSpec ModelSpec ModelFacts Pool ParallelSpec PoolFacts ParallelRead ParallelReadFacts PropParallelRead PropFile ReadSpec PropReadAny CountSpec.
From Verif Require PropDump Pipelines.
Import ListNotations.
Open Scope Z_scope.
Local Notation length := List.length.
Local Notation concat := List.concat.

Lemma elements_before l es o : elements_in l Ended es o -> es = flat_map elements_of (before_header l) /\ o = Ended.
Proof.
  remember Ended as o0 eqn:E. induction 1 as [o|ix i l o|ix es l o es' o' H IH]; subst; cbn [before_header flat_map]; auto. destruct (IH eq_refl) as (-> & ->). auto.
Qed.
Lemma header_split l : l = before_header l ++ from_header l.
Proof. induction l as [|[i x|i es] l IH]; cbn [before_header from_header app]; auto. f_equal. exact IH. Qed.
Definition calls_that_count (l : list element) : list element := filter (fun e => negb (is_sentinel e)) l.
Lemma filter_permutation {A} (P : A -> bool) a b : Permutation a b -> Permutation (filter P a) (filter P b).
Proof.
  induction 1; cbn [filter]; auto.
  - destruct (P x); auto.
  - destruct (P x), (P y); auto; apply perm_swap.
  - etransitivity; eauto.
Qed.
Lemma no_sentinels es : ~ In ESentinel es -> calls_that_count es = es.
Proof. induction es as [|e es IH]; cbn; auto. intros N. destruct e; cbn; try (f_equal; apply IH; intros I; apply N; right; auto; fail). destruct N. left; auto. Qed.
Lemma counted_calls blks : Forall (fun b => ~ In ESentinel (elements_of b)) blks -> calls_that_count (concat (map calls_of blks)) = flat_map elements_of blks.
Proof.
  unfold calls_that_count. induction 1 as [|b blks H NS IH]; cbn [map List.concat flat_map]; auto. rewrite filter_app, IH. f_equal. destruct b as [i x|i es]; cbn [calls_of elements_of filter]; auto.
  rewrite filter_app. cbn. rewrite app_nil_r. apply no_sentinels. exact H.
Qed.
(** C91: when both come to an end, parallel_for_each passes the elements that elements() yields and, in addition, those behind a second
    header block, where elements() stops. *)
Theorem C91_same_elements {S} m c file i es o tasks (f : nat -> element -> S -> option S) s0 tr k p :
  FileFormat.reader_new m c file = Ok i -> elements_run m c file es o -> for_each_exec m c file tasks f s0 tr k p -> finished p ->
  exists ix blks, file_blocks m c file (FHeader ix i :: blks) /\ o = Ended /\ es = flat_map elements_of (before_header blks) /\
    Permutation (filter (fun e => negb (is_sentinel e)) (map snd tr)) (es ++ flat_map elements_of (from_header blks)).
Proof.
  intros RN EL E F. destruct (C23_exactly_once _ _ _ _ _ _ _ _ _ E F) as (blks & owners & B & _ & _ & P & NS & _). unfold file_blocks in B.
  unfold FileFormat.reader_new in RN. inversion B as [? ? N|? N|? b s' l ? N R]; subst; rewrite N in RN; cbn [bind] in RN; try discriminate RN.
  destruct b as [ix i0|ix es0]; [|discriminate RN]. destruct (find_missing supported_features (fi_required i0)); [|discriminate RN]. injection RN as ->.
  exists ix, l. split; [exact B|]. destruct (elements_after_first _ _ _ _ _ _ _ N R) as (es' & o' & IN & X). destruct (C16_unique _ _ _ _ _ _ _ EL X) as (-> & ->).
  destruct (elements_before _ _ _ IN) as (-> & ->). split; auto. split; auto. rewrite (filter_permutation _ _ _ P). change (filter (fun e => negb (is_sentinel e))) with calls_that_count. rewrite counted_calls by exact NS.
  cbn [flat_map elements_of app]. rewrite <- flat_map_app, <- header_split. reflexivity.
Qed.
Lemma tally_count es : forall a, let r := fold_left Pipelines.count_one es a in
  Pipelines.ct_nodes r = Pipelines.ct_nodes a + number_of is_node es /\ Pipelines.ct_ways r = Pipelines.ct_ways a + number_of is_way es /\ Pipelines.ct_relations r = Pipelines.ct_relations a + number_of is_relation es.
Proof.
  cbv zeta. induction es as [|e es IH]; intros a; cbn [fold_left]; [unfold number_of, zlen; cbn; lia|]. destruct (IH (Pipelines.count_one a e)) as (-> & -> & ->). rewrite !number_of_cons.
  destruct a, e; cbn [Pipelines.count_one Pipelines.ct_nodes Pipelines.ct_ways Pipelines.ct_relations is_node is_way is_relation]; lia.
Qed.
(** C91: of the same file, count-pbf-elements logs the numbers of nodes, ways and relations that elements() yields; count_objects (and
    parallel-count-pbf-elements) counts those and the objects behind a second header block. *)
Theorem C91_counts m c file a tasks tr k p : Pipelines.count_file m c file (Ok a) -> for_each_exec m c file tasks count_one (Counters 0 0 0) tr k p -> finished p ->
  exists ix i blks, file_blocks m c file (FHeader ix i :: blks) /\
    let es := flat_map elements_of (before_header blks) in let hidden := flat_map elements_of (from_header blks) in
    Pipelines.ct_nodes a = number_of is_node es /\ Pipelines.ct_ways a = number_of is_way es /\ Pipelines.ct_relations a = number_of is_relation es /\
    (zlen (es ++ hidden) <= max_i64 ->
     counted (p_shared p) = (Pipelines.ct_nodes a + number_of is_node hidden, Pipelines.ct_ways a + number_of is_way hidden, Pipelines.ct_relations a + number_of is_relation hidden)).
Proof.
  intros CF E F. remember (Ok a) as r eqn:Er. destruct CF as [X|X|i es X Y|i es RN EL]; try discriminate Er. injection Er as <-.
  destruct (C91_same_elements _ _ _ _ _ _ _ _ _ _ _ _ RN EL E F) as (ix & blks & B & _ & -> & _).
  destruct (C24_count_objects _ _ _ _ _ _ _ E F) as (blks' & B' & C). destruct (PropDump.run_unique _ _ _ _ B _ _ B') as (-> & _). cbv zeta in C. cbn [flat_map elements_of app] in C.
  exists ix, i, blks. split; [exact B|]. cbv zeta. set (es := flat_map elements_of (before_header blks)). set (hd := flat_map elements_of (from_header blks)).
  assert (SP : flat_map elements_of blks = es ++ hd) by (unfold es, hd; rewrite <- flat_map_app, <- header_split; reflexivity). rewrite SP in C.
  destruct (tally_count es (Pipelines.Counts 0 0 0 0 0 0)) as (A1 & A2 & A3). cbn [Pipelines.ct_nodes Pipelines.ct_ways Pipelines.ct_relations Z.add] in A1, A2, A3.
  split; [exact A1|]. split; [exact A2|]. split; [exact A3|]. intros L. rewrite (C L), A1, A2, A3, !number_of_app. reflexivity.
Qed.
(** in particular the two counts are equal when the file has one header block *)
Corollary C91_one_header m c file a tasks tr k p : Pipelines.count_file m c file (Ok a) -> for_each_exec m c file tasks count_one (Counters 0 0 0) tr k p -> finished p ->
  (forall blks, file_blocks m c file blks -> Forall (fun b => match b with FHeader _ _ => False | FData _ _ => True end) (tl blks) /\ zlen (flat_map elements_of blks) <= max_i64) ->
  counted (p_shared p) = (Pipelines.ct_nodes a, Pipelines.ct_ways a, Pipelines.ct_relations a).
Proof.
  intros CF E F H. destruct (C91_counts _ _ _ _ _ _ _ _ CF E F) as (ix & i & blks & B & _ & _ & _ & C). destruct (H _ B) as (D & L). cbn [tl flat_map elements_of app] in D, L.
  assert (N : from_header blks = []). { clear - D. induction D as [|[|] l X D IH]; cbn [from_header]; auto. destruct X. }
  rewrite N in C. cbn [flat_map] in C. rewrite app_nil_r in C. rewrite C; [unfold number_of, zlen; cbn; rewrite !Z.add_0_r; reflexivity|].
  rewrite (header_split blks), N, app_nil_r in L. exact L.
Qed.
