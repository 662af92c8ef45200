(** Concrete instances of C71. *)
From Coq Require Import ZArith List Bool Lia Strings.Byte Strings.String Permutation Sorted.
From Verif Require Import Base BaseFacts Types Proto ProtoFacts Block FileFormat FileFacts WriterFacts Spec FileSpec FormatSpec ModelSpec PropBlock PropFile WireSpec WireFacts WireMsg PropWire ReadSpec PropReadAny
  CallSpec PropCalls FileInfoModel InfoSpec PropInfo Pipelines PropPipelines Pool ParallelSpec PoolFacts ParallelRead PropParallelRead ParallelWriteSpec ParallelWrite OrderFacts EncodeFacts PropParallelWrite ParallelIo PropParallelIo
  ExBlock ExFile ExPipelines ExReadAny ExParallelRead ExParallelWrite.
Import ListNotations.
Local Notation length := List.length.
Local Notation concat := List.concat.
Open Scope nat_scope.

Lemma ex_blocks_run : exists h b rest, file_blocks Wrapping ex_codec ex_clean (h :: b :: rest) /\ elements_of h = [] /\
  filter (fun e => negb (pbf_io_filter_out e)) (flat_map elements_of (h :: b :: rest)) = ex_kept /\
  match filter (fun e => negb (pbf_io_filter_out e)) (elements_of b) with
  | ENode x :: _ => match filter (fun e => negb (pbf_io_filter_out e)) (flat_map elements_of rest) with [EWay _; ERelation _] => True | _ => False end
  | _ => False end.
Proof.
  assert (exists h b rest, fb_list 20 ex_codec ex_clean bit_new = Some (h :: b :: rest, Ended) /\ elements_of h = [] /\
  filter (fun e => negb (pbf_io_filter_out e)) (flat_map elements_of (h :: b :: rest)) = ex_kept /\
  match filter (fun e => negb (pbf_io_filter_out e)) (elements_of b) with
  | ENode x :: _ => match filter (fun e => negb (pbf_io_filter_out e)) (flat_map elements_of rest) with [EWay _; ERelation _] => True | _ => False end
  | _ => False end) as (h & b & rest & R & X) by (eexists _, _, _; vm_compute; auto).
  exists h, b, rest. split; auto. apply fb_list_run in R. exact R.
Qed.
(** a sorted file of three data blocks, two of which do not fit in the buffer: the unlucky schedule exists *)
Example ex_unlucky : exists tr steps p, reads Wrapping ex_codec pbf_io_filter_out 4 (str "id") ex_clean tr steps p /\ finished p /\
  do_calls 1 1 isort ord_new (calls_made p) = Panic.
Proof.
  destruct ex_blocks_run as (h & b & rest & R & EH & _ & G).
  pose proof (picked_filter pbf_io_filter_out (elements_of b)) as P1. pose proof (picked_filter pbf_io_filter_out (flat_map elements_of rest)) as P2.
  destruct (filter _ (elements_of b)) as [|[x| | |] kb]; try (destruct G; fail). destruct (filter _ (flat_map elements_of rest)) as [|[|w| |] [|[| |r|] [|]]]; try (destruct G; fail).
  refine (C71_unlucky_schedule Wrapping ex_codec pbf_io_filter_out 4 1 1 isort ex_clean h b rest (ENode x) kb [EWay w; ERelation r] (str "id") _ _ isort_ok R EH P1 P2 _ _); try (cbn; lia).
  constructor; [|constructor; auto]; unfold precedes; cbn; lia.
Qed.
Lemma kept_order a b d : in_order [ENode a; EWay b; ERelation d] /\ all_places_differ [ENode a; EWay b; ERelation d].
Proof.
  split.
  - repeat constructor; unfold not_after, precedes; cbn; lia.
  - intros l x m y r E. assert (D : type_rank x <> type_rank y); [|intros (X & _); auto].
    destruct l as [|l0 [|l1 [|l2 [|l3 l]]]]; cbn in E; try (injection E; intros; subst; discriminate).
    + destruct m as [|m0 [|m1 m]]; cbn in E; [injection E; intros; subst; cbn; lia|injection E; intros; subst; cbn; lia|].
      exfalso. apply (f_equal (@length _)) in E. cbn in E. rewrite app_length in E. cbn in E. lia.
    + destruct m as [|m0 m]; cbn in E; [injection E; intros; subst; cbn; lia|]. exfalso. apply (f_equal (@length _)) in E. cbn in E. rewrite app_length in E. cbn in E. lia.
    + exfalso. apply (f_equal (@length _)) in E. cbn in E. rewrite app_length in E. cbn in E. lia.
Qed.
Lemma ex_kept_is : exists a b d, ex_kept = [ENode a; EWay b; ERelation d]. Proof. eexists _, _, _. vm_compute. reflexivity. Qed.
Lemma ex_fit : choices_fit Wrapping ex_codec Zlib 3 ex_kept. Proof. apply tuples_fit. vm_compute. reflexivity. Qed.
Lemma ex_header_ok : header_fits ex_codec Zlib (set_field ex_in_info (SetProgramStr (str "parallel-pbf-io-example"))).
Proof. split; [vm_compute; congruence|]. intros m w H. rewrite write_header_spec in H. apply ok_eq in H. rewrite <- H. clear H. vm_compute; congruence. Qed.
Lemma ex_new_info : reader_new Wrapping ex_codec ex_clean = Ok ex_in_info. Proof. vm_compute. reflexivity. Qed.
(** with a buffer that is large enough every schedule yields the same elements as the sequential copy *)
Example ex_parallel_copy : exists output i' es', parallel_copy Wrapping ex_codec pbf_io_filter_out (str "parallel-pbf-io-example") Zlib 4 10 3 isort 4 ex_clean output /\
  reader_new Wrapping ex_codec output = Ok i' /\ fi_program i' = Some (str "parallel-pbf-io-example") /\
  elements_run Wrapping ex_codec output es' Ended /\ Forall2 written_read ex_kept es' /\ length es' = 3.
Proof.
  pose proof ex_kept_is as KI. pose proof ex_fit as FIT. pose proof ex_kept_ok as KO. pose proof ex_header_ok as HO. pose proof ex_new_info as RN. destruct ex_blocks_run as (h & b & rest & R & _ & KE & _).
  revert KI FIT KO HO RN KE R. generalize ex_kept, ex_clean, ex_in_info. intros kept input i KI FIT KO HO RN KE R.
  pose proof (picked_filter pbf_io_filter_out (flat_map elements_of (h :: b :: rest))) as PK. rewrite KE in PK.
  assert (L3 : length kept = 3) by (destruct KI as (? & ? & ? & ->); reflexivity).
  destruct (late_schedule Wrapping ex_codec input (fun e => negb (pbf_io_filter_out e)) (str "id") 4 h b rest ltac:(lia) R) as (tr & steps & p & RD & FI & _).
  destruct (C71_small_inputs ex_codec pbf_io_filter_out (str "parallel-pbf-io-example") Zlib 4 10 3 isort 4 input i _ kept (str "id") isort_ok RN R PK) as (_ & _ & W & _); try lia.
  destruct (W _ _ _ RD FI) as (output & WR).
  assert (PC : parallel_copy Wrapping ex_codec pbf_io_filter_out (str "parallel-pbf-io-example") Zlib 4 10 3 isort 4 input output) by (exists (str "id"), i, tr, steps, p; auto).
  destruct (C71_copy Wrapping ex_codec pbf_io_filter_out (str "parallel-pbf-io-example") Zlib 4 10 3 isort 4 input output i _ kept ex_codec_ok eq_refl isort_ok RN R PK HO KO FIT PC) as (i' & st & es' & A & A2 & B & D & P & Q).
  destruct Q as (O & Q); try lia. destruct KI as (a & b' & d & KI). destruct (kept_order a b' d) as (O1 & O2). rewrite <- KI in O1, O2. specialize (Q O1 O2). subst st.
  exists output, i', es'. split; [exact PC|]. split; [exact A|]. split; [|split; [exact B|split; [exact D|]]].
  - destruct A2 as (_ & _ & A2 & _). rewrite A2. destruct i; reflexivity.
  - apply F2_length in D. congruence.
Qed.
