(** Concrete instances of C65 and C66. *)
From Coq Require Import ZArith List Bool Lia Strings.Byte Strings.String Reals Lra Permutation.
From Verif Require Import Base BaseFacts Types Proto ProtoFacts Block BlockFacts FloatFacts FileFormat FileFacts WriterFacts Spec SpecFacts FileSpec FormatSpec ModelSpec
  PropBlock PropFile WireSpec WireFacts PropWire PropLegal CallSpec PropCalls FileInfoModel InfoSpec PropInfo Pipelines PropPipelines.
From Verif Require Import ApidbText ApidbSpec ApidbTextFacts DumpSpec ApidbWrite ApidbWriteFacts PropApidbWrite ApidbRead DumpReadSpec ApidbReadFacts TocFacts JoinFacts ReaderFacts PropApidbRead PropDump
  RoundSpec RoundFacts PropRound PropRoundTrip PropLimits Pipelines2 PropConvert PropConvert2.
From Verif Require Import ExTools TocData PropToc ExBlock ExFile ExPipelines ExApidb.
Import ListNotations.
Local Notation length := List.length.
Local Notation concat := List.concat.
Open Scope Z_scope.

(** an unescaping crate that only gives text *)
Definition ex_unescape_text (s : bytes) : option bytes := match ex_unescape s with Some t => if utf8_ok t then Some t else None | None => None end.
Lemma ex_unescapes_to_text : unescapes_to_text ex_unescape_text.
Proof. intros s t _. unfold ex_unescape_text. destruct (ex_unescape s) as [x|]; [|discriminate]. destruct (utf8_ok x) eqn:E; [|discriminate]. intros H. injection H as <-. exact E. Qed.
Lemma ex_escapes_text : escapes ex_escape ex_unescape_text.
Proof.
  intros s U. destruct (ex_escapes s U) as (A & B). split; auto. destruct B as [B|(B & E)].
  - left. unfold ex_unescape_text. rewrite B, U. reflexivity.
  - right. split; [|exact E]. unfold ex_unescape_text. rewrite B. reflexivity.
Qed.

(** ** The input: two versions of a node, another node, a way and a relation with its members out of order *)
Definition ex_r2 : relation := Relation 6 3 1600000000000 11 8 zoe true [Member MNode 9 (str "b"); Member MNode 3 odd_text] [Tag (str "type") (str "route")].
Definition ex_short : list element := [ENode ex_n3; ENode ex_n1'; ENode ex_n2; EWay ex_w; ERelation ex_r2].
Definition ex_pbf : bytes := match write_file Wrapping ex_codec ex_info Zlib ex_short with Ok f => f | _ => [] end.
Lemma ex_pbf_new : exists i, FileFormat.reader_new Wrapping ex_codec ex_pbf = Ok i.
Proof. eexists. vm_compute. reflexivity. Qed.
Lemma ex_pbf_run : elements_run Wrapping ex_codec ex_pbf ex_short Ended.
Proof. apply (els_list_run 100). vm_compute. reflexivity. Qed.
Lemma ex_short_lossless : Forall lossless ex_short.
Proof.
  assert (G : forall k, Z.abs k <= 1800000000 -> Spec.on_grid (DumpReadSpec.degrees k)) by (intros k K; apply degrees_on_grid; auto).
  unfold ex_short. repeat apply Forall_cons; try apply Forall_nil; cbn [lossless]; try reflexivity; sconj; try reflexivity; apply G; vm_compute; discriminate.
Qed.
Lemma ex_short_limits : dump_limits ex_short.
Proof.
  assert (HY : forall z, (-62135596800 <=? z) && (z <=? 253402300799) = true -> four_digit_year z) by (unfold four_digit_year; lia).
  unfold dump_limits. sconj.
  - unfold ex_short. repeat apply Forall_cons; try apply Forall_nil; sconj; try (apply HY; vm_compute; reflexivity); vm_compute; discriminate.
  - intros uid name H. cbn in H. intuition subst; cbn in *; intuition (try discriminate); match goal with H : (_, _) = (_, _) |- _ => injection H as <- <- end; cbn in *; intuition discriminate.
  - unfold distinct_versions. sconj; repeat constructor; cbn; intuition discriminate.
  - split; cbn; intros; intuition congruence.
Qed.
Lemma ex_clock_years i : four_digit_year (ex_clock i / 1000000).
Proof. pose proof (ex_clock_range i). unfold four_digit_year. lia. Qed.
Lemma ex_program_fits : header_fits ex_codec Zlib apidb_to_pbf_info.
Proof. split; [vm_compute; congruence|]. intros m w H. rewrite write_header_spec in H. apply ok_eq in H. rewrite <- H. clear H. vm_compute; congruence. Qed.
Lemma F2_cons {A B} (R : A -> B -> Prop) a l l' : Forall2 R (a :: l) l' -> exists b m, R a b /\ Forall2 R l m /\ l' = b :: m.
Proof. intros H. inversion H; subst. eauto 6. Qed.
Lemma F2_nil {A B} (R : A -> B -> Prop) l' : Forall2 R [] l' -> l' = [].
Proof. intros H. inversion H. auto. Qed.
(** the copy in the order of the file: the members of the relation may have changed places *)
Lemma ex_short_copy nodes ways relations : sorted_copy ex_short nodes ways relations ->
  nodes = [ENode ex_n3; ENode ex_n1'; ENode ex_n2] /\ ways = [EWay ex_w] /\
  (relations = [ERelation ex_r2] \/ relations = [ERelation (Relation 6 3 1600000000000 11 8 zoe true [Member MNode 3 odd_text; Member MNode 9 (str "b")] [Tag (str "type") (str "route")])]).
Proof.
  intros (ns & ws & rs & P1 & O1 & F1 & P2 & O2 & F2 & P3 & O3 & F3).
  assert (ns = [ex_n3; ex_n1'; ex_n2]) as ->.
  { apply (perm_strict (fun a b => key_lt (n_id a, n_version a) (n_id b, n_version b))); auto.
    + intros a. unfold key_lt. cbn. lia.
    + intros a b c. unfold key_lt. cbn. lia.
    + cbn [ordered]. sconj; try exact I; repeat apply Forall_cons; try apply Forall_nil; unfold key_lt; cbn; lia. }
  change (ways_in ex_short) with [ex_w] in P2. change (relations_in ex_short) with [ex_r2] in P3.
  apply Permutation_sym, Permutation_length_1_inv in P2. apply Permutation_sym, Permutation_length_1_inv in P3. subst ws rs. cbn [map] in *.
  sconj.
  - apply F2_cons in F1. destruct F1 as (? & ? & (ts1 & T1 & ->) & F1 & ->). apply F2_cons in F1. destruct F1 as (? & ? & (ts2 & T2 & ->) & F1 & ->).
    apply F2_cons in F1. destruct F1 as (? & ? & (ts3 & T3 & ->) & F1 & ->). apply F2_nil in F1. subst.
    cbn [n_tags ex_n3 ex_n1' ex_n2] in T1, T2, T3. apply Permutation_sym, Permutation_length_1_inv in T1. apply Permutation_sym, Permutation_nil in T2. apply Permutation_sym, Permutation_length_1_inv in T3. subst. reflexivity.
  - apply F2_cons in F2. destruct F2 as (? & ? & (ts1 & T1 & ->) & F2 & ->). apply F2_nil in F2. subst. cbn [w_tags ex_w] in T1. apply Permutation_sym, Permutation_length_1_inv in T1. subst. reflexivity.
  - apply F2_cons in F3. destruct F3 as (? & ? & (ts1 & ms & T1 & M1 & ->) & F3 & ->). apply F2_nil in F3. subst. cbn [r_tags r_members ex_r2] in T1, M1. apply Permutation_sym, Permutation_length_1_inv in T1.
    apply Permutation_sym, Permutation_length_2_inv in M1. subst. destruct M1 as [-> | ->]; [left|right]; reflexivity.
Qed.
Example ex_there_and_back : exists w file i' relations,
  pbf_to_apidb Wrapping ex_codec ex_escape ex_order ex_clock ex_lib ex_pbf (Ok w) /\
  apidb_to_pbf Wrapping ex_codec ex_unescape_text ex_sort (ex_directory (files w)) (Ok file) /\
  FileFormat.reader_new Wrapping ex_codec file = Ok i' /\ info_written_read apidb_to_pbf_info i' /\
  elements_run Wrapping ex_codec file ([ENode ex_n3; ENode ex_n1'; ENode ex_n2; EWay ex_w] ++ relations) Ended /\ length relations = 1%nat.
Proof.
  destruct ex_pbf_new as (i & RN).
  destruct (C66_there_and_back Wrapping ex_codec ex_escape ex_unescape_text ex_sort ex_order ex_clock ex_lib ex_sorts ex_escapes_text ex_any_order ex_clock_years ex_codec_ok
    ex_pbf i ex_short RN ex_pbf_run ex_short_lossless ex_short_limits) as (w & PA & BACK).
  destruct (BACK _ (ex_directory_ok w)) as (nodes & ways & relations & SC & REST). apply ex_short_copy in SC. destruct SC as (-> & -> & R).
  destruct REST as (file & i' & A & B & D & E).
  - apply serializable_release.
  - apply pieces_fit. destruct R as [-> | ->]; vm_compute; reflexivity.
  - exact ex_program_fits.
  - left. discriminate.
  - exists w, file, i', relations. sconj; auto. destruct R as [-> | ->]; reflexivity.
Qed.
(** C65: the dump of these elements meets its hypotheses; the sizes of its blocks are those of [ex_there_and_back] *)
Lemma ex_short_readable : readable ex_escape ex_unescape_text ex_clock ex_short.
Proof.
  assert (forall z, (min_i64 <=? z) && (z <=? max_i64) = true -> I64 z) as H64 by (unfold I64, min_i64, max_i64; lia).
  assert (forall z, (-2147483648 <=? z) && (z <=? 2147483647) = true -> I32 z) as H32 by (unfold I32; lia).
  assert (TG : forall l, forallb (fun t => utf8_ok (t_k t) && utf8_ok (t_v t)) l = true -> storable_tags ex_escape ex_unescape_text l).
  { intros l H. apply Forall_forall. intros t I. rewrite forallb_forall in H. apply H, andb_true_iff in I as (A & B). split; apply ex_escapes_text; auto. }
  destruct ex_short_limits as (Y & _ & DV & _). unfold readable. sconj.
  - apply Forall_forall. intros e I. rewrite Forall_forall in Y. specialize (Y e I). cbn in I. intuition subst; cbn [storable] in *; sconj; auto; try tauto;
    match goal with |- storable_tags _ _ _ => apply TG; reflexivity | |- I64 _ => apply H64; vm_compute; reflexivity
      | |- I32 _ => apply H32; vm_compute; reflexivity | _ => idtac end.
    + repeat apply Forall_cons; try apply Forall_nil; apply H64; reflexivity.
    + repeat apply Forall_cons; try apply Forall_nil; (split; [apply H64; reflexivity|apply ex_escapes_text; reflexivity]).
  - exact DV.
  - unfold ex_short. repeat constructor; cbn; intuition discriminate.
  - exact ex_clock_years.
Qed.
Example ex_dump_to_pbf : exists w d, dump_in ex_unescape_text (ex_directory (files w)) d /\ primary_keys d /\ foreign_keys d /\ resolved d /\
  positions_in_degrees d /\ whole_times d /\ d_ways d <> [] /\ d_relations d <> [] /\
  exists file, apidb_to_pbf Wrapping ex_codec ex_unescape_text ex_sort (ex_directory (files w)) (Ok file).
Proof.
  destruct ex_there_and_back as (w & file & _ & _ & PA & AP & _).
  assert (W : ApidbWrite.dump ex_escape ex_order ex_clock ex_lib ex_short = Ok w).
  { pose proof ex_pbf_run as R. destruct ex_pbf_new as (i & RN). destruct (C66_one_outcome Wrapping ex_codec ex_escape ex_order ex_clock ex_lib ex_pbf) as (r & _ & U).
    rewrite <- (U _ PA). symmetry. apply U. eapply pa_write; eauto. }
  destruct (written_dump _ _ _ _ _ ex_any_order _ w _ W ex_short_readable (ex_directory_ok w)) as (us & cs & n & D & PK & FK & RS & _).
  eexists w, _. split; [exact D|]. sconj; auto.
  - unfold positions_in_degrees, written. cbn [d_nodes]. repeat apply Forall_cons; try apply Forall_nil; split; vm_compute; discriminate.
  - split; cbn; repeat constructor.
  - discriminate.
  - discriminate.
  - eauto.
Qed.
