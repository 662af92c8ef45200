(** Properties of writing a dump and reading it back: C36, C41, C44, C53. *)
From Coq Require Import ZArith List Bool Strings.Byte Strings.String Lia Permutation.
From Verif Require Import Base BaseFacts Types ApidbText ApidbSpec CalendarFacts ApidbTextFacts TileFacts DumpSpec ApidbWrite ApidbWriteFacts PropApidbWrite ApidbRead DumpReadSpec
  FileFormat ApidbReadFacts TocFacts JoinFacts ReaderFacts PropApidbRead PropDump RoundSpec RoundFacts.
Import ListNotations.
Local Notation length := List.length.
Local Notation concat := List.concat.
Open Scope Z_scope.

(** ** C36 *)
Section Rows.
Variables (esc : bytes -> bytes) (unescape : bytes -> option bytes).
Local Notation storable := (storable esc unescape).
Lemma needs_schema t : In t object_tables -> incl (needs t) (schema t).
Proof.
  assert (forallb (fun t => inclb (needs t) (schema t)) object_tables = true) as H by (vm_compute; reflexivity).
  intros I. rewrite forallb_forall in H. apply inclb_ok; auto.
Qed.
Lemma schema_fields t file def : In t object_tables -> table_def_new t file (schema t) = Ok def -> fields_of t (schema t) (td_fields def).
Proof.
  intros I E. destruct (table_def_ok t file (schema t)) as (fs & ks & E' & F & _); [exact I|apply needs_schema; auto|].
  rewrite E' in E. injection E as <-. exact F.
Qed.
Lemma row_read {R} t (says : R -> row_of -> Prop) (create : list nat -> bytes -> res R) file def r vals line : In t object_tables ->
  (forall cols w line fs, columns line = map w cols -> fields_of t cols fs -> says r w -> create fs line = Ok r) ->
  table_def_new t file (schema t) = Ok def -> row_text esc vals line ->
  (forall cols, Forall2 (shows esc) vals cols -> row_ok t says r cols) -> create (td_fields def) line = Ok r.
Proof.
  intros I C D (cols & S & L) H. destruct (H cols S) as (M & SY & CL). eapply C; [|eapply schema_fields; eauto|exact SY].
  rewrite M. eapply columns_line; [exact L|apply CL].
Qed.

Lemma def_exists t file : In t object_tables -> exists def, table_def_new t file (schema t) = Ok def.
Proof. intros I. destruct (table_def_ok t file (schema t)) as (fs & ks & E' & F & _); [exact I|apply needs_schema; auto|eauto]. Qed.
Lemma rows_read {R} t (says : R -> row_of -> Prop) (create : list nat -> bytes -> res R) file def rs rows lines : In t object_tables ->
  (forall r cols w line fs, columns line = map w cols -> fields_of t cols fs -> says r w -> create fs line = Ok r) ->
  table_def_new t file (schema t) = Ok def -> Forall2 (row_text esc) rows lines ->
  Forall2 (fun r vals => forall cols, Forall2 (shows esc) vals cols -> row_ok t says r cols) rs rows ->
  res_map (create (td_fields def)) lines = Ok rs.
Proof.
  intros I C D F G. revert lines F. induction G as [|r vals rs rows H G IH]; intros lines F; inversion F; subst; [reflexivity|]. cbn [res_map].
  erewrite (row_read t says create file def r vals); eauto. cbn [bind]. rewrite IH by auto. reflexivity.
Qed.
Lemma Forall2_map_both {A B C} (P : B -> C -> Prop) (f : A -> B) (g : A -> C) l : (forall a, In a l -> P (f a) (g a)) -> Forall2 P (map f l) (map g l).
Proof. induction l; cbn; constructor; auto. Qed.

(** ** the rows of an element *)
Definition reads_as {R} (t : table) (says : R -> row_of -> Prop) (rs : list R) (rows : list (list value)) : Prop :=
  Forall2 (fun r vals => forall cols, Forall2 (shows esc) vals cols -> row_ok t says r cols) rs rows.
Lemma node_tags_read n : storable (ENode n) -> reads_as T_node_tags (tag_says unescape (str "node_id")) (tag_records (n_id n) (n_version n) (n_tags n)) (node_tag_rows n).
Proof.
  intros (I1 & I2 & _ & _ & _ & _ & _ & T). apply Forall2_map_both. intros t I cols F. unfold storable_tags in T. rewrite Forall_forall in T.
  destruct (T t I). eapply node_tag_ok; eauto.
Qed.
Lemma way_tags_read w : storable (EWay w) -> reads_as T_way_tags (tag_says unescape (str "way_id")) (tag_records (w_id w) (w_version w) (w_tags w)) (way_tag_rows w).
Proof.
  intros (I1 & I2 & _ & _ & _ & _ & _ & T). apply Forall2_map_both. intros t I cols F. unfold storable_tags in T. rewrite Forall_forall in T.
  destruct (T t I). eapply way_tag_ok; eauto.
Qed.
Lemma relation_tags_read w : storable (ERelation w) -> reads_as T_relation_tags (tag_says unescape (str "relation_id")) (tag_records (r_id w) (r_version w) (r_tags w)) (relation_tag_rows w).
Proof.
  intros (I1 & I2 & _ & _ & _ & _ & _ & T). apply Forall2_map_both. intros t I cols F. unfold storable_tags in T. rewrite Forall_forall in T.
  destruct (T t I). eapply relation_tag_ok; eauto.
Qed.
Lemma positions_range {A} (l : list A) i a : I64 (zlen l) -> In (i, a) (positions l) -> I64 i /\ In a l.
Proof.
  unfold positions, zlen. intros Z I. split; [|eapply in_combine_r; eauto]. apply in_combine_l in I. apply in_map_iff in I as (k & <- & I).
  apply in_seq in I. red in Z. red. lia.
Qed.
Lemma way_nodes_read w : storable (EWay w) -> reads_as T_way_nodes way_node_says (way_node_records w) (way_node_rows w).
Proof.
  intros (I1 & I2 & _ & _ & R & L & _ & _). apply Forall2_map_both. intros (i, a) I cols F. apply positions_range in I as (I3 & I4); auto. cbn [fst snd] in *.
  rewrite Forall_forall in R. eapply way_node_ok; eauto.
Qed.
Lemma members_read w : storable (ERelation w) -> reads_as T_relation_members (member_says unescape) (member_records w) (relation_member_rows w).
Proof.
  intros (I1 & I2 & _ & _ & R & L & _ & _). apply Forall2_map_both. intros (i, a) I cols F. apply positions_range in I as (I3 & I4); auto. cbn [fst snd] in *.
  rewrite Forall_forall in R. destruct (R a I4). eapply member_ok; eauto.
Qed.

(** C36: the rows the dump writer writes for an element (DumpSpec, C35) are read back as exactly the values
    written: ids, versions, coordinates in 1e-7 degrees, visibility, time to the second and all strings. *)
Theorem C36_rows_parse_back :
  (forall n file, storable (ENode n) -> exists def, table_def_new T_nodes file (schema T_nodes) = Ok def /\
     forall line, row_text esc (node_row n) line -> create_node (td_fields def) line = Ok (node_record n)) /\
  (forall n file, storable (ENode n) -> exists def, table_def_new T_node_tags file (schema T_node_tags) = Ok def /\
     forall lines, Forall2 (row_text esc) (node_tag_rows n) lines ->
     res_map (create_node_tag unescape (td_fields def)) lines = Ok (tag_records (n_id n) (n_version n) (n_tags n))) /\
  (forall w file, storable (EWay w) -> exists def, table_def_new T_ways file (schema T_ways) = Ok def /\
     forall line, row_text esc (way_row w) line -> create_obj (td_fields def) line = Ok (way_record w)) /\
  (forall w file, storable (EWay w) -> exists def, table_def_new T_way_nodes file (schema T_way_nodes) = Ok def /\
     forall lines, Forall2 (row_text esc) (way_node_rows w) lines ->
     res_map (create_way_node (td_fields def)) lines = Ok (way_node_records w)) /\
  (forall w file, storable (EWay w) -> exists def, table_def_new T_way_tags file (schema T_way_tags) = Ok def /\
     forall lines, Forall2 (row_text esc) (way_tag_rows w) lines ->
     res_map (create_tag unescape (td_fields def)) lines = Ok (tag_records (w_id w) (w_version w) (w_tags w))) /\
  (forall r file, storable (ERelation r) -> exists def, table_def_new T_relations file (schema T_relations) = Ok def /\
     forall line, row_text esc (relation_row r) line -> create_obj (td_fields def) line = Ok (relation_record r)) /\
  (forall r file, storable (ERelation r) -> exists def, table_def_new T_relation_members file (schema T_relation_members) = Ok def /\
     forall lines, Forall2 (row_text esc) (relation_member_rows r) lines ->
     res_map (create_relation_member unescape (td_fields def)) lines = Ok (member_records r)) /\
  (forall r file, storable (ERelation r) -> exists def, table_def_new T_relation_tags file (schema T_relation_tags) = Ok def /\
     forall lines, Forall2 (row_text esc) (relation_tag_rows r) lines ->
     res_map (create_tag unescape (td_fields def)) lines = Ok (tag_records (r_id r) (r_version r) (r_tags r))).
Proof.
  sconj; intros x file S;
  match goal with |- exists def, table_def_new ?t _ _ = _ /\ _ => destruct (def_exists t file ltac:(cbn; tauto)) as (def & D) end; exists def; (split; [exact D|]); intros l H.
  - eapply (row_read T_nodes node_says create_node); eauto; [cbn; tauto|intros; eapply create_node_ok; eauto|intros; eapply node_row_ok; eauto].
  - eapply (rows_read T_node_tags (tag_says unescape (str "node_id")) (create_node_tag unescape)); eauto; [cbn; tauto|intros; eapply create_node_tag_ok; eauto|apply node_tags_read; auto].
  - eapply (row_read T_ways (obj_says (str "way_id")) create_obj); eauto; [cbn; tauto|intros; eapply create_way_ok; eauto|intros; eapply way_row_ok; eauto].
  - eapply (rows_read T_way_nodes way_node_says create_way_node); eauto; [cbn; tauto|intros; eapply create_way_node_ok; eauto|apply way_nodes_read; auto].
  - eapply (rows_read T_way_tags (tag_says unescape (str "way_id")) (create_tag unescape)); eauto; [cbn; tauto|intros; eapply create_way_tag_ok; eauto|apply way_tags_read; auto].
  - eapply (row_read T_relations (obj_says (str "relation_id")) create_obj); eauto; [cbn; tauto|intros; eapply create_relation_ok; eauto|intros; eapply relation_row_ok; eauto].
  - eapply (rows_read T_relation_members (member_says unescape) (create_relation_member unescape)); eauto; [cbn; tauto|intros; eapply create_member_ok; eauto|apply members_read; auto].
  - eapply (rows_read T_relation_tags (tag_says unescape (str "relation_id")) (create_tag unescape)); eauto; [cbn; tauto|intros; eapply create_relation_tag_ok; eauto|apply relation_tags_read; auto].
Qed.
End Rows.
