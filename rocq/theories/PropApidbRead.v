(** Properties of the dump reader. *)
From Coq Require Import ZArith List Bool Strings.Byte Strings.String Lia Permutation.
From Verif Require Import Base BaseFacts Types ApidbText ApidbSpec ApidbTextFacts DumpSpec ApidbWrite ApidbWriteFacts ApidbRead DumpReadSpec FileFormat
  ApidbReadFacts TocFacts JoinFacts ReaderFacts.
Import ListNotations.
Local Notation length := List.length.
Local Notation concat := List.concat.
Open Scope Z_scope.

(** ** lists *)
Lemma ordered_filter {A} (le : A -> A -> Prop) p l : ordered le l -> ordered le (filter p l).
Proof.
  induction l as [|a l IH]; cbn; auto. intros (H1 & H2). destruct (p a); cbn; auto. split; auto. apply Forall_forall. intros x I.
  apply filter_In in I as (I & _). rewrite Forall_forall in H1. auto.
Qed.
Lemma of_key_perm {R} (key : R -> Z * Z) k l l' : Permutation l l' -> Permutation (of_key key k l) (of_key key k l').
Proof.
  unfold of_key. induction 1 as [|x l l' P IH|x y l|l l1 l2 P1 IH1 P2 IH2]; auto.
  - cbn. destruct (key_eqb _ _); auto.
  - cbn. destruct (key_eqb (key x) k), (key_eqb (key y) k); auto. constructor.
  - eapply perm_trans; eauto.
Qed.
Lemma strict_order {R} (key : R -> Z * Z) l : NoDup (map key l) -> ordered (fun a b => ~ key_lt (key b) (key a)) l -> ordered (fun a b => key_lt (key a) (key b)) l.
Proof.
  induction l as [|a l IH]; intros N O; [exact I|]. cbn in N. inversion N as [|? ? N1 N2]; subst. destruct O as (O1 & O2). split; auto.
  rewrite Forall_forall in *. intros b J. destruct (key_cases (key a) (key b)) as [K|[K|K]]; auto.
  - exfalso. apply N1. rewrite K. apply in_map; auto.
  - destruct (O1 b J K).
Qed.

(** ** from rows to records *)
Lemma rows_parse {R} t (says : R -> row_of -> Prop) rs fs lines create (le : R -> R -> Prop) : table_rows t says rs fs lines ->
  (forall cols w line r, columns line = map w cols -> fields_of t cols fs -> says r w -> create line = Ok r) ->
  (forall r w r' w', says r w -> says r' w' -> name_key_le (key_names t) w w' -> le r r') ->
  exists rs', Permutation rs rs' /\ parses create lines rs' /\ ordered le rs'.
Proof.
  intros (cols & prs & F & P & R2 & O) C L. exists (map fst prs). split; auto. split.
  - clear O P. induction R2 as [|p l ps ls (H1 & H2 & H3) R2 IH]; cbn; constructor; auto. split; auto. eapply C; eauto.
  - apply ordered_map. eapply ordered_impl with (P := fun p => says (fst p) (snd p)); [|clear - R2; induction R2; constructor; tauto|exact O].
    intros a b A B N. eapply L; eauto.
Qed.
Ltac pu := repeat match goal with
  | A : plain ?s ?x, B : plain ?s ?y |- _ => pose proof (plain_unique _ _ _ A B); subst; clear B
  end.
Ltac keyed_ := unfold name_keyed; cbn [key_names map]; repeat apply Forall_cons; try apply Forall_nil; cbn [fst snd]; intros K; try discriminate K; eauto.

Section Orders.
Variable unescape : bytes -> option bytes.
Lemma node_keyed r w : node_says r w -> name_keyed (key_names T_nodes) w.
Proof. intros ((A1 & A2) & _ & _ & _ & _ & _ & _ & (B1 & B2) & _). keyed_. Qed.
Lemma tag_keyed t idc r w : key_names t = [(idc, FInteger); (str "version", FInteger); (str "k", FString)] ->
  tag_says unescape idc r w -> name_keyed (key_names t) w.
Proof. intros -> ((A1 & A2) & (B1 & B2) & _). keyed_. Qed.
Lemma obj_keyed t idc r w : key_names t = [(idc, FInteger); (str "version", FInteger)] -> obj_says idc r w -> name_keyed (key_names t) w.
Proof. intros -> ((A1 & A2) & _ & _ & (B1 & B2) & _). keyed_. Qed.
Lemma way_node_keyed r w : way_node_says r w -> name_keyed (key_names T_way_nodes) w.
Proof. intros ((A1 & A2) & _ & (B1 & B2) & (C1 & C2)). keyed_. Qed.
Lemma member_keyed r w : member_says unescape r w -> name_keyed (key_names T_relation_members) w.
Proof. intros ((A1 & A2) & _ & (B1 & B2) & _ & (C1 & C2) & (D1 & D2)). keyed_. Qed.
Lemma changeset_keyed r w : changeset_says r w -> name_keyed (key_names T_changesets) w.
Proof. intros ((A1 & A2) & _). keyed_. Qed.
Lemma user_keyed r w : user_says r w -> name_keyed (key_names T_users) w.
Proof. intros ((A1 & A2) & _). keyed_. Qed.

Lemma node_le r w r' w' : node_says r w -> node_says r' w' -> name_key_le (key_names T_nodes) w w' -> ~ key_lt (node_key r') (node_key r).
Proof.
  intros ((A1 & A2) & _ & _ & _ & _ & _ & _ & (B1 & B2) & _) ((A1' & A2') & _ & _ & _ & _ & _ & _ & (B1' & B2') & _).
  cbn [key_names name_key_le]. intros (x & y & X & Y & H). pu. unfold key_lt, node_key. cbn [fst snd].
  destruct H as [H|(H & x2 & y2 & X2 & Y2 & H2)]; [lia|]. pu. lia.
Qed.
Lemma tag_le t idc r w r' w' : key_names t = [(idc, FInteger); (str "version", FInteger); (str "k", FString)] ->
  tag_says unescape idc r w -> tag_says unescape idc r' w' -> name_key_le (key_names t) w w' -> ~ key_lt (tag_key r') (tag_key r).
Proof.
  intros -> ((A1 & A2) & (B1 & B2) & _) ((A1' & A2') & (B1' & B2') & _).
  cbn [name_key_le]. intros (x & y & X & Y & H). pu. unfold key_lt, tag_key. cbn [fst snd].
  destruct H as [H|(H & x2 & y2 & X2 & Y2 & H2)]; [lia|]. pu. lia.
Qed.
Lemma obj_le t idc r w r' w' : key_names t = [(idc, FInteger); (str "version", FInteger)] ->
  obj_says idc r w -> obj_says idc r' w' -> name_key_le (key_names t) w w' -> ~ key_lt (obj_key r') (obj_key r).
Proof.
  intros -> ((A1 & A2) & _ & _ & (B1 & B2) & _) ((A1' & A2') & _ & _ & (B1' & B2') & _).
  cbn [name_key_le]. intros (x & y & X & Y & H). pu. unfold key_lt, obj_key. cbn [fst snd].
  destruct H as [H|(H & x2 & y2 & X2 & Y2 & H2)]; [lia|]. pu. lia.
Qed.
Definition way_node_order (r r' : way_node_rec) : Prop := ~ key_lt (way_node_key r') (way_node_key r) /\ (way_node_key r = way_node_key r' -> wn_seq r <= wn_seq r').
Lemma way_node_le r w r' w' : way_node_says r w -> way_node_says r' w' -> name_key_le (key_names T_way_nodes) w w' -> way_node_order r r'.
Proof.
  intros ((A1 & A2) & _ & (B1 & B2) & (C1 & C2)) ((A1' & A2') & _ & (B1' & B2') & (C1' & C2')).
  cbn [key_names name_key_le]. intros (x & y & X & Y & H). pu. unfold way_node_order, key_lt, way_node_key. cbn [fst snd].
  destruct H as [H|(H & x2 & y2 & X2 & Y2 & H2)]; [split; [lia|intros E; injection E; lia]|]. pu.
  destruct H2 as [H2|(H2 & x3 & y3 & X3 & Y3 & H3)]; [split; [lia|intros E; injection E; lia]|]. pu. split; [lia|]. intros _. lia.
Qed.
Definition member_order (r r' : member_rec) : Prop := ~ key_lt (member_key r') (member_key r) /\
  (member_key r = member_key r' -> mr_type r = mr_type r' -> mr_id r <= mr_id r').
Lemma member_le r w r' w' : member_says unescape r w -> member_says unescape r' w' -> name_key_le (key_names T_relation_members) w w' -> member_order r r'.
Proof.
  intros ((A1 & A2) & T & (B1 & B2) & _ & (C1 & C2) & (D1 & D2)) ((A1' & A2') & T' & (B1' & B2') & _ & (C1' & C2') & (D1' & D2')).
  cbn [key_names name_key_le]. intros (x & y & X & Y & H). pu. unfold member_order, key_lt, member_key. cbn [fst snd].
  destruct H as [H|(H & x2 & y2 & X2 & Y2 & H2)]; [split; [lia|intros E; injection E; lia]|]. pu.
  destruct H2 as [H2|(H2 & H3)]; [split; [lia|intros E; injection E; lia]|].
  split; [lia|]. intros _ E. rewrite E in T. destruct H3 as (x3 & y3 & X3 & Y3 & H3); [congruence|]. pu. lia.
Qed.
End Orders.

(** ** one object *)
Section Elements.
Variable d : dump.
Variables (users : list user_rec) (changesets : list changeset_rec).
Hypothesis PU : Permutation (d_users d) users.
Hypothesis PC : Permutation (d_changesets d) changesets.
Hypothesis KU : NoDup (map ur_id (d_users d)).
Hypothesis KC : NoDup (map cr_id (d_changesets d)).
Hypothesis RU : incl (map cr_user (d_changesets d)) (map ur_id (d_users d)).
Hypothesis R32 : Forall I32 (map cr_user (d_changesets d)).
Let us := bt_insert_all (map (fun u => (ur_id u, ur_name u)) users) [].
Let cs := bt_insert_all (map (fun c => (cr_id c, cr_user c)) changesets) [].
Lemma author_found c : In c (map cr_id (d_changesets d)) -> exists uid name, author d c uid name /\ bt_get c cs = Ok uid /\ bt_get uid us = Ok name /\ I32 uid.
Proof.
  intros I. apply in_map_iff in I as (r & <- & I). assert (In (cr_user r) (map ur_id (d_users d))) as J by (apply RU, in_map; auto).
  apply in_map_iff in J as (u & E & J). exists (cr_user r), (ur_name u). sconj.
  - exists r, u. sconj; auto.
  - apply index_get.
    + rewrite map_map. cbn [fst]. eapply Permutation_NoDup; [apply Permutation_map; exact PC|auto].
    + apply in_map_iff. exists r. split; auto. eapply Permutation_in; eauto.
  - rewrite <- E. apply index_get.
    + rewrite map_map. cbn [fst]. eapply Permutation_NoDup; [apply Permutation_map; exact PU|auto].
    + apply in_map_iff. exists u. split; auto. eapply Permutation_in; eauto.
  - rewrite Forall_forall in R32. apply R32, in_map; auto.
Qed.
Section Join.
Context {O D : Type} (ko : O -> Z * Z) (kd : D -> Z * Z) (all_o os : list O) (all_d ds : list D).
Hypothesis PO : Permutation all_o os.
Hypothesis PD : Permutation all_d ds.
Variable own : list D -> Z * Z -> list D -> Prop.
Hypothesis OWN : forall k, own all_d k (of_key kd k ds).
Lemma starved_orphan o : starved ko kd os ds o = true <-> orphan_before kd all_d (map ko all_o) (ko o).
Proof.
  rewrite starved_true. unfold orphan_before. split; intros (r & A & B & C); exists r; sconj; auto.
  - eapply Permutation_in; [apply Permutation_sym|]; eauto.
  - intros X. apply C. eapply Permutation_in; [apply Permutation_map|]; eauto.
  - eapply Permutation_in; eauto.
  - intros X. apply B. eapply Permutation_in; [apply Permutation_sym, Permutation_map|]; eauto.
Qed.
Lemma join_until o : until_orphan kd all_d (map ko all_o) own (ko o) (if starved ko kd os ds o then [] else of_key kd (ko o) ds).
Proof.
  pose proof (starved_orphan o) as S. split; intros H.
  - apply S in H. rewrite H. reflexivity.
  - destruct (starved ko kd os ds o); [destruct H; apply S; auto|apply OWN].
Qed.
End Join.
Lemma node_made ts_of (ns : list node_rec) (P : Z * Z -> list tag_rec -> Prop) :
  Forall (fun n => In (nr_changeset n) (map cr_id (d_changesets d)) /\ I32 (nr_version n)) ns -> (forall n, P (node_key n) (ts_of n)) ->
  exists es, Forall2 (fun p e => make_node us cs (fst p) (snd p) = Ok e) (map (fun n => (n, ts_of n)) ns) es /\ Forall2 (node_element d P) ns es.
Proof.
  intros F H. induction F as [|n ns (I & V) F (es & E1 & E2)]; [exists []; split; constructor|].
  destruct (author_found _ I) as (uid & name & A & B1 & B2 & B3). eexists (_ :: es). split.
  - cbn [map]. constructor; [|exact E1]. cbn [fst snd]. unfold make_node. rewrite B1. cbn [bind]. rewrite B2. cbn [bind]. reflexivity.
  - constructor; [|exact E2]. exists uid, name, (ts_of n). sconj; auto. rewrite !wrap32_id by auto. reflexivity.
Qed.
Lemma way_made ns_of ts_of (ws : list obj_rec) (N : Z * Z -> list way_node_rec -> Prop) (P : Z * Z -> list tag_rec -> Prop) :
  Forall (fun n => In (or_changeset n) (map cr_id (d_changesets d)) /\ I32 (or_version n)) ws -> (forall n, N (obj_key n) (ns_of n)) -> (forall n, P (obj_key n) (ts_of n)) ->
  exists es, Forall2 (fun p e => make_way us cs (fst (fst p)) (snd (fst p)) (snd (snd p)) = Ok e)
    (combine (map (fun n => (n, ns_of n)) ws) (map (fun n => (n, ts_of n)) ws)) es /\ Forall2 (way_element d N P) ws es.
Proof.
  intros F H1 H2. induction F as [|n ws (I & V) F (es & E1 & E2)]; [exists []; split; constructor|].
  destruct (author_found _ I) as (uid & name & A & B1 & B2 & B3). eexists (_ :: es). split.
  - cbn [map combine]. constructor; [|exact E1]. cbn [fst snd]. unfold make_way. rewrite B1. cbn [bind]. rewrite B2. cbn [bind]. reflexivity.
  - constructor; [|exact E2]. exists uid, name, (ns_of n), (ts_of n). sconj; auto. rewrite !wrap32_id by auto. reflexivity.
Qed.
Lemma relation_made ms_of ts_of (ws : list obj_rec) (N : Z * Z -> list member_rec -> Prop) (P : Z * Z -> list tag_rec -> Prop) :
  Forall (fun n => In (or_changeset n) (map cr_id (d_changesets d)) /\ I32 (or_version n)) ws -> (forall n, N (obj_key n) (ms_of n)) -> (forall n, P (obj_key n) (ts_of n)) ->
  exists es, Forall2 (fun p e => make_relation us cs (fst (fst p)) (snd (fst p)) (snd (snd p)) = Ok e)
    (combine (map (fun n => (n, ms_of n)) ws) (map (fun n => (n, ts_of n)) ws)) es /\ Forall2 (relation_element d N P) ws es.
Proof.
  intros F H1 H2. induction F as [|n ws (I & V) F (es & E1 & E2)]; [exists []; split; constructor|].
  destruct (author_found _ I) as (uid & name & A & B1 & B2 & B3). eexists (_ :: es). split.
  - cbn [map combine]. constructor; [|exact E1]. cbn [fst snd]. unfold make_relation. rewrite B1. cbn [bind]. rewrite B2. cbn [bind]. reflexivity.
  - constructor; [|exact E2]. exists uid, name, (ms_of n), (ts_of n). sconj; auto. rewrite !wrap32_id by auto. reflexivity.
Qed.
End Elements.

Lemma own_tags_ok all ds : Permutation all ds -> forall k, own_tags all k (of_key tag_key k ds).
Proof. intros P k. apply of_key_perm. apply Permutation_sym; auto. Qed.
Lemma in_of_key {R} (key : R -> Z * Z) k l x : In x (of_key key k l) -> key x = k.
Proof. intros I. apply filter_In in I as (_ & E). apply key_eqb_eq in E. auto. Qed.
Lemma own_nodes_ok all ds : Permutation all ds -> ordered way_node_order ds -> forall k, own_nodes all k (of_key way_node_key k ds).
Proof.
  intros P O k. split; [apply of_key_perm, Permutation_sym; auto|].
  eapply ordered_impl with (P := fun r => way_node_key r = k); [|apply Forall_forall; intros x; apply in_of_key|apply ordered_filter; exact O].
  intros a b A B (_ & H). apply H. congruence.
Qed.
Lemma own_members_ok all ds : Permutation all ds -> ordered member_order ds -> forall k, own_members all k (of_key member_key k ds).
Proof.
  intros P O k. split; [apply of_key_perm, Permutation_sym; auto|].
  eapply ordered_impl with (P := fun r => member_key r = k); [|apply Forall_forall; intros x; apply in_of_key|apply ordered_filter; exact O].
  intros a b A B (_ & H). apply H. congruence.
Qed.
Lemma ordered_weaken {A} (le le' : A -> A -> Prop) l : (forall a b, le a b -> le' a b) -> ordered le l -> ordered le' l.
Proof. intros H O. eapply ordered_impl with (P := fun _ => True); [|apply Forall_forall; auto|exact O]. auto. Qed.

(** ** the whole dump *)
Section Read.
Variables (unescape : bytes -> option bytes) (sort_file : list (nat * ftype) -> bytes -> res bytes).
Hypothesis SORTS : sorts sort_file.

(** What every object of a dump gets, orphans or not. *)
Theorem C40_every_object_partial dir d : dump_in unescape dir d -> primary_keys d -> resolved d ->
  exists rd k s nodes ways relations,
    ApidbRead.reader_new sort_file dir = Ok rd /\ ApidbRead.elements unescape rd = Ok (k, s) /\
    run (element_next k) s (nodes ++ [ESentinel] ++ ways ++ [ESentinel] ++ relations ++ [ESentinel]) Ended /\
    (exists rs, Permutation rs (d_nodes d) /\ ordered (fun a b => key_lt (node_key a) (node_key b)) rs /\
       Forall2 (node_element d (until_orphan tag_key (d_node_tags d) (map node_key (d_nodes d)) own_tags)) rs nodes) /\
    (exists rs, Permutation rs (d_ways d) /\ ordered (fun a b => key_lt (obj_key a) (obj_key b)) rs /\
       Forall2 (way_element d (until_orphan way_node_key (d_way_nodes d) (map obj_key (d_ways d)) own_nodes)
                              (until_orphan tag_key (d_way_tags d) (map obj_key (d_ways d)) own_tags)) rs ways) /\
    (exists rs, Permutation rs (d_relations d) /\ ordered (fun a b => key_lt (obj_key a) (obj_key b)) rs /\
       Forall2 (relation_element d (until_orphan member_key (d_members d) (map obj_key (d_relations d)) own_members)
                                   (until_orphan tag_key (d_relation_tags d) (map obj_key (d_relations d)) own_tags)) rs relations).
Proof.
  intros (toc & entries & cat & DT & TT & ND & F2 & H1 & H2 & H3 & H4 & H5 & H6 & H7 & H8 & H9 & H10) (K1 & K2 & K3 & K4 & K5) (RC & RU & RV & R32).
  assert (forall t, In t [T_nodes; T_node_tags; T_ways; T_way_nodes; T_way_tags; T_relations; T_relation_members; T_relation_tags; T_changesets; T_users] -> In t read_tables) as RT by auto.
  apply (table_opens sort_file SORTS dir) in H1 as (d1 & s1 & S1 & R1); [|apply RT; cbn; tauto|apply node_keyed].
  apply (table_opens sort_file SORTS dir) in H2 as (d2 & s2 & S2 & R2); [|apply RT; cbn; tauto|intros; eapply tag_keyed; eauto; reflexivity].
  apply (table_opens sort_file SORTS dir) in H3 as (d3 & s3 & S3 & R3); [|apply RT; cbn; tauto|intros; eapply obj_keyed; eauto; reflexivity].
  apply (table_opens sort_file SORTS dir) in H4 as (d4 & s4 & S4 & R4); [|apply RT; cbn; tauto|apply way_node_keyed].
  apply (table_opens sort_file SORTS dir) in H5 as (d5 & s5 & S5 & R5); [|apply RT; cbn; tauto|intros; eapply tag_keyed; eauto; reflexivity].
  apply (table_opens sort_file SORTS dir) in H6 as (d6 & s6 & S6 & R6); [|apply RT; cbn; tauto|intros; eapply obj_keyed; eauto; reflexivity].
  apply (table_opens sort_file SORTS dir) in H7 as (d7 & s7 & S7 & R7); [|apply RT; cbn; tauto|intros; eapply member_keyed; eauto].
  apply (table_opens sort_file SORTS dir) in H8 as (d8 & s8 & S8 & R8); [|apply RT; cbn; tauto|intros; eapply tag_keyed; eauto; reflexivity].
  apply (table_opens sort_file SORTS dir) in H9 as (d9 & s9 & S9 & R9); [|apply RT; cbn; tauto|intros; eapply changeset_keyed; eauto].
  apply (table_opens sort_file SORTS dir) in H10 as (d10 & s10 & S10 & R10); [|apply RT; cbn; tauto|intros; eapply user_keyed; eauto].
  destruct (reader_opens sort_file dir toc entries cat DT TT ND F2) as (rd & RD & OP).
  { intros t I. cbn in I. repeat (destruct I as [<-|I]; [eauto|]). destruct I. }
  pose proof (OP T_nodes d1 s1 ltac:(cbn; tauto) S1) as O1. pose proof (OP T_node_tags d2 s2 ltac:(cbn; tauto) S2) as O2. pose proof (OP T_ways d3 s3 ltac:(cbn; tauto) S3) as O3.
  pose proof (OP T_way_nodes d4 s4 ltac:(cbn; tauto) S4) as O4. pose proof (OP T_way_tags d5 s5 ltac:(cbn; tauto) S5) as O5. pose proof (OP T_relations d6 s6 ltac:(cbn; tauto) S6) as O6.
  pose proof (OP T_relation_members d7 s7 ltac:(cbn; tauto) S7) as O7. pose proof (OP T_relation_tags d8 s8 ltac:(cbn; tauto) S8) as O8. pose proof (OP T_changesets d9 s9 ltac:(cbn; tauto) S9) as O9.
  pose proof (OP T_users d10 s10 ltac:(cbn; tauto) S10) as O10.
  apply rows_parse with (create := create_node (td_fields d1)) (le := fun a b => ~ key_lt (node_key b) (node_key a)) in R1 as (ns & P1 & Q1 & L1);
    [|intros; eapply create_node_ok; eauto|apply node_le].
  apply rows_parse with (create := create_node_tag unescape (td_fields d2)) (le := fun a b => ~ key_lt (tag_key b) (tag_key a)) in R2 as (nts & P2 & Q2 & L2);
    [|intros; eapply create_node_tag_ok; eauto|intros; eapply tag_le; eauto; reflexivity].
  apply rows_parse with (create := create_obj (td_fields d3)) (le := fun a b => ~ key_lt (obj_key b) (obj_key a)) in R3 as (ws & P3 & Q3 & L3);
    [|intros; eapply create_way_ok; eauto|intros; eapply obj_le; eauto; reflexivity].
  apply rows_parse with (create := create_way_node (td_fields d4)) (le := way_node_order) in R4 as (wns & P4 & Q4 & L4);
    [|intros; eapply create_way_node_ok; eauto|intros; eapply way_node_le; eauto].
  apply rows_parse with (create := create_tag unescape (td_fields d5)) (le := fun a b => ~ key_lt (tag_key b) (tag_key a)) in R5 as (wts & P5 & Q5 & L5);
    [|intros; eapply create_way_tag_ok; eauto|intros; eapply tag_le; eauto; reflexivity].
  apply rows_parse with (create := create_obj (td_fields d6)) (le := fun a b => ~ key_lt (obj_key b) (obj_key a)) in R6 as (rs & P6 & Q6 & L6);
    [|intros; eapply create_relation_ok; eauto|intros; eapply obj_le; eauto; reflexivity].
  apply rows_parse with (create := create_relation_member unescape (td_fields d7)) (le := member_order) in R7 as (ms & P7 & Q7 & L7);
    [|intros; eapply create_member_ok; eauto|intros; eapply member_le; eauto].
  apply rows_parse with (create := create_tag unescape (td_fields d8)) (le := fun a b => ~ key_lt (tag_key b) (tag_key a)) in R8 as (rts & P8 & Q8 & L8);
    [|intros; eapply create_relation_tag_ok; eauto|intros; eapply tag_le; eauto; reflexivity].
  apply rows_parse with (create := create_changeset (td_fields d9)) (le := fun _ _ => True) in R9 as (cs & P9 & Q9 & _);
    [|intros; eapply create_changeset_ok; eauto|auto].
  apply rows_parse with (create := create_user (td_fields d10)) (le := fun _ _ => True) in R10 as (us & P10 & Q10 & _);
    [|intros; eapply create_user_ok; eauto|auto].
  apply Forall_app in RC as (RC1 & RC2). rewrite map_app in RC2. apply Forall_app in RC2 as (RC2 & RC3).
  apply Forall_app in RV as (RV1 & RV2). rewrite map_app in RV2. apply Forall_app in RV2 as (RV2 & RV3).
  assert (forall (A : Type) (f g : A -> Z) l l' (P Q : Z -> Prop), Permutation l l' -> Forall P (map f l) -> Forall Q (map g l) -> Forall (fun x => P (f x) /\ Q (g x)) l') as BOTH.
  { intros A f g l l' P Q PE A1 A2. rewrite Forall_map in A1, A2. eapply Permutation_Forall; [exact PE|]. rewrite Forall_forall in *. intros x I. split; auto. }
  assert (ordered (fun a b => key_lt (node_key a) (node_key b)) ns) as N1.
  { apply strict_order; auto. eapply Permutation_NoDup; [apply Permutation_map; exact P1|auto]. }
  assert (ordered (fun a b => key_lt (obj_key a) (obj_key b)) ws) as N3.
  { apply strict_order; auto. eapply Permutation_NoDup; [apply Permutation_map; exact P3|auto]. }
  assert (ordered (fun a b => key_lt (obj_key a) (obj_key b)) rs) as N6.
  { apply strict_order; auto. eapply Permutation_NoDup; [apply Permutation_map; exact P6|auto]. }
  destruct (node_made d us cs P10 P9 K5 K4 RU R32 (fun o => if starved node_key tag_key ns nts o then [] else of_key tag_key (node_key o) nts) ns
    (until_orphan tag_key (d_node_tags d) (map node_key (d_nodes d)) own_tags)) as (nodes & M1 & E1).
  { exact (BOTH _ _ _ _ _ _ _ P1 RC1 RV1). }
  { intros o. apply join_until; auto. apply own_tags_ok; auto. }
  destruct (way_made d us cs P10 P9 K5 K4 RU R32 (fun o => if starved obj_key way_node_key ws wns o then [] else of_key way_node_key (obj_key o) wns)
    (fun o => if starved obj_key tag_key ws wts o then [] else of_key tag_key (obj_key o) wts) ws
    (until_orphan way_node_key (d_way_nodes d) (map obj_key (d_ways d)) own_nodes)
    (until_orphan tag_key (d_way_tags d) (map obj_key (d_ways d)) own_tags)) as (ways & M2 & E2).
  { exact (BOTH _ _ _ _ _ _ _ P3 RC2 RV2). }
  { intros o. apply join_until; auto. apply own_nodes_ok; auto. }
  { intros o. apply join_until; auto. apply own_tags_ok; auto. }
  destruct (relation_made d us cs P10 P9 K5 K4 RU R32 (fun o => if starved obj_key member_key rs ms o then [] else of_key member_key (obj_key o) ms)
    (fun o => if starved obj_key tag_key rs rts o then [] else of_key tag_key (obj_key o) rts) rs
    (until_orphan member_key (d_members d) (map obj_key (d_relations d)) own_members)
    (until_orphan tag_key (d_relation_tags d) (map obj_key (d_relations d)) own_tags)) as (rels & M3 & E3).
  { exact (BOTH _ _ _ _ _ _ _ P6 RC3 RV3). }
  { intros o. apply join_until; auto. apply own_members_ok; auto. }
  { intros o. apply join_until; auto. apply own_tags_ok; auto. }
  rewrite <- join_spec in M1 by auto.
  assert (dep_sorted way_node_key wns) as DW by (eapply ordered_weaken; [|exact L4]; intros a b (X & _); exact X).
  assert (dep_sorted member_key ms) as DM by (eapply ordered_weaken; [|exact L7]; intros a b (X & _); exact X).
  rewrite <- !join_spec in M2 by auto. rewrite <- !join_spec in M3 by auto.
  eexists rd, _, _, nodes, ways, rels. split; [exact RD|]. split; [|split; [|sconj]].
  - unfold ApidbRead.elements. rewrite O10. cbn [unwrap_res bind]. rewrite (table_all_ok _ _ _ Q10). cbn [bind]. rewrite O9. cbn [unwrap_res bind].
    rewrite (table_all_ok _ _ _ Q9). cbn [bind]. rewrite O1, O2, O3, O4, O5, O6, O7, O8. cbn [bind]. reflexivity.
  - apply start_run. cbn [app]. eapply node_phase; [exact Q1| |exact M1| |reflexivity|reflexivity]; [exact Q2|].
    intros ni. eapply way_phase; [exact Q3| | |exact M2|]; [exact Q4|exact Q5|].
    intros wi. eapply rel_phase; [exact Q6| | |exact M3]; [exact Q7|exact Q8].
  - exists ns. sconj; auto. apply Permutation_sym; auto.
  - exists ws. sconj; auto. apply Permutation_sym; auto.
  - exists rs. sconj; auto. apply Permutation_sym; auto.
Qed.
End Read.
