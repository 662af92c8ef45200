(** C53: writing a dump and reading it back; C41 and C44. *)
From Coq Require Import ZArith List Bool Strings.Byte Strings.String Lia Permutation.
From Verif Require Import Base BaseFacts Types ApidbText ApidbSpec CalendarFacts ApidbTextFacts TileFacts DumpSpec ApidbWrite ApidbWriteFacts PropApidbWrite ApidbRead DumpReadSpec
  FileFormat ApidbReadFacts TocFacts JoinFacts ReaderFacts PropApidbRead PropDump RoundSpec RoundFacts PropRound.
Import ListNotations.
Local Notation length := List.length.
Local Notation concat := List.concat.
Open Scope Z_scope.

(** ** lists *)
Lemma Forall2_flat {A B C} (P : B -> C -> Prop) (f : A -> list B) (g : A -> list C) l : (forall a, In a l -> Forall2 P (f a) (g a)) -> Forall2 P (flat_map f l) (flat_map g l).
Proof. induction l as [|a l IH]; cbn; intros H; [constructor|]. apply Forall2_app; auto. Qed.
Lemma of_key_app {R} (key : R -> Z * Z) k a b : of_key key k (a ++ b) = of_key key k a ++ of_key key k b.
Proof. apply filter_app. Qed.
Lemma of_key_all {R} (key : R -> Z * Z) k l : Forall (fun r => key r = k) l -> of_key key k l = l.
Proof.
  induction 1 as [|a l H F IH]; cbn; auto. replace (key_eqb (key a) k) with true by (symmetry; apply key_eqb_eq; auto). f_equal. exact IH.
Qed.
Lemma of_key_none {R} (key : R -> Z * Z) k l : Forall (fun r => key r <> k) l -> of_key key k l = [].
Proof.
  induction 1 as [|a l H F IH]; cbn; auto. replace (key_eqb (key a) k) with false by (symmetry; apply key_eqb_neq; auto). exact IH.
Qed.
(** the rows of one object among the rows of all objects *)
Lemma of_key_flat {A R} (ko : A -> Z * Z) (key : R -> Z * Z) (rows : A -> list R) l a : NoDup (map ko l) -> In a l ->
  (forall x, Forall (fun r => key r = ko x) (rows x)) -> of_key key (ko a) (flat_map rows l) = rows a.
Proof.
  intros N I K. induction l as [|x l IH]; [destruct I|]. cbn [map] in N. inversion N as [|? ? N1 N2]; subst. cbn [flat_map]. rewrite of_key_app.
  assert (forall l, Forall (fun y => ko y <> ko a) l -> of_key key (ko a) (flat_map rows l) = []) as NONE.
  { clear - K. intros l F. apply of_key_none. apply Forall_forall. intros r I. apply in_flat_map in I as (y & Y & I). rewrite Forall_forall in F. specialize (K y).
    rewrite Forall_forall in K. rewrite (K r I). auto. }
  destruct I as [->|I].
  - rewrite of_key_all by auto. rewrite NONE, app_nil_r; auto. apply Forall_forall. intros y Y E. apply N1. rewrite <- E. apply in_map; auto.
  - rewrite IH by auto. rewrite of_key_none; auto. eapply Forall_impl; [|apply K]. cbn. intros r E X. apply N1. rewrite <- E, X. apply in_map; auto.
Qed.
Lemma perm_strict {A} (lt : A -> A -> Prop) l m : (forall a, ~ lt a a) -> (forall a b c, lt a b -> lt b c -> lt a c) ->
  Permutation l m -> ordered lt l -> ordered lt m -> l = m.
Proof.
  intros IR TR. revert m. induction l as [|a l IH]; intros m P O1 O2; [apply Permutation_nil in P; auto|].
  destruct m as [|b m]; [apply Permutation_sym, Permutation_nil in P; discriminate|].
  destruct O1 as (F1 & O1), O2 as (F2 & O2). rewrite Forall_forall in F1, F2.
  assert (a = b) as ->.
  { assert (In a (b :: m)) as I1 by (eapply Permutation_in; [exact P|left; auto]). assert (In b (a :: l)) as I2 by (eapply Permutation_in; [apply Permutation_sym, P|left; auto]).
    destruct I1 as [|I1]; auto. destruct I2 as [|I2]; auto. exfalso. apply (IR a). eapply TR; [apply F1, I2|apply F2, I1]. }
  f_equal. apply IH; auto. eapply Permutation_cons_inv; eauto.
Qed.
Lemma in_combine_seq {A} (l : list A) k a : In a l -> exists i, In (i, a) (combine (seq k (length l)) l).
Proof.
  revert k. induction l as [|x l IH]; intros k I; [destruct I|]. destruct I as [->|I]; [exists k; left; auto|].
  destruct (IH (S k) I) as (i & J). exists i. right. exact J.
Qed.

Lemma in_nodes es n : In n (nodes_in es) <-> In (ENode n) es.
Proof.
  unfold nodes_in. rewrite in_flat_map. split; [intros ([x|x|x|] & I & J); cbn in J; intuition; subst; auto|intros I; exists (ENode n); split; auto; left; auto].
Qed.
Lemma in_ways es n : In n (ways_in es) <-> In (EWay n) es.
Proof.
  unfold ways_in. rewrite in_flat_map. split; [intros ([x|x|x|] & I & J); cbn in J; intuition; subst; auto|intros I; exists (EWay n); split; auto; left; auto].
Qed.
Lemma in_relations es n : In n (relations_in es) <-> In (ERelation n) es.
Proof.
  unfold relations_in. rewrite in_flat_map. split; [intros ([x|x|x|] & I & J); cbn in J; intuition; subst; auto|intros I; exists (ERelation n); split; auto; left; auto].
Qed.

Section RoundTrip.
Variables (esc : bytes -> bytes) (unescape : bytes -> option bytes).
Local Notation storable := (storable esc unescape).

Lemma holds_table {R} dir cat t (says : R -> row_of -> Prop) rs rows file : In t object_tables -> reads_as esc t says rs rows -> holds esc file rows ->
  In (table_name t, schema t, table_file t) cat -> dir (table_file t) = Some file -> table_holds dir cat t says rs.
Proof.
  intros IT RA (lines & F & ->) IC DF.
  assert (exists ws, Forall2 says rs ws /\ Forall clean_row (map (fun w => map w (schema t)) ws) /\ Forall2 copy_line (map (fun w => map w (schema t)) ws) lines) as (ws & W1 & W2 & W3).
  { clear DF. revert lines F. induction RA as [|r vals rs rows H RA IH]; intros lines F; inversion F as [|? ? ? ? (cols & S & L) F']; subst; [exists []; sconj; constructor|].
    destruct (IH _ F') as (ws & W1 & W2 & W3). destruct (H cols S) as (M & SY & CL). exists (cell (schema t) cols :: ws). cbn [map]. rewrite M. sconj; constructor; auto. }
  exists (schema t), (table_file t), (concat lines ++ str "\." ++ [x0a]), ws. sconj; auto; [apply needs_schema; auto|].
  exists lines, 0%nat. cbn [repeat]. rewrite app_nil_r. auto.
Qed.

Variables (hash_order : forall V, list (Z * V) -> list (Z * V)) (clock : nat -> Z) (lib : bytes).
Hypothesis HO : any_order hash_order.

(** the dump that is written *)
Definition written (es : list element) (users : list (Z * bytes)) (changesets : list (Z * Z)) (n : nat) : DumpReadSpec.dump :=
  Dump (map node_record (nodes_in es)) (flat_map (fun x => tag_records (n_id x) (n_version x) (n_tags x)) (nodes_in es))
    (map way_record (ways_in es)) (flat_map way_node_records (ways_in es)) (flat_map (fun x => tag_records (w_id x) (w_version x) (w_tags x)) (ways_in es))
    (map relation_record (relations_in es)) (flat_map member_records (relations_in es)) (flat_map (fun x => tag_records (r_id x) (r_version x) (r_tags x)) (relations_in es))
    (map (fun p => changeset_record (clock (fst p)) (fst (snd p)) (snd (snd p))) (combine (seq n (length changesets)) changesets))
    (map (fun u => UserRec (fst u) (snd u)) users).

(** everything written can be read *)
Definition readable (es : list element) : Prop :=
  Forall storable es /\ distinct_versions es /\ Forall (fun u => clean (snd u)) (users_in es) /\ forall i, four_digit_year (clock i / 1000000).
Lemma recent_in {V} (l : list (Z * V)) k v : most_recent l k v -> In (k, v) l.
Proof. intros (l1 & l2 & -> & _). apply in_app_iff. right. left. reflexivity. Qed.
Lemma users_range es uid name : Forall storable es -> In (uid, name) (users_in es) -> I32 uid.
Proof.
  intros F I. apply in_flat_map in I as (e & I & J). rewrite Forall_forall in F. apply F in I.
  destruct e as [x|x|x|]; cbn [In] in J; [destruct J as [J|[]]..|destruct J]; injection J as <- <-; cbn [storable] in I; tauto.
Qed.
Lemma changesets_range es id uid : Forall storable es -> In (id, uid) (changesets_in es) -> I64 id /\ I32 uid.
Proof.
  intros F I. apply in_flat_map in I as (e & I & J). rewrite Forall_forall in F. apply F in I.
  destruct e as [x|x|x|]; cbn [In] in J; [destruct J as [J|[]]..|destruct J]; injection J as <- <-; cbn [storable] in I; tauto.
Qed.
Lemma increasing_snd {A} (l : list (nat * (Z * A))) (m : list (Z * A)) : map snd l = m -> increasing (map fst m) -> NoDup (map (fun p => fst (snd p)) l).
Proof. intros <- I. apply increasing_NoDup in I. rewrite map_map in I. exact I. Qed.
Lemma combine_snd {A B} (l : list A) (m : list B) : length l = length m -> map snd (combine l m) = m.
Proof. revert m. induction l; intros [|b m] E; cbn in *; try discriminate; auto. f_equal. auto. Qed.

Definition tables_of (es : list element) (w : ApidbWrite.writer) (users : list (Z * bytes)) (changesets : list (Z * Z)) (n : nat) : Prop :=
  forall dir cat, (forall t, In t object_tables -> In (table_name t, schema t, table_file t) cat) ->
      (dir (table_file T_nodes) = Some (files w T_nodes) -> table_holds dir cat T_nodes node_says (d_nodes (written es users changesets n))) /\
      (dir (table_file T_node_tags) = Some (files w T_node_tags) -> table_holds dir cat T_node_tags (tag_says unescape (str "node_id")) (d_node_tags (written es users changesets n))) /\
      (dir (table_file T_ways) = Some (files w T_ways) -> table_holds dir cat T_ways (obj_says (str "way_id")) (d_ways (written es users changesets n))) /\
      (dir (table_file T_way_nodes) = Some (files w T_way_nodes) -> table_holds dir cat T_way_nodes way_node_says (d_way_nodes (written es users changesets n))) /\
      (dir (table_file T_way_tags) = Some (files w T_way_tags) -> table_holds dir cat T_way_tags (tag_says unescape (str "way_id")) (d_way_tags (written es users changesets n))) /\
      (dir (table_file T_relations) = Some (files w T_relations) -> table_holds dir cat T_relations (obj_says (str "relation_id")) (d_relations (written es users changesets n))) /\
      (dir (table_file T_relation_members) = Some (files w T_relation_members) -> table_holds dir cat T_relation_members (member_says unescape) (d_members (written es users changesets n))) /\
      (dir (table_file T_relation_tags) = Some (files w T_relation_tags) -> table_holds dir cat T_relation_tags (tag_says unescape (str "relation_id")) (d_relation_tags (written es users changesets n))) /\
      (dir (table_file T_changesets) = Some (files w T_changesets) -> table_holds dir cat T_changesets changeset_says (d_changesets (written es users changesets n))) /\
      (dir (table_file T_users) = Some (files w T_users) -> table_holds dir cat T_users user_says (d_users (written es users changesets n))).
Lemma written_tables es w : ApidbWrite.dump esc hash_order clock lib es = Ok w -> readable es ->
  exists users changesets n, increasing (map fst users) /\ (forall uid name, In (uid, name) users <-> most_recent (users_in es) uid name) /\
    increasing (map fst changesets) /\ (forall id uid, In (id, uid) changesets <-> most_recent (changesets_in es) id uid) /\
    (forall e, In e es -> e <> ESentinel -> exists cid uid uid' name name',
        changesets_in [e] = [(cid, uid)] /\ In (cid, uid') changesets /\ In (uid, name) users /\ In (uid', name') users) /\
    (forall id uid, In (id, uid) changesets -> I64 id /\ I32 uid) /\ tables_of es w users changesets n.
Proof.
  intros D (ST & (DN & DW & DR) & CU & CK).
  destruct (C35_history_tables esc hash_order clock lib HO es w D) as (H1 & H2 & H3 & H4 & H5 & H6 & H7 & H8 & _).
  destruct (C43_users_and_changesets esc hash_order clock lib HO es w D) as (us & cs & n & U1 & U2 & C1 & C2 & (emails & EM & H9) & H10 & _ & RES).
  exists us, cs, n. rewrite Forall_forall in ST.
  assert (forall x, In x (nodes_in es) -> storable (ENode x)) as SN by (intros x I; apply ST, in_nodes; auto).
  assert (forall x, In x (ways_in es) -> storable (EWay x)) as SW by (intros x I; apply ST, in_ways; auto).
  assert (forall x, In x (relations_in es) -> storable (ERelation x)) as SR by (intros x I; apply ST, in_relations; auto).
  assert (Forall storable es) as ST' by (apply Forall_forall; auto).
  assert (forall uid name, In (uid, name) us -> I32 uid /\ clean name) as UR.
  { intros uid name I. apply U2, recent_in in I. split; [eapply users_range; eauto|]. rewrite Forall_forall in CU. apply (CU (uid, name)); auto. }
  assert (forall id uid, In (id, uid) cs -> I64 id /\ I32 uid) as CR.
  { intros id uid I. apply C2, recent_in in I. eapply changesets_range; eauto. }
  sconj; auto. intros dir cat IC.
  sconj; cbn [written d_nodes d_node_tags d_ways d_way_nodes d_way_tags d_relations d_members d_relation_tags d_changesets d_users].
  + intros DF. eapply holds_table; [cbn; tauto| |exact H1|apply IC; cbn; tauto|exact DF]. apply Forall2_map_both. intros x I cols S. eapply node_row_ok; eauto.
  + intros DF. eapply holds_table; [cbn; tauto| |exact H2|apply IC; cbn; tauto|exact DF]. apply Forall2_flat. intros x I. apply node_tags_read; auto.
  + intros DF. eapply holds_table; [cbn; tauto| |exact H3|apply IC; cbn; tauto|exact DF]. apply Forall2_map_both. intros x I cols S. eapply way_row_ok; eauto.
  + intros DF. eapply holds_table; [cbn; tauto| |exact H5|apply IC; cbn; tauto|exact DF]. apply Forall2_flat. intros x I. eapply way_nodes_read; eauto.
  + intros DF. eapply holds_table; [cbn; tauto| |exact H4|apply IC; cbn; tauto|exact DF]. apply Forall2_flat. intros x I. apply way_tags_read; auto.
  + intros DF. eapply holds_table; [cbn; tauto| |exact H6|apply IC; cbn; tauto|exact DF]. apply Forall2_map_both. intros x I cols S. eapply relation_row_ok; eauto.
  + intros DF. eapply holds_table; [cbn; tauto| |exact H8|apply IC; cbn; tauto|exact DF]. apply Forall2_flat. intros x I. apply members_read; auto.
  + intros DF. eapply holds_table; [cbn; tauto| |exact H7|apply IC; cbn; tauto|exact DF]. apply Forall2_flat. intros x I. apply relation_tags_read; auto.
  + intros DF. eapply holds_table; [cbn; tauto| |exact H10|apply IC; cbn; tauto|exact DF]. apply Forall2_map_both. intros (i, (id, uid)) I cols S. cbn [fst snd].
    apply in_combine_r in I. apply CR in I as (I1 & I2). eapply changeset_ok; eauto.
  + intros DF. eapply holds_table; [cbn; tauto| |exact H9|apply IC; cbn; tauto|exact DF]. unfold reads_as.
    clear H9 H10 RES U1 U2. assert (forall u, In u us -> I32 (fst u) /\ clean (snd u)) as UR' by (intros (a, b) I; apply UR; auto). clear UR.
    generalize 0%nat. induction EM as [|e (uid, name) emails us (dd & P & ->) EM IH]; intros k; cbn [length seq combine map]; constructor; auto.
    2:{ apply IH. intros u I. apply UR'. right; auto. }
    cbn [fst snd] in *. intros cols S. destruct (UR' (uid, name) (or_introl eq_refl)) as (I1 & I2). eapply user_ok; eauto.
Qed.

Lemma written_dump_tables es w dir : ApidbWrite.dump esc hash_order clock lib es = Ok w -> readable es -> directory w dir ->
  exists users changesets n, let d := written es users changesets n in
    dump_in unescape dir d /\ primary_keys d /\ foreign_keys d /\ resolved d /\
    (forall c uid name, author d c uid name -> most_recent (changesets_in es) c uid /\ most_recent (users_in es) uid name) /\
    tables_of es w users changesets n.
Proof.
  intros D RB ((toc & DT & entries & cat & TT & ND & F2 & IC) & DF).
  destruct (written_tables es w D RB) as (us & cs & n & U1 & U2 & C1 & C2 & RES & CR & TS). destruct RB as (ST & (DN & DW & DR) & CU & CK).
  exists us, cs, n. cbv zeta. rewrite Forall_forall in ST.
  assert (forall x, In x (nodes_in es) -> storable (ENode x)) as SN by (intros x I; apply ST, in_nodes; auto).
  assert (forall x, In x (ways_in es) -> storable (EWay x)) as SW by (intros x I; apply ST, in_ways; auto).
  assert (forall x, In x (relations_in es) -> storable (ERelation x)) as SR by (intros x I; apply ST, in_relations; auto).
  sconj.
  - exists toc, entries, cat. destruct (TS dir cat IC) as (T1 & T2 & T3 & T4 & T5 & T6 & T7 & T8 & T9 & T10). sconj; auto.
  - unfold primary_keys, written. cbn [d_nodes d_ways d_relations d_changesets d_users]. rewrite !map_map. sconj; auto.
    + eapply increasing_snd; [apply combine_snd; apply seq_length|exact C1].
    + apply increasing_NoDup. exact U1.
  - unfold foreign_keys, written. cbn [d_nodes d_ways d_relations d_node_tags d_way_tags d_way_nodes d_relation_tags d_members]. rewrite !map_map. sconj.
    all: intros key I; apply in_map_iff in I as (r & <- & I); apply in_flat_map in I as (x & J & I); unfold tag_records, way_node_records, member_records in I;
      apply in_map_iff in I as (y & <- & I); apply in_map_iff; exists x; auto.
  - assert (forall e, In e es -> e <> ESentinel -> exists c uid, changesets_in [e] = [(c, uid)] /\ In c (map fst cs)) as RC.
    { intros e I NS. destruct (RES e I NS) as (c & uid & uid' & nm & nm' & E & J & _). exists c, uid. split; auto. apply in_map_iff. exists (c, uid'); auto. }
    assert (map cr_id (map (fun p => changeset_record (clock (fst p)) (fst (snd p)) (snd (snd p))) (combine (seq n (length cs)) cs)) = map fst cs) as MC.
    { rewrite map_map. cbn [changeset_record cr_id]. rewrite <- (combine_snd (seq n (length cs)) cs) at 3 by apply seq_length. rewrite map_map. reflexivity. }
    assert (map cr_user (map (fun p => changeset_record (clock (fst p)) (fst (snd p)) (snd (snd p))) (combine (seq n (length cs)) cs)) = map snd cs) as MU.
    { rewrite map_map. cbn [changeset_record cr_user]. rewrite <- (combine_snd (seq n (length cs)) cs) at 3 by apply seq_length. rewrite map_map. reflexivity. }
    unfold resolved, written. cbn [d_nodes d_ways d_relations d_changesets d_users]. rewrite MC, MU, !map_app, !map_map. sconj.
    + repeat (apply Forall_app; split); apply Forall_map, Forall_forall; intros x I.
      * destruct (RC (ENode x)) as (c & uid & E & J); [apply in_nodes; auto|discriminate|]. cbn in E. injection E as <- _. exact J.
      * destruct (RC (EWay x)) as (c & uid & E & J); [apply in_ways; auto|discriminate|]. cbn in E. injection E as <- _. exact J.
      * destruct (RC (ERelation x)) as (c & uid & E & J); [apply in_relations; auto|discriminate|]. cbn in E. injection E as <- _. exact J.
    + intros u I. apply in_map_iff in I as ((c, uid) & <- & I). cbn [snd]. apply C2, recent_in in I. apply in_flat_map in I as (e & I & J).
      destruct (RES e I) as (c' & uid2 & uid' & nm & nm' & E & _ & K & _); [intros ->; destruct J|].
      assert (uid2 = uid) as ->.
      { destruct e as [x|x|x|]; cbn in E, J; [destruct J as [J|[]]..|destruct J]; congruence. }
      apply in_map_iff. exists (uid, nm). auto.
    + repeat (apply Forall_app; split); apply Forall_map, Forall_forall; intros x I; [apply SN in I|apply SW in I|apply SR in I]; cbn [storable] in I; cbn; tauto.
    + apply Forall_map, Forall_forall. intros (c, uid) I. apply CR in I. tauto.
  - intros c uid name (r & u & I1 & I2 & <- & <- & E & <-). unfold written in I1, I2. cbn [d_changesets d_users] in I1, I2.
    apply in_map_iff in I1 as ((i, (cid, cuid)) & <- & I1). apply in_combine_r in I1. apply in_map_iff in I2 as ((uu, nm) & <- & I2).
    cbn [changeset_record cr_id cr_user ur_id ur_name fst snd] in *. subst uu. split; [apply C2; auto|apply U2; auto].
  - exact TS.
Qed.

Lemma written_dump es w dir : ApidbWrite.dump esc hash_order clock lib es = Ok w -> readable es -> directory w dir ->
  exists users changesets n, let d := written es users changesets n in
    dump_in unescape dir d /\ primary_keys d /\ foreign_keys d /\ resolved d /\
    forall c uid name, author d c uid name -> most_recent (changesets_in es) c uid /\ most_recent (users_in es) uid name.
Proof.
  intros D RB DIR. destruct (written_dump_tables es w dir D RB DIR) as (us & cs & n & A & B & C & E & F & _). exists us, cs, n. cbv zeta. auto.
Qed.

Lemma tag_records_key id v ts : Forall (fun r => tag_key r = (id, v)) (tag_records id v ts).
Proof. apply Forall_map, Forall_forall. intros t _. reflexivity. Qed.
Lemma tags_back id v ts l : Permutation l (tag_records id v ts) -> Permutation (map as_tag l) ts.
Proof.
  intros P. eapply perm_trans; [apply Permutation_map, P|]. unfold tag_records. rewrite map_map. cbn [as_tag].
  replace (map _ ts) with ts; auto. clear. induction ts as [|(k, x) ts IH]; cbn; auto. f_equal. exact IH.
Qed.
Lemma positions_ordered {A R} (f : Z * A -> R) (q : R -> Z) (l : list A) : (forall p, q (f p) = fst p) -> ordered (fun a b => q a < q b) (map f (positions l)).
Proof.
  intros E. unfold positions. generalize 1%nat. induction l as [|a l IH]; intros k; cbn [length seq map combine]; [exact I|]. split; [|apply IH].
  apply Forall_map, Forall_forall. intros (i, x) I. rewrite !E. cbn [fst]. apply in_combine_l, in_map_iff in I as (j & <- & I). apply in_seq in I. lia.
Qed.
Lemma positions_snd {A} (l : list A) : map snd (positions l) = l.
Proof. unfold positions. apply combine_snd. rewrite map_length, seq_length. reflexivity. Qed.
Lemma ordered_strict {R} (q : R -> Z) l : NoDup (map q l) -> ordered (fun a b => q a <= q b) l -> ordered (fun a b => q a < q b) l.
Proof.
  induction l as [|a l IH]; intros N O; [exact I|]. cbn in N. inversion N as [|? ? N1 N2]; subst. destruct O as (O1 & O2). split; auto.
  rewrite Forall_forall in *. intros b J. specialize (O1 b J). cbn in O1. assert (q a <> q b) by (intros E; apply N1; rewrite E; apply in_map; auto). lia.
Qed.
Lemma ordered_NoDup {R} (q : R -> Z) l : ordered (fun a b => q a < q b) l -> NoDup (map q l).
Proof.
  induction l as [|a l IH]; cbn; intros O; constructor; destruct O as (O1 & O2); auto. intros I. apply in_map_iff in I as (b & E & J).
  rewrite Forall_forall in O1. specialize (O1 b J). cbn in O1. lia.
Qed.
Lemma way_nodes_back w l : Permutation l (way_node_records w) -> ordered (fun a b => wn_seq a <= wn_seq b) l -> map wn_node l = w_refs w.
Proof.
  intros P O. assert (ordered (fun a b => wn_seq a < wn_seq b) (way_node_records w)) as OW by (unfold way_node_records; apply positions_ordered; reflexivity).
  assert (l = way_node_records w) as ->.
  { apply (perm_strict (fun a b => wn_seq a < wn_seq b)); auto; try (intros; cbv beta in *; lia).
    apply ordered_strict; auto. eapply Permutation_NoDup; [apply Permutation_sym, Permutation_map, P|]. apply ordered_NoDup; auto. }
  unfold way_node_records. rewrite map_map. cbn [wn_node]. apply positions_snd.
Qed.
Lemma millis_back t : millis (t / 1000, 0) = whole_seconds t.
Proof. unfold millis, whole_seconds. cbn [fst snd]. change (0 / 1000000) with 0. lia. Qed.
Lemma members_back r l : Permutation l (member_records r) -> ordered (fun a b => mr_type a = mr_type b -> mr_id a <= mr_id b) l ->
  Permutation (map as_member l) (r_members r) /\ by_member_id (map as_member l).
Proof.
  intros P O. split.
  - eapply perm_trans; [apply Permutation_map, P|]. unfold member_records. rewrite map_map.
    replace (map _ (positions (r_members r))) with (map snd (positions (r_members r))); [rewrite positions_snd; auto|]. apply map_ext. intros (i, (a, b, c)). reflexivity.
  - unfold by_member_id. apply ordered_map. exact O.
Qed.
Lemma Forall2_map_l {A B C} (f : A -> B) (P : B -> C -> Prop) l m : Forall2 P (map f l) m <-> Forall2 (fun a c => P (f a) c) l m.
Proof.
  revert m. induction l as [|a l IH]; intros m; split; intros F; inversion F; subst; constructor; auto; apply IH; auto.
Qed.
Lemma Forall2_in {A B} (P Q : A -> B -> Prop) l m : (forall a b, In a l -> P a b -> Q a b) -> Forall2 P l m -> Forall2 Q l m.
Proof. intros H F. induction F as [|a b l m X F IH]; constructor; [apply H; auto; left; auto|apply IH; intros; apply H; auto; right; auto]. Qed.

Variable sort_file : list (nat * ftype) -> bytes -> res bytes.
Hypothesis SORTS : sorts sort_file.

(** C53: a dump that was written is read back as the same elements, each once: nodes, ways and relations by id
    and version, time to the second and coordinates to 1e-7 degrees; the user is the one recorded for the changeset. Tags
    may come in another order, the nodes of ways keep their order, members come by id within their type (see C41). *)
Theorem C53_dump_round_trip es w dir : ApidbWrite.dump esc hash_order clock lib es = Ok w -> readable es -> directory w dir ->
  exists rd k s nodes ways relations,
    ApidbRead.reader_new sort_file dir = Ok rd /\ ApidbRead.elements unescape rd = Ok (k, s) /\
    run (element_next k) s (nodes ++ [ESentinel] ++ ways ++ [ESentinel] ++ relations ++ [ESentinel]) Ended /\
    (exists ns, Permutation ns (nodes_in es) /\ ordered (fun a b => key_lt (n_id a, n_version a) (n_id b, n_version b)) ns /\
       Forall2 (node_back es) ns nodes) /\
    (exists ws, Permutation ws (ways_in es) /\ ordered (fun a b => key_lt (w_id a, w_version a) (w_id b, w_version b)) ws /\
       Forall2 (way_back es) ws ways) /\
    (exists rs, Permutation rs (relations_in es) /\ ordered (fun a b => key_lt (r_id a, r_version a) (r_id b, r_version b)) rs /\
       Forall2 (relation_back es) rs relations).
Proof.
  intros D RB DIR. pose proof RB as (_ & (DN & DW & DR) & _ & _). destruct (written_dump es w dir D RB DIR) as (us & cs & n & DI & PK & FK & RE & AU).
  destruct (C39_own_rows unescape sort_file SORTS dir _ DI PK FK RE) as (rd & k & s & nodes & ways & rels & A & B & C & (l1 & P1 & O1 & E1) & (l2 & P2 & O2 & E2) & (l3 & P3 & O3 & E3)).
  exists rd, k, s, nodes, ways, rels. split; auto. split; auto. split; auto.
  set (d := written es us cs n) in *.
  change (d_nodes d) with (map node_record (nodes_in es)) in P1.
  change (d_node_tags d) with (flat_map (fun x => tag_records (n_id x) (n_version x) (n_tags x)) (nodes_in es)) in E1.
  change (d_ways d) with (map way_record (ways_in es)) in P2.
  change (d_way_nodes d) with (flat_map way_node_records (ways_in es)) in E2.
  change (d_way_tags d) with (flat_map (fun x => tag_records (w_id x) (w_version x) (w_tags x)) (ways_in es)) in E2.
  change (d_relations d) with (map relation_record (relations_in es)) in P3.
  change (d_members d) with (flat_map member_records (relations_in es)) in E3.
  change (d_relation_tags d) with (flat_map (fun x => tag_records (r_id x) (r_version x) (r_tags x)) (relations_in es)) in E3.
  sconj.
  - apply Permutation_map_inv in P1 as (ns & -> & P1). apply Permutation_sym in P1. exists ns. sconj; auto.
    + exact (proj1 (ordered_map _ _ _) O1).
    + eapply Forall2_in; [|exact (proj1 (Forall2_map_l _ _ _ _) E1)]. intros x e I (uid & name & ts & H1 & H2 & ->).
      destruct (AU _ _ _ H1) as (M1 & M2). exists uid, name, (map as_tag ts). sconj; auto.
      * unfold own_tags in H2. change (node_key (node_record x)) with (n_id x, n_version x) in H2.
        rewrite (of_key_flat (fun x => (n_id x, n_version x)) tag_key (fun x => tag_records (n_id x) (n_version x) (n_tags x)) (nodes_in es) x) in H2;
          [eapply tags_back; eauto|exact DN|eapply Permutation_in; eauto|intros; apply tag_records_key].
      * unfold node_record at 5. cbn [nr_time]. rewrite millis_back. reflexivity.
  - apply Permutation_map_inv in P2 as (ws & -> & P2). apply Permutation_sym in P2. exists ws. sconj; auto.
    + exact (proj1 (ordered_map _ _ _) O2).
    + eapply Forall2_in; [|exact (proj1 (Forall2_map_l _ _ _ _) E2)]. intros x e I (uid & name & xs & ts & H1 & (H2 & H2') & H3 & ->).
      destruct (AU _ _ _ H1) as (M1 & M2). exists uid, name, (map as_tag ts). change (obj_key (way_record x)) with (w_id x, w_version x) in *. sconj; auto.
      * unfold own_tags in H3.
        rewrite (of_key_flat (fun x => (w_id x, w_version x)) tag_key (fun x => tag_records (w_id x) (w_version x) (w_tags x)) (ways_in es) x) in H3;
          [eapply tags_back; eauto|exact DW|eapply Permutation_in; eauto|intros; apply tag_records_key].
      * rewrite (of_key_flat (fun x => (w_id x, w_version x)) way_node_key way_node_records (ways_in es) x) in H2;
          [|exact DW|eapply Permutation_in; eauto|intros; apply Forall_map, Forall_forall; intros; reflexivity].
        rewrite (way_nodes_back x xs H2 H2'). cbn [way_record or_time]. rewrite millis_back. reflexivity.
  - apply Permutation_map_inv in P3 as (rs & -> & P3). apply Permutation_sym in P3. exists rs. sconj; auto.
    + exact (proj1 (ordered_map _ _ _) O3).
    + eapply Forall2_in; [|exact (proj1 (Forall2_map_l _ _ _ _) E3)]. intros x e I (uid & name & xs & ts & H1 & (H2 & H2') & H3 & ->).
      destruct (AU _ _ _ H1) as (M1 & M2). change (obj_key (relation_record x)) with (r_id x, r_version x) in *.
      rewrite (of_key_flat (fun x => (r_id x, r_version x)) member_key member_records (relations_in es) x) in H2;
          [|exact DR|eapply Permutation_in; eauto|intros; apply Forall_map, Forall_forall; intros; reflexivity].
      destruct (members_back x xs H2 H2') as (B1 & B2). exists uid, name, (map as_member xs), (map as_tag ts). sconj; auto.
      * unfold own_tags in H3.
        rewrite (of_key_flat (fun x => (r_id x, r_version x)) tag_key (fun x => tag_records (r_id x) (r_version x) (r_tags x)) (relations_in es) x) in H3;
          [eapply tags_back; eauto|exact DR|eapply Permutation_in; eauto|intros; apply tag_records_key].
      * cbn [relation_record or_time]. rewrite millis_back. reflexivity.
Qed.
End RoundTrip.
