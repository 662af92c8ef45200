(** Property C83: reading dump directories that lack a file, a table or a column. *)
From Coq Require Import ZArith List Bool Strings.Byte Strings.String Lia Permutation.
From Verif Require Import Base BaseFacts Types ApidbText ApidbSpec ApidbTextFacts DumpSpec ApidbWrite ApidbWriteFacts ApidbRead DumpReadSpec FileFormat
  ApidbReadFacts TocFacts JoinFacts ReaderFacts PropApidbRead MissSpec.
Import ListNotations.
Local Notation length := List.length.
Local Notation concat := List.concat.
Open Scope Z_scope.

Lemma catalogue_unique (cat : catalogue) : NoDup (map (fun e => fst (fst e)) cat) -> forall n c1 f1 c2 f2, In (n, c1, f1) cat -> In (n, c2, f2) cat -> c1 = c2 /\ f1 = f2.
Proof.
  intros ND. induction cat as [|((n0, c0), f0) cat IH]; intros n c1 f1 c2 f2 I1 I2; [destruct I1|]. cbn in ND. inversion ND as [|? ? N1 N2]; subst.
  assert (forall c f, In (n0, c, f) cat -> False) as NO.
  { intros c f I. apply N1. apply in_map_iff. exists (n0, c, f). auto. }
  destruct I1 as [E1|I1], I2 as [E2|I2].
  - injection E1 as <- <- <-. injection E2 as <- <-. auto.
  - injection E1 as <- <- <-. destruct (NO _ _ I2).
  - injection E2 as <- <- <-. destruct (NO _ _ I1).
  - eapply IH; eauto.
Qed.
Lemma get_table_none {V} (l : list (table * V)) t : ~ In t (map fst l) -> get_table t l = None.
Proof.
  induction l as [|(t', v) l IH]; intros N; auto. cbn. destruct (table_eqb t' t) eqn:E; [apply table_eqb_eq in E; subst; destruct N; left; auto|]. apply IH. intros X. apply N. right; auto.
Qed.
Lemma res_map_err {A B} (f : A -> res B) l : (forall a, In a l -> f a <> Panic) -> (exists a, In a l /\ f a = Err) -> res_map f l = Err.
Proof.
  induction l as [|a l IH]; intros N (x & I & E); [destruct I|]. cbn [res_map]. destruct (f a) as [b| |] eqn:F; cbn [bind]; auto; [|destruct (N a (or_introl eq_refl) F)].
  destruct I as [<-|I]; [congruence|]. rewrite IH; auto; [intros y Y; apply N; right; auto|eauto].
Qed.
Lemma field_index_no cols v : field_index cols v <> Panic.
Proof. unfold field_index. destruct (position v cols); discriminate. Qed.
Lemma position_in v cols i : position v cols = Some i -> In v cols.
Proof.
  revert i. induction cols as [|c cols IH]; intros i H; [discriminate H|]. cbn in H. destruct (bytes_eqb c v) eqn:E; [apply bytes_eqb_eq in E; left; auto|].
  destruct (position v cols) as [j|] eqn:P; [|discriminate H]. right. eauto.
Qed.
Lemma res_map_ok_or {A B} (f : A -> res B) l : (forall a, In a l -> f a <> Panic) -> res_map f l <> Panic.
Proof.
  induction l as [|a l IH]; intros N; cbn [res_map]; [discriminate|]. destruct (f a) as [b| |] eqn:F; cbn [bind]; [|discriminate|destruct (N a (or_introl eq_refl) F)].
  specialize (IH (fun y Y => N y (or_intror Y))). destruct (res_map f l); cbn [bind]; congruence.
Qed.
Lemma def_no_panic t file cols : table_def_new t file cols <> Panic.
Proof.
  unfold table_def_new. assert (A : res_map (field_index cols) (field_names t) <> Panic) by (apply res_map_ok_or; intros; apply field_index_no).
  destruct (res_map (field_index cols) (field_names t)); cbn [bind]; try congruence.
  assert (B : res_map (fun k => i <- field_index cols (fst k) ;; Ok (i, snd k)) (key_names t) <> Panic).
  { apply res_map_ok_or. intros k _. pose proof (field_index_no cols (fst k)). destruct (field_index cols (fst k)); cbn [bind]; congruence. }
  destruct (res_map _ (key_names t)); cbn [bind]; congruence.
Qed.
Lemma def_lacks t file cols x : In t ten -> In x (needs t) -> ~ In x cols -> table_def_new t file cols = Err.
Proof.
  intros T X N. assert (F : In x (field_names t)).
  { assert (forallb (fun t => inclb (needs t) (field_names t)) ten = true) as H by (vm_compute; reflexivity). rewrite forallb_forall in H. specialize (H t T). apply inclb_ok in H. auto. }
  unfold table_def_new. rewrite res_map_err; auto; [intros; apply field_index_no|]. exists x. split; auto. unfold field_index.
  destruct (position x cols) eqn:P; auto. apply position_in in P. destruct (N P).
Qed.
Lemma ten_read t : In t ten <-> In t read_tables.
Proof. reflexivity. Qed.

Section Missing.
Variables (unescape : bytes -> option bytes) (sort_file : list (nat * ftype) -> bytes -> res bytes).
Hypothesis SORTS : sorts sort_file.
Variable dir : bytes -> option bytes.

Lemma in_order_sorted cat d t : In t ten -> in_order unescape dir cat d t -> exists df sorted, sorted_table sort_file dir cat t df sorted.
Proof.
  intros I H. pose proof (proj1 (ten_read t) I) as R. cbn in I.
  assert (G : forall (Rc : Type) (says : Rc -> row_of -> Prop) rs, (forall r w, says r w -> name_keyed (key_names t) w) -> table_holds dir cat t says rs -> exists df sorted, sorted_table sort_file dir cat t df sorted).
  { intros Rc says rs K TH. apply (table_opens sort_file SORTS dir) in TH as (df & s & S & _); eauto. }
  repeat (destruct I as [<-|I]; [revert H; cbn [in_order]; apply G;
    first [exact node_keyed|exact way_node_keyed|exact changeset_keyed|exact user_keyed|exact (member_keyed unescape)
      |intros r w; apply tag_keyed; reflexivity|intros r w; apply obj_keyed; reflexivity]|]). destruct I.
Qed.
Lemma reader_gaps cat : catalogued dir cat -> (forall t, In t ten -> listed cat t -> exists df sorted, sorted_table sort_file dir cat t df sorted) ->
  exists rd, ApidbRead.reader_new sort_file dir = Ok rd /\
    (forall t df sorted, In t ten -> sorted_table sort_file dir cat t df sorted -> open_table rd t = Ok (td_fields df, lines_of sorted)) /\
    (forall t, In t ten -> ~ listed cat t -> open_table rd t = Err).
Proof.
  intros (toc & entries & DT & TT & ND & F2) ALL. pose proof (catalogue_unique cat ND) as UNI.
  destruct (defs_ok cat entries F2 ND) with (acc := @nil (table * table_def)) as (defs & DE & NDE & INE).
  - intros t cols file TI IN. destruct (ALL t TI) as (df & sorted & (c & I1 & D) & _); [exists cols, file; auto|]. destruct (UNI _ _ _ _ _ IN I1) as (-> & ->). eauto.
  - constructor.
  - intros t [].
  - destruct (res_map_all (fun p : table * table_def => data <- of_option (dir (td_file (snd p))) ;; sorted <- sort_file (td_key (snd p)) data ;;
                    Ok (fst p, (snd p, sorted))) defs) as (rd & RD & F).
    { intros (t, df) I. cbn [fst snd]. apply INE in I as [[]|(TI & cols & file & I1 & D)].
      destruct (ALL t TI) as (df' & sorted & (c & I1' & D') & (data & E1 & E2)); [exists cols, file; auto|]. destruct (UNI _ _ _ _ _ I1 I1') as (-> & ->). rewrite D in D'. injection D' as <-.
      rewrite E1. cbn [of_option bind]. rewrite E2. cbn [bind]. eauto. }
    assert (KEYS : map fst rd = map fst defs).
    { clear - F. induction F as [|p q ps qs H F IH]; auto. cbn. rewrite IH. f_equal.
      destruct (dir (td_file (snd p))) as [x|]; cbn [of_option bind] in H; [|discriminate]. destruct (sort_file _ x); cbn [bind] in H; [|discriminate..]. injection H as <-. reflexivity. }
    exists rd. split; [|split].
    + unfold ApidbRead.reader_new. rewrite DT. cbn [of_option bind]. rewrite (toc_strings _ _ TT). cbn [bind]. rewrite DE. cbn [bind]. exact RD.
    + intros t df sorted TI ((cols & I1 & D) & (data & E1 & E2)).
      assert (In (t, df) defs) as ID by (apply INE; right; split; auto; exists cols, (td_file df); auto).
      unfold open_table. rewrite (get_table_In rd t (df, sorted)); auto.
      * rewrite KEYS. auto.
      * clear - F ID E1 E2. induction F as [|p q ps qs H F IH]; [destruct ID|]. destruct ID as [->|ID]; [left|right; auto].
        cbn [fst snd] in H. rewrite E1 in H. cbn [of_option bind] in H. rewrite E2 in H. cbn [bind] in H. congruence.
    + intros t TI NL. unfold open_table. rewrite get_table_none; auto. rewrite KEYS. intros I. apply in_map_iff in I as ((t', df) & <- & I). cbn [fst] in *.
      apply INE in I as [[]|(_ & cols & file & I1 & _)]. apply NL. exists cols, file. auto.
Qed.

(** C83, tables: which tables the table of contents does not list. *)
Theorem C83_missing_table cat d : catalogued dir cat -> (forall t, In t ten -> listed cat t -> in_order unescape dir cat d t) ->
  exists rd, ApidbRead.reader_new sort_file dir = Ok rd /\
    (~ listed cat T_users -> ApidbRead.elements unescape rd = Panic) /\
    (listed cat T_users -> ~ listed cat T_changesets -> ApidbRead.elements unescape rd = Panic) /\
    (listed cat T_users -> listed cat T_changesets -> forall t, In t eight -> ~ listed cat t -> ApidbRead.elements unescape rd = Err) /\
    ((forall t, In t ten -> listed cat t) -> exists k s, ApidbRead.elements unescape rd = Ok (k, s)).
Proof.
  intros CT OK. destruct (reader_gaps cat CT) as (rd & RD & OP & NO).
  { intros t T L. eapply in_order_sorted; eauto. }
  exists rd. split; auto.
  assert (US : listed cat T_users -> exists fs ls us, open_table rd T_users = Ok (fs, ls) /\ table_all (create_user fs) ls = Ok us).
  { intros L. specialize (OK T_users ltac:(cbn; tauto) L). cbn [in_order] in OK. apply (table_opens sort_file SORTS dir) in OK as (df & s & S & R); [|cbn; tauto|intros; eapply user_keyed; eauto].
    apply rows_parse with (create := create_user (td_fields df)) (le := fun _ _ => True) in R as (us & _ & Q & _); [|intros; eapply create_user_ok; eauto|auto].
    eexists _, _, us. split; [apply OP; [cbn; tauto|exact S]|apply table_all_ok; auto]. }
  assert (CS : listed cat T_changesets -> exists fs ls us, open_table rd T_changesets = Ok (fs, ls) /\ table_all (create_changeset fs) ls = Ok us).
  { intros L. specialize (OK T_changesets ltac:(cbn; tauto) L). cbn [in_order] in OK. apply (table_opens sort_file SORTS dir) in OK as (df & s & S & R); [|cbn; tauto|intros; eapply changeset_keyed; eauto].
    apply rows_parse with (create := create_changeset (td_fields df)) (le := fun _ _ => True) in R as (us & _ & Q & _); [|intros; eapply create_changeset_ok; eauto|auto].
    eexists _, _, us. split; [apply OP; [cbn; tauto|exact S]|apply table_all_ok; auto]. }
  assert (OE : forall t, open_table rd t = Err \/ exists fs ls, open_table rd t = Ok (fs, ls)).
  { intros t. unfold open_table. destruct (get_table t rd) as [(df & data)|]; eauto. }
  unfold ApidbRead.elements. sconj.
  - intros N. rewrite NO by (auto; cbn; tauto). reflexivity.
  - intros LU N. destruct (US LU) as (fs & ls & us & -> & E). cbn [unwrap_res bind]. rewrite E. cbn [bind]. rewrite NO by (auto; cbn; tauto). reflexivity.
  - intros LU LC t T N. destruct (US LU) as (fs & ls & us & -> & E). cbn [unwrap_res bind]. rewrite E. cbn [bind]. destruct (CS LC) as (fs' & ls' & cs & -> & E'). cbn [unwrap_res bind]. rewrite E'. cbn [bind].
    assert (NT : open_table rd t = Err) by (apply NO; auto; apply in_or_app; left; auto).
    destruct (OE T_nodes) as [O1|(? & ? & O1)]; rewrite O1; cbn [bind]; auto.
    destruct (OE T_node_tags) as [O2|(? & ? & O2)]; rewrite O2; cbn [bind]; auto.
    destruct (OE T_ways) as [O3|(? & ? & O3)]; rewrite O3; cbn [bind]; auto.
    destruct (OE T_way_nodes) as [O4|(? & ? & O4)]; rewrite O4; cbn [bind]; auto.
    destruct (OE T_way_tags) as [O5|(? & ? & O5)]; rewrite O5; cbn [bind]; auto.
    destruct (OE T_relations) as [O6|(? & ? & O6)]; rewrite O6; cbn [bind]; auto.
    destruct (OE T_relation_members) as [O7|(? & ? & O7)]; rewrite O7; cbn [bind]; auto.
    destruct (OE T_relation_tags) as [O8|(? & ? & O8)]; rewrite O8; cbn [bind]; auto.
    exfalso. cbn in T. repeat (destruct T as [<-|T]; [congruence|]). exact T.
  - intros ALL. assert (OA : forall t, In t ten -> exists fs ls, open_table rd t = Ok (fs, ls)).
    { intros t T. destruct (in_order_sorted cat d t T (OK t T (ALL t T))) as (df & s & S). eexists _, _. apply OP; eauto. }
    destruct (US (ALL T_users ltac:(cbn; tauto))) as (fs & ls & us & -> & E). cbn [unwrap_res bind]. rewrite E. cbn [bind]. destruct (CS (ALL T_changesets ltac:(cbn; tauto))) as (fs' & ls' & cs & -> & E'). cbn [unwrap_res bind]. rewrite E'. cbn [bind].
    destruct (OA T_nodes ltac:(cbn; tauto)) as (? & ? & ->). cbn [bind]. destruct (OA T_node_tags ltac:(cbn; tauto)) as (? & ? & ->). cbn [bind].
    destruct (OA T_ways ltac:(cbn; tauto)) as (? & ? & ->). cbn [bind]. destruct (OA T_way_nodes ltac:(cbn; tauto)) as (? & ? & ->). cbn [bind].
    destruct (OA T_way_tags ltac:(cbn; tauto)) as (? & ? & ->). cbn [bind]. destruct (OA T_relations ltac:(cbn; tauto)) as (? & ? & ->). cbn [bind].
    destruct (OA T_relation_members ltac:(cbn; tauto)) as (? & ? & ->). cbn [bind]. destruct (OA T_relation_tags ltac:(cbn; tauto)) as (? & ? & ->). cbn [bind]. eauto.
Qed.
(** C83, files: a listed table whose data file is not there; the other tables are in order. *)
Theorem C83_missing_file cat d : catalogued dir cat ->
  (forall t cols file, In t ten -> In (table_name t, cols, file) cat -> incl (needs t) cols /\ (dir file = None \/ in_order unescape dir cat d t)) ->
  (exists t cols file, In t ten /\ In (table_name t, cols, file) cat /\ dir file = None) ->
  ApidbRead.reader_new sort_file dir = Err.
Proof.
  intros (toc & entries & DT & TT & ND & F2) ALL (t & cols & file & T & I & N). pose proof (catalogue_unique cat ND) as UNI.
  destruct (defs_ok cat entries F2 ND) with (acc := @nil (table * table_def)) as (defs & DE & NDE & INE).
  - intros t' cols' file' TI IN. destruct (ALL t' cols' file' TI IN) as (NE & _). destruct (table_def_ok t' file' cols' TI NE) as (fs & ks & D & _). eauto.
  - constructor.
  - intros t' [].
  - unfold ApidbRead.reader_new. rewrite DT. cbn [of_option bind]. rewrite (toc_strings _ _ TT). cbn [bind]. rewrite DE. cbn [bind]. apply res_map_err.
    + intros (t', df) J. cbn [fst snd]. apply INE in J as [[]|(TI & cols' & file' & I1 & D)]. destruct (ALL t' cols' file' TI I1) as (NE & [NF|OK]).
      * destruct (table_def_ok t' file' cols' TI NE) as (fs & ks & D' & _). rewrite D in D'. injection D' as ->. cbn [td_file]. rewrite NF. discriminate.
      * destruct (in_order_sorted cat d t' TI OK) as (df' & sorted & (c & I1' & D') & (data & E1 & E2)). destruct (UNI _ _ _ _ _ I1 I1') as (-> & ->). rewrite D in D'. injection D' as <-.
        rewrite E1. cbn [of_option bind]. rewrite E2. discriminate.
    + destruct (ALL t cols file T I) as (NE & _). destruct (table_def_ok t file cols T NE) as (fs & ks & D & _). exists (t, TableDef file fs ks). cbn [fst snd td_file]. rewrite N. split; auto.
      apply INE. right. split; auto. exists cols, file. auto.
Qed.
(** C83, columns: a listed table without one of its columns, whatever else is there. *)
Theorem C83_missing_column cat t cols file x : catalogued dir cat -> In t ten -> In (table_name t, cols, file) cat -> In x (needs t) -> ~ In x cols ->
  ApidbRead.reader_new sort_file dir = Err.
Proof.
  intros (toc & entries & DT & TT & ND & F2) T I X N. unfold ApidbRead.reader_new. rewrite DT. cbn [of_option bind]. rewrite (toc_strings _ _ TT). cbn [bind].
  assert (E : forall acc, table_defs entries acc = Err); [|rewrite E; reflexivity].
  clear ND TT DT. induction F2 as [|((n, c), f) (def, f') cat entries (H & Ef) F IH]; intros acc; [destruct I|]. cbn [fst snd] in *. subst f'.
  cbn [table_defs]. rewrite (parse_header _ _ _ H). cbn [unwrap bind]. destruct I as [Ee|I].
  - injection Ee as -> -> ->. rewrite (proj2 (of_interest_spec (table_name t) t)) by auto. rewrite (def_lacks t file cols x T X N). reflexivity.
  - destruct (of_interest n) as [t'|]; [|auto]. pose proof (def_no_panic t' f c). destruct (table_def_new t' f c); cbn [bind]; auto; congruence.
Qed.
(** C83: no table of contents *)
Theorem C83_missing_toc : dir (str "toc.dat") = None -> ApidbRead.reader_new sort_file dir = Err.
Proof. intros E. unfold ApidbRead.reader_new. rewrite E. reflexivity. Qed.
End Missing.
