(** Property C102: reading back a dump whose writer was closed several times. *)
From Coq Require Import ZArith List Bool Strings.Byte Strings.String Lia Permutation.
From Verif Require Import Base BaseFacts Types Model2 ModelFacts ApidbText ApidbSpec CalendarFacts ApidbTextFacts TileFacts DumpSpec ApidbWrite ApidbWriteFacts PropApidbWrite ApidbRead DumpReadSpec
  FileFormat ApidbReadFacts TocFacts JoinFacts ReaderFacts PropApidbRead PropDump RoundSpec RoundFacts PropRound PropRoundTrip PropLimits ResolveSpec PropResolve DumpStop StopSpec PropStop DumpCalls DumpCallsSpec PropDumpCalls ManyClosesSpec.
Import ListNotations.
Local Notation length := List.length.
Local Notation concat := List.concat.
Local Notation writer := ApidbWrite.writer.
Local Notation writer_new := ApidbWrite.writer_new.
Local Notation reader_new := ApidbRead.reader_new.
Open Scope Z_scope.

(** ** keys and values *)
Definition one_value {V} (l : list (Z * V)) : Prop := forall k a b, In (k, a) l -> In (k, b) l -> a = b.
Lemma insert_all_In {V} (ps : list (Z * V)) : forall idx, increasing (map fst idx) -> (forall k a b, In (k, a) (idx ++ ps) -> In (k, b) (idx ++ ps) -> a = b) ->
  increasing (map fst (bt_insert_all ps idx)) /\ forall p, In p (bt_insert_all ps idx) <-> In p idx \/ In p ps.
Proof.
  induction ps as [|(k, v) ps IH]; intros idx I O; [cbn; split; [auto|intros p; tauto]|].
  change (bt_insert_all ((k, v) :: ps) idx) with (bt_insert_all ps (bt_insert k v idx)).
  destruct (IH (bt_insert k v idx)) as (A & B).
  - apply bt_insert_increasing; auto.
  - assert (G : forall p, In p (bt_insert k v idx ++ ps) -> In p (idx ++ (k, v) :: ps)).
    { intros p J. apply in_app_or in J as [J|J]; apply in_or_app; [|right; right; exact J]. apply bt_insert_In in J as [J|(J & _)]; [right; left; auto|auto|auto]. }
    intros k' a b P Q. apply (O k'); apply G; auto.
  - split; auto. intros p. rewrite B, bt_insert_In by auto. cbn [In]. split.
    + intros [[E|(Q & _)]|Q]; subst; auto.
    + intros [Q|[E|Q]]; subst; auto. destruct p as (k', v'). destruct (Z.eq_dec k' k) as [->|N]; [left; left|left; right; split; auto].
      f_equal. apply (O k); apply in_or_app; [left; auto|right; left; auto].
Qed.
Lemma same_index {V} (l m : list (Z * V)) : one_value l -> (forall p, In p l <-> In p m) -> bt_insert_all l [] = bt_insert_all m [].
Proof.
  intros O S. destruct (insert_all_In l [] I) as (A1 & A2); [exact O|]. destruct (insert_all_In m [] I) as (B1 & B2).
  { intros k a b P Q. cbn [app] in P, Q. apply S in P, Q. eapply O; eauto. }
  apply sorted_same; auto. intros p. rewrite A2, B2, S. tauto.
Qed.
Lemma recent_value {V} (l : list (Z * V)) : one_value l -> forall k v, most_recent l k v <-> In (k, v) l.
Proof.
  intros O k v. split; [apply recent_in|]. intros J. destruct (most_recent_key l k) as (v' & M); [apply in_map_iff; exists (k, v); auto|].
  rewrite (O k v v'); auto. apply recent_in; auto.
Qed.

(** ** end markers between the rows *)
Lemma whole_app a b : whole_rows a -> whole_rows b -> whole_rows (a ++ b).
Proof. intros A [->|(u & ->)]; [rewrite app_nil_r; auto|]. right. exists (a ++ u). rewrite app_assoc. reflexivity. Qed.
Lemma whole_lines rows lines : Forall2 copy_line rows lines -> whole_rows (concat lines).
Proof.
  induction 1 as [|r l rows lines C F IH]; [left; reflexivity|]. cbn [List.concat]. apply whole_app; auto. right. clear - C. induction C as [c|c cols s C (u & ->)]; [eauto|]. exists (c ++ x09 :: u). rewrite <- app_assoc. reflexivity.
Qed.
Section Markers.
Variable sort_file : list (nat * ftype) -> bytes -> res bytes.
Hypothesis MARKERS : markers_ignored sort_file.
Lemma markers_out key xs : Forall whole_rows xs -> sort_file key (concat (map (fun x => x ++ terminator) xs)) = sort_file key (concat xs ++ terminator).
Proof.
  intros F. assert (G : forall p, whole_rows p -> sort_file key (p ++ concat (map (fun x => x ++ terminator) xs)) = sort_file key (p ++ concat xs)).
  { induction F as [|x xs W F IH]; intros p P; auto. cbn [map List.concat]. replace (p ++ (x ++ terminator) ++ concat (map (fun x => x ++ terminator) xs)) with ((p ++ x) ++ terminator ++ concat (map (fun x => x ++ terminator) xs)) by (rewrite <- !app_assoc; reflexivity).
    unfold terminator at 1. rewrite MARKERS by (apply whole_app; auto). rewrite IH by (apply whole_app; auto). rewrite <- app_assoc. reflexivity. }
  specialize (G [] (or_introl eq_refl)). cbn [app] in G. rewrite G. assert (W : whole_rows (concat xs)) by (clear G; induction F; cbn; [left; auto|apply whole_app; auto]).
  pose proof (MARKERS key (concat xs) [] W) as M. rewrite !app_nil_r in M. symmetry. exact M.
Qed.
End Markers.

Section Many.
Variables (esc : bytes -> bytes) (unescape : bytes -> option bytes) (hash_order : forall V, list (Z * V) -> list (Z * V)) (lib : bytes).
Hypothesis HO : any_order hash_order.
Lemma holds_whole a rows : holds esc (a ++ terminator) rows -> whole_rows a.
Proof.
  intros (lines & F & E). unfold terminator in E. apply app_inv_tail in E as ->. assert (G : exists cols, Forall2 copy_line cols lines).
  { clear - F. induction F as [|r l rows lines (c & _ & C) F (cols & IH)]; [exists []; constructor|]. exists (c :: cols). constructor; auto. }
  destruct G as (cols & G). eapply whole_lines; eauto.
Qed.
(** ** the tables of objects *)
Definition history_tables : list table := [T_nodes; T_node_tags; T_ways; T_way_nodes; T_way_tags; T_relations; T_relation_members; T_relation_tags].
Lemma history_file clock es w t : In t history_tables -> ApidbWrite.dump esc hash_order clock lib es = Ok w ->
  files w t = flat_map (adds esc t) es ++ terminator /\ whole_rows (flat_map (adds esc t) es).
Proof.
  intros I D. assert (E : files w t = flat_map (adds esc t) es ++ terminator).
  { destruct (dump_spec esc hash_order clock lib es w HO D) as (_ & F & _). rewrite F by (intros ->; cbn in I; intuition discriminate). cbv zeta.
    assert (P : forall e, puts esc t e = []) by (cbn in I; intuition (subst t; reflexivity)). rewrite (history_cell esc t P). cbn [fst app].
    assert (X : existsb (fun x => table_eqb x t) current_tables = false) by (cbn in I; intuition (subst t; reflexivity)). rewrite X. reflexivity. }
  split; [exact E|]. destruct (C35_history_tables esc hash_order clock lib HO es w D) as (H1 & H2 & H3 & H4 & H5 & H6 & H7 & H8 & _).
  cbn in I. destruct I as [<-|[<-|[<-|[<-|[<-|[<-|[<-|[<-|[]]]]]]]]]; [rewrite E in H1; exact (holds_whole _ _ H1)|rewrite E in H2; exact (holds_whole _ _ H2)|rewrite E in H3; exact (holds_whole _ _ H3)|rewrite E in H5; exact (holds_whole _ _ H5)
    |rewrite E in H4; exact (holds_whole _ _ H4)|rewrite E in H6; exact (holds_whole _ _ H6)|rewrite E in H8; exact (holds_whole _ _ H8)|rewrite E in H7; exact (holds_whole _ _ H7)].
Qed.
(** ** the tables of users and changesets *)
Definition table_lines {R} (t : table) (says : R -> row_of -> Prop) (rs : list R) (text : bytes) : Prop :=
  exists ws lines, Forall2 says rs ws /\ Forall clean_row (map (fun w => map w (schema t)) ws) /\ Forall2 copy_line (map (fun w => map w (schema t)) ws) lines /\ text = concat lines.
Lemma table_lines_app {R} t (says : R -> row_of -> Prop) rs rs' a b : table_lines t says rs a -> table_lines t says rs' b -> table_lines t says (rs ++ rs') (a ++ b).
Proof.
  intros (ws & ls & A1 & A2 & A3 & ->) (ws' & ls' & B1 & B2 & B3 & ->). exists (ws ++ ws'), (ls ++ ls'). rewrite map_app, concat_app. sconj; auto; [apply Forall2_app; auto|apply Forall_app; auto|apply Forall2_app; auto].
Qed.
Lemma table_lines_whole {R} t (says : R -> row_of -> Prop) rs a : table_lines t says rs a -> whole_rows a.
Proof. intros (ws & ls & _ & _ & F & ->). eapply whole_lines; eauto. Qed.
Lemma table_lines_hold {R} t (says : R -> row_of -> Prop) rs a dir cat : In t object_tables -> table_lines t says rs a -> In (table_name t, schema t, table_file t) cat -> dir (table_file t) = Some (a ++ terminator) ->
  table_holds dir cat t says rs.
Proof.
  intros I (ws & ls & A1 & A2 & A3 & ->) IC DF. exists (schema t), (table_file t), (concat ls ++ terminator), ws. sconj; auto; [apply needs_schema; auto|]. exists ls, 0%nat. cbn [repeat]. unfold terminator. rewrite ?app_nil_r. auto.
Qed.
Lemma reads_lines {R} t (says : R -> row_of -> Prop) rs rows file : reads_as esc t says rs rows -> holds esc file rows -> exists text, file = text ++ terminator /\ table_lines t says rs text.
Proof.
  intros RA (lines & F & ->). exists (concat lines). split; [reflexivity|]. revert lines F. induction RA as [|r vals rs rows H RA IH]; intros lines F; inversion F as [|? ? ? ? (cols & S & L) F']; subst; [exists [], []; sconj; constructor|].
  destruct (IH _ F') as (ws & ls & W1 & W2 & W3 & W4). destruct (H cols S) as (M & SY & CL). exists (cell (schema t) cols :: ws), (y :: ls). cbn [map List.concat]. rewrite M, W4. sconj; try (constructor; auto; fail); reflexivity.
Qed.
Lemma author_files clock es w : ApidbWrite.dump esc hash_order clock lib es = Ok w -> readable esc unescape clock es ->
  exists users changesets, (forall p, In p users <-> most_recent (users_in es) (fst p) (snd p)) /\ (forall p, In p changesets <-> most_recent (changesets_in es) (fst p) (snd p)) /\
  exists ru rc tu tc, table_lines T_users user_says ru tu /\ files w T_users = tu ++ terminator /\ map (fun u => (ur_id u, ur_name u)) ru = users /\
    table_lines T_changesets changeset_says rc tc /\ files w T_changesets = tc ++ terminator /\ map (fun c => (cr_id c, cr_user c)) rc = changesets.
Proof.
  intros D (ST & _ & CU & CK). destruct (C43_users_and_changesets esc hash_order clock lib HO es w D) as (us & cs & n & U1 & U2 & C1 & C2 & (emails & EM & H9) & H10 & _ & RES).
  exists us, cs. split; [intros (a, b); apply U2|]. split; [intros (a, b); apply C2|].
  assert (UR : forall u, In u us -> I32 (fst u) /\ clean (snd u)).
  { intros (uid, name) I. apply U2, recent_in in I. cbn [fst snd]. split; [eapply users_range; eauto|]. rewrite Forall_forall in CU. apply (CU (uid, name)); auto. }
  assert (CR : forall id uid, In (id, uid) cs -> I64 id /\ I32 uid) by (intros id uid I; apply C2, recent_in in I; eapply changesets_range; eauto).
  assert (RU : reads_as esc T_users user_says (map (fun u => UserRec (fst u) (snd u)) us) (map (fun p => let '(i, (email, (uid, name))) := p in user_row email (clock i) uid name) (combine (seq 0 (length us)) (combine emails us)))).
  { clear H9. unfold reads_as. generalize 0%nat. revert UR. clear - EM CK. induction EM as [|e (uid, name) emails us (dd & P & ->) EM IH]; intros UR k; cbn [length seq combine map]; constructor; auto.
    cbn [fst snd] in *. intros cols S. destruct (UR (uid, name) (or_introl eq_refl)) as (I1 & I2). eapply user_ok; eauto. apply IH. intros u I. apply UR. right; auto. }
  destruct (reads_lines _ _ _ _ _ RU H9) as (tu & FU & LU).
  assert (RC : reads_as esc T_changesets changeset_says (map (fun p => changeset_record (clock (fst p)) (fst (snd p)) (snd (snd p))) (combine (seq n (length cs)) cs)) (map (fun p => let '(i, (id, uid)) := p in changeset_row (clock i) id uid) (combine (seq n (length cs)) cs))).
  { apply Forall2_map_both. intros (i, (id, uid)) I cols S. cbn [fst snd]. apply in_combine_r in I. apply CR in I as (I1 & I2). eapply changeset_ok; eauto. }
  destruct (reads_lines _ _ _ _ _ RC H10) as (tc & FC & LC). eexists _, _, tu, tc. sconj; [exact LU|exact FU| |exact LC|exact FC|].
  - rewrite map_map. cbn [ur_id ur_name]. clear. induction us as [|(a, b) us IH]; cbn; congruence.
  - rewrite map_map. cbn [changeset_record cr_id cr_user]. transitivity (map snd (combine (seq n (length cs)) cs)); [apply map_ext; intros (i, (a, b)); reflexivity|apply combine_snd, seq_length].
Qed.

(** ** the calls *)
Variable clocks : nat -> nat -> Z.
Lemma so_far_spec ss : forall b, ss <> [] -> (exists l, so_far b ss = l ++ [b ++ concat ss]) /\ Forall (fun x => exists r, b ++ concat ss = x ++ r) (so_far b ss).
Proof.
  induction ss as [|s ss IH]; intros b N; [destruct (N eq_refl)|]. cbn [so_far List.concat]. destruct ss as [|s' ss].
  - cbn [so_far List.concat]. rewrite app_nil_r. split; [exists []; reflexivity|]. constructor; [exists []; rewrite app_nil_r; reflexivity|constructor].
  - destruct (IH (b ++ s)) as ((l & E) & F); [discriminate|]. rewrite <- app_assoc in E. split; [exists ((b ++ s) :: l); cbn [app]; rewrite E; reflexivity|].
    constructor; [rewrite app_assoc; eauto|]. rewrite app_assoc. exact F.
Qed.
Lemma nodup_front {A} (a b : list A) : NoDup (a ++ b) -> NoDup a.
Proof. induction a as [|x a IH]; cbn; intros N; [constructor|]. inversion N; subst. constructor; auto. intros J. apply H1, in_or_app. auto. Qed.
Lemma readable_front clock a b : readable esc unescape clock (a ++ b) -> readable esc unescape clock a.
Proof.
  intros (A & (B1 & B2 & B3) & C & D). apply Forall_app in A as (A & _). unfold nodes_in, ways_in, relations_in, users_in in *. rewrite flat_map_app in B1, B2, B3, C. rewrite map_app in B1, B2, B3. apply Forall_app in C as (C & _).
  unfold readable, distinct_versions. sconj; auto; eapply nodup_front; eauto.
Qed.
Lemma author_tables ess : forall j all, Forall2 (fun p v => ApidbWrite.dump esc hash_order (clocks (fst p)) lib (snd p) = Ok v) (numbered j ess) all -> Forall (fun e => forall i, readable esc unescape (clocks i) e) ess ->
  exists ru rc xs ys, concat (map (fun v => files v T_users) all) = concat (map (fun x => x ++ terminator) xs) /\ concat (map (fun v => files v T_changesets) all) = concat (map (fun x => x ++ terminator) ys) /\
    Forall whole_rows xs /\ Forall whole_rows ys /\ table_lines T_users user_says ru (concat xs) /\ table_lines T_changesets changeset_says rc (concat ys) /\
    (forall p, In p (map (fun u => (ur_id u, ur_name u)) ru) <-> exists e, In e ess /\ most_recent (users_in e) (fst p) (snd p)) /\
    (forall p, In p (map (fun c => (cr_id c, cr_user c)) rc) <-> exists e, In e ess /\ most_recent (changesets_in e) (fst p) (snd p)).
Proof.
  induction ess as [|e ess IH]; intros j all F R; unfold numbered in F; cbn [length seq combine] in F; inversion F as [|p w q all' D F']; subst.
  - exists [], [], [], []. cbn [map List.concat]. sconj; auto; try (exists [], []; sconj; constructor); intros p; split; [intros []|intros (e & [] & _)|intros []|intros (e & [] & _)].
  - inversion R as [|? ? R1 R2]; subst. cbn [fst snd] in D. destruct (IH _ _ F' R2) as (ru & rc & xs & ys & E1 & E2 & W1 & W2 & T1 & T2 & M1 & M2).
    destruct (author_files _ _ _ D (R1 j)) as (us & cs & U & C & ru1 & rc1 & tu & tc & L1 & G1 & K1 & L2 & G2 & K2).
    exists (ru1 ++ ru), (rc1 ++ rc), (tu :: xs), (tc :: ys). cbn [map List.concat]. rewrite E1, E2, G1, G2. sconj; auto.
    + constructor; auto. eapply table_lines_whole; eauto.
    + constructor; auto. eapply table_lines_whole; eauto.
    + apply table_lines_app; auto.
    + apply table_lines_app; auto.
    + intros p. rewrite map_app, in_app_iff, K1, U, M1. split; [intros [P|(x & P & Q)]; [exists e; split; [left|]|exists x; split; [right|]]; auto|intros (x & [<-|P] & Q); eauto].
    + intros p. rewrite map_app, in_app_iff, K2, C, M2. split; [intros [P|(x & P & Q)]; [exists e; split; [left|]|exists x; split; [right|]]; auto|intros (x & [<-|P] & Q); eauto].
Qed.
Lemma history_sections t ss : In t history_tables -> forall j own, Forall2 (fun p v => ApidbWrite.dump esc hash_order (clocks (fst p)) lib (snd p) = Ok v) (numbered j ss) own ->
  concat (map (fun v => files v t) own) = concat (map (fun x => x ++ terminator) (map (flat_map (adds esc t)) ss)) /\ Forall whole_rows (map (flat_map (adds esc t)) ss).
Proof.
  intros I. induction ss as [|s ss IH]; intros j own F; unfold numbered in F; cbn [length seq combine] in F; inversion F as [|p w q own' D F']; subst; [split; [reflexivity|constructor]|].
  cbn [fst snd] in D. destruct (IH _ _ F') as (E & W). destruct (history_file _ _ _ _ I D) as (G & W1). cbn [map List.concat]. rewrite E, G. split; [reflexivity|constructor; auto].
Qed.
Lemma concat_adds t ss : concat (map (flat_map (adds esc t)) ss) = flat_map (adds esc t) (concat ss).
Proof. induction ss as [|s ss IH]; cbn [map List.concat]; auto. rewrite flat_map_app, IH. reflexivity. Qed.

Variable sort_file : list (nat * ftype) -> bytes -> res bytes.
Hypothesis SORTS : sorts sort_file.
Hypothesis MARKERS : markers_ignored sort_file.
Lemma in_object t : In t object_tables -> In t history_tables \/ t = T_changesets \/ t = T_users.
Proof. cbn. intuition. Qed.
(** a directory whose files the sort cannot tell from those of a single dump, but for the users and changesets, which may have more rows that
    agree with those of the dump *)
Lemma same_reading w es clock w' dir xs ys ru rc : directory w dir -> ApidbWrite.dump esc hash_order clock lib es = Ok w' -> readable esc unescape clock es -> coherent es ->
  (forall key t, In t history_tables -> sort_file key (files w t) = sort_file key (files w' t)) ->
  (forall key, sort_file key (files w T_users) = sort_file key (xs ++ terminator)) -> (forall key, sort_file key (files w T_changesets) = sort_file key (ys ++ terminator)) ->
  table_lines T_users user_says ru xs -> table_lines T_changesets changeset_says rc ys ->
  (forall p, In p (map (fun u => (ur_id u, ur_name u)) ru) <-> In p (users_in es)) -> (forall p, In p (map (fun c => (cr_id c, cr_user c)) rc) <-> In p (changesets_in es)) ->
  exists dir' rd rd', directory w' dir' /\ reader_new sort_file dir = Ok rd /\ reader_new sort_file dir' = Ok rd' /\ ApidbRead.elements unescape rd = ApidbRead.elements unescape rd'.
Proof.
  intros ((toc & DT & entries & cat & TT & ND & F2 & IC) & DF) D RB (OC & OU) SH SU SC LU LC MU MC.
  set (dir' := with_files (files w') dir). set (dir2 := with_files (fun t => match t with T_users => xs ++ terminator | T_changesets => ys ++ terminator | t => files w' t end) dir).
  assert (DT' : dir' (str "toc.dat") = Some toc) by exact DT.
  assert (FF : forall t, dir' (table_file t) = Some (files w' t)) by (intros; apply with_files_table).
  destruct (written_tables esc unescape hash_order clock lib HO es w' D RB) as (us & cs & n & U1 & U2 & C1 & C2 & _ & _ & TS).
  destruct (TS dir' cat IC) as (H1 & H2 & H3 & H4 & H5 & H6 & H7 & H8 & H9 & H10).
  specialize (H1 (FF _)). specialize (H2 (FF _)). specialize (H3 (FF _)). specialize (H4 (FF _)). specialize (H5 (FF _)). specialize (H6 (FF _)). specialize (H7 (FF _)). specialize (H8 (FF _)). specialize (H9 (FF _)). specialize (H10 (FF _)).
  apply (table_opens sort_file SORTS dir') in H1 as (d1 & s1 & S1 & _); [|cbn; tauto|apply node_keyed].
  apply (table_opens sort_file SORTS dir') in H2 as (d2 & s2 & S2 & _); [|cbn; tauto|intros; eapply tag_keyed; eauto; reflexivity].
  apply (table_opens sort_file SORTS dir') in H3 as (d3 & s3 & S3 & _); [|cbn; tauto|intros; eapply obj_keyed; eauto; reflexivity].
  apply (table_opens sort_file SORTS dir') in H4 as (d4 & s4 & S4 & _); [|cbn; tauto|apply way_node_keyed].
  apply (table_opens sort_file SORTS dir') in H5 as (d5 & s5 & S5 & _); [|cbn; tauto|intros; eapply tag_keyed; eauto; reflexivity].
  apply (table_opens sort_file SORTS dir') in H6 as (d6 & s6 & S6 & _); [|cbn; tauto|intros; eapply obj_keyed; eauto; reflexivity].
  apply (table_opens sort_file SORTS dir') in H7 as (d7 & s7 & S7 & _); [|cbn; tauto|intros; eapply member_keyed; eauto].
  apply (table_opens sort_file SORTS dir') in H8 as (d8 & s8 & S8 & _); [|cbn; tauto|intros; eapply tag_keyed; eauto; reflexivity].
  apply (table_opens sort_file SORTS dir') in H9 as (d9 & s9 & S9 & R9); [|cbn; tauto|intros; eapply changeset_keyed; eauto].
  apply (table_opens sort_file SORTS dir') in H10 as (d10 & s10 & S10 & R10); [|cbn; tauto|intros; eapply user_keyed; eauto].
  assert (X9 : table_holds dir2 cat T_changesets changeset_says rc) by (eapply table_lines_hold; [cbn; tauto|exact LC|apply IC; cbn; tauto|apply with_files_table]).
  assert (X10 : table_holds dir2 cat T_users user_says ru) by (eapply table_lines_hold; [cbn; tauto|exact LU|apply IC; cbn; tauto|apply with_files_table]).
  apply (table_opens sort_file SORTS dir2) in X9 as (e9 & t9 & Z9 & Y9); [|cbn; tauto|intros; eapply changeset_keyed; eauto].
  apply (table_opens sort_file SORTS dir2) in X10 as (e10 & t10 & Z10 & Y10); [|cbn; tauto|intros; eapply user_keyed; eauto].
  assert (MOVE : forall dd t d s, In t object_tables -> (forall key data, dd (table_file t) = Some data -> sort_file key (files w t) = sort_file key data) -> sorted_table sort_file dd cat t d s -> sorted_table sort_file dir cat t d s).
  { intros dd t d s I E ((cols & J & TD) & data & DD & SO). destruct (catalogue_unique cat ND _ _ _ _ _ J (IC t I)) as (_ & TF). rewrite TF in DD. split; [eauto|]. exists (files w t). rewrite TF, (E (td_key d) data DD). auto. }
  assert (MH : forall t d s, In t history_tables -> sorted_table sort_file dir' cat t d s -> sorted_table sort_file dir cat t d s).
  { intros t d s I. apply MOVE; [cbn in I |- *; tauto|]. intros key data X. rewrite FF in X. injection X as <-. apply SH; auto. }
  destruct (reader_opens sort_file dir' toc entries cat DT' TT ND F2) as (rd' & RD' & OP').
  { intros t I. cbn in I. repeat (destruct I as [<-|I]; [eauto|]). destruct I. }
  apply MH in S1 as V1; [|cbn; tauto]. apply MH in S2 as V2; [|cbn; tauto]. apply MH in S3 as V3; [|cbn; tauto]. apply MH in S4 as V4; [|cbn; tauto].
  apply MH in S5 as V5; [|cbn; tauto]. apply MH in S6 as V6; [|cbn; tauto]. apply MH in S7 as V7; [|cbn; tauto]. apply MH in S8 as V8; [|cbn; tauto].
  apply MOVE in Z9; [|cbn; tauto|intros key data X; unfold dir2 in X; rewrite with_files_table in X; injection X as <-; apply SC].
  apply MOVE in Z10; [|cbn; tauto|intros key data X; unfold dir2 in X; rewrite with_files_table in X; injection X as <-; apply SU].
  destruct (reader_opens sort_file dir toc entries cat DT TT ND F2) as (rd & RD & OP).
  { intros t I. cbn in I. repeat (destruct I as [<-|I]; [eauto|]). destruct I. }
  exists dir', rd, rd'. split; [split; [exists toc; split; [exact DT|exists entries, cat; auto]|exact FF]|]. split; [exact RD|]. split; [exact RD'|].
  apply rows_parse with (create := create_changeset (td_fields d9)) (le := fun _ _ => True) in R9 as (cs1 & P9 & Q9 & _); [|intros; eapply create_changeset_ok; eauto|auto].
  apply rows_parse with (create := create_user (td_fields d10)) (le := fun _ _ => True) in R10 as (us1 & P10 & Q10 & _); [|intros; eapply create_user_ok; eauto|auto].
  apply rows_parse with (create := create_changeset (td_fields e9)) (le := fun _ _ => True) in Y9 as (cs2 & P9' & Q9' & _); [|intros; eapply create_changeset_ok; eauto|auto].
  apply rows_parse with (create := create_user (td_fields e10)) (le := fun _ _ => True) in Y10 as (us2 & P10' & Q10' & _); [|intros; eapply create_user_ok; eauto|auto].
  unfold ApidbRead.elements.
  rewrite (OP T_users e10 t10), (OP' T_users d10 s10) by (auto; cbn; tauto). cbn [unwrap_res bind]. rewrite (table_all_ok _ _ _ Q10), (table_all_ok _ _ _ Q10'). cbn [bind].
  rewrite (OP T_changesets e9 t9), (OP' T_changesets d9 s9) by (auto; cbn; tauto). cbn [unwrap_res bind]. rewrite (table_all_ok _ _ _ Q9), (table_all_ok _ _ _ Q9'). cbn [bind].
  rewrite (OP T_nodes d1 s1), (OP' T_nodes d1 s1), (OP T_node_tags d2 s2), (OP' T_node_tags d2 s2), (OP T_ways d3 s3), (OP' T_ways d3 s3), (OP T_way_nodes d4 s4), (OP' T_way_nodes d4 s4), (OP T_way_tags d5 s5), (OP' T_way_tags d5 s5),
    (OP T_relations d6 s6), (OP' T_relations d6 s6), (OP T_relation_members d7 s7), (OP' T_relation_members d7 s7), (OP T_relation_tags d8 s8), (OP' T_relation_tags d8 s8) by (auto; cbn; tauto).
  cbn [bind].
  assert (IU : forall p, In p (map (fun u => (ur_id u, ur_name u)) us2) <-> In p (users_in es)).
  { intros p. rewrite <- MU. split; apply Permutation_in, Permutation_map; [apply Permutation_sym|]; exact P10'. }
  assert (JU : forall p, In p (map (fun u => (ur_id u, ur_name u)) us1) <-> In p (users_in es)).
  { intros (k, v). rewrite <- (recent_value _ OU), <- U2. replace us with (map (fun u => (ur_id u, ur_name u)) (d_users (written clock es us cs n))) by (cbn [written d_users]; rewrite map_map; cbn [ur_id ur_name]; clear; induction us as [|(a, b) us IH]; cbn; congruence).
    split; apply Permutation_in, Permutation_map; [apply Permutation_sym|]; exact P10. }
  assert (IC' : forall p, In p (map (fun c => (cr_id c, cr_user c)) cs2) <-> In p (changesets_in es)).
  { intros p. rewrite <- MC. split; apply Permutation_in, Permutation_map; [apply Permutation_sym|]; exact P9'. }
  assert (JC : forall p, In p (map (fun c => (cr_id c, cr_user c)) cs1) <-> In p (changesets_in es)).
  { intros (k, v). rewrite <- (recent_value _ OC), <- C2.
    replace cs with (map (fun c => (cr_id c, cr_user c)) (d_changesets (written clock es us cs n)))
      by (cbn [written d_changesets]; rewrite map_map; cbn [changeset_record cr_id cr_user]; transitivity (map snd (combine (seq n (length cs)) cs)); [apply map_ext; intros (i, (a, b)); reflexivity|apply combine_snd, seq_length]).
    split; apply Permutation_in, Permutation_map; [apply Permutation_sym|]; exact P9. }
  assert (EU : bt_insert_all (map (fun u => (ur_id u, ur_name u)) us2) [] = bt_insert_all (map (fun u => (ur_id u, ur_name u)) us1) []).
  { apply same_index; [intros k a b P Q; apply IU in P, Q; eapply OU; eauto|intros p; rewrite IU, JU; tauto]. }
  assert (EC : bt_insert_all (map (fun c => (cr_id c, cr_user c)) cs2) [] = bt_insert_all (map (fun c => (cr_id c, cr_user c)) cs1) []).
  { apply same_index; [intros k a b P Q; apply IC' in P, Q; eapply OC; eauto|intros p; rewrite IC', JC; tauto]. }
  rewrite EU, EC. reflexivity.
Qed.
(** C102: however often the writer is closed in between, if it is closed at the end and no user and no changeset changes, the reader gives what it gives for one dump of
    the elements of all sections together *)
Theorem C102_as_one_dump cs w dir : (forall j, readable esc unescape (clocks j) (concat (fst (sections cs)))) -> coherent (concat (fst (sections cs))) ->
  (exists cs0, cs = cs0 ++ [DClose]) -> dcalls esc hash_order clocks lib 0 cs writer_new = Ok w -> directory w dir -> let es := concat (fst (sections cs)) in
  exists j w' dir' rd rd', ApidbWrite.dump esc hash_order (clocks j) lib es = Ok w' /\ directory w' dir' /\
    reader_new sort_file dir = Ok rd /\ reader_new sort_file dir' = Ok rd' /\ ApidbRead.elements unescape rd = ApidbRead.elements unescape rd'.
Proof.
  intros R CA (cs0 & EC) D DIR es. set (ss := fst (sections cs)) in *.
  assert (CLOCKS : forall j i, in_calendar (clocks j i / 1000000)).
  { intros j i. destruct (R j) as (_ & _ & _ & CK). specialize (CK i). unfold four_digit_year, in_calendar in *. lia. }
  destruct (C88_histories esc hash_order lib HO clocks CLOCKS cs w D) as (own & all & rest & H1 & H2 & H3 & H4 & H5). fold ss in H1, H2.
  assert (TL : snd (sections cs) = [] /\ ss <> []).
  { destruct (calls_app cs0 []) as (A & B). unfold ss. rewrite EC, A, B. cbn. split; auto. destruct (sections cs0). destruct l; discriminate. }
  destruct TL as (TL & NE). rewrite TL in H3. cbn in H3. injection H3 as <-.
  destruct (so_far_spec ss [] NE) as ((l & SL) & SP). cbn [app] in SL, SP.
  assert (RA : Forall (fun e => forall i, readable esc unescape (clocks i) e) (so_far [] ss)).
  { eapply Forall_impl; [|exact SP]. intros e (r & E) i. specialize (R i). fold es in E, R. rewrite E in R. eapply readable_front; exact R. }
  assert (LAST : exists j w', ApidbWrite.dump esc hash_order (clocks j) lib es = Ok w').
  { exists 0%nat. destruct (proj1 (C55_dump_total esc hash_order (clocks 0%nat) lib (CLOCKS 0%nat) es)) as (w' & E); [|eauto].
    destruct (R 0%nat) as (ST & _). eapply Forall_impl; [|exact ST]. intros e S. destruct e; cbn [storable dumpable] in *; unfold four_digit_year, in_calendar in *; auto; lia. }
  destruct LAST as (j & w' & LAST). destruct (author_tables _ _ _ H2 RA) as (ru & rc & xs & ys & E1 & E2 & W1 & W2 & T1 & T2 & M1 & M2).
  assert (REC : forall V (f : list element -> list (Z * V)), (forall a b, f (a ++ b) = f a ++ f b) -> one_value (f es) -> forall p, (exists e, In e (so_far [] ss) /\ most_recent (f e) (fst p) (snd p)) <-> In p (f es)).
  { intros V f FA O (k, v). cbn [fst snd]. split.
    - intros (e & I & M). rewrite Forall_forall in SP. destruct (SP e I) as (r & E). fold es in E. rewrite E, FA. apply in_or_app. left. apply recent_in; auto.
    - intros I. exists es. split; [rewrite SL; apply in_or_app; right; left; reflexivity|]. apply recent_value; auto. }
  exists j, w'. assert (G : exists dir' rd rd', directory w' dir' /\ reader_new sort_file dir = Ok rd /\ reader_new sort_file dir' = Ok rd' /\ ApidbRead.elements unescape rd = ApidbRead.elements unescape rd').
  { apply (same_reading w es (clocks j) w' dir (concat xs) (concat ys) ru rc); auto.
    - intros key t I. assert (NT : ~ In t [T_users; T_changesets; T_changeset_tags]) by (intros J; cbn in I, J; intuition (subst; discriminate)).
      rewrite (H4 t NT). cbn [files writer_new]. rewrite app_nil_r. destruct (history_sections t ss I _ _ H1) as (-> & W). rewrite (markers_out sort_file MARKERS) by exact W. rewrite concat_adds. destruct (history_file _ _ _ _ I LAST) as (-> & _). reflexivity.
    - intros key. rewrite H5, E1 by (cbn; tauto). apply markers_out; auto.
    - intros key. rewrite H5, E2 by (cbn; tauto). apply markers_out; auto.
    - intros p. rewrite M1. apply REC; [intros a b; apply flat_map_app|exact (proj2 CA)].
    - intros p. rewrite M2. apply REC; [intros a b; apply flat_map_app|exact (proj1 CA)]. }
  destruct G as (dir' & rd & rd' & A & B & C & E). exists dir', rd, rd'. auto.
Qed.
(** C102: so it reads back as
    the elements of all sections together (compare C53_dump_round_trip and C53_exact) *)
Theorem C102_read_back cs w dir : (forall j, readable esc unescape (clocks j) (concat (fst (sections cs)))) -> coherent (concat (fst (sections cs))) ->
  (exists cs0, cs = cs0 ++ [DClose]) -> dcalls esc hash_order clocks lib 0 cs writer_new = Ok w -> directory w dir -> let es := concat (fst (sections cs)) in
  exists rd k s nodes ways relations,
    ApidbRead.reader_new sort_file dir = Ok rd /\ ApidbRead.elements unescape rd = Ok (k, s) /\
    run (element_next k) s (nodes ++ [ESentinel] ++ ways ++ [ESentinel] ++ relations ++ [ESentinel]) Ended /\
    (exists ns, Permutation ns (nodes_in es) /\ ordered (fun a b => key_lt (n_id a, n_version a) (n_id b, n_version b)) ns /\
       Forall2 (node_back es) ns nodes) /\
    (exists ws, Permutation ws (ways_in es) /\ ordered (fun a b => key_lt (w_id a, w_version a) (w_id b, w_version b)) ws /\
       Forall2 (way_back es) ws ways) /\
    (exists rs, Permutation rs (relations_in es) /\ ordered (fun a b => key_lt (r_id a, r_version a) (r_id b, r_version b)) rs /\
       Forall2 (relation_back es) rs relations).
Proof.
  intros R CA EC D DIR es. destruct (C102_as_one_dump cs w dir R CA EC D DIR) as (j & w' & dir' & rd & rd' & W & DI & RN & RN' & EE).
  destruct (C53_dump_round_trip esc unescape hash_order (clocks j) lib HO sort_file SORTS es w' dir' W (R j) DI) as (rd2 & k & s & nodes & ways & rels & A & B & C).
  rewrite A in RN'. injection RN' as ->. exists rd, k, s, nodes, ways, rels. rewrite EE. auto.
Qed.
(** C102: and what the dump format can represent comes back exactly *)
Theorem C102_exact cs w dir : (forall j, readable esc unescape (clocks j) (concat (fst (sections cs)))) -> coherent (concat (fst (sections cs))) ->
  (exists cs0, cs = cs0 ++ [DClose]) -> dcalls esc hash_order clocks lib 0 cs writer_new = Ok w -> directory w dir -> let es := concat (fst (sections cs)) in
  Forall representable es -> exists rd k s nodes ways rels ns ws rs,
    ApidbRead.reader_new sort_file dir = Ok rd /\ ApidbRead.elements unescape rd = Ok (k, s) /\
    run (element_next k) s (nodes ++ [ESentinel] ++ ways ++ [ESentinel] ++ rels ++ [ESentinel]) Ended /\
    Permutation ns (nodes_in es) /\ ordered (fun a b => key_lt (n_id a, n_version a) (n_id b, n_version b)) ns /\ Forall2 same_element (map ENode ns) nodes /\
    Permutation ws (ways_in es) /\ ordered (fun a b => key_lt (w_id a, w_version a) (w_id b, w_version b)) ws /\ Forall2 same_element (map EWay ws) ways /\
    Permutation rs (relations_in es) /\ ordered (fun a b => key_lt (r_id a, r_version a) (r_id b, r_version b)) rs /\ Forall2 same_element (map ERelation rs) rels.
Proof.
  intros R CA EC D DIR es RE. destruct (C102_as_one_dump cs w dir R CA EC D DIR) as (j & w' & dir' & rd & rd' & W & DI & RN & RN' & EE).
  destruct (C53_exact esc unescape hash_order (clocks j) lib HO sort_file SORTS es w' dir' W (R j) DI CA RE) as (rd2 & k & s & nodes & ways & rels & ns & ws & rs & A & B & C).
  rewrite A in RN'. injection RN' as ->. exists rd, k, s, nodes, ways, rels, ns, ws, rs. rewrite EE. auto.
Qed.
End Many.
