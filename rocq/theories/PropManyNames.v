(** Property C102: reading back a dump whose writer was closed several times, with users and changesets that change in between. *)
From Coq Require Import ZArith List Bool Strings.Byte Strings.String Lia Permutation.
From Verif Require Import Base BaseFacts Types Model2 ModelFacts ApidbText ApidbSpec CalendarFacts ApidbTextFacts TileFacts DumpSpec ApidbWrite ApidbWriteFacts PropApidbWrite ApidbRead DumpReadSpec
  FileFormat ApidbReadFacts TocFacts JoinFacts ReaderFacts PropApidbRead PropDump RoundSpec RoundFacts PropRound PropRoundTrip PropLimits ResolveSpec PropResolve DumpStop StopSpec PropStop DumpCalls DumpCallsSpec PropDumpCalls ManyClosesSpec PropManyCloses.
Import ListNotations.
Local Notation length := List.length.
Local Notation concat := List.concat.
Local Notation writer := ApidbWrite.writer.
Local Notation writer_new := ApidbWrite.writer_new.
Local Notation reader_new := ApidbRead.reader_new.
Open Scope Z_scope.

(** ** an index of rows with repeated keys *)
Lemma insert_all_keys {V} (ps : list (Z * V)) : forall idx, increasing (map fst idx) ->
  increasing (map fst (bt_insert_all ps idx)) /\ (forall k, In k (map fst (bt_insert_all ps idx)) <-> In k (map fst idx) \/ In k (map fst ps)).
Proof.
  induction ps as [|(k, v) ps IH]; intros idx I; [cbn; split; [auto|intros p; tauto]|].
  change (bt_insert_all ((k, v) :: ps) idx) with (bt_insert_all ps (bt_insert k v idx)).
  destruct (IH (bt_insert k v idx)) as (A & B); [apply bt_insert_increasing; auto|]. split; auto. intros k'. rewrite B.
  assert (G : In k' (map fst (bt_insert k v idx)) <-> k' = k \/ In k' (map fst idx)).
  { split.
    - intros J. apply in_map_iff in J as ((a, b) & <- & J). apply bt_insert_In in J as [J|(J & _)]; auto; [left; injection J as -> _; reflexivity|right; apply in_map_iff; exists (a, b); auto].
    - intros J. destruct (Z.eq_dec k' k) as [->|N]; [apply in_map_iff; exists (k, v); split; auto; apply bt_insert_In; auto|].
      destruct J as [J|J]; [destruct (N J)|]. apply in_map_iff in J as ((a, b) & <- & J). apply in_map_iff. exists (a, b). split; auto. apply bt_insert_In; auto. }
  rewrite G. cbn [map fst In]. intuition.
Qed.
Lemma index_pick {R V} (f : R -> Z * V) (rs : list R) : exists rs', incl rs' rs /\ map f rs' = bt_insert_all (map f rs) [].
Proof.
  assert (G : forall idx : list (Z * V), (forall p, In p idx -> In p (map f rs)) -> exists rs', incl rs' rs /\ map f rs' = idx).
  { induction idx as [|p idx IH]; intros H; [exists []; split; [intros ? []|reflexivity]|].
    destruct IH as (rs' & I & <-); [intros q Q; apply H; right; auto|]. destruct (proj1 (in_map_iff _ _ _) (H p (or_introl eq_refl))) as (r & <- & J).
    exists (r :: rs'). split; [intros x [<-|X]; auto|reflexivity]. }
  apply G. intros p P. apply bt_insert_all_values in P as [P|[]]. exact P.
Qed.
Lemma index_self {V} (idx l : list (Z * V)) : increasing (map fst idx) -> Permutation l idx -> bt_insert_all l [] = idx.
Proof.
  intros I P. assert (O : one_value l).
  { intros k a b X Y. apply (Permutation_in _ P) in X, Y. apply increasing_NoDup in I. clear P. induction idx as [|(k', v) idx IH]; [destruct X|].
    cbn [map fst] in I. inversion I as [|? ? I1 I2]; subst. assert (NI : forall c, ~ In (k', c) idx) by (intros c C; apply I1, in_map_iff; exists (k', c); auto).
    destruct X as [X|X], Y as [Y|Y]; [congruence|injection X as -> ->; destruct (NI _ Y)|injection Y as -> ->; destruct (NI _ X)|auto]. }
  destruct (insert_all_In l [] Logic.I) as (A & B); [exact O|]. apply sorted_same; auto. intros p. rewrite B. cbn [In]. split; [intros [[]|J]; eapply Permutation_in; eauto|intros J; right; eapply Permutation_in; [apply Permutation_sym|]; eauto].
Qed.
Lemma table_lines_pick {R} t (says : R -> row_of -> Prop) rs a : table_lines t says rs a -> forall rs', incl rs' rs -> exists b, table_lines t says rs' b.
Proof.
  intros (ws & ls & A1 & A2 & A3 & _). assert (G : forall r, In r rs -> exists w l, says r w /\ clean_row (map w (schema t)) /\ copy_line (map w (schema t)) l).
  { revert ls A2 A3. induction A1 as [|r w rs ws S A1 IH]; intros ls A2 A3 r' I; [destruct I|]. cbn [map] in A2, A3. inversion A2; subst. inversion A3; subst. destruct I as [<-|I]; [eauto|]. eapply IH; eauto. }
  induction rs' as [|r rs' IH]; intros I; [exists [], [], []; sconj; constructor|].
  destruct IH as (b & ws' & ls' & B1 & B2 & B3 & ->); [intros x X; apply I; right; auto|]. destruct (G r (I r (or_introl eq_refl))) as (w & l & S & C & L).
  exists (l ++ concat ls'), (w :: ws'), (l :: ls'). cbn [map List.concat]. sconj; auto.
Qed.

Section Names.
Variables (esc : bytes -> bytes) (unescape : bytes -> option bytes) (hash_order : forall V, list (Z * V) -> list (Z * V)) (lib : bytes).
Hypothesis HO : any_order hash_order.
Variable clocks : nat -> nat -> Z.
Variable sort_file : list (nat * ftype) -> bytes -> res bytes.
Hypothesis SORTS : sorts sort_file.
Hypothesis MARKERS : markers_ignored sort_file.
Local Notation cpair := (fun c => (cr_id c, cr_user c)).
Local Notation upair := (fun u => (ur_id u, ur_name u)).
(** a directory whose files the sort cannot tell from those of a single dump, but for the users and changesets: it reads like one with one of the rows of every user and changeset *)
Lemma some_reading w es clock w' dir xs ys ru rc : directory w dir -> ApidbWrite.dump esc hash_order clock lib es = Ok w' -> readable esc unescape clock es ->
  (forall key t, In t history_tables -> sort_file key (files w t) = sort_file key (files w' t)) ->
  (forall key, sort_file key (files w T_users) = sort_file key (xs ++ terminator)) -> (forall key, sort_file key (files w T_changesets) = sort_file key (ys ++ terminator)) ->
  table_lines T_users user_says ru xs -> table_lines T_changesets changeset_says rc ys ->
  exists ru' rc', incl ru' ru /\ incl rc' rc /\ increasing (map ur_id ru') /\ increasing (map cr_id rc') /\
    (forall k, In k (map ur_id ru') <-> In k (map ur_id ru)) /\ (forall k, In k (map cr_id rc') <-> In k (map cr_id rc)) /\
  exists dir' toc entries cat, dir' (str "toc.dat") = Some toc /\ toc_text entries toc /\ NoDup (map (fun e => fst (fst e)) cat) /\
    Forall2 (fun e p => table_header (fst (fst e)) (snd (fst e)) (fst p) /\ snd e = snd p) cat entries /\ (forall t, In t object_tables -> In (table_name t, schema t, table_file t) cat) /\
    (forall t, In t history_tables -> dir' (table_file t) = Some (files w' t)) /\
    table_holds dir' cat T_changesets changeset_says rc' /\ table_holds dir' cat T_users user_says ru' /\
  exists rd rd', reader_new sort_file dir = Ok rd /\ reader_new sort_file dir' = Ok rd' /\ ApidbRead.elements unescape rd = ApidbRead.elements unescape rd'.
Proof.
  intros ((toc & DT & entries & cat & TT & ND & F2 & IC) & DF) D RB SH SU SC LU LC.
  set (dir2 := with_files (fun t => match t with T_users => xs ++ terminator | T_changesets => ys ++ terminator | t => files w' t end) dir).
  assert (X9 : table_holds dir2 cat T_changesets changeset_says rc) by (eapply table_lines_hold; [cbn; tauto|exact LC|apply IC; cbn; tauto|apply with_files_table]).
  assert (X10 : table_holds dir2 cat T_users user_says ru) by (eapply table_lines_hold; [cbn; tauto|exact LU|apply IC; cbn; tauto|apply with_files_table]).
  apply (table_opens sort_file SORTS dir2) in X9 as (e9 & t9 & Z9 & Y9); [|cbn; tauto|intros; eapply changeset_keyed; eauto].
  apply (table_opens sort_file SORTS dir2) in X10 as (e10 & t10 & Z10 & Y10); [|cbn; tauto|intros; eapply user_keyed; eauto].
  apply rows_parse with (create := create_changeset (td_fields e9)) (le := fun _ _ => True) in Y9 as (cs2 & P9' & Q9' & _); [|intros; eapply create_changeset_ok; eauto|auto].
  apply rows_parse with (create := create_user (td_fields e10)) (le := fun _ _ => True) in Y10 as (us2 & P10' & Q10' & _); [|intros; eapply create_user_ok; eauto|auto].
  destruct (index_pick cpair cs2) as (rc' & INC & XC). destruct (index_pick upair us2) as (ru' & INU & XU).
  assert (INC' : incl rc' rc) by (intros x J; eapply Permutation_in; [apply Permutation_sym; exact P9'|apply INC; auto]).
  assert (INU' : incl ru' ru) by (intros x J; eapply Permutation_in; [apply Permutation_sym; exact P10'|apply INU; auto]).
  destruct (insert_all_keys (map cpair cs2) [] Logic.I) as (KC1 & KC2). destruct (insert_all_keys (map upair us2) [] Logic.I) as (KU1 & KU2).
  rewrite <- XC, map_map in KC1, KC2. rewrite <- XU, map_map in KU1, KU2. cbn [fst] in KC1, KU1.
  destruct (table_lines_pick _ _ _ _ LU ru' INU') as (xs' & LU'). destruct (table_lines_pick _ _ _ _ LC rc' INC') as (ys' & LC').
  set (dir' := with_files (fun t => match t with T_users => xs' ++ terminator | T_changesets => ys' ++ terminator | t => files w' t end) dir).
  assert (DT' : dir' (str "toc.dat") = Some toc) by exact DT.
  assert (FF : forall t, In t history_tables -> dir' (table_file t) = Some (files w' t)).
  { intros t I. unfold dir'. rewrite with_files_table. cbn in I. intuition (subst t; reflexivity). }
  destruct (written_tables esc unescape hash_order clock lib HO es w' D RB) as (us & cs & n & U1 & U2 & C1 & C2 & _ & _ & TS).
  destruct (TS dir' cat IC) as (H1 & H2 & H3 & H4 & H5 & H6 & H7 & H8 & _ & _).
  specialize (H1 (FF T_nodes ltac:(cbn; tauto))). specialize (H2 (FF T_node_tags ltac:(cbn; tauto))). specialize (H3 (FF T_ways ltac:(cbn; tauto))). specialize (H4 (FF T_way_nodes ltac:(cbn; tauto))).
  specialize (H5 (FF T_way_tags ltac:(cbn; tauto))). specialize (H6 (FF T_relations ltac:(cbn; tauto))). specialize (H7 (FF T_relation_members ltac:(cbn; tauto))). specialize (H8 (FF T_relation_tags ltac:(cbn; tauto))).
  assert (H9 : table_holds dir' cat T_changesets changeset_says rc') by (eapply table_lines_hold; [cbn; tauto|exact LC'|apply IC; cbn; tauto|apply with_files_table]).
  assert (H10 : table_holds dir' cat T_users user_says ru') by (eapply table_lines_hold; [cbn; tauto|exact LU'|apply IC; cbn; tauto|apply with_files_table]).
  pose proof H9 as W9. pose proof H10 as W10.
  apply (table_opens sort_file SORTS dir') in H1 as (d1 & s1 & S1 & _); [|cbn; tauto|apply node_keyed].
  apply (table_opens sort_file SORTS dir') in H2 as (d2 & s2 & S2 & _); [|cbn; tauto|intros; eapply tag_keyed; eauto; reflexivity].
  apply (table_opens sort_file SORTS dir') in H3 as (d3 & s3 & S3 & _); [|cbn; tauto|intros; eapply obj_keyed; eauto; reflexivity].
  apply (table_opens sort_file SORTS dir') in H4 as (d4 & s4 & S4 & _); [|cbn; tauto|apply way_node_keyed].
  apply (table_opens sort_file SORTS dir') in H5 as (d5 & s5 & S5 & _); [|cbn; tauto|intros; eapply tag_keyed; eauto; reflexivity].
  apply (table_opens sort_file SORTS dir') in H6 as (d6 & s6 & S6 & _); [|cbn; tauto|intros; eapply obj_keyed; eauto; reflexivity].
  apply (table_opens sort_file SORTS dir') in H7 as (d7 & s7 & S7 & _); [|cbn; tauto|intros; eapply member_keyed; eauto].
  apply (table_opens sort_file SORTS dir') in H8 as (d8 & s8 & S8 & _); [|cbn; tauto|intros; eapply tag_keyed; eauto; reflexivity].
  apply (table_opens sort_file SORTS dir') in H9 as (d9 & s9 & S9 & R9); [|cbn; tauto|intros; eapply changeset_keyed; eauto].
  apply (table_opens sort_file SORTS dir') in H10 as (d10 & s10 & S10 & R10); [|cbn; tauto|intros; eapply user_keyed; eauto].
  assert (MOVE : forall dd t d s, In t object_tables -> (forall key data, dd (table_file t) = Some data -> sort_file key (files w t) = sort_file key data) -> sorted_table sort_file dd cat t d s -> sorted_table sort_file dir cat t d s).
  { intros dd t d s I E ((cols & J & TD) & data & DD & SO). destruct (catalogue_unique cat ND _ _ _ _ _ J (IC t I)) as (_ & TF). rewrite TF in DD. split; [eauto|]. exists (files w t). rewrite TF, (E (td_key d) data DD). auto. }
  assert (MH : forall t d s, In t history_tables -> sorted_table sort_file dir' cat t d s -> sorted_table sort_file dir cat t d s).
  { intros t d s I. apply MOVE; [cbn in I |- *; tauto|]. intros key data X. rewrite FF in X by exact I. injection X as <-. apply SH; auto. }
  destruct (reader_opens sort_file dir' toc entries cat DT' TT ND F2) as (rd' & RD' & OP').
  { intros t I. cbn in I. repeat (destruct I as [<-|I]; [eauto|]). destruct I. }
  apply MH in S1 as V1; [|cbn; tauto]. apply MH in S2 as V2; [|cbn; tauto]. apply MH in S3 as V3; [|cbn; tauto]. apply MH in S4 as V4; [|cbn; tauto].
  apply MH in S5 as V5; [|cbn; tauto]. apply MH in S6 as V6; [|cbn; tauto]. apply MH in S7 as V7; [|cbn; tauto]. apply MH in S8 as V8; [|cbn; tauto].
  apply MOVE in Z9; [|cbn; tauto|intros key data X; unfold dir2 in X; rewrite with_files_table in X; injection X as <-; apply SC].
  apply MOVE in Z10; [|cbn; tauto|intros key data X; unfold dir2 in X; rewrite with_files_table in X; injection X as <-; apply SU].
  destruct (reader_opens sort_file dir toc entries cat DT TT ND F2) as (rd & RD & OP).
  { intros t I. cbn in I. repeat (destruct I as [<-|I]; [eauto|]). destruct I. }
  exists ru', rc'. sconj; auto.
  { intros k. etransitivity; [apply (KU2 k)|]. cbn [map In]. rewrite map_map. cbn [fst]. split; [intros [[]|J]|intros J; right]; (eapply Permutation_in; [|exact J]); apply Permutation_map; [apply Permutation_sym|]; exact P10'. }
  { intros k. etransitivity; [apply (KC2 k)|]. cbn [map In]. rewrite map_map. cbn [fst]. split; [intros [[]|J]|intros J; right]; (eapply Permutation_in; [|exact J]); apply Permutation_map; [apply Permutation_sym|]; exact P9'. }
  exists dir', toc, entries, cat. sconj; auto. exists rd, rd'. split; [exact RD|]. split; [exact RD'|].
  apply rows_parse with (create := create_changeset (td_fields d9)) (le := fun _ _ => True) in R9 as (cs1 & P9 & Q9 & _); [|intros; eapply create_changeset_ok; eauto|auto].
  apply rows_parse with (create := create_user (td_fields d10)) (le := fun _ _ => True) in R10 as (us1 & P10 & Q10 & _); [|intros; eapply create_user_ok; eauto|auto].
  unfold ApidbRead.elements.
  rewrite (OP T_users e10 t10), (OP' T_users d10 s10) by (auto; cbn; tauto). cbn [unwrap_res bind]. rewrite (table_all_ok _ _ _ Q10'), (table_all_ok _ _ _ Q10). cbn [bind].
  rewrite (OP T_changesets e9 t9), (OP' T_changesets d9 s9) by (auto; cbn; tauto). cbn [unwrap_res bind]. rewrite (table_all_ok _ _ _ Q9'), (table_all_ok _ _ _ Q9). cbn [bind].
  rewrite (OP T_nodes d1 s1), (OP' T_nodes d1 s1), (OP T_node_tags d2 s2), (OP' T_node_tags d2 s2), (OP T_ways d3 s3), (OP' T_ways d3 s3), (OP T_way_nodes d4 s4), (OP' T_way_nodes d4 s4), (OP T_way_tags d5 s5), (OP' T_way_tags d5 s5),
    (OP T_relations d6 s6), (OP' T_relations d6 s6), (OP T_relation_members d7 s7), (OP' T_relation_members d7 s7), (OP T_relation_tags d8 s8), (OP' T_relation_tags d8 s8) by (auto; cbn; tauto).
  cbn [bind].
  assert (EU : bt_insert_all (map upair us1) [] = bt_insert_all (map upair us2) []).
  { apply index_self; [rewrite <- XU, map_map; exact KU1|]. rewrite <- XU. apply Permutation_map, Permutation_sym. exact P10. }
  assert (EC : bt_insert_all (map cpair cs1) [] = bt_insert_all (map cpair cs2) []).
  { apply index_self; [rewrite <- XC, map_map; exact KC1|]. rewrite <- XC. apply Permutation_map, Permutation_sym. exact P9. }
  rewrite EU, EC. reflexivity.
Qed.
(** C102, users and changesets that change: the reader gives every element once, and for every changeset one of the users it had when the writer was closed, for every
    user one of the names; which one is left to the order in which the sort puts rows with the same id *)
Theorem C102_recorded_authors cs w dir : (forall j, readable esc unescape (clocks j) (concat (fst (sections cs)))) -> (exists cs0, cs = cs0 ++ [DClose]) ->
  dcalls esc hash_order clocks lib 0 cs writer_new = Ok w -> directory w dir -> let ss := fst (sections cs) in let es := concat ss in
  exists users changesets rd k s nodes ways relations, recorded users_in ss users /\ recorded changesets_in ss changesets /\
    reader_new sort_file dir = Ok rd /\ ApidbRead.elements unescape rd = Ok (k, s) /\
    run (element_next k) s (nodes ++ [ESentinel] ++ ways ++ [ESentinel] ++ relations ++ [ESentinel]) Ended /\
    (exists ns, Permutation ns (nodes_in es) /\ ordered (fun a b => key_lt (n_id a, n_version a) (n_id b, n_version b)) ns /\
       Forall2 (node_as changesets users) ns nodes) /\
    (exists ws, Permutation ws (ways_in es) /\ ordered (fun a b => key_lt (w_id a, w_version a) (w_id b, w_version b)) ws /\
       Forall2 (way_as changesets users) ws ways) /\
    (exists rs, Permutation rs (relations_in es) /\ ordered (fun a b => key_lt (r_id a, r_version a) (r_id b, r_version b)) rs /\
       Forall2 (relation_as changesets users) rs relations).
Proof.
  intros R (cs0 & EC) D DIR ss es. fold ss in R. fold es in R.
  assert (CLOCKS : forall j i, in_calendar (clocks j i / 1000000)).
  { intros j i. destruct (R j) as (_ & _ & _ & CK). specialize (CK i). unfold four_digit_year, in_calendar in *. lia. }
  destruct (C88_histories esc hash_order lib HO clocks CLOCKS cs w D) as (own & all & rest & H1 & H2 & H3 & H4 & H5). fold ss in H1, H2.
  assert (TL : snd (sections cs) = [] /\ ss <> []).
  { destruct (calls_app cs0 []) as (A & B). unfold ss. rewrite EC, A, B. cbn. split; auto. destruct (sections cs0). destruct l; discriminate. }
  destruct TL as (TL & NE). rewrite TL in H3. cbn in H3. injection H3 as <-.
  destruct (so_far_spec ss [] NE) as ((l & SL) & SP). cbn [app] in SL, SP.
  assert (RA : Forall (fun e => forall i, readable esc unescape (clocks i) e) (so_far [] ss)).
  { eapply Forall_impl; [|exact SP]. intros e (r & E) i. specialize (R i). fold es in E, R. rewrite E in R. eapply readable_front; exact R. }
  assert (LAST : exists j w', ApidbWrite.dump esc hash_order (clocks j) lib es = Ok w').
  { exists 0%nat. destruct (proj1 (C55_dump_total esc hash_order (clocks 0%nat) lib (CLOCKS 0%nat) es)) as (w' & E); [|eauto].
    destruct (R 0%nat) as (ST & _). eapply Forall_impl; [|exact ST]. intros e S. destruct e; cbn [storable dumpable] in *; unfold four_digit_year, in_calendar in *; auto; lia. }
  destruct LAST as (j & w' & LAST). destruct (author_tables esc unescape hash_order lib HO clocks _ _ _ H2 RA) as (ru & rc & xs & ys & E1 & E2 & W1 & W2 & T1 & T2 & M1 & M2).
  destruct (some_reading w es (clocks j) w' dir (concat xs) (concat ys) ru rc) as (ru' & rc' & IU & IC & NU & NC & KU & KC & dir' & toc & entries & cat & DT & TT & ND & F2 & INC & FF & HC & HU & rd & rd' & RN & RN' & EE); auto.
  { intros key t I. assert (NT : ~ In t [T_users; T_changesets; T_changeset_tags]) by (intros J; cbn in I, J; intuition (subst; discriminate)).
    rewrite (H4 t NT). cbn [files writer_new]. rewrite app_nil_r. destruct (history_sections esc unescape hash_order lib HO clocks t ss I _ _ H1) as (-> & W). rewrite (markers_out sort_file MARKERS) by exact W. rewrite concat_adds. destruct (history_file esc unescape hash_order lib HO _ _ _ _ I LAST) as (-> & _). reflexivity. }
  { intros key. rewrite H5, E1 by (cbn; tauto). apply markers_out; auto. }
  { intros key. rewrite H5, E2 by (cbn; tauto). apply markers_out; auto. }
  set (users := map (fun u => (ur_id u, ur_name u)) ru'). set (changesets := map (fun c => (cr_id c, cr_user c)) rc').
  assert (PRE : forall e, In e (so_far [] ss) -> exists before after, ss = before ++ after /\ before <> [] /\ e = concat before).
  { clear. intros e. assert (G : forall zs b, In e (so_far b zs) -> exists before after, zs = before ++ after /\ before <> [] /\ e = b ++ concat before).
    { induction zs as [|x zs IH]; intros b HI; [destruct HI|]. cbn [so_far] in HI. destruct HI as [<-|HI]; [exists [x], zs; cbn [List.concat app]; rewrite app_nil_r; sconj; auto; discriminate|].
      destruct (IH _ HI) as (u & v & -> & N & ->). exists (x :: u), v. cbn [List.concat app]. rewrite <- app_assoc. sconj; auto. discriminate. }
    apply G. }
  assert (LASTIN : In es (so_far [] ss)) by (rewrite SL; apply in_or_app; right; left; reflexivity).
  assert (RECU : recorded users_in ss users).
  { unfold recorded, users. rewrite map_map. cbn [fst]. sconj; [apply increasing_NoDup; auto| |].
    - intros k. rewrite KU. split.
      + intros J. apply in_map_iff in J as (u & <- & J). destruct (proj1 (M1 (ur_id u, ur_name u))) as (e & J1 & J2); [apply in_map_iff; eauto|]. cbn [fst snd] in J2. apply recent_in in J2.
        rewrite Forall_forall in SP. destruct (SP e J1) as (r & X). fold es in X |- *. cbn [app] in X. rewrite X. unfold users_in at 1. rewrite flat_map_app, map_app. apply in_or_app. left. apply in_map_iff. exists (ur_id u, ur_name u). auto.
      + intros J. destruct (most_recent_key _ _ J) as (v & M). destruct (proj1 (in_map_iff _ _ _) (proj2 (M1 (k, v)) ltac:(exists es; split; auto))) as (u & X & Y). injection X as <- _. apply in_map_iff. eauto.
    - intros k v J. apply in_map_iff in J as (u & X & J). injection X as <- <-. destruct (proj1 (M1 (ur_id u, ur_name u))) as (e & J1 & J2); [apply in_map_iff; exists u; auto|]. destruct (PRE e J1) as (bf & af & Q1 & Q2 & ->). eauto. }
  assert (RECC : recorded changesets_in ss changesets).
  { unfold recorded, changesets. rewrite map_map. cbn [fst]. sconj; [apply increasing_NoDup; auto| |].
    - intros k. rewrite KC. split.
      + intros J. apply in_map_iff in J as (u & <- & J). destruct (proj1 (M2 (cr_id u, cr_user u))) as (e & J1 & J2); [apply in_map_iff; eauto|]. cbn [fst snd] in J2. apply recent_in in J2.
        rewrite Forall_forall in SP. destruct (SP e J1) as (r & X). fold es in X |- *. cbn [app] in X. rewrite X. unfold changesets_in at 1. rewrite flat_map_app, map_app. apply in_or_app. left. apply in_map_iff. exists (cr_id u, cr_user u). auto.
      + intros J. destruct (most_recent_key _ _ J) as (v & M). destruct (proj1 (in_map_iff _ _ _) (proj2 (M2 (k, v)) ltac:(exists es; split; auto))) as (u & X & Y). injection X as <- _. apply in_map_iff. eauto.
    - intros k v J. apply in_map_iff in J as (u & X & J). injection X as <- <-. destruct (proj1 (M2 (cr_id u, cr_user u))) as (e & J1 & J2); [apply in_map_iff; exists u; auto|]. destruct (PRE e J1) as (bf & af & Q1 & Q2 & ->). eauto. }
  assert (INES : forall V (f : list element -> list (Z * V)) l, (forall a b, f (a ++ b) = f a ++ f b) -> recorded f ss l -> forall p, In p l -> In p (f es)).
  { intros V f li FA (_ & _ & RE) (a, b) J. destruct (RE a b J) as (u & v & E & _ & M). unfold es. rewrite E, concat_app, FA. apply in_or_app. left. apply recent_in; auto. }
  destruct (written_tables esc unescape hash_order (clocks j) lib HO es w' LAST (R j)) as (us & cs' & n & _ & _ & _ & _ & _ & _ & TS).
  destruct (TS dir' cat INC) as (T3 & T4 & T5 & T6 & T7 & T8 & T9 & T10 & _ & _).
  set (d0 := written (clocks j) es us cs' n) in *.
  set (d := Dump (d_nodes d0) (d_node_tags d0) (d_ways d0) (d_way_nodes d0) (d_way_tags d0) (d_relations d0) (d_members d0) (d_relation_tags d0) rc' ru').
  assert (DI : dump_in unescape dir' d).
  { exists toc, entries, cat. unfold d. cbn [d_nodes d_node_tags d_ways d_way_nodes d_way_tags d_relations d_members d_relation_tags d_changesets d_users].
    sconj; auto; [apply T3|apply T4|apply T5|apply T6|apply T7|apply T8|apply T9|apply T10]; apply FF; cbn; tauto. }
  destruct (R j) as (ST & (DN & DW & DR) & _ & _).
  assert (PK : primary_keys d).
  { unfold primary_keys, d, d0, written. cbn [d_nodes d_ways d_relations d_changesets d_users]. rewrite !map_map. sconj; auto; apply increasing_NoDup; auto. }
  assert (FK : foreign_keys d).
  { unfold foreign_keys, d, d0, written. cbn [d_nodes d_ways d_relations d_node_tags d_way_tags d_way_nodes d_relation_tags d_members]. rewrite !map_map. sconj.
    all: intros key I; apply in_map_iff in I as (r & <- & I); apply in_flat_map in I as (x & J & I); unfold tag_records, way_node_records, member_records in I;
      apply in_map_iff in I as (y & <- & I); apply in_map_iff; exists x; auto. }
  assert (RES : resolved d).
  { rewrite Forall_forall in ST. assert (CK : forall c u, In (c, u) (changesets_in es) -> In c (map cr_id rc')).
    { intros c u I. destruct RECC as (_ & X & _). unfold changesets in X. rewrite map_map in X. cbn [fst] in X. apply X, in_map_iff. exists (c, u). auto. }
    assert (CIN : forall e c u, In e es -> changesets_in [e] = [(c, u)] -> In (c, u) (changesets_in es)).
    { intros e c u I E. apply in_flat_map. exists e. split; auto. unfold changesets_in in E. cbn [flat_map] in E. rewrite app_nil_r in E. rewrite E. left. reflexivity. }
    unfold resolved, d, d0, written. cbn [d_nodes d_ways d_relations d_changesets d_users]. rewrite !map_app, !map_map. sconj.
    - repeat (apply Forall_app; split); apply Forall_map, Forall_forall; intros x I.
      + eapply CK, (CIN (ENode x)); [apply in_nodes; exact I|reflexivity].
      + eapply CK, (CIN (EWay x)); [apply in_ways; exact I|reflexivity].
      + eapply CK, (CIN (ERelation x)); [apply in_relations; exact I|reflexivity].
    - intros u I. apply in_map_iff in I as (c & <- & I). assert (J : In (cr_id c, cr_user c) (changesets_in es)).
      { apply (INES _ changesets_in changesets); [intros a b; apply flat_map_app|exact RECC|]. unfold changesets. apply in_map_iff. exists c. auto. }
      destruct RECU as (_ & X & _). unfold users in X. rewrite map_map in X. cbn [fst] in X. apply X. apply in_flat_map in J as (e & J1 & J2). apply in_map_iff.
      destruct e as [x|x|x|]; cbn [In] in J2; [destruct J2 as [J2|[]]..|destruct J2]; injection J2 as _ E; [exists (n_uid x, n_user x)|exists (w_uid x, w_user x)|exists (r_uid x, r_user x)]; (split; [exact E|]); apply in_flat_map; eexists; (split; [exact J1|left; reflexivity]).
    - repeat (apply Forall_app; split); apply Forall_map, Forall_forall; intros x I; [apply in_nodes in I|apply in_ways in I|apply in_relations in I]; apply ST in I; cbn [storable] in I; cbn; tauto.
    - apply Forall_map, Forall_forall. intros c I. eapply (changesets_range esc unescape es (cr_id c)); [apply Forall_forall; exact ST|].
      apply (INES _ changesets_in changesets); [intros a b; apply flat_map_app|exact RECC|]. unfold changesets. apply in_map_iff. exists c. auto. }
  assert (AU : forall c uid name, author d c uid name -> In (c, uid) changesets /\ In (uid, name) users).
  { intros c uid name (r & u & I1 & I2 & <- & <- & E & <-). unfold d in I1, I2. cbn [d_changesets d_users] in I1, I2. unfold changesets, users. split; apply in_map_iff; [exists r; auto|exists u; rewrite E; auto]. }
  destruct (C39_own_rows unescape sort_file SORTS dir' d DI PK FK RES) as (rd2 & k & s & nodes & ways & rels & A & B & C & (l1 & P1 & O1 & G1) & (l2 & P2 & O2 & G2) & (l3 & P3 & O3 & G3)).
  rewrite A in RN'. injection RN' as ->. exists users, changesets, rd, k, s, nodes, ways, rels. rewrite EE. split; [exact RECU|]. split; [exact RECC|]. split; [exact RN|]. split; [exact B|]. split; [exact C|]. clear A B C.
  change (d_nodes d) with (map node_record (nodes_in es)) in P1.
  change (d_node_tags d) with (flat_map (fun x => tag_records (n_id x) (n_version x) (n_tags x)) (nodes_in es)) in G1.
  change (d_ways d) with (map way_record (ways_in es)) in P2.
  change (d_way_nodes d) with (flat_map way_node_records (ways_in es)) in G2.
  change (d_way_tags d) with (flat_map (fun x => tag_records (w_id x) (w_version x) (w_tags x)) (ways_in es)) in G2.
  change (d_relations d) with (map relation_record (relations_in es)) in P3.
  change (d_members d) with (flat_map member_records (relations_in es)) in G3.
  change (d_relation_tags d) with (flat_map (fun x => tag_records (r_id x) (r_version x) (r_tags x)) (relations_in es)) in G3.
  sconj.
  all: clear H1 H2 H4 H5 E1 E2 M1 M2.
  - apply Permutation_map_inv in P1 as (ns & -> & P1). apply Permutation_sym in P1. exists ns. sconj; auto.
    + exact (proj1 (ordered_map _ _ _) O1).
    + eapply Forall2_in; [|exact (proj1 (Forall2_map_l _ _ _ _) G1)]. intros x e I (uid & name & ts & H1 & H2 & ->).
      destruct (AU _ _ _ H1) as (M1 & M2). exists uid, name, (map as_tag ts). sconj; auto.
      * unfold own_tags in H2. change (node_key (node_record x)) with (n_id x, n_version x) in H2.
        rewrite (of_key_flat (fun x => (n_id x, n_version x)) tag_key (fun x => tag_records (n_id x) (n_version x) (n_tags x)) (nodes_in es) x) in H2;
          [eapply tags_back; eauto|exact DN|eapply Permutation_in; eauto|intros; apply tag_records_key].
      * unfold node_record at 5. cbn [nr_time]. rewrite millis_back. reflexivity.
  - apply Permutation_map_inv in P2 as (ws & -> & P2). apply Permutation_sym in P2. exists ws. sconj; auto.
    + exact (proj1 (ordered_map _ _ _) O2).
    + eapply Forall2_in; [|exact (proj1 (Forall2_map_l _ _ _ _) G2)]. intros x e I (uid & name & zs & ts & H1 & (H2 & H2') & H3 & ->).
      destruct (AU _ _ _ H1) as (M1 & M2). exists uid, name, (map as_tag ts). change (obj_key (way_record x)) with (w_id x, w_version x) in *. sconj; auto.
      * unfold own_tags in H3.
        rewrite (of_key_flat (fun x => (w_id x, w_version x)) tag_key (fun x => tag_records (w_id x) (w_version x) (w_tags x)) (ways_in es) x) in H3;
          [eapply tags_back; eauto|exact DW|eapply Permutation_in; eauto|intros; apply tag_records_key].
      * rewrite (of_key_flat (fun x => (w_id x, w_version x)) way_node_key way_node_records (ways_in es) x) in H2;
          [|exact DW|eapply Permutation_in; eauto|intros; apply Forall_map, Forall_forall; intros; reflexivity].
        rewrite (way_nodes_back x zs H2 H2'). cbn [way_record or_time]. rewrite millis_back. reflexivity.
  - apply Permutation_map_inv in P3 as (rs & -> & P3). apply Permutation_sym in P3. exists rs. sconj; auto.
    + exact (proj1 (ordered_map _ _ _) O3).
    + eapply Forall2_in; [|exact (proj1 (Forall2_map_l _ _ _ _) G3)]. intros x e I (uid & name & zs & ts & H1 & (H2 & H2') & H3 & ->).
      destruct (AU _ _ _ H1) as (M1 & M2). change (obj_key (relation_record x)) with (r_id x, r_version x) in *.
      rewrite (of_key_flat (fun x => (r_id x, r_version x)) member_key member_records (relations_in es) x) in H2;
          [|exact DR|eapply Permutation_in; eauto|intros; apply Forall_map, Forall_forall; intros; reflexivity].
      destruct (members_back x zs H2 H2') as (B1 & B2). exists uid, name, (map as_member zs), (map as_tag ts). sconj; auto.
      * unfold own_tags in H3.
        rewrite (of_key_flat (fun x => (r_id x, r_version x)) tag_key (fun x => tag_records (r_id x) (r_version x) (r_tags x)) (relations_in es) x) in H3;
          [eapply tags_back; eauto|exact DR|eapply Permutation_in; eauto|intros; apply tag_records_key].
      * cbn [relation_record or_time]. rewrite millis_back. reflexivity.
Qed.
End Names.
