(** C84: what becomes of user names with TABs. *)
From Coq Require Import ZArith List Bool Strings.Byte Strings.String Lia Permutation.
From Verif Require Import Base BaseFacts Types ApidbText ApidbSpec ApidbTextFacts DumpSpec ApidbWrite ApidbWriteFacts PropApidbWrite Model2 ApidbRead DumpReadSpec
  FileFormat ApidbReadFacts TocFacts JoinFacts ReaderFacts PropApidbRead PropDump RoundSpec RoundFacts PropRound PropRoundTrip PropLimits MissSpec PropMiss NameSpec NameFacts.
Import ListNotations.
Local Notation length := List.length.
Local Notation concat := List.concat.
Open Scope Z_scope.

(** ** rows of the users table *)
Definition tab_cols (u : Z * bytes) (cols : list bytes) : Prop :=
  exists email d time a b c n1 n2 n3, cols = seen email d time (snd u) a b c n1 n2 n3 /\ plain d (fst u) /\
    plain a 0 /\ plain b 0 /\ plain c 3 /\ plain n1 0 /\ plain n2 0 /\ plain n3 0.
Lemma user_seen esc dd now uid name cols : plain dd uid -> I32 uid -> one_line name -> four_digit_year (now / 1000000) ->
  Forall2 (shows esc) (user_row (str "osm-admin-user-" ++ dd ++ str "@example.com") now uid name) cols ->
  tab_cols (uid, name) (flat_map (split_byte x09) cols) /\ clean_row (flat_map (split_byte x09) cols).
Proof.
  intros P I1 N T F. pose proof (email_clean _ _ P) as EC. set (email := str "osm-admin-user-" ++ dd ++ str "@example.com") in *.
  unfold user_row in F. shown.
  repeat match goal with H : shows esc (VMicros _) _ |- _ => apply shows_micros in H; [|assumption] end. cbn [shows] in *. subst.
  repeat match goal with H : plain ?s ?z |- _ => lazymatch goal with C : clean s |- _ => fail | _ => pose proof (int_clean s z H) end end.
  match goal with H : time_text _ _ |- _ => pose proof (time_clean _ _ H) end.
  assert (E : forall s, plainb s = true -> split_byte x09 s = [s]) by (intros s PB; apply clean_split, str_clean, PB).
  cbn [flat_map]. rewrite !(clean_split _ EC).
  repeat match goal with C : clean ?s |- context [split_byte x09 ?s] => rewrite !(clean_split s C) end.
  rewrite !(E (str "00000000000000000000000000000000")), !(E (str "00000000")), !(E (str "\N")), !(E (str "pending")), !(E (str "markdown")), !(E [x74]), !(E [x66]) by reflexivity.
  pose proof (split_clean name N) as NC. cbn [app]. split.
  - eexists email, _, _, _, _, _, _, _, _. split; [unfold seen; cbn [app snd]; reflexivity|]. sconj; assumption.
  - split; [|split; [cbn [length]; rewrite !app_length; cbn [length]; lia|]].
    + repeat (first [apply Forall_cons; [first [assumption|apply str_clean; reflexivity]|]|apply Forall_app; split; [assumption|]|apply Forall_nil]).
    + intros s r X. injection X as X _. discriminate X.
Qed.
(** the same row with another name *)
Lemma other_name esc email now uid name name' line : row_text esc (user_row email now uid name) line -> exists line', row_text esc (user_row email now uid name') line'.
Proof.
  intros (cols & F & _). unfold user_row in F. shown. cbn [shows] in *. subst.
  eexists. eapply ApidbWriteFacts.row_ok; [unfold user_row|shelve]. repeat (apply Forall2_cons; [cbn [shows]; first [reflexivity|eassumption]|]). apply Forall2_nil.
  Unshelve. discriminate.
Qed.

Lemma tab_keyed u cols : I32 (fst u) -> tab_cols u cols -> keyed [(1%nat, FInteger)] cols.
Proof.
  intros I (email & d & time & a & b & c & n1 & n2 & n3 & -> & P & _). apply Forall_cons; [|apply Forall_nil]. cbn [fst snd]. unfold seen. cbn [app]. split; [cbn [length]; lia|].
  intros _. exists (fst u). split; [red in I |- *; lia|exact P].
Qed.
(** the sorted table *)
Definition tab_line (u : Z * bytes) (l : bytes) : Prop := tab_cols u (columns l) /\ data_line l = true.
Lemma tab_sorted sort_file ps lines : sorts sort_file -> Forall (fun p => I32 (fst (fst p)) /\ tab_cols (fst p) (snd p) /\ clean_row (snd p)) ps -> Forall2 copy_line (map snd ps) lines ->
  exists us' lines', Permutation (map fst ps) us' /\ Forall2 tab_line us' lines' /\
    sort_file [(1%nat, FInteger)] (concat lines ++ str "\." ++ [x0a]) = Ok (concat lines') /\ lines_of (concat lines') = lines'.
Proof.
  intros SORTS F CL. destruct (SORTS [(1%nat, FInteger)] (map snd ps) (concat lines ++ str "\." ++ [x0a])) as (rows' & lines' & P & C' & S & _).
  - exists lines, 0%nat. cbn [repeat]. rewrite app_nil_r. auto.
  - apply Forall_map. eapply Forall_impl; [|exact F]. cbv beta. tauto.
  - apply Forall_map. eapply Forall_impl; [|exact F]. cbv beta. intros p (I & T & _). eapply tab_keyed; eauto.
  - destruct (Permutation_map_inv _ _ (Permutation_sym P)) as (ps' & -> & P'). assert (Forall (fun p => I32 (fst (fst p)) /\ tab_cols (fst p) (snd p) /\ clean_row (snd p)) ps') as F' by (eapply Permutation_Forall; eauto).
    exists (map fst ps'), lines'. sconj; auto.
    + apply Permutation_map; auto.
    + clear - F' C'. revert lines' C'. induction F' as [|p ps (_ & T & K) F IH]; intros lines C; inversion C as [|? l ? ls C1 C2]; subst; constructor; auto.
      split; [rewrite (columns_line _ _ C1 (proj1 K)); exact T|eapply data_line_ok; eauto].
    + apply (lines_of_concat (map snd ps')); auto. apply Forall_map. eapply Forall_impl; [|exact F']. cbv beta. tauto.
Qed.
(** ** reading the users *)
Definition cut_user (u : Z * bytes) (r : user_rec) : Prop := ur_id r = fst u /\ cut_at_tab (snd u) (ur_name r).
Lemma tab_user u l r : I32 (fst u) -> tab_line u l -> create_user (seq 0 29) l = Ok r -> cut_user u r.
Proof.
  intros I ((email & d & time & a & b & c & n1 & n2 & n3 & E & P & _) & _) C. apply create_user_inv in C as (C1 & C2 & _). rewrite E in *. unfold seen in *. cbn [app nth] in C1.
  split.
  - assert (parse_i64 d = Some (fst u)) as X by (apply parse_int64; split; [red in I |- *; lia|exact P]). congruence.
  - destruct (split_head (snd u)) as (p & ps & H & K). rewrite H in C2. cbn [app nth] in C2. congruence.
Qed.
Lemma tab_users us lines : Forall (fun u => I32 (fst u)) us -> Forall2 tab_line us lines ->
  (exists rs, table_all (create_user (seq 0 29)) lines = Ok rs /\ Forall2 cut_user us rs) \/ table_all (create_user (seq 0 29)) lines = Panic.
Proof.
  intros R F. induction F as [|u l us lines T F IH]; cbn [table_all]; [left; exists []; auto|]. inversion R; subst. rewrite (proj2 T).
  destruct (create_user_or (seq 0 29) l) as [(r & E)|E]; rewrite E; cbn [bind]; auto. destruct IH as [(rs & -> & G)| ->]; auto; cbn [bind]; auto.
  left. exists (r :: rs). split; auto. constructor; auto. eapply tab_user; eauto.
Qed.
Lemma tab_never us lines u : Forall2 tab_line us lines -> In u us -> never (tabs (snd u)) -> forall rs, table_all (create_user (seq 0 29)) lines <> Ok rs.
Proof.
  intros F. induction F as [|v l us lines T F IH]; intros I N rs E; [destruct I|]. cbn [table_all] in E. rewrite (proj2 T) in E.
  apply bind_ok in E as (r & C & E). apply bind_ok in E as (rs' & C' & E). destruct I as [->|I].
  - destruct T as ((email & d & time & a & b & c & n1 & n2 & n3 & E' & P & P1 & P2 & P3 & P4 & P5 & P6) & _). eapply never_read; eauto.
  - eapply IH; eauto.
Qed.

(** ** the whole dump *)
Definition cutf (s : bytes) : bytes := hd [] (split_byte x09 s).
Lemma cutf_spec s : cut_at_tab s (cutf s).
Proof. unfold cutf. destruct (split_head s) as (p & ps & -> & H). exact H. Qed.
Lemma increasing_ext {V} : forall l1 l2 : list (Z * V), increasing (map fst l1) -> increasing (map fst l2) -> (forall p, In p l1 <-> In p l2) -> l1 = l2.
Proof.
  assert (H : forall (l : list (Z * V)) p q, increasing (map fst (p :: l)) -> In q l -> fst p < fst q).
  { intros l p q I J. cbn [map increasing] in I. destruct I as (I & _). rewrite Forall_forall in I. apply I, in_map; auto. }
  induction l1 as [|p l1 IH]; intros [|q l2] I1 I2 E; auto.
  - destruct (proj2 (E q)). left; auto.
  - destruct (proj1 (E p)). left; auto.
  - assert (p = q) as ->.
    { destruct (proj1 (E p) (or_introl eq_refl)) as [X|X]; auto. destruct (proj2 (E q) (or_introl eq_refl)) as [Y|Y]; auto.
      pose proof (H _ _ _ I1 Y). pose proof (H _ _ _ I2 X). lia. }
    f_equal. apply IH; [exact (proj2 I1)|exact (proj2 I2)|]. intros r. split; intros J.
    + destruct (proj1 (E r) (or_intror J)) as [<-|K]; auto. pose proof (H _ _ _ I1 J). lia.
    + destruct (proj2 (E r) (or_intror J)) as [<-|K]; auto. pose proof (H _ _ _ I2 J). lia.
Qed.

Section Names.
Variables (esc : bytes -> bytes) (unescape : bytes -> option bytes).
Variables (hash_order : forall V, list (Z * V) -> list (Z * V)) (clock : nat -> Z) (lib : bytes).
Hypothesis HO : any_order hash_order.
Variable sort_file : list (nat * ftype) -> bytes -> res bytes.
Hypothesis SORTS : sorts sort_file.
Local Notation storable := (storable esc unescape).

(** the tables but for users, and the rows of users *)
Lemma nine_tables es w : ApidbWrite.dump esc hash_order clock lib es = Ok w -> nearly_readable esc unescape clock es ->
  exists users changesets n, increasing (map fst users) /\ (forall uid name, In (uid, name) users <-> most_recent (users_in es) uid name) /\
    increasing (map fst changesets) /\ (forall id uid, In (id, uid) changesets <-> most_recent (changesets_in es) id uid) /\
    (forall e, In e es -> e <> ESentinel -> exists cid uid uid' name name',
        changesets_in [e] = [(cid, uid)] /\ In (cid, uid') changesets /\ In (uid, name) users /\ In (uid', name') users) /\
    (forall id uid, In (id, uid) changesets -> I64 id /\ I32 uid) /\ (forall uid name, In (uid, name) users -> I32 uid /\ one_line name) /\
    (exists emails, Forall2 (fun e u => exists d, plain d (fst u) /\ e = str "osm-admin-user-" ++ d ++ str "@example.com") emails users /\
       holds esc (files w T_users) (map (fun p => let '(i, (email, (uid, name))) := p in user_row email (clock i) uid name) (combine (seq 0 (length users)) (combine emails users)))) /\
    forall dir cat users', (forall t, In t object_tables -> In (table_name t, schema t, table_file t) cat) ->
      (dir (table_file T_nodes) = Some (files w T_nodes) -> table_holds dir cat T_nodes node_says (d_nodes (written clock es users' changesets n))) /\
      (dir (table_file T_node_tags) = Some (files w T_node_tags) -> table_holds dir cat T_node_tags (tag_says unescape (str "node_id")) (d_node_tags (written clock es users' changesets n))) /\
      (dir (table_file T_ways) = Some (files w T_ways) -> table_holds dir cat T_ways (obj_says (str "way_id")) (d_ways (written clock es users' changesets n))) /\
      (dir (table_file T_way_nodes) = Some (files w T_way_nodes) -> table_holds dir cat T_way_nodes way_node_says (d_way_nodes (written clock es users' changesets n))) /\
      (dir (table_file T_way_tags) = Some (files w T_way_tags) -> table_holds dir cat T_way_tags (tag_says unescape (str "way_id")) (d_way_tags (written clock es users' changesets n))) /\
      (dir (table_file T_relations) = Some (files w T_relations) -> table_holds dir cat T_relations (obj_says (str "relation_id")) (d_relations (written clock es users' changesets n))) /\
      (dir (table_file T_relation_members) = Some (files w T_relation_members) -> table_holds dir cat T_relation_members (member_says unescape) (d_members (written clock es users' changesets n))) /\
      (dir (table_file T_relation_tags) = Some (files w T_relation_tags) -> table_holds dir cat T_relation_tags (tag_says unescape (str "relation_id")) (d_relation_tags (written clock es users' changesets n))) /\
      (dir (table_file T_changesets) = Some (files w T_changesets) -> table_holds dir cat T_changesets changeset_says (d_changesets (written clock es users' changesets n))).
Proof.
  intros D (ST & (DN & DW & DR) & CU & CK).
  destruct (C35_history_tables esc hash_order clock lib HO es w D) as (H1 & H2 & H3 & H4 & H5 & H6 & H7 & H8 & _).
  destruct (C43_users_and_changesets esc hash_order clock lib HO es w D) as (us & cs & n & U1 & U2 & C1 & C2 & (emails & EM & H9) & H10 & _ & RES).
  exists us, cs, n. pose proof ST as ST'. rewrite Forall_forall in ST.
  assert (forall x, In x (nodes_in es) -> storable (ENode x)) as SN by (intros x I; apply ST, in_nodes; auto).
  assert (forall x, In x (ways_in es) -> storable (EWay x)) as SW by (intros x I; apply ST, in_ways; auto).
  assert (forall x, In x (relations_in es) -> storable (ERelation x)) as SR by (intros x I; apply ST, in_relations; auto).
  assert (forall uid name, In (uid, name) us -> I32 uid /\ one_line name) as UR.
  { intros uid name I. apply U2, recent_in in I. split; [eapply users_range; eauto|]. rewrite Forall_forall in CU. apply (CU (uid, name)); auto. }
  assert (forall id uid, In (id, uid) cs -> I64 id /\ I32 uid) as CR.
  { intros id uid I. apply C2, recent_in in I. eapply changesets_range; eauto. }
  sconj; auto.
  { exists emails. auto. }
  intros dir cat us' IC.
  sconj; cbn [written d_nodes d_node_tags d_ways d_way_nodes d_way_tags d_relations d_members d_relation_tags d_changesets].
  + intros DF. eapply holds_table; [cbn; tauto| |exact H1|apply IC; cbn; tauto|exact DF]. apply Forall2_map_both. intros x I cols S. eapply node_row_ok; eauto.
  + intros DF. eapply holds_table; [cbn; tauto| |exact H2|apply IC; cbn; tauto|exact DF]. apply Forall2_flat. intros x I. apply node_tags_read; auto.
  + intros DF. eapply holds_table; [cbn; tauto| |exact H3|apply IC; cbn; tauto|exact DF]. apply Forall2_map_both. intros x I cols S. eapply way_row_ok; eauto.
  + intros DF. eapply holds_table; [cbn; tauto| |exact H5|apply IC; cbn; tauto|exact DF]. apply Forall2_flat. intros x I. eapply way_nodes_read; eauto.
  + intros DF. eapply holds_table; [cbn; tauto| |exact H4|apply IC; cbn; tauto|exact DF]. apply Forall2_flat. intros x I. apply way_tags_read; auto.
  + intros DF. eapply holds_table; [cbn; tauto| |exact H6|apply IC; cbn; tauto|exact DF]. apply Forall2_map_both. intros x I cols S. eapply relation_row_ok; eauto.
  + intros DF. eapply holds_table; [cbn; tauto| |exact H8|apply IC; cbn; tauto|exact DF]. apply Forall2_flat. intros x I. apply members_read; auto.
  + intros DF. eapply holds_table; [cbn; tauto| |exact H7|apply IC; cbn; tauto|exact DF]. apply Forall2_flat. intros x I. apply relation_tags_read; auto.
  + intros DF. eapply holds_table; [cbn; tauto| |exact H10|apply IC; cbn; tauto|exact DF]. apply Forall2_map_both. intros (i, (id, uid)) I cols S. cbn [fst snd].
    apply in_combine_r in I. apply CR in I as (I1 & I2). eapply changeset_ok; eauto.
Qed.
(** the users table as it is written, and one with the names cut *)
Lemma users_rows emails us file : (forall uid name, In (uid, name) us -> I32 uid /\ one_line name) -> (forall i, four_digit_year (clock i / 1000000)) ->
  Forall2 (fun e u => exists d, plain d (fst u) /\ e = str "osm-admin-user-" ++ d ++ str "@example.com") emails us ->
  holds esc file (map (fun p => let '(i, (email, (uid, name))) := p in user_row email (clock i) uid name) (combine (seq 0 (length us)) (combine emails us))) ->
  (exists ps lines, map fst ps = us /\ Forall (fun p => I32 (fst (fst p)) /\ tab_cols (fst p) (snd p) /\ clean_row (snd p)) ps /\ Forall2 copy_line (map snd ps) lines /\ file = concat lines ++ str "\." ++ [x0a]) /\
  exists file' rows, holds esc file' rows /\ reads_as esc T_users user_says (map (fun u => UserRec (fst u) (cutf (snd u))) us) rows.
Proof.
  intros UR CK EM (lines & H & ->).
  assert (forall u, In u us -> I32 (fst u) /\ one_line (snd u)) as UR' by (intros (a, b) I; apply UR; auto). clear UR. revert lines H. generalize 0%nat.
  induction EM as [|e (uid, name) emails us (dd & P & ->) EM IH]; intros k lines H; cbn [length seq combine map] in H; inversion H as [|? l ? ls R H']; subst.
  - split; [exists [], []; sconj; auto; constructor|]. eexists _, []. split; [exists []; split; [constructor|reflexivity]|constructor].
  - destruct (IH (fun u I => UR' u (or_intror I)) _ _ H') as ((ps & ls' & E1 & E2 & E3 & E4) & (file' & rows & (ls2 & F2 & _) & G2)). cbn [fst snd] in P.
    destruct (UR' (uid, name) (or_introl eq_refl)) as (I1 & I2). cbn [fst snd] in I1, I2. split.
    + destruct R as (cols & S & L). destruct (user_seen _ _ _ _ _ _ P I1 I2 (CK k) S) as (T & C). exists (((uid, name), flat_map (split_byte x09) cols) :: ps), (l :: ls'). sconj.
      * cbn [map fst]. f_equal. auto.
      * constructor; auto.
      * cbn [map snd]. constructor; auto. apply split_line; auto.
      * cbn [concat]. rewrite <- !app_assoc. f_equal. exact E4.
    + destruct (other_name _ _ _ _ _ (cutf name) _ R) as (l' & R'). eexists _, (user_row _ (clock k) uid (cutf name) :: rows). split.
      * exists (l' :: ls2). split; [constructor; [exact R'|exact F2]|reflexivity].
      * cbn [map]. constructor; [|exact G2]. cbn [fst snd]. intros cols S. eapply user_ok; eauto.
        pose proof (split_clean name I2) as NC. unfold cutf. destruct (split_head name) as (p & qs & E & _). rewrite E in NC |- *. cbn [hd]. inversion NC; auto.
Qed.
Lemma written_keys es us cs n : Forall storable es -> distinct_versions es -> increasing (map fst us) -> increasing (map fst cs) ->
  (forall id uid, In (id, uid) cs <-> most_recent (changesets_in es) id uid) -> (forall id uid, In (id, uid) cs -> I64 id /\ I32 uid) ->
  (forall e, In e es -> e <> ESentinel -> exists cid uid uid', changesets_in [e] = [(cid, uid)] /\ In (cid, uid') cs /\ In uid (map fst us)) ->
  primary_keys (written clock es us cs n) /\ foreign_keys (written clock es us cs n) /\ resolved (written clock es us cs n).
Proof.
  intros ST (DN & DW & DR) U1 C1 C2 CR RES. rewrite Forall_forall in ST.
  assert (forall x, In x (nodes_in es) -> storable (ENode x)) as SN by (intros x I; apply ST, in_nodes; auto).
  assert (forall x, In x (ways_in es) -> storable (EWay x)) as SW by (intros x I; apply ST, in_ways; auto).
  assert (forall x, In x (relations_in es) -> storable (ERelation x)) as SR by (intros x I; apply ST, in_relations; auto).
  sconj.
  - unfold primary_keys, written. cbn [d_nodes d_ways d_relations d_changesets d_users]. rewrite !map_map. sconj; auto.
    + eapply increasing_snd; [apply combine_snd; apply seq_length|exact C1].
    + apply increasing_NoDup. exact U1.
  - unfold foreign_keys, written. cbn [d_nodes d_ways d_relations d_node_tags d_way_tags d_way_nodes d_relation_tags d_members]. rewrite !map_map. sconj.
    all: intros key I; apply in_map_iff in I as (r & <- & I); apply in_flat_map in I as (x & J & I); unfold tag_records, way_node_records, member_records in I;
      apply in_map_iff in I as (y & <- & I); apply in_map_iff; exists x; auto.
  - assert (forall e, In e es -> e <> ESentinel -> exists c uid, changesets_in [e] = [(c, uid)] /\ In c (map fst cs)) as RC.
    { intros e I NS. destruct (RES e I NS) as (c & uid & uid' & E & J & _). exists c, uid. split; auto. apply in_map_iff. exists (c, uid'); auto. }
    assert (map cr_id (map (fun p => changeset_record (clock (fst p)) (fst (snd p)) (snd (snd p))) (combine (seq n (length cs)) cs)) = map fst cs) as MC.
    { rewrite map_map. cbn [changeset_record cr_id]. rewrite <- (combine_snd (seq n (length cs)) cs) at 3 by apply seq_length. rewrite map_map. reflexivity. }
    assert (map cr_user (map (fun p => changeset_record (clock (fst p)) (fst (snd p)) (snd (snd p))) (combine (seq n (length cs)) cs)) = map snd cs) as MU.
    { rewrite map_map. cbn [changeset_record cr_user]. rewrite <- (combine_snd (seq n (length cs)) cs) at 3 by apply seq_length. rewrite map_map. reflexivity. }
    unfold resolved, written. cbn [d_nodes d_ways d_relations d_changesets d_users]. rewrite MC, MU, !map_app, !map_map. sconj.
    + repeat (apply Forall_app; split); apply Forall_map, Forall_forall; intros x I.
      * destruct (RC (ENode x)) as (c & uid & E & J); [apply in_nodes; auto|discriminate|]. cbn in E. injection E as <- _. exact J.
      * destruct (RC (EWay x)) as (c & uid & E & J); [apply in_ways; auto|discriminate|]. cbn in E. injection E as <- _. exact J.
      * destruct (RC (ERelation x)) as (c & uid & E & J); [apply in_relations; auto|discriminate|]. cbn in E. injection E as <- _. exact J.
    + intros u I. apply in_map_iff in I as ((c, uid) & <- & I). cbn [snd]. apply C2, recent_in in I. apply in_flat_map in I as (e & I & J).
      destruct (RES e I) as (c' & uid2 & uid' & E & _ & K); [intros ->; destruct J|].
      assert (uid2 = uid) as -> by (destruct e as [x|x|x|]; cbn in E, J; [destruct J as [J|[]]..|destruct J]; congruence). cbn [ur_id]. exact K.
    + repeat (apply Forall_app; split); apply Forall_map, Forall_forall; intros x I; [apply SN in I|apply SW in I|apply SR in I]; cbn [storable] in I; cbn; tauto.
    + apply Forall_map, Forall_forall. intros (c, uid) I. apply CR in I. tauto.
Qed.
(** the elements, given who the authors are *)
Lemma back_with es us cs n (Q : Z -> Z -> bytes -> Prop) nodes ways rels : distinct_versions es -> let d := written clock es us cs n in
  (forall c uid name, author d c uid name -> Q c uid name) ->
  (exists rs, Permutation rs (d_nodes d) /\ ordered (fun a b => key_lt (node_key a) (node_key b)) rs /\ Forall2 (node_element d (own_tags (d_node_tags d))) rs nodes) ->
  (exists rs, Permutation rs (d_ways d) /\ ordered (fun a b => key_lt (obj_key a) (obj_key b)) rs /\
     Forall2 (way_element d (own_nodes (d_way_nodes d)) (own_tags (d_way_tags d))) rs ways) ->
  (exists rs, Permutation rs (d_relations d) /\ ordered (fun a b => key_lt (obj_key a) (obj_key b)) rs /\
     Forall2 (relation_element d (own_members (d_members d)) (own_tags (d_relation_tags d))) rs rels) ->
  (exists ns, Permutation ns (nodes_in es) /\ ordered (fun a b => key_lt (n_id a, n_version a) (n_id b, n_version b)) ns /\
     Forall2 (fun x e => exists uid name tags, Q (n_changeset x) uid name /\ Permutation tags (n_tags x) /\
       e = ENode (Node (n_id x) (n_version x) (snapped (n_coord x)) (whole_seconds (n_timestamp x)) (n_changeset x) uid name (n_visible x) tags)) ns nodes) /\
  (exists ws, Permutation ws (ways_in es) /\ ordered (fun a b => key_lt (w_id a, w_version a) (w_id b, w_version b)) ws /\
     Forall2 (fun x e => exists uid name tags, Q (w_changeset x) uid name /\ Permutation tags (w_tags x) /\
       e = EWay (Way (w_id x) (w_version x) (whole_seconds (w_timestamp x)) (w_changeset x) uid name (w_visible x) (w_refs x) tags)) ws ways) /\
  (exists rs, Permutation rs (relations_in es) /\ ordered (fun a b => key_lt (r_id a, r_version a) (r_id b, r_version b)) rs /\
     Forall2 (fun x e => exists uid name members tags, Q (r_changeset x) uid name /\ Permutation members (r_members x) /\ by_member_id members /\ Permutation tags (r_tags x) /\
       e = ERelation (Relation (r_id x) (r_version x) (whole_seconds (r_timestamp x)) (r_changeset x) uid name (r_visible x) members tags)) rs rels).
Proof.
  intros (DN & DW & DR) d AU (l1 & P1 & O1 & E1) (l2 & P2 & O2 & E2) (l3 & P3 & O3 & E3).
  change (d_nodes d) with (map node_record (nodes_in es)) in P1.
  change (d_node_tags d) with (flat_map (fun x => tag_records (n_id x) (n_version x) (n_tags x)) (nodes_in es)) in E1.
  change (d_ways d) with (map way_record (ways_in es)) in P2.
  change (d_way_nodes d) with (flat_map way_node_records (ways_in es)) in E2.
  change (d_way_tags d) with (flat_map (fun x => tag_records (w_id x) (w_version x) (w_tags x)) (ways_in es)) in E2.
  change (d_relations d) with (map relation_record (relations_in es)) in P3.
  change (d_members d) with (flat_map member_records (relations_in es)) in E3.
  change (d_relation_tags d) with (flat_map (fun x => tag_records (r_id x) (r_version x) (r_tags x)) (relations_in es)) in E3.
  sconj.
  - apply Permutation_map_inv in P1 as (ns & -> & P1). apply Permutation_sym in P1. exists ns. sconj; auto.
    + exact (proj1 (ordered_map _ _ _) O1).
    + eapply Forall2_in; [|exact (proj1 (Forall2_map_l _ _ _ _) E1)]. intros x e I (uid & name & ts & H1 & H2 & ->).
      exists uid, name, (map as_tag ts). sconj; [apply AU; auto| |].
      * unfold own_tags in H2. change (node_key (node_record x)) with (n_id x, n_version x) in H2.
        rewrite (of_key_flat (fun x => (n_id x, n_version x)) tag_key (fun x => tag_records (n_id x) (n_version x) (n_tags x)) (nodes_in es) x) in H2;
          [eapply tags_back; eauto|exact DN|eapply Permutation_in; eauto|intros; apply tag_records_key].
      * unfold node_record at 5. cbn [nr_time]. rewrite millis_back. reflexivity.
  - apply Permutation_map_inv in P2 as (ws & -> & P2). apply Permutation_sym in P2. exists ws. sconj; auto.
    + exact (proj1 (ordered_map _ _ _) O2).
    + eapply Forall2_in; [|exact (proj1 (Forall2_map_l _ _ _ _) E2)]. intros x e I (uid & name & xs & ts & H1 & (H2 & H2') & H3 & ->).
      exists uid, name, (map as_tag ts). change (obj_key (way_record x)) with (w_id x, w_version x) in *. sconj; [apply AU in H1; exact H1| |].
      * unfold own_tags in H3.
        rewrite (of_key_flat (fun x => (w_id x, w_version x)) tag_key (fun x => tag_records (w_id x) (w_version x) (w_tags x)) (ways_in es) x) in H3;
          [eapply tags_back; eauto|exact DW|eapply Permutation_in; eauto|intros; apply tag_records_key].
      * rewrite (of_key_flat (fun x => (w_id x, w_version x)) way_node_key way_node_records (ways_in es) x) in H2;
          [|exact DW|eapply Permutation_in; eauto|intros; apply Forall_map, Forall_forall; intros; reflexivity].
        rewrite (way_nodes_back x xs H2 H2'). cbn [way_record or_time]. rewrite millis_back. reflexivity.
  - apply Permutation_map_inv in P3 as (rs & -> & P3). apply Permutation_sym in P3. exists rs. sconj; auto.
    + exact (proj1 (ordered_map _ _ _) O3).
    + eapply Forall2_in; [|exact (proj1 (Forall2_map_l _ _ _ _) E3)]. intros x e I (uid & name & xs & ts & H1 & (H2 & H2') & H3 & ->).
      change (obj_key (relation_record x)) with (r_id x, r_version x) in *.
      rewrite (of_key_flat (fun x => (r_id x, r_version x)) member_key member_records (relations_in es) x) in H2;
          [|exact DR|eapply Permutation_in; eauto|intros; apply Forall_map, Forall_forall; intros; reflexivity].
      destruct (members_back x xs H2 H2') as (B1 & B2). exists uid, name, (map as_member xs), (map as_tag ts). sconj; [apply AU in H1; exact H1|exact B1|exact B2| |].
      * unfold own_tags in H3.
        rewrite (of_key_flat (fun x => (r_id x, r_version x)) tag_key (fun x => tag_records (r_id x) (r_version x) (r_tags x)) (relations_in es) x) in H3;
          [eapply tags_back; eauto|exact DR|eapply Permutation_in; eauto|intros; apply tag_records_key].
      * cbn [relation_record or_time]. rewrite millis_back. reflexivity.
Qed.
Variables (es : list element) (w : ApidbWrite.writer) (dir : bytes -> option bytes).
Hypothesis D : ApidbWrite.dump esc hash_order clock lib es = Ok w.
Hypothesis RB : nearly_readable esc unescape clock es.
Hypothesis DIR : directory w dir.

(** the reader opens the dump; then either the users table makes it panic, or everything comes back with cut names *)
Lemma names_core : exists rd, ApidbRead.reader_new sort_file dir = Ok rd /\
  ((exists uid name, most_recent (users_in es) uid name /\ never (tabs name)) -> ApidbRead.elements unescape rd = Panic) /\
  (ApidbRead.elements unescape rd = Panic \/
   exists k s nodes ways rels, ApidbRead.elements unescape rd = Ok (k, s) /\
     run (element_next k) s (nodes ++ [ESentinel] ++ ways ++ [ESentinel] ++ rels ++ [ESentinel]) Ended /\
     (exists ns, Permutation ns (nodes_in es) /\ ordered (fun a b => key_lt (n_id a, n_version a) (n_id b, n_version b)) ns /\ Forall2 (with_cut_name (node_back es)) ns nodes) /\
     (exists ws, Permutation ws (ways_in es) /\ ordered (fun a b => key_lt (w_id a, w_version a) (w_id b, w_version b)) ws /\ Forall2 (with_cut_name (way_back es)) ws ways) /\
     (exists rs, Permutation rs (relations_in es) /\ ordered (fun a b => key_lt (r_id a, r_version a) (r_id b, r_version b)) rs /\ Forall2 (with_cut_name (relation_back es)) rs rels)).
Proof.
  destruct DIR as ((toc & DT & entries & cat & TT & ND & F2 & IC) & DF).
  destruct (nine_tables es w D RB) as (us & cs & n & U1 & U2 & C1 & C2 & RES & CR & UR & (emails & EM & HU) & TS). pose proof RB as (ST & DV & CU & CK).
  destruct (users_rows emails us (files w T_users) UR CK EM HU) as ((ps & lines & EP & FP & CP & EF) & (file' & rows & HU' & RA)).
  destruct (tab_sorted sort_file ps lines SORTS FP CP) as (us' & lines' & PU & TL & SF & LO). rewrite EP in PU. rewrite <- EF in SF.
  (* the directory with the names cut *)
  set (dir' := fun f => if bytes_eqb f (table_file T_users) then Some file' else dir f).
  set (us2 := map (fun u => (fst u, cutf (snd u))) us).
  assert (forall f, f <> table_file T_users -> dir' f = dir f) as SAME.
  { intros f N. unfold dir'. destruct (bytes_eqb f (table_file T_users)) eqn:E; auto. apply bytes_eqb_eq in E. contradiction. }
  assert (dir' (table_file T_users) = Some file') as DU by (unfold dir'; rewrite bytes_eqb_refl; reflexivity).
  set (d := written clock es us2 cs n).
  assert (catalogued dir cat) as CAT by (exists toc, entries; auto).
  assert (catalogued dir' cat) as CAT' by (exists toc, entries; sconj; auto; rewrite SAME; auto; discriminate).
  assert (table_holds dir' cat T_users user_says (d_users d)) as TU.
  { replace (d_users d) with (map (fun u => UserRec (fst u) (cutf (snd u))) us).
    - eapply holds_table; [cbn; tauto|exact RA|exact HU'|apply IC; cbn; tauto|exact DU].
    - unfold d, us2, written. cbn [d_users]. rewrite map_map. reflexivity. }
  assert (forall t, In t (eight ++ [T_changesets]) -> dir' (table_file t) = dir (table_file t)) as SAMET.
  { intros t I. apply SAME. cbn in I. repeat (destruct I as [<-|I]; [discriminate|]). destruct I. }
  destruct (TS dir' cat us2 IC) as (T1 & T2 & T3 & T4 & T5 & T6 & T7 & T8 & T9).
  specialize (T1 ltac:(rewrite SAMET by (cbn; tauto); apply DF)). specialize (T2 ltac:(rewrite SAMET by (cbn; tauto); apply DF)). specialize (T3 ltac:(rewrite SAMET by (cbn; tauto); apply DF)).
  specialize (T4 ltac:(rewrite SAMET by (cbn; tauto); apply DF)). specialize (T5 ltac:(rewrite SAMET by (cbn; tauto); apply DF)). specialize (T6 ltac:(rewrite SAMET by (cbn; tauto); apply DF)).
  specialize (T7 ltac:(rewrite SAMET by (cbn; tauto); apply DF)). specialize (T8 ltac:(rewrite SAMET by (cbn; tauto); apply DF)). specialize (T9 ltac:(rewrite SAMET by (cbn; tauto); apply DF)).
  fold d in T1, T2, T3, T4, T5, T6, T7, T8, T9.
  assert (dump_in unescape dir' d) as DI.
  { exists toc, entries, cat. sconj; auto. }
  assert (map fst us2 = map fst us) as MF by (unfold us2; rewrite map_map; reflexivity).
  destruct (written_keys es us2 cs n ST DV) as (PK & FK & RE); auto.
  { rewrite MF. exact U1. }
  { intros e I NS. destruct (RES e I NS) as (c & uid & uid' & nm & nm' & E & J & K & _). exists c, uid, uid'. sconj; auto. rewrite MF. apply in_map_iff. exists (uid, nm). auto. }
  fold d in PK, FK, RE.
  destruct (C39_own_rows unescape sort_file SORTS dir' d DI PK FK RE) as (rd' & k & s & nodes & ways & rels & A & B & C & R1 & R2 & R3).
  (* both readers *)
  assert (ALLD : forall t, In t ten -> exists df sorted, sorted_table sort_file dir' cat t df sorted).
  { intros t I. apply (in_order_sorted unescape sort_file SORTS dir' cat d t I). cbn in I. repeat (destruct I as [<-|I]; [cbn [in_order]; assumption|]). destruct I. }
  pose proof (catalogue_unique cat ND) as UNI.
  assert (TRANS : forall t df sorted, In t (eight ++ [T_changesets]) -> sorted_table sort_file dir' cat t df sorted -> sorted_table sort_file dir cat t df sorted).
  { intros t df sorted I ((cols & IN & DE) & (data & E1 & E2)). split; [eauto|]. exists data. split; auto.
    assert (In t object_tables) as IO by (cbn in I |- *; tauto). destruct (UNI _ _ _ _ _ IN (IC t IO)) as (-> & EFL). rewrite EFL in *. rewrite <- SAMET; auto. }
  assert (SU : sorted_table sort_file dir cat T_users (TableDef (table_file T_users) (seq 0 29) [(1%nat, FInteger)]) (concat lines')).
  { split; [exists (schema T_users); cbn [td_file]; split; [apply IC; cbn; tauto|apply users_def]|]. exists (files w T_users). cbn [td_file td_key]. split; [apply DF|exact SF]. }
  destruct (reader_gaps sort_file dir cat CAT) as (rd & RD & OP & _).
  { intros t I _. destruct (ten_read t) as (_ & _). assert (In t (eight ++ [T_changesets]) \/ t = T_users) as [J| ->] by (cbn in I |- *; intuition).
    - destruct (ALLD t I) as (df & so & S). eauto.
    - eauto. }
  destruct (reader_gaps sort_file dir' cat CAT') as (rd2 & RD2 & OP2 & _); [intros t I _; auto|]. rewrite A in RD2. injection RD2 as <-.
  exists rd. split; [exact RD|].
  pose proof (OP T_users _ _ ltac:(cbn; tauto) SU) as OU. cbn [td_fields] in OU. rewrite LO in OU.
  assert (RU : Forall (fun u => I32 (fst u)) us').
  { eapply Permutation_Forall; [exact PU|]. apply Forall_forall. intros (uid, nm) I. apply UR in I. tauto. }
  assert (PANIC : table_all (create_user (seq 0 29)) lines' = Panic -> ApidbRead.elements unescape rd = Panic).
  { intros E. unfold ApidbRead.elements. rewrite OU. cbn [unwrap_res bind]. rewrite E. reflexivity. }
  split.
  - intros (uid & name & M & N). apply PANIC. destruct (tab_users us' lines' RU TL) as [(rs & E & _)|E]; auto. exfalso.
    eapply (tab_never us' lines' (uid, name)); eauto. eapply Permutation_in; [exact PU|]. apply U2; auto.
  - destruct (tab_users us' lines' RU TL) as [(rs & E & CUT)|E]; [right|left; auto].
    assert (EQ : ApidbRead.elements unescape rd = ApidbRead.elements unescape rd').
    { assert (OE : forall t, In t (eight ++ [T_changesets]) -> open_table rd t = open_table rd' t).
      { intros t I. assert (In t ten) as I' by (cbn in I |- *; tauto). destruct (ALLD t I') as (df & so & S). rewrite (OP2 t df so I' S). apply OP; auto. }
      destruct (table_opens sort_file SORTS dir' cat T_users user_says (d_users d)) as (df & so & S & R); [cbn; tauto|intros; eapply user_keyed; eauto|exact TU|].
      apply rows_parse with (create := create_user (td_fields df)) (le := fun _ _ => True) in R as (rs2 & P2 & Q2 & _); [|intros; eapply create_user_ok; eauto|auto].
      pose proof (OP2 T_users df so ltac:(cbn; tauto) S) as OU2.
      unfold ApidbRead.elements. rewrite OU, OU2. cbn [unwrap_res bind]. rewrite E, (table_all_ok _ _ _ Q2). cbn [bind].
      rewrite !OE by (cbn; tauto).
      assert (bt_insert_all (map (fun u => (ur_id u, ur_name u)) rs) [] = bt_insert_all (map (fun u => (ur_id u, ur_name u)) rs2) []) as ->; [|reflexivity].
      assert (map (fun u => (ur_id u, ur_name u)) rs = map (fun u => (fst u, cutf (snd u))) us') as ->.
      { clear - CUT. induction CUT as [|(a, b) r us rs (X & Y) F IH]; auto. cbn [map]. f_equal; auto. cbn [fst snd] in *. f_equal; auto. apply (cut_unique b); auto. apply cutf_spec. }
      assert (Permutation (map (fun u => (fst u, cutf (snd u))) us') (map (fun u => (ur_id u, ur_name u)) rs2)) as PP.
      { eapply perm_trans; [apply Permutation_map, Permutation_sym, PU|]. fold us2. eapply perm_trans; [|apply Permutation_map; exact P2].
        unfold d, written. cbn [d_users]. rewrite map_map. cbn [ur_id ur_name]. replace (map _ us2) with us2; auto. clear. induction us2 as [|(a, b) l IH]; cbn; auto. f_equal. exact IH. }
      assert (NoDup (map fst (map (fun u => (fst u, cutf (snd u))) us'))) as N1.
      { rewrite map_map. cbn [fst]. eapply Permutation_NoDup; [apply Permutation_map, PU|]. apply increasing_NoDup; auto. }
      assert (NoDup (map fst (map (fun u => (ur_id u, ur_name u)) rs2))) as N2 by (eapply Permutation_NoDup; [apply Permutation_map, PP|exact N1]).
      destruct (bt_insert_all_spec _ N1) as (J1 & J2). destruct (bt_insert_all_spec _ N2) as (J3 & J4). apply increasing_ext; auto.
      intros p. rewrite J2, J4. split; apply Permutation_in; [|apply Permutation_sym]; exact PP. }
    exists k, s, nodes, ways, rels. split; [rewrite EQ; exact B|]. split; [exact C|].
    assert (AU : forall c uid name, author d c uid name -> most_recent (changesets_in es) c uid /\ exists s, most_recent (users_in es) uid s /\ cut_at_tab s name).
    { intros c uid name (r & u & I1 & I2 & <- & <- & E' & <-). unfold d, written, us2 in I1, I2. cbn [d_changesets d_users] in I1, I2.
      apply in_map_iff in I1 as ((i, (cid, cuid)) & <- & I1). apply in_combine_r in I1. rewrite map_map in I2. apply in_map_iff in I2 as ((uu, nm) & <- & I2).
      cbn [changeset_record cr_id cr_user ur_id ur_name fst snd] in *. subst uu. split; [apply C2; auto|]. exists nm. split; [apply U2; auto|apply cutf_spec]. }
    destruct (back_with es us2 cs n (fun c uid name => most_recent (changesets_in es) c uid /\ exists s, most_recent (users_in es) uid s /\ cut_at_tab s name) nodes ways rels DV AU R1 R2 R3)
      as ((ns & P1 & O1 & E1) & (ws & P2 & O2 & E2) & (ls & P3 & O3 & E3)).
    sconj.
    + exists ns. sconj; auto. eapply Forall2_weaken; [|exact E1]. cbv beta. intros x e (uid & name & tags & (M1 & full & M2 & CT) & PT & ->).
      eexists (ENode (Node (n_id x) (n_version x) (snapped (n_coord x)) (whole_seconds (n_timestamp x)) (n_changeset x) uid full (n_visible x) tags)), full, name. sconj; auto.
      exists uid, full, tags. sconj; auto.
    + exists ws. sconj; auto. eapply Forall2_weaken; [|exact E2]. cbv beta. intros x e (uid & name & tags & (M1 & full & M2 & CT) & PT & ->).
      eexists (EWay (Way (w_id x) (w_version x) (whole_seconds (w_timestamp x)) (w_changeset x) uid full (w_visible x) (w_refs x) tags)), full, name. sconj; auto.
      exists uid, full, tags. sconj; auto.
    + exists ls. sconj; auto. eapply Forall2_weaken; [|exact E3]. cbv beta. intros x e (uid & name & ms & tags & (M1 & full & M2 & CT) & PM & BM & PT & ->).
      eexists (ERelation (Relation (r_id x) (r_version x) (whole_seconds (r_timestamp x)) (r_changeset x) uid full (r_visible x) ms tags)), full, name. sconj; auto.
      exists uid, full, ms, tags. sconj; auto.
Qed.

(** C84: a name with 1 to 11 or 14 to 19 TABs makes the whole dump unreadable *)
Theorem C84_tabs_panic uid name : most_recent (users_in es) uid name -> never (tabs name) ->
  exists rd, ApidbRead.reader_new sort_file dir = Ok rd /\ ApidbRead.elements unescape rd = Panic.
Proof. intros M N. destruct names_core as (rd & A & B & _). exists rd. split; auto. apply B. eauto. Qed.
(** C84: a dump that can be read at all comes back with every name cut at its first TAB, and nothing else changed *)
Theorem C84_names_cut rd k s : ApidbRead.reader_new sort_file dir = Ok rd -> ApidbRead.elements unescape rd = Ok (k, s) ->
  exists nodes ways rels,
    run (element_next k) s (nodes ++ [ESentinel] ++ ways ++ [ESentinel] ++ rels ++ [ESentinel]) Ended /\
    (exists ns, Permutation ns (nodes_in es) /\ ordered (fun a b => key_lt (n_id a, n_version a) (n_id b, n_version b)) ns /\ Forall2 (with_cut_name (node_back es)) ns nodes) /\
    (exists ws, Permutation ws (ways_in es) /\ ordered (fun a b => key_lt (w_id a, w_version a) (w_id b, w_version b)) ws /\ Forall2 (with_cut_name (way_back es)) ws ways) /\
    (exists rs, Permutation rs (relations_in es) /\ ordered (fun a b => key_lt (r_id a, r_version a) (r_id b, r_version b)) rs /\ Forall2 (with_cut_name (relation_back es)) rs rels).
Proof.
  intros A B. destruct names_core as (rd' & A' & _ & H). rewrite A in A'. injection A' as <-. destruct H as [H|(k' & s' & nodes & ways & rels & B' & R)]; [congruence|].
  rewrite B in B'. injection B' as <- <-. eauto.
Qed.
(** C84: there is no third case: the reader opens, and reading returns or panics *)
Theorem C84_opens : exists rd, ApidbRead.reader_new sort_file dir = Ok rd /\
  (ApidbRead.elements unescape rd = Panic \/ exists k s, ApidbRead.elements unescape rd = Ok (k, s)).
Proof. destruct names_core as (rd & A & _ & [H|(k & s & _ & _ & _ & B & _)]); exists rd; eauto. Qed.
End Names.
