(** Non-vacuity for the theorems about dumps: a stream with text that needs escaping, two versions of a node, a
    deleted version, a way that visits a node twice and a relation whose members are not in the order of their ids. *)
From Coq Require Import ZArith List Bool Strings.Byte Strings.String Lia Permutation.
From Verif Require Import Base BaseFacts Types Model2 ApidbText ApidbSpec CalendarFacts ApidbTextFacts TileFacts DumpSpec ApidbWrite ApidbWriteFacts PropApidbWrite ApidbRead DumpReadSpec
  FileFormat ApidbReadFacts TocFacts JoinFacts ReaderFacts PropApidbRead PropDump RoundSpec RoundFacts PropRound PropRoundTrip PropLimits ExTools TocData PropToc.
Import ListNotations.
Local Notation length := List.length.
Local Notation concat := List.concat.
Open Scope Z_scope.

(** ** The stream *)
Definition at_grid (a b : Z) : coordinate := Coordinate (degrees a) (degrees b).
Definition ann : bytes := str "ann".
Definition zoe : bytes := str "zo" ++ [xc3; xab].
Definition odd_text : bytes := str "a" ++ [x09] ++ str "b\" ++ [x0a] ++ [xe2; x82; xac].
Definition ex_n1 : node := Node 1 1 (at_grid 515000001 (-1234567)) 1600000000000 10 7 ann true [Tag (str "name") odd_text; Tag (str "amenity") (str "pub")].
Definition ex_n1' : node := Node 1 2 (at_grid 515000001 (-1234567)) 1600000060000 11 8 zoe false [].
Definition ex_n2 : node := Node 2 1 (at_grid (-900000000) 1800000000) 1600000000000 10 7 ann true [Tag (str "k") []].
Definition ex_n3 : node := Node (-3) 4 (at_grid 0 1) (-1000) 11 8 zoe true [Tag (str "x") (str "y")].
Definition ex_w : way := Way 5 1 1600000000000 10 7 ann true [2; 1; 2] [Tag (str "highway") (str "path")].
Definition ex_r : relation := Relation 6 3 1600000000000 11 8 zoe true
  [Member MNode 9 (str "b"); Member MNode 3 odd_text; Member MWay 5 []] [Tag (str "type") (str "route")].
Definition ex_stream : list element := [ENode ex_n3; ENode ex_n1; ENode ex_n1'; ESentinel; ENode ex_n2; EWay ex_w; ERelation ex_r].
Definition ex_clock (i : nat) : Z := 1700000000000000 + Z.of_nat (Nat.min i 1000).
Definition ex_order (V : Type) (l : list (Z * V)) : list (Z * V) := l.
Definition ex_lib : bytes := str "osm-io".

Lemma ex_any_order : any_order ex_order.
Proof. intros V l. apply Permutation_refl. Qed.
Lemma ex_clock_range i : 1700000000 <= ex_clock i / 1000000 <= 1700000001.
Proof. unfold ex_clock. pose proof (Nat.le_min_r i 1000). assert (0 <= Z.of_nat (Nat.min i 1000) <= 1000) as H1 by lia. revert H1. generalize (Z.of_nat (Nat.min i 1000)). intros z H1. split; [apply Z.div_le_lower_bound|apply Z.lt_succ_r, Z.div_lt_upper_bound]; lia. Qed.
Lemma ex_clock_ok i : in_calendar (ex_clock i / 1000000).
Proof. pose proof (ex_clock_range i). unfold in_calendar. lia. Qed.

(** C55: it can be dumped; a stream with one impossible time cannot *)
Example ex_dumpable : Forall dumpable ex_stream.
Proof. unfold ex_stream. repeat constructor; vm_compute; discriminate. Qed.
Lemma ex_dump : exists w, ApidbWrite.dump ex_escape ex_order ex_clock ex_lib ex_stream = Ok w.
Proof. exact (proj1 (C55_dump_total _ _ _ _ ex_clock_ok _) ex_dumpable). Qed.
Example ex_not_dumpable : ~ Forall dumpable [EWay (Way 1 1 9223372036854775807 1 1 ann true [] [])].
Proof. intros F. inversion F as [|? ? H _]; subst. vm_compute in H. destruct H as (_ & H). apply H. reflexivity. Qed.

(** C36, C53: everything in it can be read *)
Lemma ex_tags_ok l : forallb (fun t => utf8_ok (t_k t) && utf8_ok (t_v t)) l = true -> storable_tags ex_escape ex_unescape l.
Proof. intros H. apply Forall_forall. intros t I. rewrite forallb_forall in H. apply H, andb_true_iff in I as (A & B). split; apply ex_escapes; auto. Qed.
Example ex_storable : Forall (storable ex_escape ex_unescape) ex_stream.
Proof.
  assert (forall z, (min_i64 <=? z) && (z <=? max_i64) = true -> I64 z) as H64 by (unfold I64, min_i64, max_i64; lia).
  assert (forall z, (-2147483648 <=? z) && (z <=? 2147483647) = true -> I32 z) as H32 by (unfold I32; lia).
  assert (forall z, (-62135596800 <=? z) && (z <=? 253402300799) = true -> four_digit_year z) as HY by (unfold four_digit_year; lia).
  unfold ex_stream. repeat apply Forall_cons; try apply Forall_nil; cbn [storable]; try exact I; sconj;
    match goal with |- storable_tags _ _ _ => apply ex_tags_ok; reflexivity | |- I64 _ => apply H64; vm_compute; reflexivity
      | |- I32 _ => apply H32; vm_compute; reflexivity | |- four_digit_year _ => apply HY; vm_compute; reflexivity | _ => idtac end.
  - repeat apply Forall_cons; try apply Forall_nil; apply H64; reflexivity.
  - repeat apply Forall_cons; try apply Forall_nil; (split; [apply H64; reflexivity|apply ex_escapes; reflexivity]).
Qed.
Lemma ex_readable : readable ex_escape ex_unescape ex_clock ex_stream.
Proof.
  unfold readable. sconj.
  - exact ex_storable.
  - unfold distinct_versions. sconj; repeat constructor; cbn; intuition discriminate.
  - unfold ex_stream. repeat constructor; cbn; intuition discriminate.
  - intros i. pose proof (ex_clock_range i). unfold four_digit_year. lia.
Qed.
Lemma ex_coherent : coherent ex_stream.
Proof. split; cbn; intros; intuition congruence. Qed.
Lemma ex_representable : Forall representable ex_stream.
Proof.
  unfold ex_stream. repeat apply Forall_cons; try apply Forall_nil; cbn [representable]; try exact I; try reflexivity; split; try reflexivity.
  all: eexists _, _; sconj; [| |reflexivity]; vm_compute; discriminate.
Qed.

(** ** The directory *)
Definition file_table (f : bytes) : option table := List.find (fun t => bytes_eqb (table_file t) f) all_tables.
Lemma file_table_ok t : file_table (table_file t) = Some t.
Proof. destruct t; vm_compute; reflexivity. Qed.
Definition ex_directory (files : table -> bytes) (f : bytes) : option bytes :=
  if bytes_eqb f (str "toc.dat") then Some shipped_toc else match file_table f with Some t => Some (files t) | None => None end.
Lemma ex_directory_toc fs : ex_directory fs (str "toc.dat") = Some shipped_toc.
Proof. unfold ex_directory. replace (bytes_eqb _ _) with true; [reflexivity|]. vm_compute. reflexivity. Qed.
Lemma ex_directory_table fs t : ex_directory fs (table_file t) = Some (fs t).
Proof. unfold ex_directory. replace (bytes_eqb _ _) with false by (destruct t; vm_compute; reflexivity). rewrite file_table_ok. reflexivity. Qed.
Lemma ex_directory_ok w : directory w (ex_directory (files w)).
Proof.
  split.
  - exists shipped_toc. split; [apply ex_directory_toc|]. exact (proj1 C54_shipped_toc).
  - intros t. apply ex_directory_table.
Qed.

(** C39, C41, C44, C53: the stream comes back *)
Example ex_round_trip : exists rd k s nodes ways rels,
  ApidbRead.reader_new ex_sort (ex_directory (match ApidbWrite.dump ex_escape ex_order ex_clock ex_lib ex_stream with Ok w => files w | _ => fun _ => [] end)) = Ok rd /\
  ApidbRead.elements ex_unescape rd = Ok (k, s) /\
  run (element_next k) s (nodes ++ [ESentinel] ++ ways ++ [ESentinel] ++ rels ++ [ESentinel]) Ended /\
  Forall2 same_element (map ENode [ex_n3; ex_n1; ex_n1'; ex_n2]) nodes /\ Forall2 same_element [EWay ex_w] ways /\ Forall2 same_element [ERelation ex_r] rels.
Proof.
  destruct ex_dump as (w & W). rewrite W.
  destruct (C53_exact _ _ _ _ _ ex_any_order _ ex_sorts _ _ _ W ex_readable (ex_directory_ok w) ex_coherent ex_representable)
    as (rd & k & s & nodes & ways & rels & ns & ws & rs & A & B & C & P1 & O1 & E1 & P2 & O2 & E2 & P3 & O3 & E3).
  exists rd, k, s, nodes, ways, rels. sconj; auto.
  - replace [ex_n3; ex_n1; ex_n1'; ex_n2] with ns; auto.
    apply (perm_strict (fun a b => key_lt (n_id a, n_version a) (n_id b, n_version b))); auto.
    + intros a. unfold key_lt. cbn. lia.
    + intros a b c. unfold key_lt. cbn. lia.
    + cbn [ordered]. sconj; try exact I; repeat apply Forall_cons; try apply Forall_nil; unfold key_lt; cbn; lia.
  - cbn in P2. apply Permutation_sym, Permutation_length_1_inv in P2. subst. exact E2.
  - cbn in P3. apply Permutation_sym, Permutation_length_1_inv in P3. subst. exact E3.
Qed.
(** C41: the members of the relation are out of order, so they do not come back as they were *)
Example ex_members_out_of_order : ~ by_member_id (r_members ex_r).
Proof. intros (F & _). inversion F as [|? ? H _]; subst. specialize (H eq_refl). cbn in H. lia. Qed.

(** C34: the stream is in order of ids; the deleted node is not current *)
Example ex_sorted_ids : nondecreasing (map n_id (nodes_in ex_stream)) /\ nondecreasing (map w_id (ways_in ex_stream)) /\ nondecreasing (map r_id (relations_in ex_stream)) /\
  newest n_id n_visible (nodes_in ex_stream) = [ex_n3; ex_n2].
Proof.
  sconj; cbn [nodes_in ways_in relations_in flat_map ex_stream app map nondecreasing]; sconj; try exact I; try (repeat apply Forall_cons; try apply Forall_nil; cbn; lia).
  reflexivity.
Qed.
(** C35, C43: a row, byte by byte *)
Example ex_way_nodes_file : match ApidbWrite.dump ex_escape ex_order ex_clock ex_lib ex_stream with
  Ok w => files w T_way_nodes = str "5" ++ [x09] ++ str "2" ++ [x09] ++ str "1" ++ [x09] ++ str "1" ++ [x0a] ++
                                str "5" ++ [x09] ++ str "1" ++ [x09] ++ str "1" ++ [x09] ++ str "2" ++ [x0a] ++
                                str "5" ++ [x09] ++ str "2" ++ [x09] ++ str "1" ++ [x09] ++ str "3" ++ [x0a] ++ str "\." ++ [x0a]
  | _ => False end.
Proof. vm_compute. reflexivity. Qed.
Example ex_user_most_recent : most_recent (users_in ex_stream) 8 zoe.
Proof. exists [(8, zoe); (7, ann); (8, zoe); (7, ann); (7, ann)], []. split; [reflexivity|intros []]. Qed.

(** C44: a name with a TAB *)
Example ex_tab_name : exists w, ApidbWrite.dump ex_escape ex_order ex_clock ex_lib [EWay (Way 5 1 1600000000000 10 7 odd_text true [] [])] = Ok w /\
  forall unescape sort_file dir rd k s l o, directory w dir -> ApidbRead.reader_new sort_file dir = Ok rd -> ApidbRead.elements unescape rd = Ok (k, s) ->
    run (element_next k) s l o -> ~ In (Some odd_text) (map user_of l).
Proof.
  apply (C44_refuted _ _ x09); [left; auto|right; left; auto|left; auto| |exact ex_clock_ok]. repeat constructor; vm_compute; discriminate.
Qed.

(** ** C40: the rows of node 1, version 1 are lost from the nodes table *)
Definition ex_lost : list element := [ENode ex_n3; ENode ex_n1'; ESentinel; ENode ex_n2; EWay ex_w; ERelation ex_r].
Example ex_orphan : exists dir d r, dump_in ex_unescape dir d /\ primary_keys d /\ resolved d /\
  In r (d_node_tags d) /\ tag_key r = (1, 1) /\ ~ In (tag_key r) (map node_key (d_nodes d)) /\
  In (node_record ex_n2) (d_nodes d) /\ key_lt (tag_key r) (node_key (node_record ex_n2)) /\
  In (TagRec 2 1 (str "k") []) (d_node_tags d).
Proof.
  destruct ex_dump as (w & W). assert (exists w', ApidbWrite.dump ex_escape ex_order ex_clock ex_lib ex_lost = Ok w') as (w' & W').
  { apply (proj1 (C55_dump_total _ _ _ _ ex_clock_ok _)). unfold ex_lost. pose proof ex_dumpable as X. unfold ex_stream in X.
    inversion X as [|? ? D1 X1]; subst. inversion X1 as [|? ? D2 X2]; subst. constructor; auto. }
  assert (readable ex_escape ex_unescape ex_clock ex_lost) as R'.
  { pose proof ex_readable as (S & _ & _ & CK). unfold readable. sconj; auto.
    - unfold ex_stream in S. unfold ex_lost. inversion S as [|? ? D1 X1]; subst. inversion X1 as [|? ? D2 X2]; subst. constructor; auto.
    - unfold distinct_versions. sconj; repeat constructor; cbn; intuition discriminate.
    - unfold ex_lost. repeat constructor; cbn; intuition discriminate. }
  set (fs := fun t => match t with T_nodes => files w' T_nodes | _ => files w t end).
  destruct (written_tables _ _ _ _ _ ex_any_order _ _ W ex_readable) as (us & cs & n & U1 & U2 & C1 & C2 & RES & CR & TS).
  destruct (written_tables _ _ _ _ _ ex_any_order _ _ W' R') as (us' & cs' & n' & _ & _ & _ & _ & _ & _ & TS').
  set (d := written ex_clock ex_stream us cs n).
  exists (ex_directory fs), (Dump (map node_record [ex_n3; ex_n1'; ex_n2]) (d_node_tags d) (d_ways d) (d_way_nodes d) (d_way_tags d) (d_relations d) (d_members d) (d_relation_tags d) (d_changesets d) (d_users d)), (TagRec 1 1 (str "name") odd_text).
  assert (In 10 (map fst cs) /\ In 11 (map fst cs)) as (I10 & I11).
  { split.
    - destruct (RES (ENode ex_n1)) as (c & uid & uid' & nm & nm' & E & J & _); [right; left; reflexivity|discriminate|]. injection E as <- _. apply in_map_iff. exists (10, uid'). auto.
    - destruct (RES (ENode ex_n3)) as (c & uid & uid' & nm & nm' & E & J & _); [left; reflexivity|discriminate|]. injection E as <- _. apply in_map_iff. exists (11, uid'). auto. }
  assert (map cr_id (d_changesets d) = map fst cs) as MC.
  { cbn [d written d_changesets]. rewrite map_map. cbn [changeset_record cr_id]. rewrite <- (combine_snd (seq n (length cs)) cs) at 3 by apply seq_length. rewrite map_map. reflexivity. }
  assert (map cr_user (d_changesets d) = map snd cs) as MU.
  { cbn [d written d_changesets]. rewrite map_map. cbn [changeset_record cr_user]. rewrite <- (combine_snd (seq n (length cs)) cs) at 3 by apply seq_length. rewrite map_map. reflexivity. }
  assert (map ur_id (d_users d) = map fst us) as MI by (cbn [d written d_users]; rewrite map_map; reflexivity).
  sconj.
  - pose proof C54_shipped_toc as (SD & _). destruct SD as (entries & cat & TT & ND & F2 & IC).
    exists shipped_toc, entries, cat. destruct (TS (ex_directory fs) cat IC) as (T1 & T2 & T3 & T4 & T5 & T6 & T7 & T8 & T9 & T10).
    destruct (TS' (ex_directory fs) cat IC) as (N1 & _).
    cbn [d_nodes d_node_tags d_ways d_way_nodes d_way_tags d_relations d_members d_relation_tags d_changesets d_users].
    sconj; auto; first [apply ex_directory_toc|apply N1|apply T2|apply T3|apply T4|apply T5|apply T6|apply T7|apply T8|apply T9|apply T10]; try apply ex_directory_table.
  - unfold primary_keys. cbn [d_nodes d_ways d_relations d_changesets d_users]. rewrite MC, MI. sconj.
    1-3: repeat constructor; cbn; intuition discriminate.
    all: apply increasing_NoDup; assumption.
  - unfold resolved. cbn [d_nodes d_ways d_relations d_changesets d_users]. rewrite MC, MU, MI. sconj.
    + cbn. repeat constructor; assumption.
    + intros u I. apply in_map_iff in I as ((c, uid) & <- & I). cbn [snd]. apply C2, recent_in in I. apply in_flat_map in I as (e & I & J).
      destruct (RES e I) as (c' & uid2 & uid' & nm & nm' & E & _ & K & _); [intros ->; destruct J|].
      assert (uid2 = uid) as -> by (destruct e as [x|x|x|]; cbn in E, J; [destruct J as [J|[]]..|destruct J]; congruence).
      apply in_map_iff. exists (uid, nm). auto.
    + repeat apply Forall_cons; try apply Forall_nil; vm_compute; split; discriminate.
    + apply Forall_map, Forall_forall. intros (c, uid) I. apply CR in I. tauto.
  - cbn. auto.
  - reflexivity.
  - cbn. intuition discriminate.
  - cbn. auto.
  - unfold key_lt. cbn. lia.
  - cbn. auto.
Qed.

(** C37, C38: known values *)
Example ex_time : four_digit_year (1600000000123 / 1000) /\ to_sql_time_millis 1600000000123 = Ok (str "2020-09-13 12:26:40") /\
  parse_sql_time (str "2020-09-13 12:26:40") = Some (1600000000, 0) /\ to_sql_time_millis (-1) = Ok (str "1969-12-31 23:59:59").
Proof. split; [unfold four_digit_year; change (1600000000123 / 1000) with 1600000000; lia|]. sconj; vm_compute; reflexivity. Qed.
Example ex_tile : calculate_tile (f_of_Z 90) (f_of_Z 180) = 4294967295 /\ calculate_tile (f_of_Z (-90)) (f_of_Z 180) = 2863311530 /\ interleaved 3 1 11.
Proof.
  split; [vm_compute; reflexivity|]. split; [vm_compute; reflexivity|]. split; [lia|]. intros i H. change 11 with (Z.of_nat 11).
  assert (forallb (fun n => Bool.eqb (Z.testbit 11 (2 * Z.of_nat n + 1)) (Z.testbit 3 (Z.of_nat n)) && Bool.eqb (Z.testbit 11 (2 * Z.of_nat n)) (Z.testbit 1 (Z.of_nat n))) (seq 0 16) = true) as F by (vm_compute; reflexivity).
  rewrite forallb_forall in F. specialize (F (Z.to_nat i)). rewrite Z2Nat.id in F by lia. rewrite andb_true_iff, !eqb_true_iff in F. apply F. apply in_seq. lia.
Qed.
