(** C65 (dump to PBF) and C66 (PBF to dump and back). *)
From Coq Require Import ZArith List Bool Lia Strings.Byte Strings.String Reals Lra Permutation.
From Verif Require Import Base BaseFacts Types Proto ProtoFacts Block BlockFacts FloatFacts FileFormat FileFacts WriterFacts Spec SpecFacts FileSpec FormatSpec ModelSpec
  PropBlock PropFile WireSpec WireFacts PropWire PropLegal CallSpec PropCalls FileInfoModel InfoSpec PropInfo Pipelines PropPipelines.
From Verif Require Import ApidbText ApidbSpec ApidbTextFacts DumpSpec ApidbWrite ApidbWriteFacts ApidbRead DumpReadSpec ApidbReadFacts TocFacts JoinFacts ReaderFacts PropApidbRead PropDump Pipelines2.
Import ListNotations.
Local Notation length := List.length.
Local Notation concat := List.concat.
Open Scope Z_scope.

(** ** C65 *)
(** coordinates between -180 and 180 degrees *)
Definition positions_in_degrees (d : DumpReadSpec.dump) : Prop :=
  Forall (fun r => Z.abs (nr_lat r) <= 1800000000 /\ Z.abs (nr_lon r) <= 1800000000) (d_nodes d).
(** times without a fraction of a second *)
Definition whole_times (d : DumpReadSpec.dump) : Prop :=
  Forall (fun r => snd (nr_time r) = 0) (d_nodes d) /\ Forall (fun r => snd (or_time r) = 0) (d_ways d ++ d_relations d).
(** unescaping text gives text: the crate works on Rust strings *)
Definition unescapes_to_text (unescape : bytes -> option bytes) : Prop := forall s t, utf8_ok s = true -> unescape s = Some t -> utf8_ok t = true.

(** an element that writing and reading does not change *)
Definition lossless (e : element) : Prop :=
  match e with
  | ENode n => whole_second (n_timestamp n) /\ Spec.on_grid (lat (n_coord n)) /\ Spec.on_grid (lon (n_coord n))
  | EWay w => whole_second (w_timestamp w) | ERelation r => whole_second (r_timestamp r) | ESentinel => True
  end.
Lemma written_read_same e e' : lossless e -> written_read e e' -> e' = e.
Proof.
  destruct e as [a|a|a|], e' as [b|b|b|]; cbn [written_read lossless]; try (intros _ []; fail).
  - intros (T & G1 & G2) (E1 & E2 & E3 & E4 & E5 & E6 & E7 & T' & C').
    apply (trunc_twice _ _ _ (truncated_whole _ T)) in T'.
    assert (C : coord_written_read (n_coord a) (n_coord a)). { rewrite <- (norm_coord_grid _ G1 G2) at 2. apply norm_coord_spec; apply on_grid_degrees; auto. }
    apply (coord_twice _ _ _ C) in C'. destruct a, b. cbn in *. congruence.
  - intros T (E1 & E2 & E3 & E4 & E5 & E6 & E7 & E8 & T'). apply (trunc_twice _ _ _ (truncated_whole _ T)) in T'. destruct a, b. cbn in *. congruence.
  - intros T (E1 & E2 & E3 & E4 & E5 & E6 & E7 & E8 & T'). apply (trunc_twice _ _ _ (truncated_whole _ T)) in T'. destruct a, b. cbn in *. congruence.
Qed.
Section Values.
Variables (unescape : bytes -> option bytes).
Hypothesis UT : unescapes_to_text unescape.
Lemma held {R} dir cat t (says : R -> row_of -> Prop) rs : table_holds dir cat t says rs ->
  forall r, In r rs -> exists w, says r w /\ forall c, In c (needs t) -> utf8_ok (w c) = true.
Proof.
  intros (cols & file & data & rows & _ & IN & _ & F & CL & _) r I. clear data file.
  induction F as [|r0 w0 rs rows S F IH]; [destruct I|]. cbn [map] in CL. inversion CL as [|? ? (C1 & _) C2]; subst. destruct I as [->|I]; [|auto].
  exists w0. split; auto. intros c J. apply IN in J. rewrite Forall_forall in C1. destruct (C1 (w0 c)) as (U & _); auto. apply in_map. auto.
Qed.
Lemma text_utf8 c s : utf8_ok c = true -> text_of unescape c s -> utf8_ok s = true.
Proof. intros U [E|(_ & <-)]; eauto. Qed.
Lemma time_range t s : time_text t s -> I64 (millis t) /\ (snd t = 0 -> (millis t) mod 1000 = 0).
Proof.
  intros (a & Q & H). apply sql_text_year in Q. unfold four_digit_year in Q. unfold millis. split.
  - assert (0 <= snd t < 1000000000).
    { destruct H as [(_ & ->)|(f & k & v & _ & K & P & ->)]; [lia|]. destruct P as (D & L).
      assert (V : 0 <= v < 10 ^ k) by (rewrite <- L; split; [apply (decimal_nonneg _ _ D)|apply (decimal_len _ _ D)]).
      assert (E : 10 ^ 9 = 10 ^ k * 10 ^ (9 - k)) by (rewrite <- Z.pow_add_r by lia; f_equal; lia).
      change 1000000000 with (10 ^ 9). rewrite E. assert (0 < 10 ^ (9 - k)) by (apply Z.pow_pos_nonneg; lia). nia. }
    assert (0 <= snd t / 1000000 < 1000) by (split; [apply Z.div_pos; lia|apply Z.div_lt_upper_bound; lia]). unfold I64. lia.
  - intros ->. rewrite Z.div_0_l, Z.add_0_r, Z.mul_comm by lia. apply Z.mod_mul. lia.
Qed.
Lemma own_in {R} (key : R -> Z * Z) k rs (l : list R) : Permutation l (of_key key k rs) -> forall x, In x l -> In x rs.
Proof. intros P x I. eapply Permutation_in in I; [|exact P]. apply filter_In in I. tauto. Qed.
Lemma degrees_on_grid k : Z.abs k <= 1800000000 -> Spec.on_grid (DumpReadSpec.degrees k).
Proof.
  intros K. destruct (C46_coordinates Checked k K) as (x & X0 & X & V & F & R & _). exists k. split; auto.
  change (DumpReadSpec.degrees k) with (dump_degrees k). rewrite X. split; [split; auto|]. intros ->. rewrite <- X. vm_compute. reflexivity.
Qed.

Variables (dir : bytes -> option bytes) (d : DumpReadSpec.dump).
Hypothesis DI : dump_in unescape dir d.
Hypothesis RS : resolved d.
Lemma user_text : forall u, In u (d_users d) -> utf8_ok (ur_name u) = true.
Proof.
  destruct DI as (toc & entries & cat & _ & _ & _ & _ & H). decompose [and] H. intros u I.
  match goal with X : table_holds _ _ T_users _ _ |- _ => destruct (held _ _ _ _ _ X u I) as (w & (_ & E & _) & U) end.
  rewrite <- E. apply U. cbn. tauto.
Qed.
Lemma tags_text t idc all : (exists cat, table_holds dir cat t (tag_says unescape idc) all) -> In (str "k") (needs t) -> In (str "v") (needs t) ->
  forall k ts, Permutation ts (of_key tag_key k all) -> Forall tag_utf8 (map as_tag ts).
Proof.
  intros (cat & H) NK NV k ts P. apply Forall_forall. intros x I. apply in_map_iff in I. destruct I as (y & <- & I). apply (own_in _ _ _ _ P) in I.
  destruct (held _ _ _ _ _ H y I) as (w & (_ & _ & K & V) & U). split; [apply (text_utf8 _ _ (U _ NK) K)|apply (text_utf8 _ _ (U _ NV) V)].
Qed.
Lemma author_ok ch uid name : author d ch uid name -> I32 uid /\ utf8_ok name = true.
Proof.
  intros (x & u & I & J & _ & <- & _ & <-). split; [|apply user_text; auto]. destruct RS as (_ & _ & _ & F). rewrite Forall_forall in F. apply F, in_map; auto.
Qed.
Lemma version_ok : (forall r, In r (d_nodes d) -> I32 (nr_version r)) /\ (forall r, In r (d_ways d) -> I32 (or_version r)) /\ (forall r, In r (d_relations d) -> I32 (or_version r)).
Proof.
  destruct RS as (_ & _ & F & _). rewrite Forall_forall in F.
  sconj; intros r I; apply F, in_or_app; [left; apply in_map; auto|right; apply in_map, in_or_app; auto|right; apply in_map, in_or_app; auto].
Qed.
(** what the dump reader yields can be written, and reading it back gives the same elements if the times are whole seconds *)
Lemma dump_node r e : positions_in_degrees d -> In r (d_nodes d) -> node_element d (own_tags (d_node_tags d)) r e ->
  element_ok e /\ a_node e /\ (snd (nr_time r) = 0 -> lossless e).
Proof.
  intros PD I (uid & name & ts & A & T & ->). destruct DI as (toc & entries & cat & _ & _ & _ & _ & H). decompose [and] H. clear H.
  match goal with X : table_holds _ _ T_nodes _ _ |- _ => destruct (held _ _ _ _ _ X r I) as (w & (N1 & N2 & N3 & N4 & N5 & N6 & N7 & N8 & N9) & U) end.
  destruct (time_range _ _ N6) as (T1 & T2). destruct (author_ok _ _ _ A) as (A1 & A2). unfold positions_in_degrees in PD. rewrite Forall_forall in PD. destruct (PD _ I) as (P1 & P2).
  pose proof (degrees_on_grid _ P1) as G1. pose proof (degrees_on_grid _ P2) as G2. pose proof (proj1 version_ok r I) as VO.
  assert (TU : Forall tag_utf8 (map as_tag ts)) by (eapply (tags_text T_node_tags (str "node_id") (d_node_tags d)); [exists cat; assumption|cbn; tauto|cbn; tauto|exact T]).
  sconj.
  - cbn [element_ok]. unfold node_ok, wf_node. cbn [n_id n_version n_timestamp n_changeset n_uid n_user n_tags n_coord lat lon]. sconj; auto; try apply N1; try apply N4; apply on_grid_degrees; auto.
  - eexists. reflexivity.
  - intros Z0. cbn [lossless n_timestamp n_coord lat lon]. split; [exact (T2 Z0)|auto].
Qed.
Lemma dump_way r e : In r (d_ways d) -> way_element d (own_nodes (d_way_nodes d)) (own_tags (d_way_tags d)) r e ->
  element_ok e /\ a_way e /\ (snd (or_time r) = 0 -> lossless e).
Proof.
  intros I (uid & name & ns & ts & A & (N & _) & T & ->). destruct DI as (toc & entries & cat & _ & _ & _ & _ & H). decompose [and] H. clear H.
  match goal with X : table_holds _ _ T_ways _ _ |- _ => destruct (held _ _ _ _ _ X r I) as (w & (N1 & N2 & N3 & N4 & N5 & N6) & U) end.
  destruct (time_range _ _ N3) as (T1 & T2). destruct (author_ok _ _ _ A) as (A1 & A2). pose proof (proj1 (proj2 version_ok) r I) as VO.
  assert (TU : Forall tag_utf8 (map as_tag ts)) by (eapply (tags_text T_way_tags (str "way_id") (d_way_tags d)); [exists cat; assumption|cbn; tauto|cbn; tauto|exact T]).
  assert (WN : Forall I64 (map wn_node ns)).
  { apply Forall_forall. intros x J. apply in_map_iff in J. destruct J as (y & <- & J). apply (own_in _ _ _ _ N) in J.
    match goal with X : table_holds _ _ T_way_nodes _ _ |- _ => destruct (held _ _ _ _ _ X y J) as (w' & (_ & Q & _) & _) end. apply Q. }
  sconj.
  - cbn [element_ok]. unfold wf_way. cbn [w_id w_version w_timestamp w_changeset w_uid w_user w_tags w_refs]. sconj; auto; try apply N1; try apply N2.
  - eexists. reflexivity.
  - intros Z0. exact (T2 Z0).
Qed.
Lemma dump_relation r e : In r (d_relations d) -> relation_element d (own_members (d_members d)) (own_tags (d_relation_tags d)) r e ->
  element_ok e /\ a_relation e /\ (snd (or_time r) = 0 -> lossless e).
Proof.
  intros I (uid & name & ns & ts & A & (N & _) & T & ->). destruct DI as (toc & entries & cat & _ & _ & _ & _ & H). decompose [and] H. clear H.
  match goal with X : table_holds _ _ T_relations _ _ |- _ => destruct (held _ _ _ _ _ X r I) as (w & (N1 & N2 & N3 & N4 & N5 & N6) & U) end.
  destruct (time_range _ _ N3) as (T1 & T2). destruct (author_ok _ _ _ A) as (A1 & A2). pose proof (proj2 (proj2 version_ok) r I) as VO.
  assert (TU : Forall tag_utf8 (map as_tag ts)) by (eapply (tags_text T_relation_tags (str "relation_id") (d_relation_tags d)); [exists cat; assumption|cbn; tauto|cbn; tauto|exact T]).
  assert (WN : Forall wf_member (map as_member ns)).
  { apply Forall_forall. intros x J. apply in_map_iff in J. destruct J as (y & <- & J). apply (own_in _ _ _ _ N) in J.
    match goal with X : table_holds _ _ T_relation_members _ _ |- _ => destruct (held _ _ _ _ _ X y J) as (w' & (_ & _ & Q & R & _) & U') end.
    split; [apply Q|]. apply (text_utf8 _ _ (U' (str "member_role") ltac:(cbn; tauto)) R). }
  sconj.
  - cbn [element_ok]. unfold wf_relation. cbn [r_id r_version r_timestamp r_changeset r_uid r_user r_tags r_members]. sconj; auto; try apply N1; try apply N2.
  - eexists. reflexivity.
  - intros Z0. exact (T2 Z0).
Qed.
End Values.

Section Convert.
Variables (m : mode) (c : codec) (unescape : bytes -> option bytes) (sort_file : list (nat * ftype) -> bytes -> res bytes).
(** every directory has exactly one outcome: the program terminates *)
Theorem C65_one_outcome dir : exists! r, apidb_to_pbf m c unescape sort_file dir r.
Proof.
  destruct (ApidbRead.reader_new sort_file dir) as [rd| |] eqn:RN.
  - destruct (ApidbRead.elements unescape rd) as [(k, s)| |] eqn:E.
    + destruct (C42_stream_shape _ _ _ _ E) as (l & o & R & UQ & _). destruct o.
      * eexists. split; [eapply ap_write; eauto|]. intros r H. destruct H as [H|H|rd' H H0|rd' H H0|rd' k' s' es H H0 H1|rd' k' s' es H H0 H1]; try congruence.
        -- rewrite RN in H. injection H as <-. rewrite E in H0. injection H0 as <- <-. destruct (UQ _ _ H1) as (_ & X). discriminate X.
        -- rewrite RN in H. injection H as <-. rewrite E in H0. injection H0 as <- <-. destruct (UQ _ _ H1) as (-> & _). reflexivity.
      * exists Panic. split; [eapply ap_read_panic; eauto|]. intros r H. destruct H as [H|H|rd' H H0|rd' H H0|rd' k' s' es H H0 H1|rd' k' s' es H H0 H1]; try congruence.
        rewrite RN in H. injection H as <-. rewrite E in H0. injection H0 as <- <-. destruct (UQ _ _ H1) as (_ & X). discriminate X.
    + exists Err. split; [eapply ap_elements_err; eauto|]. intros r H. destruct H; congruence.
    + exists Panic. split; [eapply ap_elements_panic; eauto|]. intros r H. destruct H; congruence.
  - exists Err. split; [apply ap_new_err; auto|]. intros r H. destruct H; congruence.
  - exists Panic. split; [apply ap_new_panic; auto|]. intros r H. destruct H; congruence.
Qed.
Hypothesis SORTS : sorts sort_file.
Hypothesis UT : unescapes_to_text unescape.
Hypothesis CO : codec_ok c.
(** the elements a dump stands for, in the order of the file: by type, id and version *)
Definition dump_elements (d : DumpReadSpec.dump) (nodes ways relations : list element) : Prop :=
  (exists rs, Permutation rs (d_nodes d) /\ ordered (fun a b => key_lt (node_key a) (node_key b)) rs /\
     Forall2 (node_element d (own_tags (d_node_tags d))) rs nodes) /\
  (exists rs, Permutation rs (d_ways d) /\ ordered (fun a b => key_lt (obj_key a) (obj_key b)) rs /\
     Forall2 (way_element d (own_nodes (d_way_nodes d)) (own_tags (d_way_tags d))) rs ways) /\
  (exists rs, Permutation rs (d_relations d) /\ ordered (fun a b => key_lt (obj_key a) (obj_key b)) rs /\
     Forall2 (relation_element d (own_members (d_members d)) (own_tags (d_relation_tags d))) rs relations).
Lemma F2_values {A B} (R : A -> B -> Prop) (P : A -> Prop) (Q : B -> Prop) rs all es : (forall r e, P r -> R r e -> Q e) -> Permutation rs all -> Forall P all -> Forall2 R rs es -> Forall Q es.
Proof.
  intros H PM F F2. apply (Permutation_Forall (Permutation_sym PM)) in F. clear PM all. induction F2; inversion F; subst; constructor; eauto.
Qed.
Lemma self l : Forall (fun x : node_rec => In x l) l. Proof. apply Forall_forall. auto. Qed.
Lemma dump_values dir d nodes ways relations : dump_in unescape dir d -> resolved d -> positions_in_degrees d -> dump_elements d nodes ways relations ->
  Forall element_ok (nodes ++ ways ++ relations) /\ all_nodes nodes /\ all_ways ways /\ all_relations relations /\
  (whole_times d -> Forall lossless (nodes ++ ways ++ relations)).
Proof.
  intros DI RS PD ((r1 & P1 & _ & F1) & (r2 & P2 & _ & F2) & (r3 & P3 & _ & F3)).
  assert (S1 : Forall (fun x => In x (d_nodes d)) (d_nodes d)) by (apply Forall_forall; auto).
  assert (S2 : Forall (fun x => In x (d_ways d)) (d_ways d)) by (apply Forall_forall; auto).
  assert (S3 : Forall (fun x => In x (d_relations d)) (d_relations d)) by (apply Forall_forall; auto).
  assert (A1 : Forall (fun e => element_ok e /\ a_node e) nodes) by (eapply F2_values; [|exact P1|exact S1|exact F1]; cbv beta; intros r e I E; destruct (dump_node unescape UT dir d DI RS r e PD I E); tauto).
  assert (A2 : Forall (fun e => element_ok e /\ a_way e) ways) by (eapply F2_values; [|exact P2|exact S2|exact F2]; cbv beta; intros r e I E; destruct (dump_way unescape UT dir d DI RS r e I E); tauto).
  assert (A3 : Forall (fun e => element_ok e /\ a_relation e) relations) by (eapply F2_values; [|exact P3|exact S3|exact F3]; cbv beta; intros r e I E; destruct (dump_relation unescape UT dir d DI RS r e I E); tauto).
  sconj.
  - rewrite !Forall_app. sconj; [revert A1|revert A2|revert A3]; apply Forall_impl; tauto.
  - revert A1. apply Forall_impl. tauto.
  - revert A2. apply Forall_impl. tauto.
  - revert A3. apply Forall_impl. tauto.
  - intros (W1 & W2). apply Forall_app in W2. destruct W2 as (W2 & W3).
    rewrite !Forall_app. sconj.
    + eapply F2_values with (P := fun r => In r (d_nodes d) /\ snd (nr_time r) = 0); [|exact P1| |exact F1].
      * intros r e (I & Z0) E. destruct (dump_node unescape UT dir d DI RS r e PD I E) as (_ & _ & L). auto.
      * rewrite Forall_forall in *. auto.
    + eapply F2_values with (P := fun r => In r (d_ways d) /\ snd (or_time r) = 0); [|exact P2| |exact F2].
      * intros r e (I & Z0) E. destruct (dump_way unescape UT dir d DI RS r e I E) as (_ & _ & L). auto.
      * rewrite Forall_forall in *. auto.
    + eapply F2_values with (P := fun r => In r (d_relations d) /\ snd (or_time r) = 0); [|exact P3| |exact F3].
      * intros r e (I & Z0) E. destruct (dump_relation unescape UT dir d DI RS r e I E) as (_ & _ & L). auto.
      * rewrite Forall_forall in *. auto.
Qed.
(** a dump with its keys in order: the PBF file has exactly its elements; a dump that has relations but no way makes the program panic *)
Theorem C65_dump_to_pbf dir d : dump_in unescape dir d -> primary_keys d -> foreign_keys d -> resolved d -> positions_in_degrees d ->
  exists nodes ways relations, dump_elements d nodes ways relations /\
    (serializable m (nodes ++ ways ++ relations) -> blocks_fit m c Zlib (nodes ++ ways ++ relations) -> header_fits c Zlib apidb_to_pbf_info ->
     (d_ways d = [] /\ d_relations d <> [] -> forall r, apidb_to_pbf m c unescape sort_file dir r -> r = Panic) /\
     (d_ways d <> [] \/ d_relations d = [] ->
      exists file i' es', apidb_to_pbf m c unescape sort_file dir (Ok file) /\ FileFormat.reader_new m c file = Ok i' /\ info_written_read apidb_to_pbf_info i' /\
        elements_run m c file es' Ended /\ Forall2 written_read (nodes ++ ways ++ relations) es' /\
        (whole_times d -> es' = nodes ++ ways ++ relations))).
Proof.
  intros DI PK FK RS PD.
  destruct (C39_own_rows unescape sort_file SORTS dir d DI PK FK RS) as (rd & k & s & nodes & ways & relations & A & B & R & D1 & D2 & D3).
  exists nodes, ways, relations. assert (DE : dump_elements d nodes ways relations) by (split; auto). split; auto.
  intros SE BF HF. destruct (dump_values dir d nodes ways relations DI RS PD DE) as (EO & AN & AW & AR & LL).
  set (stream := nodes ++ [ESentinel] ++ ways ++ [ESentinel] ++ relations ++ [ESentinel]) in *.
  assert (WS : without_sentinels stream (nodes ++ ways ++ relations)).
  { assert (NS : forall (P : element -> Prop) l r r', (forall e, P e -> e <> ESentinel) -> Forall P l -> without_sentinels r r' -> without_sentinels (l ++ r) (l ++ r')).
    { clear. intros P l r r' H F W. induction F; cbn; auto. constructor; auto. }
    unfold stream. apply (NS a_node); [intros e (x & ->); discriminate|exact AN|]. cbn [app]. constructor.
    apply (NS a_way); [intros e (x & ->); discriminate|exact AW|]. cbn [app]. constructor.
    rewrite <- (app_nil_r relations) at 2. apply (NS a_relation); [intros e (x & ->); discriminate|exact AR|]. constructor. constructor. }
  assert (NW : ways = [] <-> d_ways d = []).
  { destruct D2 as (r2 & P2 & _ & F2). split.
    - intros ->. inversion F2; subst. apply Permutation_nil in P2. auto.
    - intros E. rewrite E in P2. apply Permutation_sym, Permutation_nil in P2. subst. inversion F2. auto. }
  assert (NR : relations = [] <-> d_relations d = []).
  { destruct D3 as (r3 & P3 & _ & F3). split.
    - intros ->. inversion F3; subst. apply Permutation_nil in P3. auto.
    - intros E. rewrite E in P3. apply Permutation_sym, Permutation_nil in P3. subst. inversion F3. auto. }
  pose proof (ap_write m c unescape sort_file dir rd k s stream A B R) as OUT.
  destruct (C59_exactly_these_streams m c apidb_to_pbf_info Zlib stream _ WS SE) as (ACC & REJ). split.
  - intros (E1 & E2) r H. destruct (C65_one_outcome dir) as (r0 & _ & UQ). rewrite <- (UQ _ H), (UQ _ OUT). apply REJ.
    intros (ns & ws & rs & E & N & W & Q & X). rewrite (proj2 NW E1) in E. cbn [app] in E.
    assert (relations <> []) as NE by (intros Y; apply E2, NR, Y).
    assert (RN : rs <> []).
    { intros ->. rewrite app_nil_r in E. destruct relations as [|e l]; [congruence|]. inversion AR as [|? ? (x & ->) _]; subst.
      assert (I : In (ERelation x) (ns ++ ws)) by (rewrite <- E; apply in_or_app; right; left; auto).
      apply in_app_or in I. destruct I as [I|I]; [unfold all_nodes in N; rewrite Forall_forall in N; destruct (N _ I) as (? & Y); discriminate Y|unfold all_ways in W; rewrite Forall_forall in W; destruct (W _ I) as (? & Y); discriminate Y]. }
    apply X in RN. destruct ws as [|e ws]; [congruence|]. inversion W as [|? ? (x & ->) _]; subst.
    assert (I : In (EWay x) (nodes ++ relations)) by (rewrite E; apply in_or_app; right; left; auto).
    apply in_app_or in I. destruct I as [I|I]; [unfold all_nodes in AN; rewrite Forall_forall in AN; destruct (AN _ I) as (? & Y); discriminate Y|unfold all_relations in AR; rewrite Forall_forall in AR; destruct (AR _ I) as (? & Y); discriminate Y].
  - intros H. assert (AC : acceptable (nodes ++ ways ++ relations)).
    { exists nodes, ways, relations. sconj; auto. intros Q Y. destruct H as [H|H]; [apply H, NW, Y|apply Q, NR, H]. }
    apply ACC in AC. destruct AC as (file & F). rewrite F in OUT.
    assert (IO : info_ok apidb_to_pbf_info).
    { unfold info_ok, utf8_all, utf8_opt, i64_opt, apidb_to_pbf_info. cbn [fi_required fi_optional fi_program fi_source fi_ts fi_seq fi_url].
      sconj; try (repeat constructor; fail); intros x E; try discriminate E; injection E as <-; reflexivity. }
    assert (SU : Forall supported (fi_required apidb_to_pbf_info)) by (unfold supported, apidb_to_pbf_info; cbn [fi_required]; repeat (apply Forall_cons; [auto|]); auto).
    assert (EOS : Forall element_ok stream).
    { unfold stream. rewrite !Forall_app in *. destruct EO as (O1 & O2 & O3). sconj; auto; constructor; auto; exact I. }
    destruct (C16_whole_file_round_trip m c _ Zlib stream _ file CO IO ltac:(discriminate) HF SU EOS WS BF F) as (i' & es' & R1 & R2 & R3 & R4).
    exists file, i', es'. sconj; auto. intros WT. specialize (LL WT).
    clear - LL R4. remember (nodes ++ ways ++ relations) as l eqn:E. clear E. induction R4; inversion LL; subst; auto. f_equal; auto using written_read_same.
Qed.
End Convert.
