(** C66: from a PBF file to a dump and back to a PBF file. *)
From Coq Require Import ZArith List Bool Lia Strings.Byte Strings.String Reals Lra Permutation.
From Verif Require Import Base BaseFacts Types Proto ProtoFacts Block BlockFacts FloatFacts FileFormat FileFacts WriterFacts Spec SpecFacts FileSpec FormatSpec ModelSpec
  PropBlock PropFile WireSpec WireFacts PropWire PropLegal CallSpec PropCalls FileInfoModel InfoSpec PropInfo Pipelines PropPipelines.
From Verif Require Import ApidbText ApidbSpec ApidbTextFacts DumpSpec ApidbWrite ApidbWriteFacts PropApidbWrite ApidbRead DumpReadSpec ApidbReadFacts TocFacts JoinFacts ReaderFacts PropApidbRead PropDump
  RoundSpec RoundFacts PropRound PropRoundTrip PropLimits Pipelines2 PropConvert.
Import ListNotations.
Local Notation length := List.length.
Local Notation concat := List.concat.
Open Scope Z_scope.

(** ** Every file has one outcome *)
Section Outcome.
Variables (m : mode) (c : codec) (escape : bytes -> bytes) (hash_order : forall V, list (Z * V) -> list (Z * V)) (clock : nat -> Z) (lib : bytes).
Theorem C66_one_outcome input : exists! r, pbf_to_apidb m c escape hash_order clock lib input r.
Proof.
  destruct (FileFormat.reader_new m c input) as [i| |] eqn:RN.
  - destruct (C20_elements_terminate m c input) as (es & o & R). destruct o.
    + eexists. split; [eapply pa_write; eauto|]. intros r H. destruct H as [H|H|i0 es0 H H0|i0 es0 H H0]; try congruence.
      * destruct (C16_unique _ _ _ _ _ _ _ R H0) as (_ & X). discriminate X.
      * destruct (C16_unique _ _ _ _ _ _ _ R H0) as (<- & _). reflexivity.
    + exists Panic. split; [eapply pa_read_panic; eauto|]. intros r H. destruct H as [H|H|i0 es0 H H0|i0 es0 H H0]; try congruence.
      destruct (C16_unique _ _ _ _ _ _ _ R H0) as (_ & X). discriminate X.
  - exists Err. split; [apply pa_new_err; auto|]. intros r H. destruct H; congruence.
  - exists Panic. split; [apply pa_new_panic; auto|]. intros r H. destruct H; congruence.
Qed.
(** a readable file becomes a dump exactly when all its timestamps are in chrono's calendar; otherwise the program panics *)
Theorem C66_to_dump input i es : (forall j, in_calendar (clock j / 1000000)) -> FileFormat.reader_new m c input = Ok i -> elements_run m c input es Ended ->
  (Forall dumpable es -> exists w, pbf_to_apidb m c escape hash_order clock lib input (Ok w)) /\
  (~ Forall dumpable es -> pbf_to_apidb m c escape hash_order clock lib input Panic).
Proof.
  intros CK RN RE. destruct (C55_dump_total escape hash_order clock lib CK es) as (D1 & D2). pose proof (pa_write m c escape hash_order clock lib input i es RN RE) as P. split.
  - intros F. destruct (D1 F) as (w & E). exists w. rewrite <- E. exact P.
  - intros F. rewrite <- (D2 F). exact P.
Qed.
End Outcome.

(** ** There and back *)
(** what a dump can hold: times in the years 0 to 9999, no separator in a user name, every version once, one user per changeset, one name per user *)
Definition dump_limits (es : list element) : Prop :=
  Forall (fun e => match e with
    | ENode n => four_digit_year (n_timestamp n / 1000)
    | EWay w => four_digit_year (w_timestamp w / 1000) /\ zlen (w_refs w) <= 9223372036854775807
    | ERelation r => four_digit_year (r_timestamp r / 1000) /\ zlen (r_members r) <= 9223372036854775807
    | ESentinel => True end) es /\
  (forall uid name, In (uid, name) (users_in es) -> ~ In x09 name /\ ~ In x0a name /\ ~ In x0d name) /\
  distinct_versions es /\ coherent es.

Lemma seven_of x y k : Z.abs k <= 1800000000 -> Spec.step_value k x -> lat7 (Coordinate x y) = k /\ lon7 (Coordinate y x) = k.
Proof.
  intros K S. destruct (C46_coordinates Checked k K) as (z & _ & X & V & F & R & A & B & _).
  assert (x = z) as ->; [|auto]. apply (step_value_unique k); auto. split; [split; auto|]. intros ->. rewrite <- X. vm_compute. reflexivity.
Qed.
Lemma grid_is_degrees x : Spec.on_grid x -> exists k, Z.abs k <= 1800000000 /\ x = DumpReadSpec.degrees k.
Proof.
  intros (k & K & S). exists k. split; auto. destruct (degrees_on_grid k K) as (k' & K' & S').
  assert (k' = k).
  { destruct (seven_of _ (DumpReadSpec.degrees k) k' K' S') as (A & _). destruct (C46_coordinates Checked k K) as (z & _ & X & _ & _ & _ & L & _).
    change (DumpReadSpec.degrees k) with (dump_degrees k) in A. rewrite X in A. rewrite L in A. auto. }
  subst k'. apply (step_value_unique k); auto.
Qed.
Lemma lossless_representable e : lossless e -> representable e.
Proof.
  destruct e as [n|w|r|]; cbn [lossless representable]; auto. intros (T & G1 & G2). split; auto.
  apply grid_is_degrees in G1. apply grid_is_degrees in G2. destruct G1 as (a & A & E1), G2 as (b & B & E2). exists a, b. split; auto. split; auto. destruct (n_coord n). cbn in *. congruence.
Qed.
Lemma legal_storable escape unescape e : escapes escape unescape -> legal e -> lossless e ->
  match e with
    | ENode n => four_digit_year (n_timestamp n / 1000)
    | EWay w => four_digit_year (w_timestamp w / 1000) /\ zlen (w_refs w) <= 9223372036854775807
    | ERelation r => four_digit_year (r_timestamp r / 1000) /\ zlen (r_members r) <= 9223372036854775807
    | ESentinel => True end -> storable escape unescape e.
Proof.
  intros ES L LO Y.
  assert (TG : forall ts, Forall text_tag ts -> storable_tags escape unescape ts).
  { apply Forall_impl. intros t (A & B). split; apply ES, text_ok; auto. }
  destruct e as [n|w|r|]; cbn [legal lossless storable] in *; auto.
  - destruct L as (L1 & L2 & L3 & L4 & L5 & L6 & L7 & L8). destruct LO as (_ & (a & A & SA) & (b & B & SB)). destruct (n_coord n) as [x y] eqn:NC. cbn [lat lon] in *.
    destruct (seven_of _ y _ A SA) as (E1 & _). destruct (seven_of _ x _ B SB) as (_ & E2). rewrite E1, E2. sconj; auto; unfold I32; lia.
  - destruct L as (L1 & L2 & L3 & L4 & L5 & L6 & L7 & L8). sconj; auto; try tauto. unfold I64. pose proof (zlen_nonneg (w_refs w)). lia.
  - destruct L as (L1 & L2 & L3 & L4 & L5 & L6 & L7 & L8). sconj; auto; try tauto.
    + revert L8. apply Forall_impl. intros x (X1 & X2). split; auto. apply ES, text_ok; auto.
    + unfold I64. pose proof (zlen_nonneg (r_members r)). lia.
Qed.
Lemma name_text es uid name : Forall legal es -> In (uid, name) (users_in es) -> utf8_ok name = true.
Proof.
  intros L I. apply in_flat_map in I as (e & I & J). rewrite Forall_forall in L. apply L in I.
  destruct e as [x|x|x|]; cbn [In] in J; [destruct J as [J|[]]..|destruct J]; injection J as <- <-; cbn [legal] in I; apply text_ok; tauto.
Qed.
Lemma same_ok a b : element_ok a -> same_element a b -> element_ok b.
Proof.
  destruct a as [n|w|r|]; cbn [same_element].
  - intros ((A1 & A2 & A3 & A4 & A5 & A6 & A7) & D) (ts & P & ->). apply (Permutation_Forall (Permutation_sym P)) in A7.
    split; [|exact D]. unfold wf_node. cbn [n_id n_version n_timestamp n_changeset n_uid n_user n_tags]. sconj; auto.
  - intros (A1 & A2 & A3 & A4 & A5 & A6 & A7 & A8) (ts & P & ->). apply (Permutation_Forall (Permutation_sym P)) in A8.
    unfold element_ok, wf_way. cbn [w_id w_version w_timestamp w_changeset w_uid w_user w_tags w_refs]. sconj; auto.
  - intros (A1 & A2 & A3 & A4 & A5 & A6 & A7 & A8) (ts & ms & P & Q & ->). apply (Permutation_Forall (Permutation_sym P)) in A8. apply (Permutation_Forall (Permutation_sym Q)) in A7.
    unfold element_ok, wf_relation. cbn [r_id r_version r_timestamp r_changeset r_uid r_user r_tags r_members]. sconj; auto.
  - intros _ ->. exact I.
Qed.
Lemma same_lossless a b : lossless a -> same_element a b -> lossless b.
Proof.
  destruct a as [n|w|r|]; cbn [same_element].
  - intros L (ts & P & ->). exact L.
  - intros L (ts & P & ->). exact L.
  - intros L (ts & ms & P & Q & ->). exact L.
  - intros _ ->. exact I.
Qed.
Lemma lossless_coordinates e : lossless e -> coordinates_ok e.
Proof. destruct e; cbn; auto. intros (_ & A & B). split; apply on_grid_degrees; auto. Qed.
(** every element of a file this library wrote is of this kind *)
Lemma written_read_lossless e e' : written_read e e' -> lossless e'.
Proof.
  destruct e as [a|a|a|], e' as [b|b|b|]; cbn [written_read lossless]; try tauto.
  - intros (_ & _ & _ & _ & _ & _ & _ & T & (k & l & _ & K & S & _ & L & Q)). sconj; [eapply truncated_is_whole; eauto|exists k; auto|exists l; auto].
  - intros (_ & _ & _ & _ & _ & _ & _ & _ & T). eapply truncated_is_whole; eauto.
  - intros (_ & _ & _ & _ & _ & _ & _ & _ & T). eapply truncated_is_whole; eauto.
Qed.
(** the elements of [es] of one type by id and version, up to the order of tags and of members *)
Definition sorted_copy (es nodes ways relations : list element) : Prop :=
  exists ns ws rs,
    Permutation ns (nodes_in es) /\ ordered (fun a b => key_lt (n_id a, n_version a) (n_id b, n_version b)) ns /\ Forall2 same_element (map ENode ns) nodes /\
    Permutation ws (ways_in es) /\ ordered (fun a b => key_lt (w_id a, w_version a) (w_id b, w_version b)) ws /\ Forall2 same_element (map EWay ws) ways /\
    Permutation rs (relations_in es) /\ ordered (fun a b => key_lt (r_id a, r_version a) (r_id b, r_version b)) rs /\ Forall2 same_element (map ERelation rs) relations.
Lemma copy_values es (P Q : element -> Prop) (l l' : list element) : (forall a b, P a -> same_element a b -> Q b) -> Forall P es -> incl l es -> Forall2 same_element l l' -> Forall Q l'.
Proof.
  intros H F I F2. rewrite Forall_forall in F. assert (FP : Forall P l) by (apply Forall_forall; intros x J; apply F, I, J). clear F I. induction F2; inversion FP; subst; constructor; eauto.
Qed.
Section There.
Variables (m : mode) (c : codec) (escape : bytes -> bytes) (unescape : bytes -> option bytes) (sort_file : list (nat * ftype) -> bytes -> res bytes)
  (hash_order : forall V, list (Z * V) -> list (Z * V)) (clock : nat -> Z) (lib : bytes).
Hypothesis SORTS : sorts sort_file.
Hypothesis ESC : escapes escape unescape.
Hypothesis HO : any_order hash_order.
Hypothesis CLOCK : forall i, four_digit_year (clock i / 1000000).
Hypothesis CO : codec_ok c.
Theorem C66_there_and_back input i es : FileFormat.reader_new m c input = Ok i -> elements_run m c input es Ended ->
  Forall lossless es -> dump_limits es ->
  exists w, pbf_to_apidb m c escape hash_order clock lib input (Ok w) /\
  forall dir, directory w dir -> exists nodes ways relations, sorted_copy es nodes ways relations /\
    (serializable m (nodes ++ ways ++ relations) -> blocks_fit m c Zlib (nodes ++ ways ++ relations) -> header_fits c Zlib apidb_to_pbf_info ->
     ways_in es <> [] \/ relations_in es = [] ->
     exists file i', apidb_to_pbf m c unescape sort_file dir (Ok file) /\ FileFormat.reader_new m c file = Ok i' /\ info_written_read apidb_to_pbf_info i' /\
       elements_run m c file (nodes ++ ways ++ relations) Ended).
Proof.
  intros RN RE LL (Y & NM & DV & CH). pose proof (C67_elements_are_legal _ _ _ _ _ RE) as LG.
  assert (ST : Forall (storable escape unescape) es).
  { apply Forall_forall. intros e I. rewrite Forall_forall in LL, LG, Y. apply legal_storable; auto. apply Y; auto. }
  assert (RB : readable escape unescape clock es).
  { unfold readable. sconj; auto. apply Forall_forall. intros (uid, name) I. destruct (NM _ _ I) as (N1 & N2 & N3). unfold clean. cbn [snd]. sconj; auto. eapply name_text; eauto. }
  assert (FC : forall t, four_digit_year t -> in_calendar t) by (unfold four_digit_year, in_calendar; intros; lia).
  assert (DB : Forall dumpable es).
  { apply Forall_forall. intros e I. rewrite Forall_forall in Y. apply Y in I. destruct e; cbn [dumpable]; auto; apply FC; tauto. }
  destruct (proj1 (C55_dump_total escape hash_order clock lib (fun i => FC _ (CLOCK i)) es) DB) as (w & W).
  exists w. split; [rewrite <- W; eapply pa_write; eauto|]. intros dir DIR.
  assert (RP : Forall representable es) by (revert LL; apply Forall_impl; apply lossless_representable).
  destruct (C53_exact escape unescape hash_order clock lib HO sort_file SORTS es w dir W RB DIR CH RP)
    as (rd & k & s & nodes & ways & rels & ns & ws & rs & A & B & R & P1 & O1 & F1 & P2 & O2 & F2 & P3 & O3 & F3).
  exists nodes, ways, rels. split; [exists ns, ws, rs; sconj; auto|]. intros SE BF HF NW.
  assert (I1 : incl (map ENode ns) es) by (intros x J; apply in_map_iff in J; destruct J as (y & <- & J); apply in_nodes; eapply Permutation_in; eauto).
  assert (I2 : incl (map EWay ws) es) by (intros x J; apply in_map_iff in J; destruct J as (y & <- & J); apply in_ways; eapply Permutation_in; eauto).
  assert (I3 : incl (map ERelation rs) es) by (intros x J; apply in_map_iff in J; destruct J as (y & <- & J); apply in_relations; eapply Permutation_in; eauto).
  assert (OK : Forall element_ok es) by (apply Forall_forall; intros e I; rewrite Forall_forall in LL, LG; apply legal_ok; auto; apply lossless_coordinates; auto).
  assert (EO : Forall element_ok (nodes ++ ways ++ rels)) by (rewrite !Forall_app; sconj; [apply (copy_values es element_ok element_ok _ _ same_ok OK I1 F1)|apply (copy_values es element_ok element_ok _ _ same_ok OK I2 F2)|apply (copy_values es element_ok element_ok _ _ same_ok OK I3 F3)]).
  assert (LO : Forall lossless (nodes ++ ways ++ rels)) by (rewrite !Forall_app; sconj; [apply (copy_values es lossless lossless _ _ same_lossless LL I1 F1)|apply (copy_values es lossless lossless _ _ same_lossless LL I2 F2)|apply (copy_values es lossless lossless _ _ same_lossless LL I3 F3)]).
  assert (AN : all_nodes nodes).
  { clear - F1. revert ns F1. induction nodes as [|e l IH]; intros ns F; constructor; destruct ns as [|n ns]; inversion F; subst; [destruct H2 as (ts & _ & ->); eexists; reflexivity|eapply IH; eauto]. }
  assert (AW : all_ways ways).
  { clear - F2. revert ws F2. induction ways as [|e l IH]; intros ns F; constructor; destruct ns as [|n ns]; inversion F; subst; [destruct H2 as (ts & _ & ->); eexists; reflexivity|eapply IH; eauto]. }
  assert (AR : all_relations rels).
  { clear - F3. revert rs F3. induction rels as [|e l IH]; intros ns F; constructor; destruct ns as [|n ns]; inversion F; subst; [destruct H2 as (ts & ms & _ & _ & ->); eexists; reflexivity|eapply IH; eauto]. }
  set (stream := nodes ++ [ESentinel] ++ ways ++ [ESentinel] ++ rels ++ [ESentinel]) in *.
  assert (WS : without_sentinels stream (nodes ++ ways ++ rels)).
  { assert (NS : forall (P : element -> Prop) l r r', (forall e, P e -> e <> ESentinel) -> Forall P l -> without_sentinels r r' -> without_sentinels (l ++ r) (l ++ r')).
    { clear. intros P l r r' H F W. induction F; cbn; auto. constructor; auto. }
    unfold stream. apply (NS a_node); [intros e (x & ->); discriminate|exact AN|]. cbn [app]. constructor.
    apply (NS a_way); [intros e (x & ->); discriminate|exact AW|]. cbn [app]. constructor.
    rewrite <- (app_nil_r rels) at 2. apply (NS a_relation); [intros e (x & ->); discriminate|exact AR|]. constructor. constructor. }
  assert (AC : acceptable (nodes ++ ways ++ rels)).
  { exists nodes, ways, rels. sconj; auto. intros Q Z0. subst ways. destruct ws as [|x ws]; [|inversion F2]. apply Permutation_nil in P2. destruct NW as [NW|NW]; auto.
    rewrite NW in P3. apply Permutation_sym, Permutation_nil in P3. subst rs. inversion F3. auto. }
  destruct (C59_exactly_these_streams m c apidb_to_pbf_info Zlib stream _ WS SE) as (ACC & _). apply ACC in AC. destruct AC as (file & F).
  assert (IO : info_ok apidb_to_pbf_info).
  { unfold info_ok, utf8_all, utf8_opt, i64_opt, apidb_to_pbf_info. cbn [fi_required fi_optional fi_program fi_source fi_ts fi_seq fi_url].
    sconj; try (repeat constructor; fail); intros x E; try discriminate E; injection E as <-; reflexivity. }
  assert (SU : Forall supported (fi_required apidb_to_pbf_info)) by (unfold supported, apidb_to_pbf_info; cbn [fi_required]; repeat (apply Forall_cons; [auto|]); auto).
  assert (EOS : Forall element_ok stream).
  { unfold stream. rewrite !Forall_app in *. destruct EO as (X1 & X2 & X3). sconj; auto; constructor; auto; exact I. }
  destruct (C16_whole_file_round_trip m c _ Zlib stream _ file CO IO ltac:(discriminate) HF SU EOS WS BF F) as (i' & es' & R1 & R2 & R3 & R4).
  exists file, i'. sconj; auto; [rewrite <- F; eapply ap_write; eauto|]. replace (nodes ++ ways ++ rels) with es'; auto.
  clear - LO R4. remember (nodes ++ ways ++ rels) as l eqn:E. clear E. induction R4; inversion LO; subst; auto. f_equal; auto using written_read_same.
Qed.
End There.
(** every file this library wrote from acceptable values has lossless elements *)
Theorem C66_own_files m c i k es stream file got :
  codec_ok c -> info_ok i -> ~ info_empty i -> header_fits c k i -> Forall supported (fi_required i) ->
  Forall element_ok es -> without_sentinels es stream -> blocks_fit m c k stream ->
  write_file m c i k es = Ok file -> elements_run m c file got Ended -> Forall lossless got.
Proof.
  intros H1 H2 H3 H4 H5 H6 H7 H8 H G. destruct (C16_whole_file_round_trip m c i k es stream file H1 H2 H3 H4 H5 H6 H7 H8 H) as (i' & s' & _ & _ & R & F).
  destruct (C16_unique _ _ _ _ _ _ _ G R) as (-> & _). clear - F. induction F; constructor; auto. eapply written_read_lossless; eauto.
Qed.
