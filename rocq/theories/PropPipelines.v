(** C64: copying a file through a filter. *)
From Coq Require Import ZArith List Bool Lia Strings.Byte Strings.String Reals Lra.
From Verif Require Import Base BaseFacts Types Proto ProtoFacts Block BlockFacts FloatFacts FileFormat FileFacts WriterFacts Spec SpecFacts FileSpec FormatSpec ModelSpec
  PropBlock PropFile WireSpec WireFacts PropWire PropLegal CallSpec PropCalls FileInfoModel InfoSpec PropInfo Pipelines.
Import ListNotations.
Local Notation length := List.length.
Local Notation concat := List.concat.
Open Scope Z_scope.

(** a coordinate on the globe *)
Definition coordinates_ok (e : element) : Prop :=
  match e with ENode n => degrees (lat (n_coord n)) /\ degrees (lon (n_coord n)) | _ => True end.
Lemma text_ok s : utf8_text s -> utf8_ok s = true. Proof. apply C56_utf8. Qed.
Lemma tags_ok ts : Forall text_tag ts -> Forall tag_utf8 ts.
Proof. apply Forall_impl. intros t (A & B). split; apply text_ok; auto. Qed.
Lemma legal_ok e : legal e -> coordinates_ok e -> element_ok e.
Proof.
  destruct e as [n|w|r|]; cbn [legal coordinates_ok element_ok]; auto.
  - intros (A & B & C & D & E & F & G & _) K. unfold node_ok, wf_node. sconj; auto using tags_ok; try apply text_ok; try tauto; auto.
  - intros (A & B & C & D & E & F & G & H) _. unfold wf_way. sconj; auto using tags_ok; apply text_ok; auto.
  - intros (A & B & C & D & E & F & G & H) _. unfold wf_relation. sconj; auto using tags_ok; [apply text_ok; auto|].
    revert H. apply Forall_impl. intros x (X & Y). split; [exact X|apply text_ok; auto].
Qed.
Lemma legal_info_ok i : legal_info i -> info_ok i.
Proof.
  intros (A & B & C & D & E & F & G & _). unfold info_ok, utf8_all, utf8_opt, i64_opt. sconj; auto.
  - revert A. apply Forall_impl. apply text_ok.
  - revert B. apply Forall_impl. apply text_ok.
  - intros s X. apply text_ok. auto.
  - intros s X. apply text_ok. auto.
  - intros s X. apply text_ok. auto.
Qed.

(** ** what is written and read once does not change any more *)
Lemma step_value_near k x : Z.abs k <= 1800000000 -> step_value k x -> (Rabs (IZR k - f2r x * 10000000) <= / 1000000)%R.
Proof.
  intros K ((_ & _ & E) & _). rewrite E. pose proof (rnd_err (IZR k / 10000000)) as R.
  assert (B : (Rabs (IZR k) <= 1800000000)%R) by (rewrite <- abs_IZR; apply IZR_le; auto).
  assert (Q : (Rabs (IZR k / 10000000) <= 180)%R).
  { unfold Rdiv. rewrite Rabs_mult, (Rabs_pos_eq (/ 10000000)) by lra. apply Rle_trans with (1800000000 * / 10000000)%R; [|lra]. apply Rmult_le_compat_r; lra. }
  assert (W : (Rabs (rnd (IZR k / 10000000) - IZR k / 10000000) <= / 20000000000000)%R).
  { eapply Rle_trans; [exact R|]. unfold uu. set (a := Rabs (IZR k / 10000000)) in *. clearbody a. lra. }
  replace (IZR k - rnd (IZR k / 10000000) * 10000000)%R with (- (10000000 * (rnd (IZR k / 10000000) - IZR k / 10000000)))%R by field.
  rewrite Rabs_Ropp, Rabs_mult, (Rabs_pos_eq 10000000) by lra. lra.
Qed.
Lemma nearest_on_grid k x k' : Z.abs k <= 1800000000 -> step_value k x -> nearest_step x k' -> k' = k.
Proof.
  intros K S N. pose proof (step_value_near k x K S) as A. unfold nearest_step in N.
  assert (A' : (- / 1000000 <= IZR k - f2r x * 10000000 <= / 1000000)%R) by (revert A; unfold Rabs; destruct (Rcase_abs _); lra).
  assert (N' : (- (/ 2 + / 1000000) <= IZR k' - f2r x * 10000000 <= / 2 + / 1000000)%R) by (revert N; unfold Rabs; destruct (Rcase_abs _); lra).
  assert (k' - k < 1) by (apply lt_IZR; rewrite minus_IZR; lra). assert (-1 < k' - k) by (apply lt_IZR; rewrite minus_IZR; lra). lia.
Qed.
Lemma coord_twice a b d : coord_written_read a b -> coord_written_read b d -> d = b.
Proof.
  intros (k & l & _ & K & S & _ & L & T) (k' & l' & N & K' & S' & N' & L' & T').
  apply (nearest_on_grid k _ k' K S) in N. apply (nearest_on_grid l _ l' L T) in N'. subst k' l'.
  destruct b, d. cbn in *. f_equal; [exact (step_value_unique _ _ _ K S' S)|exact (step_value_unique _ _ _ L T' T)].
Qed.
Lemma trunc_twice a b d : truncated_to_second a b -> truncated_to_second b d -> d = b.
Proof. intros A B. apply truncated_is_whole in A. apply truncated_whole in A. eapply truncated_unique; eauto. Qed.
Lemma written_read_twice e e' e'' : written_read e e' -> written_read e' e'' -> e'' = e'.
Proof.
  destruct e as [a|a|a|], e' as [b|b|b|]; cbn [written_read]; try (intros []; fail); destruct e'' as [d|d|d|]; cbn [written_read]; try (intros _ []; fail).
  - unfold node_written_read. intros (_ & _ & _ & _ & _ & _ & _ & T & C) (E1 & E2 & E3 & E4 & E5 & E6 & E7 & T' & C').
    apply (trunc_twice _ _ _ T) in T'. apply (coord_twice _ _ _ C) in C'. destruct b, d. cbn in *. congruence.
  - unfold way_written_read. intros (_ & _ & _ & _ & _ & _ & _ & _ & T) (E1 & E2 & E3 & E4 & E5 & E6 & E7 & E8 & T').
    apply (trunc_twice _ _ _ T) in T'. destruct b, d. cbn in *. congruence.
  - unfold relation_written_read. intros (_ & _ & _ & _ & _ & _ & _ & _ & T) (E1 & E2 & E3 & E4 & E5 & E6 & E7 & E8 & T').
    apply (trunc_twice _ _ _ T) in T'. destruct b, d. cbn in *. congruence.
Qed.
Lemma written_read_ok e e' : written_read e e' -> coordinates_ok e'.
Proof.
  destruct e, e'; cbn; try tauto. intros (_ & _ & _ & _ & _ & _ & _ & _ & (k & l & _ & K & S & _ & L & T)).
  split; apply on_grid_degrees; [exists k|exists l]; auto.
Qed.

(** ** C64 *)
Lemma picked_filter (f : element -> bool) es : picked (fun e => f e = false) es (filter (fun e => negb (f e)) es).
Proof. induction es as [|e es IH]; cbn; [constructor|]. destruct (f e) eqn:E; cbn; constructor; auto. congruence. Qed.
Lemma no_sentinel_stream es : ~ In ESentinel es -> without_sentinels es es.
Proof. induction es as [|e es IH]; intros N; constructor; [intros ->; apply N; left; auto|apply IH; intros I; apply N; right; auto]. Qed.
Lemma filter_legal m c input es o f : elements_run m c input es o -> let kept := filter f es in Forall legal kept /\ ~ In ESentinel kept.
Proof.
  intros R kept. apply C67_elements_are_legal in R.
  assert (L : Forall legal kept) by (unfold kept; apply Forall_forall; intros e I; apply filter_In in I; rewrite Forall_forall in R; apply R; tauto).
  split; auto. intros I. rewrite Forall_forall in L. destruct (L _ I).
Qed.
(** the copy has the header of the input with the program name replaced, and the elements that were not filtered out, in their
    order, each as writing and reading changes it. The input is arbitrary; required are coordinates in degrees and
    sizes within the format's limits *)
Theorem C64_copy m c filter_out program k input i es kept output :
  codec_ok c -> utf8_ok program = true ->
  reader_new m c input = Ok i -> elements_run m c input es Ended ->
  picked (fun e => filter_out e = false) es kept ->
  header_fits c k (set_field i (SetProgramStr program)) -> Forall coordinates_ok kept -> blocks_fit m c k kept ->
  copies m c filter_out program k input (Ok output) ->
  exists i' es', reader_new m c output = Ok i' /\ info_written_read (set_field i (SetProgramStr program)) i' /\ fi_program i' = Some program /\
    elements_run m c output es' Ended /\ Forall2 written_read kept es'.
Proof.
  intros C U RN RE PK HF CO BF CP.
  assert (kept = filter (fun e => negb (filter_out e)) es) as ->.
  { clear - PK. induction PK as [|x l l' K H IH|x l l' K H IH]; cbn; auto.
    - rewrite K. cbn. congruence.
    - destruct (filter_out x); [auto|congruence]. }
  remember (Ok output) as r eqn:Er. destruct CP as [X|X|i0 es0 X Y|i0 es0 X Y]; try discriminate Er.
  assert (i0 = i) by congruence. subst i0. destruct (C16_unique _ _ _ _ _ _ _ RE Y) as (<- & _).
  destruct (filter_legal m c input es Ended (fun e => negb (filter_out e)) RE) as (L & NS).
  assert (LI : info_ok (set_field i (SetProgramStr program))).
  { apply C67_header_is_legal, legal_info_ok in RN. destruct i. unfold info_ok in *. cbn in *. decompose [and] RN. sconj; auto. intros s [= <-]. auto. }
  assert (SU : Forall supported (fi_required (set_field i (SetProgramStr program)))).
  { apply C14_feature_gate in RN. destruct RN as (h & body & b & p & hd & _ & _ & _ & _ & _ & _ & F). destruct i. exact F. }
  assert (NE : ~ info_empty (set_field i (SetProgramStr program))).
  { unfold info_empty. destruct i. cbn. intros E. apply (f_equal FileFormat.fi_program) in E. discriminate E. }
  assert (EO : Forall element_ok (filter (fun e => negb (filter_out e)) es)).
  { apply Forall_forall. intros e I. rewrite Forall_forall in L, CO. apply legal_ok; auto. }
  destruct (C16_whole_file_round_trip m c _ k _ _ output C LI NE HF SU EO (no_sentinel_stream _ NS) BF Er) as (i' & es' & R1 & R2 & R3 & R4).
  exists i', es'. sconj; auto. destruct R2 as (_ & _ & R2 & _). rewrite R2. destruct i. reflexivity.
Qed.
(** every input has exactly one outcome: the copy terminates *)
Theorem C64_one_outcome m c filter_out program k input : exists! r, copies m c filter_out program k input r.
Proof.
  destruct (reader_new m c input) as [i| |] eqn:RN.
  - destruct (C20_elements_terminate m c input) as (es & o & R). destruct o.
    + eexists. split; [eapply cp_write; eauto|]. intros r H. destruct H; try congruence.
      * destruct (C16_unique _ _ _ _ _ _ _ R H0) as (_ & X). discriminate X.
      * assert (i0 = i) by congruence. subst. destruct (C16_unique _ _ _ _ _ _ _ R H0) as (<- & _). reflexivity.
    + eexists. split; [eapply cp_read_panic; eauto|]. intros r H. destruct H; try congruence; auto.
      destruct (C16_unique _ _ _ _ _ _ _ R H0) as (_ & X). discriminate X.
  - exists Err. split; [constructor; auto|]. intros r H. destruct H; congruence.
  - exists Panic. split; [constructor; auto|]. intros r H. destruct H; congruence.
Qed.
(** an input in the order the writer accepts is always copied in a release build, if nothing but nodes is filtered out
    (as in pbf-io); the writer's order is then the order of the copy *)
Lemma filter_kind (P : element -> Prop) f l : Forall P l -> Forall P (filter f l).
Proof. intros H. apply Forall_forall. intros e I. apply filter_In in I. rewrite Forall_forall in H. apply H. tauto. Qed.
Theorem C64_release_copies m c filter_out program k input i es :
  m = Wrapping -> reader_new m c input = Ok i -> elements_run m c input es Ended -> acceptable es ->
  (forall w, filter_out (EWay w) = false) ->
  exists output, copies m c filter_out program k input (Ok output).
Proof.
  intros M RN RE (ns & ws & rs & E & N & W & R & X) FW.
  set (kept := filter (fun e => negb (filter_out e)) es).
  destruct (filter_legal _ c input es Ended (fun e => negb (filter_out e)) RE) as (_ & NS). fold kept in NS.
  assert (KW : filter (fun e => negb (filter_out e)) ws = ws).
  { clear - W FW. induction W as [|e l (w & ->) W IH]; cbn; auto. rewrite FW. cbn. f_equal. auto. }
  assert (A : acceptable kept).
  { unfold kept. subst es. rewrite !filter_app, KW. exists (filter (fun e => negb (filter_out e)) ns), ws, (filter (fun e => negb (filter_out e)) rs).
    split; auto. split; [apply filter_kind; auto|]. split; auto. split; [apply filter_kind; auto|]. intros Q. apply X. intros ->. apply Q. reflexivity. }
  destruct (C59_exactly_these_streams m c (set_field i (SetProgramStr program)) k kept kept (no_sentinel_stream _ NS)) as ((S & _) & _).
  { rewrite M. apply serializable_release. }
  destruct (S A) as (file & F). exists file. rewrite <- F. apply cp_write with (1 := RN) (2 := RE).
Qed.
(** a copy of a copy has the very same elements, if the filter does not look at what writing changes *)
Theorem C64_copy_of_copy m c filter_out program k input i es kept output output2 :
  codec_ok c -> utf8_ok program = true ->
  (forall e e', written_read e e' -> filter_out e' = filter_out e) ->
  reader_new m c input = Ok i -> elements_run m c input es Ended ->
  picked (fun e => filter_out e = false) es kept ->
  header_fits c k (set_field i (SetProgramStr program)) -> Forall coordinates_ok kept -> blocks_fit m c k kept ->
  copies m c filter_out program k input (Ok output) ->
  (forall i', reader_new m c output = Ok i' -> header_fits c k (set_field i' (SetProgramStr program))) ->
  (forall es', elements_run m c output es' Ended -> blocks_fit m c k es') ->
  copies m c filter_out program k output (Ok output2) ->
  exists es', elements_run m c output es' Ended /\ elements_run m c output2 es' Ended.
Proof.
  intros C U FI RN RE PK HF CO BF CP HF2 BF2 CP2.
  destruct (C64_copy _ _ _ _ _ _ _ _ _ _ C U RN RE PK HF CO BF CP) as (i' & es' & R1 & _ & _ & R3 & R4).
  assert (PK2 : picked (fun e => filter_out e = false) es' es').
  { assert (Q : Forall (fun e => filter_out e = false) kept) by (clear - PK; induction PK; auto).
    clear - R4 Q FI. induction R4 as [|e e' l l' W R4 IH]; [constructor|]. inversion Q; subst. constructor; auto. rewrite (FI _ _ W). auto. }
  assert (CO2 : Forall coordinates_ok es') by (clear - R4; induction R4; constructor; eauto using written_read_ok).
  destruct (C64_copy _ _ _ _ _ _ _ _ _ _ C U R1 R3 PK2 (HF2 _ R1) CO2 (BF2 _ R3) CP2) as (i2 & es2 & _ & _ & _ & S3 & S4).
  exists es'. split; auto. replace es' with es2; auto.
  clear - R4 S4. revert es2 S4. induction R4 as [|e e' l l' W R4 IH]; intros es2 S4; inversion S4; subst; auto. f_equal; [eapply written_read_twice; eauto|auto].
Qed.
(** pbf-io's filter is one of those, and takes out exactly the trees *)
Theorem C64_pbf_io_filter e : (pbf_io_filter_out e = true <->
    e = ESentinel \/ exists n t, e = ENode n /\ In t (n_tags n) /\ t_k t = str "natural" /\ t_v t = str "tree") /\
  (forall e', written_read e e' -> pbf_io_filter_out e' = pbf_io_filter_out e).
Proof.
  split.
  - destruct e as [n|w|r|]; cbn [pbf_io_filter_out].
    + rewrite existsb_exists. split.
      * intros (t & I & E). apply andb_true_iff in E. destruct E as (A & B). apply bytes_eqb_eq in A. apply bytes_eqb_eq in B. right. exists n, t. auto.
      * intros [X|(n' & t & X & I & A & B)]; [discriminate X|]. injection X as <-. exists t. split; auto. rewrite A, B, !bytes_eqb_refl. reflexivity.
    + split; [discriminate|]. intros [X|(n' & t & X & _)]; discriminate X.
    + split; [discriminate|]. intros [X|(n' & t & X & _)]; discriminate X.
    + split; auto.
  - intros e' W. destruct e as [a|a|a|], e' as [b|b|b|]; try tauto; try destruct W. destruct H0 as (_ & _ & _ & _ & _ & T & _). cbn [pbf_io_filter_out]. rewrite T. reflexivity.
Qed.

(** ** counting *)
Definition how_many (P : element -> Prop) (es : list element) (n : Z) : Prop := exists l, picked P es l /\ n = zlen l.
Definition tourism_tags (es : list element) (n : Z) : Prop :=
  exists ts, picked (fun t => t_k t = str "tourism") (flat_map (fun e => match e with ENode x => n_tags x | EWay x => w_tags x | ERelation x => r_tags x | ESentinel => [] end) es) ts /\ n = zlen ts.
(** the example program counts the nodes, ways and relations of the file and the tags with the key tourism of each; every input has one outcome *)
Theorem C64_counts m c input a : count_file m c input (Ok a) ->
  exists es, elements_run m c input es Ended /\ how_many a_node es (ct_nodes a) /\ how_many a_way es (ct_ways a) /\ how_many a_relation es (ct_relations a) /\
    (forall ns, picked a_node es ns -> tourism_tags ns (ct_tourism_nodes a)) /\
    (forall ws, picked a_way es ws -> tourism_tags ws (ct_tourism_ways a)) /\
    (forall rs, picked a_relation es rs -> tourism_tags rs (ct_tourism_relations a)).
Proof.
  intros H. remember (Ok a) as r eqn:Er. destruct H as [X|X|i es X Y|i es X Y]; try discriminate Er. injection Er as <-. exists es. split; auto. clear X Y.
  assert (PT : forall ts, picked (fun t => t_k t = str "tourism") ts (filter (fun t => bytes_eqb (t_k t) (str "tourism")) ts)).
  { induction ts as [|t ts IH]; cbn [filter]; [constructor|]. destruct (bytes_eqb (t_k t) (str "tourism")) eqn:E.
    - apply pk_keep; auto. apply bytes_eqb_eq in E. exact E.
    - apply pk_skip; auto. intros K. rewrite K, bytes_eqb_refl in E. discriminate E. }
  assert (PA : forall A (P : A -> Prop) a b a' b', picked P a a' -> picked P b b' -> picked P (a ++ b) (a' ++ b')).
  { clear. induction 1; intros; cbn; [auto|constructor; auto|constructor; auto]. }
  assert (G : forall es, exists ns ws rs, picked a_node es ns /\ picked a_way es ws /\ picked a_relation es rs /\
      (let a0 := fold_left count_one es (Counts 0 0 0 0 0 0) in
      ct_nodes a0 = zlen ns /\ ct_ways a0 = zlen ws /\ ct_relations a0 = zlen rs /\ tourism_tags ns (ct_tourism_nodes a0) /\ tourism_tags ws (ct_tourism_ways a0) /\ tourism_tags rs (ct_tourism_relations a0))).
  { clear es. intros es. induction es as [|e es IH] using rev_ind.
    - assert (T0 : tourism_tags [] 0) by (exists []; split; [constructor|reflexivity]). exists [], [], []. cbv zeta. cbn [fold_left ct_nodes ct_ways ct_relations ct_tourism_nodes ct_tourism_ways ct_tourism_relations]. repeat (split; [first [constructor|reflexivity|exact T0]|]). exact T0.
    - destruct IH as (ns & ws & rs & P1 & P2 & P3 & IH). cbv zeta in *. rewrite fold_left_app. cbn [fold_left].
      destruct (fold_left count_one es (Counts 0 0 0 0 0 0)) as [n w r tn tw tr]. cbn [ct_nodes ct_ways ct_relations ct_tourism_nodes ct_tourism_ways ct_tourism_relations] in IH.
      destruct IH as (-> & -> & -> & T1 & T2 & T3).
      assert (TS : forall l t x ts, tourism_tags l t -> (match x with ENode x => n_tags x | EWay x => w_tags x | ERelation x => r_tags x | ESentinel => [] end) = ts -> tourism_tags (l ++ [x]) (t + tourism ts)).
      { intros l t x ts (q & Q & ->) <-. unfold tourism_tags. rewrite flat_map_app. cbn [flat_map]. rewrite app_nil_r. eexists. split; [apply PA; [exact Q|apply PT]|]. unfold tourism. rewrite zlen_app. reflexivity. }
      assert (NN : forall (P : element -> Prop) l l' x, picked P l l' -> ~ P x -> picked P (l ++ [x]) l').
      { intros P l l' x H N. rewrite <- (app_nil_r l'). apply PA; auto. constructor; auto. constructor. }
      assert (YY : forall (P : element -> Prop) l l' x, picked P l l' -> P x -> picked P (l ++ [x]) (l' ++ [x])).
      { intros P l l' x H N. apply PA; auto. constructor; auto. constructor. }
      assert (Z1 : forall (l : list element) x, zlen l + 1 = zlen (l ++ [x])) by (intros; rewrite zlen_app; reflexivity).
      destruct e as [x|x|x|]; cbn [count_one ct_nodes ct_ways ct_relations ct_tourism_nodes ct_tourism_ways ct_tourism_relations].
      + exists (ns ++ [ENode x]), ws, rs. sconj; auto; [apply YY; auto; exists x; auto|apply NN; auto; intros (? & ?); discriminate|apply NN; auto; intros (? & ?); discriminate].
      + exists ns, (ws ++ [EWay x]), rs. sconj; auto; [apply NN; auto; intros (? & ?); discriminate|apply YY; auto; exists x; auto|apply NN; auto; intros (? & ?); discriminate].
      + exists ns, ws, (rs ++ [ERelation x]). sconj; auto; [apply NN; auto; intros (? & ?); discriminate|apply NN; auto; intros (? & ?); discriminate|apply YY; auto; exists x; auto].
      + exists ns, ws, rs. sconj; auto; apply NN; auto; intros (? & ?); discriminate. }
  assert (UQ : forall (P : element -> Prop) l a b, picked P l a -> picked P l b -> a = b).
  { clear. intros P l a b H. revert b. induction H; intros b H'; inversion H'; subst; auto; try (f_equal; auto); contradiction. }
  destruct (G es) as (ns & ws & rs & P1 & P2 & P3 & E1 & E2 & E3 & T1 & T2 & T3). sconj.
  - exists ns. auto.
  - exists ws. auto.
  - exists rs. auto.
  - intros l Q. rewrite (UQ _ _ _ _ Q P1). auto.
  - intros l Q. rewrite (UQ _ _ _ _ Q P2). auto.
  - intros l Q. rewrite (UQ _ _ _ _ Q P3). auto.
Qed.
