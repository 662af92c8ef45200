(** When a checked build panics while writing a block. *)
From Coq Require Import ZArith List Bool Strings.Byte Strings.String Reals Lia ZifyBool.
From Verif Require Import Base BaseFacts Types Proto ProtoFacts Block BlockFacts FloatFacts Spec SpecFacts.
Import ListNotations.
Open Scope Z_scope.
Local Notation length := List.length.

(** the difference of every value to its predecessor ([last] for the first) satisfies [P] *)
Fixpoint steps_ok (P : Z -> Prop) (last : Z) (l : list Z) : Prop :=
  match l with [] => True | x :: r => P (x - last) /\ steps_ok P x r end.

Definition nodes_fit (ns : list node) : Prop :=
  match ns with
  | [] => True
  | n :: r => steps_ok I64 (n_id n) (map n_id r) /\ steps_ok I64 (n_changeset n) (map n_changeset r) /\
              steps_ok I32 (n_uid n) (map n_uid r)
  end.
(** neighbouring values differ by no more than their integer type can hold *)
Definition neighbours_fit (es : list element) : Prop :=
  nodes_fit (nodes_of es) /\ Forall (fun w => steps_ok I64 0 (w_refs w)) (ways_of es) /\
  Forall (fun r => steps_ok I64 0 (map m_id (r_members r))) (relations_of es).

Definition sids (b : stb) : Prop :=
  (forall s i, assoc s (stb_index b) = Some i -> 0 <= i <= 2147483647) /\ 1 <= zlen (stb_table b).

Lemma stb_add_checked m b s : sids b -> zlen (stb_table b) < 2147483647 ->
  exists i b', stb_add m b s = Ok (i, b') /\ sids b' /\ 0 <= i <= 2147483647.
Proof.
  intros [S L] H. unfold stb_add. destruct (assoc s (stb_index b)) as [i|] eqn:E.
  - exists i, b. split; [auto|]. split; [split; auto|eauto].
  - rewrite zlen_app. change (zlen [s]) with 1.
    rewrite wrap32_id by (unfold I32; lia). rewrite arith32_ok by (unfold I32; lia). cbn [bind].
    eexists _, _. split; [reflexivity|]. split; [|lia]. split; cbn [stb_table stb_index].
    + cbn. intros s' i. destruct (bytes_eqb s' s); [intros [= <-]; lia|eauto].
    + rewrite zlen_app. change (zlen [s]) with 1. lia.
Qed.
Lemma add_tags_checked m ts : forall b, sids b -> zlen (stb_table b) + 2 * zlen ts <= 2147483647 ->
  exists l b', add_tags m b ts = Ok (l, b') /\ sids b'.
Proof.
  induction ts as [|t ts IH]; cbn [add_tags]; intros b S H; [eauto|].
  rewrite zlen_cons in H. pose proof (zlen_nonneg ts).
  destruct (stb_add_checked m b (t_k t) S) as (i & b1 & E1 & S1 & _); [lia|]. rewrite E1. cbn [bind].
  apply stb_add_len in E1.
  destruct (stb_add_checked m b1 (t_v t) S1) as (j & b2 & E2 & S2 & _); [lia|]. rewrite E2. cbn [bind].
  apply stb_add_len in E2.
  destruct (IH b2 S2) as (l & b3 & E3 & S3); [lia|]. rewrite E3. cbn. eauto.
Qed.

Lemma arith64_checked z : (I64 z /\ arith64 Checked z = Ok z) \/ (~ I64 z /\ arith64 Checked z = Panic).
Proof.
  unfold arith64. destruct (in_i64 z) eqn:E; [left|right]; split; auto.
  - apply in_i64_iff; auto.
  - intros H. apply in_i64_iff in H. congruence.
Qed.
Lemma arith32_checked z : (I32 z /\ arith32 Checked z = Ok z) \/ (~ I32 z /\ arith32 Checked z = Panic).
Proof.
  unfold arith32. destruct (in_i32 z) eqn:E; [left|right]; split; auto.
  - apply in_i32_iff; auto.
  - intros H. apply in_i32_iff in H. congruence.
Qed.

Lemma deltas_checked l : forall last,
  (steps_ok I64 last l /\ exists ds, deltas Checked last l = Ok ds) \/ (~ steps_ok I64 last l /\ deltas Checked last l = Panic).
Proof.
  induction l as [|x l IH]; intros last; cbn [steps_ok deltas]; [left; eauto|].
  destruct (arith64_checked (x - last)) as [[A ->]|[A ->]]; cbn [bind]; [|right; tauto].
  destruct (IH x) as [[B [ds ->]]|[B ->]]; cbn [bind]; [left|right]; eauto; tauto.
Qed.
Lemma add_members_checked ms : forall last b, sids b -> zlen (stb_table b) + zlen ms <= 2147483647 ->
  (steps_ok I64 last (map m_id ms) /\ exists rs ds ts b', add_members Checked last b ms = Ok (rs, ds, ts, b') /\ sids b') \/
  (~ steps_ok I64 last (map m_id ms) /\ add_members Checked last b ms = Panic).
Proof.
  induction ms as [|x ms IH]; intros last b S H; cbn [steps_ok map add_members]; [left; split; eauto 8|].
  rewrite zlen_cons in H. pose proof (zlen_nonneg ms).
  destruct (stb_add_checked Checked b (m_role x) S) as (i & b1 & E1 & S1 & _); [lia|]. rewrite E1. cbn [bind].
  apply stb_add_len in E1.
  destruct (arith64_checked (m_id x - last)) as [[A ->]|[A ->]]; cbn [bind]; [|right; tauto].
  destruct (IH (m_id x) b1 S1 ltac:(lia)) as [[B (rs & ds & ts & b2 & -> & S2)]|[B ->]]; cbn [bind].
  - left. split; auto. eexists _, _, _, _. split; [reflexivity|auto].
  - right. tauto.
Qed.

Definition dgb_num (d : dgb) : Prop :=
  db_granularity d = 100 /\ db_date d = 1000 /\ db_lat_off d = 0 /\ db_lon_off d = 0 /\
  Z.abs (db_last_lat d) <= 1800000000 /\ Z.abs (db_last_lon d) <= 1800000000 /\
  Z.abs (db_last_ts d) <= 9223372036854776 /\ 0 <= db_last_sid d <= 2147483647 /\
  exists i, d_info (db_dense d) = Some i.

Definition rest_fit (s : bstate) (es : list element) : Prop :=
  match bs_dense s with
  | None => nodes_fit (nodes_of es)
  | Some d => steps_ok I64 (db_last_id d) (map n_id (nodes_of es)) /\
              steps_ok I64 (db_last_cs d) (map n_changeset (nodes_of es)) /\
              steps_ok I32 (db_last_uid d) (map n_uid (nodes_of es))
  end /\ Forall (fun w => steps_ok I64 0 (w_refs w)) (ways_of es) /\
  Forall (fun r => steps_ok I64 0 (map m_id (r_members r))) (relations_of es).
Definition state_num (s : bstate) : Prop :=
  sids (bs_st s) /\ match bs_dense s with Some d => dgb_num d | None => True end.

Lemma ser_step_checked s e : state_num s -> element_ok e -> zlen (stb_table (bs_st s)) + zlen (strings_of e) <= 2147483647 ->
  (exists s', ser_step Checked s e = Ok s' /\ state_num s' /\ forall es, rest_fit s (e :: es) <-> rest_fit s' es) \/
  (ser_step Checked s e = Panic /\ forall es, ~ rest_fit s (e :: es)).
Proof.
  intros [S D] W L. destruct e as [n|w|r|]; cbn [ser_step].
  - destruct W as ((W1 & W2 & W3 & W4 & W5 & W6 & W7) & A & B).
    cbn [strings_of] in L. rewrite zlen_cons, zlen_flat2 in L.
    pose proof (zlen_nonneg (n_tags n)). pose proof (step_range _ A) as RA. pose proof (step_range _ B) as RB.
    pose proof (quot_range _ W3) as Q.
    destruct (bs_dense s) as [d|] eqn:Ed.
    + destruct D as (D1 & D2 & D3 & D4 & D5 & D6 & D7 & D8 & D9).
      unfold dgb_add. rewrite D1, D2, D3, D4.
      destruct (arith64_checked (n_id n - db_last_id d)) as [[X1 ->]|[X1 ->]]; cbn [bind];
        [|right; split; auto; unfold rest_fit; rewrite Ed; cbn; tauto].
      rewrite (arith64_ok _ (enc_coord 100 0 (lon (n_coord n)) - db_last_lon d)) by (unfold I64; lia). cbn [bind].
      rewrite (arith64_ok _ (enc_coord 100 0 (lat (n_coord n)) - db_last_lat d)) by (unfold I64; lia). cbn [bind].
      rewrite (arith64_ok _ (n_timestamp n ÷ 1000 - db_last_ts d)) by (unfold I64; lia). cbn [bind].
      destruct (arith32_checked (n_uid n - db_last_uid d)) as [[X2 ->]|[X2 ->]]; cbn [bind];
        [|right; split; auto; unfold rest_fit; rewrite Ed; cbn; tauto].
      destruct (arith64_checked (n_changeset n - db_last_cs d)) as [[X3 ->]|[X3 ->]]; cbn [bind];
        [|right; split; auto; unfold rest_fit; rewrite Ed; cbn; tauto].
      destruct (stb_add_checked Checked (bs_st s) (n_user n) S) as (i & b1 & E1 & S1 & I1); [lia|]. rewrite E1. cbn [bind].
      apply stb_add_len in E1.
      rewrite (arith32_ok _ (i - db_last_sid d)) by (unfold I32; lia). cbn [bind].
      destruct (add_tags_checked Checked (n_tags n) b1 S1) as (l & b2 & E2 & S2); [lia|]. rewrite E2. cbn [bind].
      destruct D9 as [i0 D9]. destruct (db_dense d) as [ids oi las los kv]. cbn in D9. subst oi. destruct i0. cbn [bind].
      left. eexists. split; [reflexivity|]. split.
      * split; cbn [bs_st bs_dense]; auto. unfold dgb_num. cbn. sconj; auto; try lia. eauto.
      * intros es. unfold rest_fit. rewrite Ed. cbn. tauto.
    + unfold dgb_new.
      destruct (stb_add_checked Checked (bs_st s) (n_user n) S) as (i & b1 & E1 & S1 & I1); [lia|]. rewrite E1. cbn [bind].
      apply stb_add_len in E1.
      destruct (add_tags_checked Checked (n_tags n) b1 S1) as (l & b2 & E2 & S2); [lia|]. rewrite E2. cbn [bind].
      left. eexists. split; [reflexivity|]. split.
      * split; cbn [bs_st bs_dense]; auto. unfold dgb_num. cbn. sconj; auto; try lia. eauto.
      * intros es. unfold rest_fit. rewrite Ed. cbn. tauto.
  - unfold way_convert. cbn [strings_of] in L. rewrite zlen_cons, zlen_flat2 in L. pose proof (zlen_nonneg (w_tags w)).
    destruct (deltas_checked (w_refs w) 0) as [[X [ds ->]]|[X ->]]; cbn [bind].
    + destruct (add_tags_checked Checked (w_tags w) (bs_st s) S) as (l & b1 & E1 & S1); [lia|]. rewrite E1. cbn [bind].
      apply add_tags_len in E1.
      destruct (stb_add_checked Checked b1 (w_user w) S1) as (i & b2 & E2 & S2 & I2); [lia|]. rewrite E2. cbn [bind].
      left. eexists. split; [reflexivity|]. split; [split; cbn; auto|].
      intros es. unfold rest_fit. cbn. rewrite Forall_cons_iff. tauto.
    + right. split; auto. intros es (_ & F & _). cbn in F. rewrite Forall_cons_iff in F. tauto.
  - unfold relation_convert. cbn [strings_of] in L. rewrite zlen_cons, zlen_app, zlen_flat2, zlen_map in L. pose proof (zlen_nonneg (r_tags r)). pose proof (zlen_nonneg (r_members r)).
    destruct (add_members_checked (r_members r) 0 (bs_st s) S) as [[X (rs & ds & ts & b0 & E0 & S0)]|[X ->]]; [lia| |]; cbn [bind].
    + rewrite E0. cbn [bind]. apply add_members_len in E0.
      destruct (add_tags_checked Checked (r_tags r) b0 S0) as (l & b1 & E1 & S1); [lia|]. rewrite E1. cbn [bind].
      apply add_tags_len in E1.
      destruct (stb_add_checked Checked b1 (r_user r) S1) as (i & b2 & E2 & S2 & I2); [lia|]. rewrite E2. cbn [bind].
      left. eexists. split; [reflexivity|]. split; [split; cbn; auto|].
      intros es. unfold rest_fit. cbn. rewrite Forall_cons_iff. tauto.
    + right. split; auto. intros es (_ & _ & F). cbn in F. rewrite Forall_cons_iff in F. tauto.
  - left. exists s. split; auto. split; [split; auto|]. intros es. unfold rest_fit. cbn. tauto.
Qed.

Lemma ser_loop_checked es : forall s, state_num s -> Forall element_ok es ->
  zlen (stb_table (bs_st s)) + zlen (flat_map strings_of es) <= 2147483647 ->
  (rest_fit s es /\ exists s', ser_loop Checked s es = Ok s') \/ (~ rest_fit s es /\ ser_loop Checked s es = Panic).
Proof.
  induction es as [|e es IH]; intros s N W L; cbn [ser_loop].
  - left. split; [|eauto]. unfold rest_fit. cbn. destruct (bs_dense s); cbn; auto.
  - inversion W as [|? ? We Wes]; subst. cbn [flat_map] in L. rewrite zlen_app in L.
    pose proof (zlen_nonneg (flat_map strings_of es)).
    destruct (ser_step_checked s e N We ltac:(lia)) as [(s' & E & N' & R)|[-> R]]; cbn [bind].
    + rewrite E. cbn [bind]. apply ser_step_len in E.
      destruct (IH s' N' Wes ltac:(lia)) as [[F G]|[F G]]; [left|right]; (split; [rewrite R; auto|auto]).
    + right. auto.
Qed.

(** a checked build writes the block exactly when neighbouring values fit, and panics otherwise *)
Theorem checked_exact es : Forall element_ok es -> zlen (flat_map strings_of es) < 2147483647 ->
  (neighbours_fit es /\ exists bs, osm_data_serialize Checked es = Ok bs) \/
  (~ neighbours_fit es /\ osm_data_serialize Checked es = Panic).
Proof.
  intros W L. unfold osm_data_serialize, build_block.
  destruct (ser_loop_checked es (BState None None None stb_new)) as [[A [s' ->]]|[A ->]]; auto.
  - split; cbn; auto. split; cbn; [discriminate|]. unfold zlen; cbn; lia.
  - cbn [bs_st]. change (zlen (stb_table stb_new)) with 1. lia.
  - cbn [bind]. left. split; eauto.
Qed.
