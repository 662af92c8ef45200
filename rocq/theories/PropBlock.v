(** Properties of one data block: C01-C11, C47, C48 (see ../../properties.jsonl).
    The block writer is [osm_data_serialize], the block reader [osm_data_new]. *)
From Coq Require Import ZArith List Bool Strings.Byte Strings.String Reals Lia Lra ZifyBool.
From Coq Require Import Relations.Relation_Operators.
From Verif Require Import Base BaseFacts Types Proto ProtoFacts Block BlockFacts FloatFacts.
From Verif Require Import Spec SpecFacts BlockOverflow FormatSpec BlockRead.
Import ListNotations.
Open Scope Z_scope.
Local Notation length := List.length.

(** one write followed by one read of a block *)
Definition write_read (m : mode) (es es' : list element) : Prop :=
  exists bs, osm_data_serialize m es = Ok bs /\ below_2GiB bs /\ osm_data_new m bs = Ok es'.

Definition same_kind (k : element -> bool) (es : list element) : Prop := Forall (fun e => k e = true) es.

Lemma survivors_ok es : Forall element_ok es -> Forall (fun e => element_ok e /\ e <> ESentinel) (survivors es).
Proof.
  intros H. rewrite Forall_forall in H |- *. intros e. unfold survivors.
  assert (N : forall n, In n (nodes_of es) -> In (ENode n) es).
  { intros n. unfold nodes_of. rewrite in_flat_map. intros (x & Hx & I). destruct x; cbn in I; try tauto. destruct I as [->|[]]. auto. }
  assert (W : forall n, In n (ways_of es) -> In (EWay n) es).
  { intros n. unfold ways_of. rewrite in_flat_map. intros (x & Hx & I). destruct x; cbn in I; try tauto. destruct I as [->|[]]. auto. }
  assert (R : forall n, In n (relations_of es) -> In (ERelation n) es).
  { intros n. unfold relations_of. rewrite in_flat_map. intros (x & Hx & I). destruct x; cbn in I; try tauto. destruct I as [->|[]]. auto. }
  assert (G : In e (map ENode (nodes_of es)) \/ In e (map EWay (ways_of es)) \/ In e (map ERelation (relations_of es)) -> element_ok e /\ e <> ESentinel).
  { rewrite !in_map_iff. intros [(x & <- & I)|[(x & <- & I)|(x & <- & I)]]; (split; [auto|discriminate]); apply H; auto. }
  destruct (nodes_of es); [destruct (ways_of es)|]; auto.
Qed.

Lemma survivors_wr m es bs : Forall element_ok es -> osm_data_serialize m es = Ok bs -> below_2GiB bs ->
  exists es', osm_data_new m bs = Ok es' /\ es' = map norm (survivors es) /\ Forall2 written_read (survivors es) es'.
Proof.
  intros H S L. exists (map norm (survivors es)). split; [apply block_rt; auto using element_ok_input|]. split; auto.
  pose proof (survivors_ok _ H) as F. clear - F. induction F as [|e l [A B] F IH]; cbn; constructor; auto using norm_spec.
Qed.

Lemma survivors_kind es : (forall e, In e es -> is_node e = true) \/ (forall e, In e es -> is_way e = true) \/
  (forall e, In e es -> is_relation e = true) -> survivors es = es.
Proof.
  assert (NN : forall es, (forall e, In e es -> is_node e = true) -> map ENode (nodes_of es) = es).
  { clear. induction es as [|e es IH]; cbn; auto. intros H. assert (is_node e = true) by auto. destruct e; try discriminate.
    cbn. f_equal. apply IH. auto. }
  assert (WW : forall es, (forall e, In e es -> is_way e = true) -> map EWay (ways_of es) = es /\ nodes_of es = []).
  { clear. induction es as [|e es IH]; cbn; auto. intros H. assert (is_way e = true) by auto. destruct e; try discriminate.
    cbn. destruct IH as [A B]; auto. split; [f_equal|]; auto. }
  assert (RR : forall es, (forall e, In e es -> is_relation e = true) -> map ERelation (relations_of es) = es /\ nodes_of es = [] /\ ways_of es = []).
  { clear. induction es as [|e es IH]; cbn; auto. intros H. assert (is_relation e = true) by auto. destruct e; try discriminate.
    cbn. destruct IH as (A & B & C); auto. split; [f_equal|]; auto. }
  unfold survivors. intros [H|[H|H]].
  - apply NN in H. destruct es as [|e es]; [reflexivity|]. destruct (nodes_of (e :: es)) eqn:E; auto. discriminate.
  - apply WW in H. destruct H as [H ->]. destruct es as [|e es]; [reflexivity|]. destruct (ways_of (e :: es)) eqn:E; auto. discriminate.
  - apply RR in H. destruct H as (H & -> & ->). auto.
Qed.

Lemma Forall2_map_l {A B C} (f : A -> B) (R : B -> C -> Prop) l l' : Forall2 R (map f l) l' <-> Forall2 (fun a c => R (f a) c) l l'.
Proof.
  revert l'. induction l as [|a l IH]; intros l'; cbn; (split; intros H; inversion H; subst; constructor; auto); apply IH; auto.
Qed.

(** ** C01 *)
Theorem C01_node_block_round_trip m ns bs :
  Forall node_ok ns -> osm_data_serialize m (map ENode ns) = Ok bs -> below_2GiB bs ->
  exists ns', osm_data_new m bs = Ok (map ENode ns') /\ Forall2 node_written_read ns ns'.
Proof.
  intros H S L. assert (O : Forall element_ok (map ENode ns)) by (clear - H; induction H; cbn; constructor; auto).
  destruct (survivors_wr m _ bs O S L) as (es' & R & E & F).
  rewrite survivors_kind in E, F by (left; intros e; rewrite in_map_iff; intros (x & <- & _); reflexivity).
  exists (map norm_node ns). rewrite R, E, map_map. split; [rewrite map_map; reflexivity|].
  rewrite E, map_map in F. clear - F. induction ns; cbn in *; inversion F; subst; constructor; auto.
Qed.
(** ** C02 *)
Theorem C02_way_block_round_trip m ws bs :
  Forall wf_way ws -> osm_data_serialize m (map EWay ws) = Ok bs -> below_2GiB bs ->
  exists ws', osm_data_new m bs = Ok (map EWay ws') /\ Forall2 way_written_read ws ws'.
Proof.
  intros H S L. assert (O : Forall element_ok (map EWay ws)) by (clear - H; induction H; cbn; constructor; auto).
  destruct (survivors_wr m _ bs O S L) as (es' & R & E & F).
  rewrite survivors_kind in E, F by (right; left; intros e; rewrite in_map_iff; intros (x & <- & _); reflexivity).
  exists (map norm_way ws). rewrite R, E, map_map. split; [rewrite map_map; reflexivity|].
  rewrite E, map_map in F. clear - F. induction ws; cbn in *; inversion F; subst; constructor; auto.
Qed.
(** ** C03 *)
Theorem C03_relation_block_round_trip m rs bs :
  Forall wf_relation rs -> osm_data_serialize m (map ERelation rs) = Ok bs -> below_2GiB bs ->
  exists rs', osm_data_new m bs = Ok (map ERelation rs') /\ Forall2 relation_written_read rs rs'.
Proof.
  intros H S L. assert (O : Forall element_ok (map ERelation rs)) by (clear - H; induction H; cbn; constructor; auto).
  destruct (survivors_wr m _ bs O S L) as (es' & R & E & F).
  rewrite survivors_kind in E, F by (right; right; intros e; rewrite in_map_iff; intros (x & <- & _); reflexivity).
  exists (map norm_relation rs). rewrite R, E, map_map. split; [rewrite map_map; reflexivity|].
  rewrite E, map_map in F. clear - F. induction rs; cbn in *; inversion F; subst; constructor; auto.
Qed.

(** ** C04 *)
(** hand a sequence of strings to the string table, collecting the indexes *)
Fixpoint intern_all (m : mode) (b : stb) (ss : list bytes) : res (list Z * stb) :=
  match ss with
  | [] => Ok ([], b)
  | s :: r => ' (i, b1) <- stb_add m b s ;; ' (is, b2) <- intern_all m b1 r ;; Ok (i :: is, b2)
  end.
Lemma intern_ext m ss : forall b is b', intern_all m b ss = Ok (is, b') -> ext (stb_table b) (stb_table b').
Proof.
  induction ss as [|s ss IH]; cbn; intros b is b' H.
  - injection H as <- <-. apply ext_refl.
  - bok H p E. destruct p as [i b1]. bok H p E'. destruct p as [is' b2]. injection H as <- <-.
    eapply ext_trans; [eapply stb_add_ext; eauto|eauto].
Qed.
Lemma intern_spec m ss : forall b is b', stb_inv b -> intern_all m b ss = Ok (is, b') -> fits b' ->
  stb_inv b' /\ Forall2 (fun i s => 1 <= i /\ index (stb_table b') i = Ok s) is ss.
Proof.
  induction ss as [|s ss IH]; cbn; intros b is b' I H F.
  - injection H as <- <-. auto.
  - bok H p E. destruct p as [i b1]. bok H p E'. destruct p as [is' b2]. injection H as <- <-.
    pose proof (intern_ext _ _ _ _ _ E') as X. pose proof (fits_ext _ _ X F) as F1.
    destruct (stb_add_spec _ _ _ _ _ I E F1) as (I1 & _ & R & D & _).
    destruct (IH _ _ _ I1 E' F) as [I2 G]. split; auto. constructor; auto. split; [lia|]. eapply ext_index; eauto.
Qed.
Theorem C04_string_table m ss is b :
  intern_all m stb_new ss = Ok (is, b) -> zlen (stb_build b) <= 2147483647 ->
  (* the reserved delimiter *)
  nth_error (stb_build b) 0 = Some [] /\
  (* every string is stored at the index handed out for it, which is never 0 *)
  length is = length ss /\
  (forall j s i, nth_error ss j = Some s -> nth_error is j = Some i ->
     1 <= i /\ nth_error (stb_build b) (Z.to_nat i) = Some s) /\
  (* equal strings share an index, different strings never do *)
  (forall j k s t i l, nth_error ss j = Some s -> nth_error ss k = Some t ->
     nth_error is j = Some i -> nth_error is k = Some l -> (s = t <-> i = l)) /\
  (* no entry but the delimiter is stored twice *)
  (forall p q s, (1 <= p)%nat -> (1 <= q)%nat -> nth_error (stb_build b) p = Some s -> nth_error (stb_build b) q = Some s -> p = q) /\
  (* later additions never change an earlier index or entry *)
  (forall ss1 ss2, ss = ss1 ++ ss2 -> exists is1 b1 is2, intern_all m stb_new ss1 = Ok (is1, b1) /\
     is = is1 ++ is2 /\ exists l, stb_build b = stb_build b1 ++ l).
Proof.
  intros H F. destruct (intern_spec _ _ _ _ _ stb_new_inv H F) as [[Z0 I1 I2] G]. unfold stb_build in *.
  assert (P : forall j s i, nth_error ss j = Some s -> nth_error is j = Some i ->
     1 <= i /\ nth_error (stb_table b) (Z.to_nat i) = Some s).
  { clear - G. induction G as [|i s is ss [A B] G IH]; intros [|j]; cbn; intros t k E1 E2; try discriminate.
    - injection E1 as <-. injection E2 as <-. apply index_nth in B. tauto.
    - eauto. }
  split; [auto|]. split; [clear - G; induction G; cbn; auto|]. split; [exact P|].
  split; [|split].
  - intros j k s t i l A1 A2 B1 B2. destruct (P _ _ _ A1 B1) as [C1 C2]. destruct (P _ _ _ A2 B2) as [D1 D2].
    split; intros <-.
    + pose proof (I2 (Z.to_nat i) s ltac:(lia) C2). pose proof (I2 (Z.to_nat l) s ltac:(lia) D2).
      assert (Z.of_nat (Z.to_nat i) = Z.of_nat (Z.to_nat l)) by congruence. lia.
    + congruence.
  - intros p q s Hp Hq A B. pose proof (I2 _ _ Hp A). pose proof (I2 _ _ Hq B). assert (Z.of_nat p = Z.of_nat q) by congruence. lia.
  - intros ss1 ss2 ->. clear - H. revert H. generalize stb_new. revert is.
    induction ss1 as [|s ss1 IH]; cbn; intros is b0 H.
    + exists [], b0, is. apply intern_ext in H. auto.
    + bok H p E. destruct p as [i b1]. bok H p E'. destruct p as [is' b2]. injection H as <- <-.
      destruct (IH _ _ E') as (is1 & b3 & is2 & A & B & C). exists (i :: is1), b3, is2. rewrite E. cbn [bind].
      rewrite A. cbn. rewrite B. auto.
Qed.

(** ** C05 (block level; see PropFile for the writer) *)
Theorem C05_homogeneous_block_partial m es bs : Forall element_ok es ->
  same_kind is_node es \/ same_kind is_way es \/ same_kind is_relation es ->
  osm_data_serialize m es = Ok bs -> below_2GiB bs ->
  exists es', osm_data_new m bs = Ok es' /\ Forall2 written_read es es'.
Proof.
  intros H K S L. destruct (survivors_wr m _ bs H S L) as (es' & R & E & F).
  rewrite survivors_kind in F; eauto.
  unfold same_kind in K. rewrite !Forall_forall in K. exact K.
Qed.

(** ** C06 *)
Definition one_node (m : mode) (n : node) (la lo : Z) : Prop :=
  exists b d, build_block m [ENode n] = Ok b /\ map g_dense (pb_groups b) = [Some d] /\ d_lat d = [la] /\ d_lon d = [lo].
Lemma one_node_block m n bs : osm_data_serialize m [ENode n] = Ok bs ->
  one_node m n (step_of (lat (n_coord n))) (step_of (lon (n_coord n))).
Proof.
  unfold osm_data_serialize. intros H. bok H b E. unfold one_node. rewrite E. exists b.
  unfold build_block in E. cbn [ser_loop ser_step bs_dense] in E. unfold dgb_new in E.
  destruct (stb_add m _ (n_user n)) as [[sid b1]| |] eqn:E1; cbn [bind] in E; try discriminate.
  destruct (add_tags m b1 (n_tags n)) as [[tg b2]| |] eqn:E2; cbn [bind] in E; try discriminate.
  injection E as <-. eexists. sconj; reflexivity.
Qed.
Theorem C06_grid_coordinates_bit_exact m n k l bs :
  wf_node n -> Z.abs k <= 1800000000 -> Z.abs l <= 1800000000 ->
  step_value k (lat (n_coord n)) -> step_value l (lon (n_coord n)) ->
  osm_data_serialize m [ENode n] = Ok bs -> below_2GiB bs ->
  (* the integers stored in the block are exactly k and l *)
  one_node m n k l /\
  (* and the node read back has bit-identical coordinates *)
  exists n', osm_data_new m bs = Ok [ENode n'] /\ n_coord n' = n_coord n.
Proof.
  intros W K L A B S Z. split.
  - apply one_node_block in S. rewrite (step_value_step _ _ K A), (step_value_step _ _ L B) in S. exact S.
  - exists (norm_node n). pose proof (block_rt m [ENode n] bs) as R. rewrite R; auto.
    + split; [reflexivity|]. cbn. apply norm_coord_grid; eexists; eauto.
    + apply element_ok_input. constructor; [|constructor]. split; auto.
      split; apply on_grid_degrees; eexists; eauto.
Qed.

(** ** C07 *)
Theorem C07_quantisation_error m n bs : node_ok n -> osm_data_serialize m [ENode n] = Ok bs ->
  exists k l, one_node m n k l /\ nearest_step (lat (n_coord n)) k /\ nearest_step (lon (n_coord n)) l.
Proof.
  intros (W & A & B) S. apply one_node_block in S.
  exists (step_of (lat (n_coord n))), (step_of (lon (n_coord n))). split; [exact S|].
  split; apply quantisation; auto.
Qed.
(** the stored integer is the only one that close, unless the value lies within a millionth of
    a step of the middle between two steps *)
Theorem C07_nearest_is_unique x k k' : degrees x -> nearest_step x k ->
  (Rabs (IZR k' - f2r x * 10000000) < / 2 - / 1000000)%R -> k = k'.
Proof.
  intros _ A B. unfold nearest_step in A. apply Rabs_def2 in B.
  assert (-(/2 + /1000000) <= IZR k - f2r x * 10000000 <= /2 + /1000000)%R by (revert A; unfold Rabs; destruct (Rcase_abs _); lra).
  assert (k' - k < 1) by (apply lt_IZR; rewrite minus_IZR; lra).
  assert (-1 < k' - k) by (apply lt_IZR; rewrite minus_IZR; lra). lia.
Qed.

(** ** C08 *)
Definition ts_of (e : element) : Z :=
  match e with ENode n => n_timestamp n | EWay w => w_timestamp w | ERelation r => r_timestamp r | ESentinel => 0 end.
Lemma written_read_ts e e' : written_read e e' -> truncated_to_second (ts_of e) (ts_of e').
Proof. destruct e, e'; cbn; try tauto; intros H; red in H; intuition. Qed.
Theorem C08_timestamps_truncated m es es' : Forall element_ok es ->
  same_kind is_node es \/ same_kind is_way es \/ same_kind is_relation es ->
  write_read m es es' ->
  Forall2 (fun e e' => truncated_to_second (ts_of e) (ts_of e') /\
                       (whole_second (ts_of e) -> ts_of e' = ts_of e)) es es'.
Proof.
  intros H K (bs & S & L & R). destruct (C05_homogeneous_block_partial m es bs H K S L) as (es2 & R2 & F).
  assert (es2 = es') by congruence. subst. clear - F. induction F as [|e e' l l' A F IH]; constructor; auto.
  apply written_read_ts in A. split; auto. intros W. eapply truncated_unique; eauto using truncated_whole.
Qed.

(** ** C09 *)
(** release build: writing never fails and nothing is lost, whatever the values *)
Theorem C09_release_never_panics es : exists bs, osm_data_serialize Wrapping es = Ok bs.
Proof. apply serialize_total. Qed.
(** build with overflow checks: writing succeeds exactly when neighbouring ids, changesets, user
    ids, references and member ids differ by no more than their type can hold, else it panics *)
Theorem C09_checked_panics_exactly_on_wide_gaps es : Forall element_ok es ->
  zlen (flat_map strings_of es) < 2147483647 ->
  (neighbours_fit es <-> exists bs, osm_data_serialize Checked es = Ok bs) /\
  (~ neighbours_fit es <-> osm_data_serialize Checked es = Panic).
Proof.
  intros H L. destruct (checked_exact es H L) as [[A [bs B]]|[A B]]; split; split; intros X; eauto; try congruence; try tauto.
  destruct X. congruence.
Qed.
(** in either mode, whatever was written is recovered *)
Theorem C09_values_recovered m es bs : Forall element_ok es ->
  same_kind is_node es \/ same_kind is_way es \/ same_kind is_relation es ->
  osm_data_serialize m es = Ok bs -> below_2GiB bs ->
  exists es', osm_data_new m bs = Ok es' /\ Forall2 written_read es es'.
Proof. apply C05_homogeneous_block_partial. Qed.

(** ** C10 *)
Theorem C10_wire_round_trip :
  (forall h, blob_header_ok h -> zlen (blob_header_encode h) < two64 -> blob_header_decode (blob_header_encode h) = Some h) /\
  (forall b, blob_ok b -> zlen (blob_encode b) < two64 -> blob_decode (blob_encode b) = Some b) /\
  (forall h, header_block_ok h -> zlen (header_block_encode h) < two64 -> header_block_decode (header_block_encode h) = Some h) /\
  (forall b, pblock_ok b -> zlen (pblock_encode b) < two64 -> pblock_decode (pblock_encode b) = Some b).
Proof. sconj; auto using blob_header_rt, blob_rt, header_block_rt, pblock_rt. Qed.

(** ** C11 *)
Lemma norm_ok e : element_ok e -> e <> ESentinel -> element_ok (norm e) /\ norm (norm e) = norm e.
Proof.
  assert (T : forall t, norm_ts (norm_ts t) = norm_ts t).
  { intros t. apply norm_ts_whole. eapply truncated_is_whole, norm_ts_spec. }
  destruct e as [n|w|r|]; cbn; intros H N; try congruence.
  - destruct H as ((W1 & W2 & W3 & W4) & A & B). split.
    + split; [|split; apply on_grid_degrees; cbn; apply grid_on_grid; auto]. unfold wf_node; cbn. sconj; auto using norm_ts_range; apply W4.
    + f_equal. unfold norm_node; cbn. f_equal; auto. apply (norm_coord_grid (norm_coord (n_coord n))); cbn; apply grid_on_grid; auto.
  - destruct H as (W1 & W2 & W3 & W4). split.
    + unfold wf_way; cbn. sconj; auto using norm_ts_range; apply W4.
    + f_equal. unfold norm_way; cbn. f_equal; auto.
  - destruct H as (W1 & W2 & W3 & W4). split.
    + unfold wf_relation; cbn. sconj; auto using norm_ts_range; apply W4.
    + f_equal. unfold norm_relation; cbn. f_equal; auto.
Qed.
Lemma survivors_survivors es : survivors (map norm (survivors es)) = map norm (survivors es).
Proof.
  apply survivors_kind. unfold survivors.
  destruct (nodes_of es); [destruct (ways_of es)|].
  - right; right. intros e. rewrite map_map, in_map_iff. intros (x & <- & _). reflexivity.
  - right; left. intros e. rewrite map_map, in_map_iff. intros (x & <- & _). reflexivity.
  - left. intros e. rewrite map_map, in_map_iff. intros (x & <- & _). reflexivity.
Qed.
Lemma write_read_stable m es es1 es2 : Forall element_ok es -> write_read m es es1 -> write_read m es1 es2 -> es2 = es1 /\ Forall element_ok es1.
Proof.
  intros H (bs & S & L & R) (bs' & S' & L' & R').
  destruct (survivors_wr m es bs H S L) as (x & Rx & Ex0 & _).
  assert (Ex : es1 = map norm (survivors es)) by congruence.
  assert (O : Forall element_ok es1 /\ map norm es1 = es1).
  { pose proof (survivors_ok _ H) as F. rewrite Ex. clear - F. induction F as [|e l [A B] F [I1 I2]]; cbn; auto.
    destruct (norm_ok e A B) as [C D]. split; [constructor; auto|]. rewrite D, I2. reflexivity. }
  destruct O as [O1 O2]. destruct (survivors_wr m es1 bs' O1 S' L') as (y & Ry & Ey0 & _).
  assert (Ey : es2 = map norm (survivors es1)) by congruence. split; auto.
  rewrite Ey. rewrite Ex at 1. rewrite survivors_survivors, <- Ex. exact O2.
Qed.
Theorem C11_read_write_read_stable m es es1 es2 : Forall element_ok es ->
  write_read m es es1 -> clos_refl_trans _ (write_read m) es1 es2 -> es2 = es1.
Proof.
  intros H W R. apply Operators_Properties.clos_rt_rt1n in R. induction R as [|x y z S R IH]; auto.
  destruct (write_read_stable m es x y H W S) as [-> _]. auto.
Qed.

(** ** C47, C48: the reader implements the format *)
(** whenever reading a block succeeds, the elements are those the format assigns to it, and
    a release build succeeds on every block that has a meaning *)
Theorem C48_reader_means_the_format :
  (forall m b es, read_block m b = Ok es -> block_means b es) /\
  (forall b es, read_block Wrapping b = Ok es <-> block_means b es) /\
  (forall m b, read_block m b <> Err).
Proof.
  sconj; [apply read_block_sound| |apply read_block_not_err].
  split; [apply read_block_sound|apply read_block_complete].
Qed.
(** a way tag, way user, member role outside the table is never resolved *)
Definition out_of_table (st : list bytes) (i : Z) : Prop := i < 0 \/ zlen st <= i.
(** index [i] occurs among the keys and values of the first [n] nodes of a dense keys_vals column *)
Inductive kv_uses (i : Z) : nat -> list Z -> Prop :=
| kvu_key n v l : i <> 0 -> kv_uses i (S n) (i :: v :: l)
| kvu_val n k l : k <> 0 -> kv_uses i (S n) (k :: i :: l)
| kvu_more n k v l : k <> 0 -> kv_uses i (S n) l -> kv_uses i (S n) (k :: v :: l)
| kvu_next n l : kv_uses i n l -> kv_uses i (S n) (0 :: l).
(** string table indexes that reading the group has to resolve *)
Definition used_indexes (g : pgroup) (i : Z) : Prop :=
  (exists p, In p (g_nodes g) /\ (In i (pn_keys p) \/ (exists j, (j < length (pn_keys p))%nat /\ nth_error (pn_vals p) j = Some i) \/ exists f, pn_info p = Some f /\ i_user_sid f = Some i)) \/
  (exists p, In p (g_ways g) /\ (In i (pw_keys p) \/ (exists j, (j < length (pw_keys p))%nat /\ nth_error (pw_vals p) j = Some i) \/ exists f, pw_info p = Some f /\ i_user_sid f = Some i)) \/
  (exists p, In p (g_relations g) /\ (In i (pr_keys p) \/ (exists j, (j < length (pr_keys p))%nat /\ nth_error (pr_vals p) j = Some i) \/ (exists f, pr_info p = Some f /\ i_user_sid f = Some i) \/
     exists j, (j < length (pr_memids p))%nat /\ nth_error (pr_roles p) j = Some i)) \/
  (exists d inf j, g_dense g = Some d /\ d_info d = Some inf /\ (j < length (d_id d))%nat /\
     I32 (psum (di_user_sid inf) j) /\ i = psum (di_user_sid inf) j) \/
  (exists d, g_dense g = Some d /\ kv_uses i (length (d_id d)) (d_kv d)).
Lemma entry_in st i s : entry st i s -> ~ out_of_table st i.
Proof.
  intros [A B] O. assert (Z.to_nat i < length st)%nat by (apply nth_error_Some; congruence). unfold out_of_table, zlen in O. lia.
Qed.
Lemma info_in st date f ts cs uid user vis ver i : info_means st date (Some f) ts cs uid user vis ver -> i_user_sid f = Some i -> ~ out_of_table st i.
Proof. intros (_ & _ & _ & E & _) H. rewrite H in E. eapply entry_in; eauto. Qed.
Lemma tags_in st keys vals ts i : tags_mean st keys vals ts -> In i keys -> ~ out_of_table st i.
Proof.
  intros [L F] I. revert vals ts L F. induction keys as [|k keys IH]; cbn in *; [tauto|]. intros vals ts L F.
  destruct vals as [|v vals]; cbn in *; [lia|]. inversion F as [|? ? ? ? [A _] F']; subst.
  destruct I as [->|I]; [eapply entry_in; eauto|]. assert (L' : (length keys <= length vals)%nat) by lia. exact (IH I vals _ L' F').
Qed.
Lemma vals_in st keys vals ts i : tags_mean st keys vals ts ->
  (exists j, (j < length keys)%nat /\ nth_error vals j = Some i) -> ~ out_of_table st i.
Proof.
  intros [L F] (j & J & N). revert vals ts j J N L F. induction keys as [|k keys IH]; cbn in *; [lia|]. intros vals ts j J N L F.
  destruct vals as [|v vals]; cbn in *; [lia|]. inversion F as [|? ? ? ? [_ A] F']; subst.
  destruct j as [|j]; cbn in N.
  - injection N as ->. eapply entry_in; eauto.
  - refine (IH vals _ j _ N _ F'); lia.
Qed.
Lemma kv_in st gran date lat_off lon_off d i n kv : kv_uses i n kv -> forall ns j,
  dense_from st gran date lat_off lon_off d j kv ns -> length ns = n -> ~ out_of_table st i.
Proof.
  assert (M1 : forall k v l ts rest, k <> 0 -> kv_means st (k :: v :: l) ts rest ->
     exists t ts', ts = t :: ts' /\ entry st k (t_k t) /\ entry st v (t_v t) /\ kv_means st l ts' rest).
  { intros k v l ts rest K H. inversion H as [| |? ? t ? ts' ? N [T1 T2] H']; subst; [congruence|]. eauto 6. }
  intros U. induction U as [n v l N|n k l N|n k v l N U IH|n l U IH]; intros ns j D L;
    (destruct ns as [|x ns]; [discriminate|]); cbn [length] in L; destruct D as (Lj & M & kv' & K & D).
  - destruct (M1 _ _ _ _ _ N K) as (t & ts' & _ & A & B & _). eapply entry_in; eauto.
  - destruct (M1 _ _ _ _ _ N K) as (t & ts' & _ & A & B & _). eapply entry_in; eauto.
  - destruct (M1 _ _ _ _ _ N K) as (t & ts' & E & A & B & K').
    apply (IH (Node (n_id x) (n_version x) (n_coord x) (n_timestamp x) (n_changeset x) (n_uid x) (n_user x) (n_visible x) ts' :: ns) j); auto.
    cbn [dense_from]. split; auto. split; [exact M|]. exists kv'. split; auto.
  - inversion K; subst; [|congruence]. eapply (IH ns); eauto.
Qed.
Lemma dense_from_len st gran date lat_off lon_off d : forall ns i kv, dense_from st gran date lat_off lon_off d i kv ns ->
  (i + length ns = length (d_id d))%nat.
Proof. induction ns as [|n ns IH]; cbn; intros i kv D; [lia|]. destruct D as (_ & _ & kv' & _ & D). apply IH in D. lia. Qed.
Lemma Forall2_In {A B} (R : A -> B -> Prop) l l' a : Forall2 R l l' -> In a l -> exists b, R a b.
Proof. induction 1; cbn; [tauto|]. intros [->|I]; eauto. Qed.
Lemma dense_from_at st gran date lat_off lon_off d j : forall ns i kv, dense_from st gran date lat_off lon_off d i kv ns ->
  (i <= j < length (d_id d))%nat -> exists n, dense_node_means st gran date lat_off lon_off d j n.
Proof.
  induction ns as [|n ns IH]; intros i kv D J; cbn in D; [lia|]. destruct D as (L & M & kv' & K & D).
  destruct (Nat.eq_dec i j) as [->|N]; [eauto|]. eapply IH; eauto. lia.
Qed.
Theorem C48_bad_index_panics m b g i : In g (pb_groups b) -> used_indexes g i -> out_of_table (pb_strings b) i ->
  read_block m b = Panic.
Proof.
  intros G U O. destruct (read_block m b) as [es| |] eqn:E; auto; [exfalso|exfalso; eapply read_block_not_err; eauto].
  apply read_block_sound in E. destruct E as (_ & ess & F & _).
  destruct (Forall2_In _ _ _ _ F G) as (e & ds & ns & ws & rs & D & N & W & R & _).
  destruct U as [(p & I & U)|[(p & I & U)|[(p & I & U)|[(d & inf & j & U1 & U2 & U3 & U4 & ->)|(d & U1 & U2)]]]].
  - destruct (Forall2_In _ _ _ _ N I) as (n & _ & _ & _ & M & T). destruct U as [U|[U|(f & U1 & U2)]].
    + eapply tags_in; eauto. + eapply vals_in; eauto. + rewrite U1 in M. eapply info_in; eauto.
  - destruct (Forall2_In _ _ _ _ W I) as (n & _ & M & _ & _ & T). destruct U as [U|[U|(f & U1 & U2)]].
    + eapply tags_in; eauto. + eapply vals_in; eauto. + rewrite U1 in M. eapply info_in; eauto.
  - destruct (Forall2_In _ _ _ _ R I) as (n & _ & M & L & Q & T). destruct U as [U|[U|[(f & U1 & U2)|(j & U1 & U2)]]].
    + eapply tags_in; eauto. + eapply vals_in; eauto. + rewrite U1 in M. eapply info_in; eauto.
    + rewrite <- L in U1. apply nth_error_Some in U1. destruct (nth_error (r_members n) j) as [x|] eqn:X; [|congruence].
      destruct (Q _ _ X) as (_ & _ & sid & S1 & S2). assert (sid = i) by congruence. subst. eapply entry_in; eauto.
  - rewrite U1 in D. cbn in D. destruct (dense_from_at _ _ _ _ _ _ j _ _ _ D ltac:(lia)) as (n & _ & _ & _ & _ & _ & M).
    rewrite U2 in M. destruct M as (_ & _ & _ & _ & _ & _ & _ & _ & (sid & S1 & S2) & _).
    apply cong32_exact in S1; auto. subst. eapply entry_in; eauto.
  - rewrite U1 in D. cbn in D. eapply kv_in; eauto. apply dense_from_len in D. lia.
Qed.

(** metadata as read from an object without metadata: only the timestamp depends on the kind *)
Definition default_meta (dflt_ts ver ts cs uid : Z) (user : bytes) (vis : bool) : Prop :=
  ver = 0 /\ ts = dflt_ts /\ cs = -1 /\ uid = -1 /\ user = [] /\ vis = true.
Definition no_visible (oi : option info) : Prop := exists f, oi = Some f /\ i_visible f = None.
(** each group of the block contributes its dense nodes, plain nodes, ways and relations as a
    contiguous piece of the result, one element per message, and: no info means the defaults,
    no visible entry means visible *)
Theorem C47_defaults m b es : read_block m b = Ok es ->
  forall g, In g (pb_groups b) -> exists pre ds ns ws rs post,
    es = pre ++ (map ENode ds ++ map ENode ns ++ map EWay ws ++ map ERelation rs) ++ post /\
    (forall d, g_dense g = Some d -> length ds = length (d_id d) /\
       (d_info d = None -> Forall (fun n => default_meta 0 (n_version n) (n_timestamp n) (n_changeset n) (n_uid n) (n_user n) (n_visible n)) ds) /\
       (forall inf i n, d_info d = Some inf -> nth_error (di_visible inf) i = None -> nth_error ds i = Some n -> n_visible n = true)) /\
    Forall2 (fun p n => n_id n = pn_id p /\
       (pn_info p = None -> default_meta (-1) (n_version n) (n_timestamp n) (n_changeset n) (n_uid n) (n_user n) (n_visible n)) /\
       (no_visible (pn_info p) -> n_visible n = true)) (g_nodes g) ns /\
    Forall2 (fun p n => w_id n = pw_id p /\
       (pw_info p = None -> default_meta (-1) (w_version n) (w_timestamp n) (w_changeset n) (w_uid n) (w_user n) (w_visible n)) /\
       (no_visible (pw_info p) -> w_visible n = true)) (g_ways g) ws /\
    Forall2 (fun p n => r_id n = pr_id p /\
       (pr_info p = None -> default_meta (-1) (r_version n) (r_timestamp n) (r_changeset n) (r_uid n) (r_user n) (r_visible n)) /\
       (no_visible (pr_info p) -> r_visible n = true)) (g_relations g) rs.
Proof.
  intros E g G. apply read_block_sound in E. destruct E as (_ & ess & F & ->). cbv zeta in F.
  assert (Q : exists e, group_means (pb_strings b) (match pb_granularity b with Some x => x | None => 100 end)
         (match pb_date_granularity b with Some x => x | None => 1000 end)
         (match pb_lat_offset b with Some x => x | None => 0 end) (match pb_lon_offset b with Some x => x | None => 0 end) g e /\
         exists pre post, List.concat ess = pre ++ e ++ post).
  { induction F as [|x y l l' A F IH]; cbn in *; [tauto|]. destruct G as [->|I].
    - exists y. split; auto. exists [], (List.concat l'). reflexivity.
    - destruct (IH I) as (e & M & pre & post & J). exists e. split; auto. exists (y ++ pre), post. rewrite J, <- app_assoc. reflexivity. }
  destruct Q as (e & (ds & ns & ws & rs & D1 & N & W & R & C & ->) & pre & post & J).
  exists pre, ds, ns, ws, rs, post. split; [exact J|].
  assert (II : forall oi ts cs uid user vis ver dg, info_means (pb_strings b) dg oi ts cs uid user vis ver ->
     (oi = None -> default_meta (-1) ver ts cs uid user vis) /\ (no_visible oi -> vis = true)).
  { intros oi ts cs uid user vis ver dg M. split.
    - intros ->. cbn in M. unfold default_meta. intuition.
    - intros (f & -> & V). cbn in M. rewrite V in M. intuition. }
  sconj.
  - intros d D. rewrite D in D1. cbn in D1.
    assert (K : forall ds i kv, dense_from (pb_strings b) (match pb_granularity b with Some x => x | None => 100 end)
         (match pb_date_granularity b with Some x => x | None => 1000 end)
         (match pb_lat_offset b with Some x => x | None => 0 end) (match pb_lon_offset b with Some x => x | None => 0 end) d i kv ds ->
       (i + length ds = length (d_id d))%nat /\
       (d_info d = None -> Forall (fun n => default_meta 0 (n_version n) (n_timestamp n) (n_changeset n) (n_uid n) (n_user n) (n_visible n)) ds) /\
       (forall inf j n, d_info d = Some inf -> nth_error (di_visible inf) (i + j)%nat = None -> nth_error ds j = Some n -> n_visible n = true)).
    { clear. induction ds as [|n ds IH]; cbn [dense_from]; intros i kv H.
      - cbn [length]. sconj; [lia|constructor|]. intros inf [|j]; discriminate.
      - destruct H as (L & (_ & _ & _ & _ & _ & M) & kv' & _ & H). destruct (IH _ _ H) as (A & B & C). cbn [length]. sconj; [lia| |].
        + intros I. constructor; auto. rewrite I in M. unfold default_meta. intuition.
        + intros inf [|j] x I V X; cbn in X.
          * injection X as <-. rewrite I in M. replace (i + 0)%nat with i in V by lia. rewrite V in M. intuition.
          * eapply (C inf j); eauto. replace (S i + j)%nat with (i + S j)%nat by lia. auto. }
    exact (K _ 0%nat _ D1).
  - clear - N II. induction N as [|p n l l' (A & _ & _ & M & _) N IH]; constructor; eauto.
  - clear - W II. induction W as [|p n l l' (A & M & _) W IH]; constructor; eauto.
  - clear - R II. induction R as [|p n l l' (A & M & _) R IH]; constructor; eauto.
Qed.
