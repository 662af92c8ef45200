(** C62 (header information a program builds) and C68 (bounding boxes of blocks and headers). *)
From Coq Require Import ZArith List Bool Lia Strings.Byte Strings.String Reals Lra Permutation.
From Coq Require Import Floats.SpecFloat.
From Verif Require Import Base BaseFacts Types Proto ProtoFacts Block BlockFacts FloatFacts FileFormat FileFacts Spec FileSpec ModelSpec Model2 ModelFacts
  WriterFacts PropFile FileInfoModel InfoSpec.
Import ListNotations.
Local Notation length := List.length.
Local Notation concat := List.concat.
Open Scope Z_scope.

(** ** C62 *)
Lemma last_cons {A} (x d : A) l : last (x :: l) d = last l x.
Proof. revert x d. induction l as [|y l IH]; intros x d; auto. change (last (y :: l) d = last (y :: l) x). rewrite !IH. reflexivity. Qed.
(** whatever setters are called in whatever order: every getter shows the last value set, or the value from before *)
Theorem C62_setters i l : let j := set_fields i l in
  latest (fi_bbox i) (boxes_set l) (fi_bbox j) /\ latest (fi_required i) (required_set l) (fi_required j) /\
  latest (fi_optional i) (optional_set l) (fi_optional j) /\ latest (fi_program i) (program_set l) (fi_program j) /\
  latest (fi_source i) (source_set l) (fi_source j) /\ latest (fi_ts i) (timestamp_set l) (fi_ts j) /\
  latest (fi_seq i) (sequence_set l) (fi_seq j) /\ latest (fi_url i) (url_set l) (fi_url j).
Proof.
  cbv zeta. unfold latest, set_fields. revert i. induction l as [|s l IH]; intros i; [cbn; auto 10|].
  cbn [fold_left]. specialize (IH (set_field i s)).
  unfold boxes_set, required_set, optional_set, program_set, source_set, timestamp_set, sequence_set, url_set in *. cbn [flat_map].
  destruct i, s; cbn [set_field FileFormat.fi_bbox FileFormat.fi_required FileFormat.fi_optional FileFormat.fi_program FileFormat.fi_source FileFormat.fi_ts FileFormat.fi_seq FileFormat.fi_url app] in *; rewrite ?last_cons; exact IH.
Qed.
(** the feature queries: membership in the list *)
Lemma is_in l f : existsb (fun x => bytes_eqb x f) l = true <-> In f l.
Proof.
  rewrite existsb_exists. split.
  - intros (x & I & E). apply bytes_eqb_eq in E. subst. auto.
  - intros I. exists f. split; auto. apply bytes_eqb_refl.
Qed.
Theorem C62_feature_queries i f :
  (fi_is_required i f = true <-> In f (fi_required i)) /\ (fi_is_optional i f = true <-> In f (fi_optional i)).
Proof. split; apply is_in. Qed.

Lemma utf8_features : utf8_all [str "OsmSchema-V0.6"; str "DenseNodes"] /\ utf8_all [str "HistoricalInformation"] /\ utf8_all [str "Sort.Type_then_ID"].
Proof. unfold utf8_all. repeat split; repeat constructor. Qed.
Lemma new_info_ok program source ts seq url bb hist :
  utf8_ok program = true -> utf8_ok source = true -> i64_opt ts -> i64_opt seq -> utf8_opt url ->
  let i := fi_writer_new program source ts seq url bb hist in info_ok i /\ ~ info_empty i /\ Forall supported (fi_required i).
Proof.
  intros P S T Q U i. destruct utf8_features as (F1 & F2 & F3). sconj.
  - unfold info_ok, i, fi_writer_new. cbn [fi_required fi_optional fi_program fi_source fi_ts fi_seq fi_url]. sconj; auto.
    + destruct hist; [|rewrite app_nil_r; auto]. apply Forall_app. auto.
    + intros s E. injection E as <-. auto.
    + intros s E. injection E as <-. auto.
  - unfold info_empty, i, fi_writer_new. intros E. apply (f_equal fi_program) in E. discriminate E.
  - unfold i, fi_writer_new. cbn [fi_required]. unfold supported. destruct hist; cbn [app]; repeat (apply Forall_cons; [auto|]); auto.
Qed.
(** a file made with Writer::new is always readable, and its header says what was given to Writer::new: the
    history flag appears as the required feature, and the writer promises the file order *)
Theorem C62_writer_new m c program source ts seq url bb k hist es stream file :
  codec_ok c -> utf8_ok program = true -> utf8_ok source = true -> i64_opt ts -> i64_opt seq -> utf8_opt url ->
  header_fits c k (fi_writer_new program source ts seq url bb hist) ->
  Forall element_ok es -> without_sentinels es stream -> blocks_fit m c k stream ->
  new_writer_file m c program source ts seq url bb k hist es = Ok file ->
  exists i' stream', reader_new m c file = Ok i' /\
    fi_is_required i' (str "HistoricalInformation") = hist /\ fi_is_required i' (str "OsmSchema-V0.6") = true /\
    fi_is_required i' (str "DenseNodes") = true /\ fi_is_optional i' (str "Sort.Type_then_ID") = true /\
    fi_program i' = Some program /\ fi_source i' = Some source /\ fi_ts i' = ts /\ fi_seq i' = seq /\ fi_url i' = url /\
    (fi_bbox i' = None <-> bb = None) /\
    elements_run m c file stream' Ended /\ Forall2 written_read stream stream'.
Proof.
  intros C P S T Q U HF EO WS BF H. unfold new_writer_file in H.
  destruct (new_info_ok program source ts seq url bb hist P S T Q U) as (I1 & I2 & I3).
  destruct (C16_whole_file_round_trip m c _ k es stream file C I1 I2 HF I3 EO WS BF H) as (i' & st & R & W & E & F).
  exists i', st. destruct W as (W1 & W2 & W3 & W4 & W5 & W6 & W7 & W8).
  unfold fi_is_required, fi_is_optional. rewrite W1, W2. sconj; auto.
  all: unfold fi_writer_new; cbn [fi_required]; destruct hist; vm_compute; reflexivity.
Qed.
(** the same for FileInfo::default(), with any setters that leave the required features alone or set supported ones *)
Theorem C62_default_header m c l k : codec_ok c ->
  let i := set_fields fi_default l in
  info_ok i -> ~ info_empty i -> header_fits c k i -> Forall (Forall supported) (required_set l) ->
  exists w i', write_header m c (writer_new i k) = Ok w /\ reader_new m c (wr_file w) = Ok i' /\ info_written_read i i'.
Proof.
  intros C i IO NE HF S. destruct (C12_header_round_trip_partial m c k i C IO NE HF) as (w & i' & W & _ & R & X).
  exists w, i'. sconj; auto. apply X. destruct (C62_setters fi_default l) as (_ & L & _). red in L. fold i in L. rewrite L.
  assert (D : Forall supported (fi_required fi_default)) by (unfold supported, fi_default; cbn [fi_required]; repeat (apply Forall_cons; [auto|]); auto).
  revert S D. generalize (required_set l), (fi_required fi_default). clear. intros l. induction l as [|x l IH]; intros d S D; [exact D|].
  rewrite last_cons. inversion S; subst. apply IH; auto.
Qed.

(** ** C68 *)
Lemma leading_cons n es k : leading (ENode n :: es) k <-> k = n \/ leading es k.
Proof.
  split.
  - intros ([|x pre] & post & E & A).
    + injection E as -> ->. auto.
    + injection E as <- ->. right. inversion A; subst. exists pre, post. auto.
  - intros [->|(pre & post & -> & A)]; [exists [], es; split; [auto|constructor]|]. exists (ENode n :: pre), post. split; auto. constructor; eauto.
Qed.
Lemma leading_stop e es k : (forall n, e <> ENode n) -> ~ leading (e :: es) k.
Proof.
  intros N ([|x pre] & post & E & A); injection E as -> E; [apply (N k); auto|]. inversion A as [|? ? (n & ->)]; subst. apply (N n); auto.
Qed.
Lemma recompute_from es : forall a, box_ok a -> (forall n, leading es n -> point_ok (n_coord n)) ->
  exists b, recompute_bbox_from (Some a) es = Some b /\ box_ok b /\ box_le a b /\
    (forall n, leading es n -> in_box (n_coord n) b) /\
    (forall o, box_le a o -> (forall n, leading es n -> in_box (n_coord n) o) -> box_le b o).
Proof.
  induction es as [|e es IH]; intros a A H.
  - exists a. cbn [recompute_bbox_from]. sconj; auto using box_le_refl. intros n ([|? ?] & ? & E & _); discriminate E.
  - destruct e as [n|w|r|].
    2,3,4: (exists a; cbn [recompute_bbox_from]; sconj; auto using box_le_refl; intros x L; exfalso; revert L; apply leading_stop; intros; discriminate).
    cbn [recompute_bbox_from]. assert (P : point_ok (n_coord n)) by (apply H, leading_cons; auto).
    rewrite merge_point_is_merge. pose proof (from_point_ok _ P) as FP. destruct (merge_lub a _ A FP) as (L1 & L2 & L3).
    destruct (IH (bb_merge a (bb_from_point (n_coord n)))) as (b & E & B1 & B2 & B3 & B4).
    { apply merge_ok; auto. } { intros k K. apply H, leading_cons. auto. }
    exists b. sconj; auto.
    + eapply box_le_trans; eauto.
    + intros k K. apply leading_cons in K. destruct K as [->|K]; auto. apply (proj1 (point_in_le _ _)). eapply box_le_trans; eauto.
    + intros o O1 O2. apply B4; [|intros k K; apply O2, leading_cons; auto]. apply L3; auto. apply (proj2 (point_in_le _ _)), O2, leading_cons. auto.
Qed.
(** the box of a block: the least box around the nodes at the front of the block (all the nodes of a block the
    library writes), and none exactly when the block does not begin with a node *)
Theorem C68_block_box es : (forall n, leading es n -> point_ok (n_coord n)) ->
  match compute_bbox None es with
  | Some b => (exists n, leading es n) /\ least_box (fun p => exists n, leading es n /\ n_coord n = p) b
  | None => forall n, ~ leading es n
  end.
Proof.
  intros H. unfold compute_bbox, recompute_bbox. destruct es as [|e es]; [cbn; intros n ([|? ?] & ? & E & _); discriminate E|].
  destruct e as [n|w|r|]; cbn [recompute_bbox_from].
  2,3,4: (intros x; apply leading_stop; intros; discriminate).
  assert (P : point_ok (n_coord n)) by (apply H, leading_cons; auto). pose proof (from_point_ok _ P) as FP.
  change (BBox (lon (n_coord n)) (lat (n_coord n)) (lon (n_coord n)) (lat (n_coord n))) with (bb_from_point (n_coord n)).
  destruct (recompute_from es (bb_from_point (n_coord n)) FP) as (b & E & B1 & B2 & B3 & B4).
  { intros k K. apply H, leading_cons. auto. }
  rewrite E. split; [exists n; apply leading_cons; auto|]. unfold least_box. sconj; auto.
  - intros p (k & K & <-). apply leading_cons in K. destruct K as [->|K]; [apply (proj1 (point_in_le _ _)); auto|auto].
  - intros o O. apply B4; [apply (proj2 (point_in_le _ _)), O; exists n; split; auto; apply leading_cons; auto|]. intros k K. apply O. exists k. split; auto. apply leading_cons. auto.
Qed.
(** a box given with the elements wins; a block in a file has none given, a header block has the header's box *)
Theorem C68_given_box b es i j k : compute_bbox (Some b) es = Some b /\ fblock_bbox (FHeader i j) = fi_bbox j /\ fblock_bbox (FData k es) = compute_bbox None es.
Proof. auto. Qed.
(** in a block of one type the leading nodes are all the nodes *)
Theorem C68_nodes_block es : all_nodes es -> es <> [] -> (forall n, In (ENode n) es -> point_ok (n_coord n)) ->
  exists b, compute_bbox None es = Some b /\ least_box (fun p => exists n, In (ENode n) es /\ n_coord n = p) b.
Proof.
  intros A NE H.
  assert (L : forall n, leading es n <-> In (ENode n) es).
  { intros n. split.
    - intros (pre & post & -> & _). apply in_or_app. right. left. auto.
    - intros I. apply in_split in I. destruct I as (pre & post & ->). exists pre, post. split; auto. unfold all_nodes in *. apply Forall_app in A. tauto. }
  pose proof (C68_block_box es) as B. destruct (compute_bbox None es) as [b|].
  - exists b. split; auto. destruct B as (_ & B1 & B2 & B3). { intros n K. apply H, L, K. }
    unfold least_box. sconj; auto.
    + intros p (n & I & <-). apply B2. exists n. split; auto. apply L, I.
    + intros o O. apply B3. intros p (n & I & <-). apply O. exists n. split; auto. apply L, I.
  - exfalso. destruct es as [|e es]; [congruence|]. inversion A as [|? ? (n & ->) _]; subst.
    assert (X : forall n0, ~ leading (ENode n :: es) n0) by (apply B; intros k K; apply H, L, K). apply (X n), leading_cons. auto.
Qed.
(** merging the boxes of blocks into a header: for any list, the least box around the header's own and all of them;
    every other field of the header is untouched *)
Theorem C68_merge_into_header i l : (forall b, fi_bbox i = Some b \/ In (Some b) l -> box_ok b) ->
  let j := fold_left fi_merge_bbox l i in
  match fi_bbox j with
  | Some b => least_cover (fun x => fi_bbox i = Some x \/ In (Some x) l) b
  | None => fi_bbox i = None /\ forall x, ~ In (Some x) l
  end /\
  fi_required j = fi_required i /\ fi_optional j = fi_optional i /\ fi_program j = fi_program i /\ fi_source j = fi_source i /\
  fi_ts j = fi_ts i /\ fi_seq j = fi_seq i /\ fi_url j = fi_url i.
Proof.
  cbv zeta. revert i. induction l as [|o l IH]; intros i H.
  - cbn [fold_left]. sconj; auto. destruct (fi_bbox i) as [b|] eqn:E; [|split; auto].
    assert (B : box_ok b) by (apply H; auto). unfold least_cover. sconj; auto.
    + intros x [X|[]]. injection X as <-. apply box_le_refl. auto.
  - cbn [fold_left]. specialize (IH (fi_merge_bbox i o)).
    assert (FX : fi_required (fi_merge_bbox i o) = fi_required i /\ fi_optional (fi_merge_bbox i o) = fi_optional i /\ fi_program (fi_merge_bbox i o) = fi_program i /\
      fi_source (fi_merge_bbox i o) = fi_source i /\ fi_ts (fi_merge_bbox i o) = fi_ts i /\ fi_seq (fi_merge_bbox i o) = fi_seq i /\ fi_url (fi_merge_bbox i o) = fi_url i).
    { destruct i as [[b|] rq op pr so ts sq ur], o as [o|]; cbn; auto 10. }
    assert (BX : fi_bbox (fi_merge_bbox i o) = match fi_bbox i, o with None, _ => o | Some b, None => Some b | Some b, Some x => Some (bb_merge b x) end).
    { destruct i as [[b|] rq op pr so ts sq ur], o as [o|]; reflexivity. }
    rewrite BX in IH. destruct FX as (X1 & X2 & X3 & X4 & X5 & X6 & X7). rewrite X1, X2, X3, X4, X5, X6, X7 in IH.
    destruct IH as (IH & F).
    { intros b [E|I]; [|apply H; right; right; auto]. destruct (fi_bbox i) as [b0|] eqn:E0, o as [o|]; try discriminate E.
      - injection E as <-. apply merge_ok; apply H; [auto|right; left; auto].
      - injection E as <-. apply H. auto.
      - injection E as <-. apply H. right; left; auto. }
    split; [|exact F]. clear F X1 X2 X3 X4 X5 X6 X7 BX.
    destruct (fi_bbox (fold_left fi_merge_bbox l (fi_merge_bbox i o))) as [b|].
    + destruct IH as (B1 & B2 & B3). split; [exact B1|]. split.
      * intros x [E|[E|I]]; [| |apply B2; auto].
        { rewrite E in *. destruct o as [o|]; [|apply B2; auto]. eapply box_le_trans; [|apply B2; left; reflexivity].
          destruct (merge_lub x o) as (L1 & _); auto. apply H. right; left; auto. }
        { subst o. destruct (fi_bbox i) as [b0|] eqn:E0; [|apply B2; auto]. eapply box_le_trans; [|apply B2; left; reflexivity].
          destruct (merge_lub b0 x) as (_ & L2 & _); auto. apply H. right; left; auto. }
      * intros q O. apply B3. intros x [E|I]; [|apply O; right; right; auto].
        destruct (fi_bbox i) as [b0|] eqn:E0, o as [o|]; try discriminate E.
        { injection E as <-. destruct (merge_lub b0 o) as (_ & _ & L3); [apply H; auto|apply H; right; left; auto|]. apply L3; apply O; [auto|right; left; auto]. }
        { injection E as <-. apply O. auto. }
        { injection E as <-. apply O. right; left; auto. }
    + destruct IH as (IH1 & IH2). destruct (fi_bbox i) as [b0|] eqn:E0; [destruct o; discriminate IH1|]. split; auto.
      intros x [E|I]; [rewrite E in IH1; discriminate IH1|apply (IH2 x I)].
Qed.
(** the default box is the whole globe *)
Theorem C68_default_box p : point_ok p -> (in_box p bb_default <-> on_globe p).
Proof.
  intros ((V1 & N1) & (V2 & N2)). unfold in_box, bb_default, on_globe. cbn [bb_left bb_bottom bb_right bb_top].
  assert (K : forall z x, z = 180 \/ z = 90 -> x <> S754_nan ->
    (num_le (f_of_Z (- z)) x /\ num_le x (f_of_Z z) <-> f_finite x /\ (Rabs (f2r x) <= IZR z)%R)).
  { clear. intros z x Z0 N.
    assert (A : exists s1 m1 e1, f_of_Z (- z) = S754_finite s1 m1 e1 /\ f2r (S754_finite s1 m1 e1) = IZR (- z)).
    { assert (F : f2r (f_of_Z (- z)) = IZR (- z)) by (apply f_of_Z_ok; lia).
      destruct Z0; subst z; (do 3 eexists; split; [vm_compute; reflexivity|]); rewrite <- F; reflexivity. }
    assert (B : exists s1 m1 e1, f_of_Z z = S754_finite s1 m1 e1 /\ f2r (S754_finite s1 m1 e1) = IZR z).
    { assert (F : f2r (f_of_Z z) = IZR z) by (apply f_of_Z_ok; lia).
      destruct Z0; subst z; (do 3 eexists; split; [vm_compute; reflexivity|]); rewrite <- F; reflexivity. }
    destruct A as (s1 & m1 & e1 & -> & A). destruct B as (s2 & m2 & e2 & -> & B). rewrite opp_IZR in A.
    destruct x as [s|[|]| |s mm e]; unfold num_le, f_finite; try tauto; try congruence; try (split; [tauto|intros (X & _); discriminate X]).
    - rewrite A, B. split; [intros (X & Y); split; auto; apply Rabs_le; lra|intros (_ & X)]. 
      revert X. unfold Rabs. destruct (Rcase_abs _); intros; lra.
    - rewrite A, B. split; [intros (X & Y); split; auto; apply Rabs_le; lra|intros (_ & X)].
      revert X. unfold Rabs. destruct (Rcase_abs _); intros; lra. }
  pose proof (K 180 (lon p) (or_introl eq_refl) N2) as K1. pose proof (K 90 (lat p) (or_intror eq_refl) N1) as K2. tauto.
Qed.
