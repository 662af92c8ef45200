(** C96: pbf-info, from the file to the lines it prints. *)
From Coq Require Import ZArith List Bool Lia Strings.Byte Strings.String.
From Verif Require Import Base BaseFacts Types Proto ProtoFacts Block BlockFacts FileFormat FileFacts WriterFacts Spec SpecFacts FileSpec FormatSpec ModelSpec
  PropBlock PropFile PropLegal CallSpec Calls PropCalls FileInfoModel InfoSpec PropInfo ApidbText Converters IsoSpec PropIso InfoProgram.
Import ListNotations.
Local Notation length := List.length.
Local Notation concat := List.concat.
Open Scope Z_scope.

(** the lines that begin with [label] are, in this order, those of [xs] *)
Definition labelled (label : string) (lines xs : list bytes) : Prop :=
  picked (fun l => exists x, l = str label ++ x) lines (map (fun x => str label ++ x) xs).
Definition if_any {A} (o : option A) : list A := match o with None => [] | Some x => [x] end.

(** ** lines in groups with different labels *)
Fixpoint differ (p q : bytes) : bool := match p, q with a :: p', b :: q' => if Byte.eqb a b then differ p' q' else true | _, _ => false end.
Lemma differ_ne p : forall q x y, differ p q = true -> q ++ x <> p ++ y.
Proof.
  induction p as [|a p IH]; intros [|b q] x y D; try discriminate D. cbn [differ] in D. cbn. destruct (Byte.eqb a b) eqn:E.
  - intros X. injection X as _ X. exact (IH _ _ _ D X).
  - intros X. injection X as -> _. assert (Byte.eqb a a = true) by (apply Byte.byte_dec_lb; reflexivity). congruence.
Qed.
Definition grouped (gs : list (string * list bytes)) : list bytes := concat (map (fun g => map (fun x => str (fst g) ++ x) (snd g)) gs).
Lemma picked_app {A} (P : A -> Prop) a b a' b' : picked P a a' -> picked P b b' -> picked P (a ++ b) (a' ++ b').
Proof. induction 1; cbn; intros; auto; [constructor; auto|constructor; auto]. Qed.
Definition own (p : string) (gs : list (string * list bytes)) : list bytes := concat (map snd (filter (fun g => String.eqb p (fst g)) gs)).
Lemma grouped_labelled p gs : forallb (fun g => String.eqb p (fst g) || differ (str p) (str (fst g))) gs = true -> labelled p (grouped gs) (own p gs).
Proof.
  unfold labelled. induction gs as [|(q, xs) gs IH]; intros H; [constructor|]. cbn [forallb fst] in H. apply andb_true_iff in H as (H & T). specialize (IH T).
  unfold grouped, own in *. cbn [map concat filter fst snd]. destruct (String.eqb p q) eqn:E.
  - apply String.eqb_eq in E. subst q. cbn [map concat snd]. rewrite map_app. apply picked_app; auto. clear. induction xs as [|x xs IH]; cbn; constructor; eauto.
  - cbn [orb] in H. change (map (fun x => str p ++ x) (concat (map snd (filter (fun g => String.eqb p (fst g)) gs)))) with ([] ++ map (fun x => str p ++ x) (concat (map snd (filter (fun g => String.eqb p (fst g)) gs)))).
    apply picked_app; auto. clear - H. induction xs as [|x xs IH]; cbn; constructor; auto. intros (y & X). exact (differ_ne _ _ _ _ H X).
Qed.

Definition groups (show : f64 -> bytes) (path : bytes) (i : file_info) (time : list bytes) : list (string * list bytes) :=
  [ ("PBF file: "%string, [path]); ("Bounding box: "%string, [match fi_bbox i with None => str "None" | Some b => box_text show b end]);
    ("Required feature: "%string, fi_required i); ("Optional feature: "%string, fi_optional i); ("Writing program: "%string, if_any (fi_program i)); ("Source: "%string, if_any (fi_source i));
    ("osmosis_replication_timestamp: "%string, time); ("osmosis_replication_sequence_number: "%string, map show_int (if_any (fi_seq i)));
    ("osmosis_replication_base_url: "%string, if_any (fi_url i)); ("Feature queries"%string, [[]]);
    ("Required 'HistoricalInformation': "%string, [bool_text (fi_is_required i (str "HistoricalInformation"))]); ("Required 'DenseNodes': "%string, [bool_text (fi_is_required i (str "DenseNodes"))]);
    ("Optional 'Sort.Type_then_ID': "%string, [bool_text (fi_is_optional i (str "Sort.Type_then_ID"))]) ].
Lemma lines_grouped show path i time : lines_before show path i ++ map (fun s => str "osmosis_replication_timestamp: " ++ s) time ++ lines_after i = grouped (groups show path i time).
Proof.
  unfold lines_before, lines_after, grouped, groups. cbn [map concat fst snd if_any]. rewrite <- !app_assoc. rewrite !app_nil_r.
  destruct (fi_program i), (fi_source i), (fi_seq i), (fi_url i); reflexivity.
Qed.

(** C96: what pbf-info prints about a file it can open whose replication timestamp, if any, is within chrono's years: each item of the header on a line of its
    own, and nothing else under that label; it ends well exactly if the three features it asserts are there, and panics otherwise *)
Theorem C96_prints m c show path file i lines r :
  reader_new m c file = Ok i -> (forall t, fi_ts i = Some t -> IsoSpec.representable t) -> pbf_info m c show path file = (lines, r) ->
  labelled "PBF file: " lines [path] /\
  labelled "Bounding box: " lines [match fi_bbox i with None => str "None" | Some b =>
    str "left: " ++ show (bb_left b) ++ str ", bottom: " ++ show (bb_bottom b) ++ str ", right: " ++ show (bb_right b) ++ str ", top: " ++ show (bb_top b) end] /\
  labelled "Required feature: " lines (fi_required i) /\ labelled "Optional feature: " lines (fi_optional i) /\
  labelled "Writing program: " lines (if_any (fi_program i)) /\ labelled "Source: " lines (if_any (fi_source i)) /\
  (exists time, Forall2 iso_text (if_any (fi_ts i)) time /\ labelled "osmosis_replication_timestamp: " lines time) /\
  labelled "osmosis_replication_sequence_number: " lines (map show_int (if_any (fi_seq i))) /\
  labelled "osmosis_replication_base_url: " lines (if_any (fi_url i)) /\
  (exists h d s, labelled "Required 'HistoricalInformation': " lines [h] /\ labelled "Required 'DenseNodes': " lines [d] /\ labelled "Optional 'Sort.Type_then_ID': " lines [s] /\
    (In (str "HistoricalInformation") (fi_required i) /\ h = str "true" \/ ~ In (str "HistoricalInformation") (fi_required i) /\ h = str "false") /\
    (In (str "DenseNodes") (fi_required i) /\ d = str "true" \/ ~ In (str "DenseNodes") (fi_required i) /\ d = str "false") /\
    (In (str "Sort.Type_then_ID") (fi_optional i) /\ s = str "true" \/ ~ In (str "Sort.Type_then_ID") (fi_optional i) /\ s = str "false")) /\
  (r = Ok tt \/ r = Panic) /\
  (r = Ok tt <-> In (str "HistoricalInformation") (fi_required i) /\ In (str "DenseNodes") (fi_required i) /\ In (str "Sort.Type_then_ID") (fi_optional i)).
Proof.
  intros RN TS H.
  assert (G : exists time, Forall2 iso_text (if_any (fi_ts i)) time /\ lines = grouped (groups show path i time) /\ r = assertions i).
  { unfold pbf_info in H. rewrite RN in H. destruct (fi_ts i) as [t|] eqn:T.
    - destruct (C63_replication_timestamp (match m with Checked => true | Wrapping => false end) t (TS _ eq_refl)) as (s & E & IT). rewrite E in H. injection H as <- <-.
      exists [s]. split; [constructor; auto|]. split; auto. rewrite <- lines_grouped. reflexivity.
    - injection H as <- <-. exists []. split; [constructor|]. split; auto. rewrite <- lines_grouped. reflexivity. }
  destruct G as (time & IT & -> & ->).
  assert (L : forall p, forallb (fun g => String.eqb p (fst g) || differ (str p) (str (fst g))) (groups show path i time) = true -> labelled p (grouped (groups show path i time)) (own p (groups show path i time))) by (intros p; apply grouped_labelled).
  assert (ON : forall p xs, own p (groups show path i time) = xs -> forallb (fun g => String.eqb p (fst g) || differ (str p) (str (fst g))) (groups show path i time) = true -> labelled p (grouped (groups show path i time)) xs).
  { intros p xs <-. apply L. }
  assert (BT : forall b (P : Prop), (b = true <-> P) -> P /\ bool_text b = str "true" \/ ~ P /\ bool_text b = str "false").
  { intros b P X. destruct b; [left; split; [apply X; reflexivity|reflexivity]|right; split; [intros Y; apply X in Y; discriminate Y|reflexivity]]. }
  assert (AS : assertions i = Ok tt \/ assertions i = Panic) by (unfold assertions; destruct (_ && _ && _); auto).
  assert (AI : assertions i = Ok tt <-> In (str "HistoricalInformation") (fi_required i) /\ In (str "DenseNodes") (fi_required i) /\ In (str "Sort.Type_then_ID") (fi_optional i)).
  { unfold assertions. rewrite <- (proj1 (C62_feature_queries i (str "HistoricalInformation"))), <- (proj1 (C62_feature_queries i (str "DenseNodes"))), <- (proj2 (C62_feature_queries i (str "Sort.Type_then_ID"))).
    destruct (fi_is_required i (str "HistoricalInformation")), (fi_is_required i (str "DenseNodes")), (fi_is_optional i (str "Sort.Type_then_ID")); cbn; intuition discriminate. }
  split; [apply ON; reflexivity|]. split; [apply ON; reflexivity|].
  split; [apply ON; [unfold own, groups; cbn; apply app_nil_r|reflexivity]|]. split; [apply ON; [unfold own, groups; cbn; apply app_nil_r|reflexivity]|].
  split; [apply ON; [unfold own, groups; cbn; apply app_nil_r|reflexivity]|]. split; [apply ON; [unfold own, groups; cbn; apply app_nil_r|reflexivity]|].
  split; [exists time; split; auto; apply ON; [unfold own, groups; cbn; apply app_nil_r|reflexivity]|].
  split; [apply ON; [unfold own, groups; cbn; apply app_nil_r|reflexivity]|]. split; [apply ON; [unfold own, groups; cbn; apply app_nil_r|reflexivity]|].
  split; [|split; [exact AS|exact AI]].
  exists (bool_text (fi_is_required i (str "HistoricalInformation"))), (bool_text (fi_is_required i (str "DenseNodes"))), (bool_text (fi_is_optional i (str "Sort.Type_then_ID"))).
  split; [apply ON; reflexivity|]. split; [apply ON; reflexivity|]. split; [apply ON; reflexivity|].
  split; [apply BT, C62_feature_queries|]. split; apply BT, C62_feature_queries.
Qed.
(** what is behind the first blob makes no difference, nor does damage there *)
Theorem C96_header_only m c show path file i more : reader_new m c file = Ok i -> pbf_info m c show path (file ++ more) = pbf_info m c show path file.
Proof.
  intros RN. assert (RM : reader_new m c (file ++ more) = Ok i); [|unfold pbf_info; rewrite RN, RM; reflexivity].
  apply C14_feature_gate in RN. apply C14_feature_gate. destruct RN as (h & body & b & p & hd & (lb & hb & rest & -> & SB) & R). exists h, body, b, p, hd. split; [|exact R].
  exists lb, hb, (rest ++ more). split; [rewrite <- !app_assoc; reflexivity|exact SB].
Qed.
(** a file that cannot be opened: nothing is printed, and the end is that of Reader::new. A timestamp beyond chrono's years: the lines before it, and no good end in a debug build *)
Theorem C96_other_ends m c show path file lines r : pbf_info m c show path file = (lines, r) ->
  ((forall i, reader_new m c file <> Ok i) -> lines = [] /\ (r = Err /\ reader_new m c file = Err \/ r = Panic /\ reader_new m c file = Panic)) /\
  (forall i t, reader_new m c file = Ok i -> fi_ts i = Some t -> ~ IsoSpec.representable t -> m = Checked ->
     (r = Err \/ r = Panic) /\ labelled "Required feature: " lines (fi_required i) /\ labelled "osmosis_replication_timestamp: " lines [] /\ labelled "osmosis_replication_sequence_number: " lines []).
Proof.
  intros H. unfold pbf_info in H. split.
  - intros N. destruct (reader_new m c file) as [i| |]; [exfalso; eapply N; reflexivity| |]; injection H as <- <-; auto.
  - intros i t RN T NR ->. rewrite RN, T in H.
    assert (E : replication_time_text true t = Err \/ replication_time_text true t = Panic).
    { destruct (C63_other_timestamps true t NR) as (A & B). destruct (Z_le_dec min_i64 (t * 1000000)) as [L1|L1]; [destruct (Z_le_dec (t * 1000000) max_i64) as [L2|L2]|].
      - left. apply A. unfold I64, min_i64, max_i64 in *. lia.
      - right. apply B. unfold I64, min_i64, max_i64 in *. lia.
      - right. apply B. unfold I64, min_i64, max_i64 in *. lia. }
    assert (X : lines = lines_before show path i /\ (r = Err \/ r = Panic)).
    { destruct E as [E|E]; rewrite E in H; injection H as <- <-; auto. }
    destruct X as (-> & R). split; [exact R|].
    assert (Q : exists gs, lines_before show path i = grouped gs /\ gs = firstn 6 (groups show path i [])).
    { eexists. split; [|reflexivity]. unfold lines_before, grouped, groups. cbn [firstn map concat fst snd if_any]. rewrite <- ?app_assoc, ?app_nil_r. destruct (fi_program i), (fi_source i); reflexivity. }
    destruct Q as (gs & -> & ->).
    assert (ON : forall p xs, own p (firstn 6 (groups show path i [])) = xs -> forallb (fun g => String.eqb p (fst g) || differ (str p) (str (fst g))) (firstn 6 (groups show path i [])) = true -> labelled p (grouped (firstn 6 (groups show path i []))) xs).
    { intros p xs <-. apply grouped_labelled. }
    split; [apply ON; [unfold own, groups; cbn; apply app_nil_r|reflexivity]|]. split; apply ON; reflexivity.
Qed.
