(** Property C93, second part: a way node or member that cannot be read. *)
From Coq Require Import ZArith List Bool Strings.Byte Strings.String Lia Permutation.
From Verif Require Import Base BaseFacts Types ApidbText ApidbSpec ApidbTextFacts DumpSpec ApidbWrite ApidbWriteFacts ApidbRead DumpReadSpec FileFormat
  ApidbReadFacts TocFacts JoinFacts ReaderFacts PropApidbRead MissSpec PropMiss FieldSpec PropFields DumpReadFails DumpReadFailsSpec PropDumpReadFails NullSpec PropNull.
From Verif Require PropDump.
Import ListNotations.
Local Notation length := List.length.
Local Notation concat := List.concat.
Open Scope Z_scope.

(** ** An iteration that gets through the objects has read all that belongs to them *)
Section Consumed.
Context {I O R D : Type} (next : I -> res (option O * I)) (make : O -> res element) (create : bytes -> res R) (cd : bytes -> res D)
  (front : I -> list bytes) (parts : I -> dep D) (lead : O -> R) (ko : R -> Z * Z) (kd : D -> Z * Z).
Hypothesis STEP : forall i x j, next i = Ok (Some x, j) -> table_next create (front i) = Ok (Some (lead x), front j) /\
  exists xs, attach cd (fun d => key_eqb (kd d) (ko (lead x))) (fst (parts i)) (snd (parts i)) = Ok (xs, fst (parts j), snd (parts j)).
Hypothesis STOP : forall i j, next i = Ok (None, j) -> exists ls, table_next create (front i) = Ok (None, ls).
Variables (Q Qd : row_of -> Prop) (ro rd : row_of -> Z * Z).
Definition says_o (w : row_of) (l : bytes) : Prop := data_line l = true /\ outcome (create l) (Q w) (fun r => ko r = ro w).
Definition says_d (w : row_of) (l : bytes) : Prop := data_line l = true /\ outcome (cd l) (Qd w) (fun r => kd r = rd w).
Definition left_rows (s : dep D) (ws : list row_of) : Prop :=
  match fst s with Some x => exists w ws', ws = w :: ws' /\ Qd w /\ kd x = rd w /\ Forall2 says_d ws' (snd s) | None => Forall2 says_d ws (snd s) end.
Lemma gather_rows K ws ls : Forall2 says_d ws ls -> forall xs la r, gather cd (fun d => key_eqb (kd d) K) ls = Ok (xs, la, r) ->
  Forall Qd (span_take (fun w => key_eqb (rd w) K) ws) /\ left_rows (la, r) (span_drop (fun w => key_eqb (rd w) K) ws).
Proof.
  induction 1 as [|w l ws ls (DL & OC) F IH]; intros xs la r G; cbn [gather span_take span_drop] in *.
  - injection G as <- <- <-. split; [constructor|]. cbn. constructor.
  - rewrite DL in G. destruct (cd l) as [x| |]; cbn [bind] in G; try discriminate G. destruct OC as (Q1 & E). rewrite <- E. destruct (key_eqb (kd x) K).
    + destruct (gather cd _ ls) as [((xs', la'), r')| |] eqn:GE; cbn [bind] in G; try discriminate G. injection G as <- <- <-. destruct (IH _ _ _ eq_refl) as (A & B). split; auto.
    + injection G as <- <- <-. split; [constructor|]. cbn. exists w, ws. auto.
Qed.
Lemma attach_rows K ws s : left_rows s ws -> forall xs la r, attach cd (fun d => key_eqb (kd d) K) (fst s) (snd s) = Ok (xs, la, r) ->
  Forall Qd (span_take (fun w => key_eqb (rd w) K) ws) /\ left_rows (la, r) (span_drop (fun w => key_eqb (rd w) K) ws).
Proof.
  destruct s as ([x|], ls); unfold left_rows at 1; cbn [fst snd attach].
  - intros (w & ws' & -> & Q1 & E & F) xs la r G. cbn [span_take span_drop]. rewrite <- E. destruct (key_eqb (kd x) K).
    + destruct (gather cd _ ls) as [((xs', la'), r')| |] eqn:GE; cbn [bind] in G; try discriminate G. injection G as <- <- <-. destruct (gather_rows K _ _ F _ _ _ GE) as (A & B). split; auto.
    + injection G as <- <- <-. split; [constructor|]. cbn. exists w, ws'. auto.
  - intros F xs la r G. eapply gather_rows; eauto.
Qed.
Lemma consumed i xs j : group next make i xs j -> forall os ds, Forall2 says_o os (front i) -> ordered (fun a b => ~ key_lt (ro b) (ro a)) os ->
  left_rows (parts i) ds -> dep_sorted rd ds -> (forall d, In d ds -> exists o, In o os /\ rd d = ro o) -> Forall Qd ds.
Proof.
  induction 1 as [i j E|i x j e es j' E M G IH]; intros os ds F SO L SD OWN.
  - destruct (STOP _ _ E) as (ls & T). destruct F as [|o l os ls' (DL & OC) F].
    + destruct ds as [|d ds]; [constructor|]. destruct (OWN d (or_introl eq_refl)) as (o & [] & _).
    + cbn [table_next] in T. rewrite DL in T. destruct (create l); cbn [bind] in T; discriminate T.
  - destruct (STEP _ _ _ E) as (T & xs' & A). destruct F as [|o l os ls' (DL & OC) F]; cbn [table_next] in T; [discriminate T|]. rewrite DL in T.
    destruct (create l) as [r| |]; cbn [bind] in T; try discriminate T. injection T as -> T2. rewrite T2 in F. destruct OC as (_ & KO). rewrite KO in A. destruct SO as (SO1 & SO2). rewrite Forall_forall in SO1.
    destruct (attach_rows _ _ _ L _ _ _ A) as (TK & DR). destruct (span_filter ro rd o ds SD) as (_ & NE).
    { intros d J. destruct (OWN d J) as (o' & [<- |J'] & ->); [apply key_lt_irrefl|]. apply SO1. exact J'. }
    pose proof (span_app (fun w => key_eqb (rd w) (ro o)) ds) as SP. rewrite SP. apply Forall_app. split; [exact TK|].
    eapply IH; [exact F|exact SO2| |eapply dep_sorted_app; rewrite <- SP; exact SD|].
    + destruct (parts j). exact DR.
    + intros d J. destruct (OWN d) as (o' & [<- |J'] & EQ); [rewrite SP; apply in_or_app; right; exact J|destruct (NE d J EQ)|]. exists o'. auto.
Qed.
End Consumed.

(** ** The keys of rows *)
Definition num (s : bytes) : Z := match parse_i64 s with Some z => z | None => 0 end.
Definition row_key (c : string) (w : row_of) : Z * Z := (num (w (str c)), num (w (str "version"))).
Lemma int64_num z s : int64 z s -> num s = z.
Proof. intros H. unfold num. rewrite (parse_int64 _ _ H). reflexivity. Qed.
Lemma plain_num z s : plain s z -> (exists z', int64 z' s) -> num s = z.
Proof. intros P (z' & I & P'). rewrite (int64_num z' s) by (split; auto). pu. reflexivity. Qed.
Lemma reads_num z s : reads_i64 s z -> num s = z.
Proof. intros H. apply reads_i64_iff in H. unfold num. rewrite H. reflexivity. Qed.
Lemma row_le c r w w' : Forall (fun c => exists z, int64 z (w c)) [str c; str "version"] -> Forall (fun c => exists z, int64 z (w' c)) [str c; str "version"] ->
  name_key_le ((str c, FInteger) :: (str "version", FInteger) :: r) w w' -> ~ key_lt (row_key c w') (row_key c w).
Proof.
  intros A B. inversion A as [|? ? A1 A2]; subst. inversion A2 as [|? ? A3 _]; subst. inversion B as [|? ? B1 B2]; subst. inversion B2 as [|? ? B3 _]; subst.
  cbn [name_key_le]. intros (x & y & X & Y & H). unfold key_lt, row_key. cbn [fst snd]. rewrite (plain_num x (w (str c))), (plain_num y (w' (str c))) by auto.
  destruct H as [H|(H & x2 & y2 & X2 & Y2 & H2)]; [lia|]. rewrite (plain_num x2 (w _)), (plain_num y2 (w' _)) by auto. lia.
Qed.
Section One.
Variables (unescape : bytes -> option bytes) (cols : list bytes) (w : row_of) (line : bytes) (fs : list nat).
Hypothesis CL : columns line = map w cols.
Ltac keys_ := cbn [outcome]; split; [cbn [readable_row]; sconj; repeat first [gives_|apply Forall_cons|apply Forall_nil]|unfold row_key, num; repeat (match goal with E : parse_i64 _ = Some _ |- _ => rewrite ?E; clear E end); reflexivity].
Lemma way_key : fields_of T_ways cols fs -> outcome (create_obj fs line) (readable_row T_ways w) (fun r => obj_key r = row_key "way_id" w).
Proof. intros F. unfold create_obj. rewrite CL. cols_of F. steps_. keys_. Qed.
Lemma rel_key : fields_of T_relations cols fs -> outcome (create_obj fs line) (readable_row T_relations w) (fun r => obj_key r = row_key "relation_id" w).
Proof. intros F. unfold create_obj. rewrite CL. cols_of F. steps_. keys_. Qed.
Lemma way_node_outcome_key : fields_of T_way_nodes cols fs -> outcome (create_way_node fs line) (readable_row T_way_nodes w) (fun r => way_node_key r = row_key "way_id" w).
Proof. intros F. unfold create_way_node. rewrite CL. cols_of F. steps_. keys_. Qed.
Lemma member_outcome_key : fields_of T_relation_members cols fs -> outcome (create_relation_member unescape fs line) (readable_row T_relation_members w) (fun r => member_key r = row_key "relation_id" w).
Proof. intros F. unfold create_relation_member. rewrite CL. cols_of F. steps_. keys_. Qed.
End One.

(** ** The iterators *)
Section Nexts.
Variable k : creators.
Lemma way_steps i x j : way_next k i = Ok (Some x, j) -> table_next (mk_way k) (wi_ways i) = Ok (Some (fst (fst x)), wi_ways j) /\
  exists xs, attach (mk_way_node k) (fun d => key_eqb (way_node_key d) (obj_key (fst (fst x)))) (fst (wi_nodes i)) (snd (wi_nodes i)) = Ok (xs, fst (wi_nodes j), snd (wi_nodes j)).
Proof.
  unfold way_next. destruct (table_next (mk_way k) (wi_ways i)) as [([w|], ls)| |]; cbn [bind]; try discriminate.
  destruct (attach (mk_way_tag k) _ _ _) as [((ts, la), tls)| |]; cbn [bind]; try discriminate.
  change (way_node_same (or_id w) (or_version w)) with (fun d => key_eqb (way_node_key d) (obj_key w)).
  destruct (attach (mk_way_node k) _ _ _) as [((xs, la'), xls)| |] eqn:A; cbn [bind]; try discriminate. intros H. injection H as <- <-. cbn [fst snd wi_ways wi_nodes]. split; auto. exists xs. exact A.
Qed.
Lemma way_stops i j : way_next k i = Ok (None, j) -> exists ls, table_next (mk_way k) (wi_ways i) = Ok (None, ls).
Proof.
  unfold way_next. destruct (table_next (mk_way k) (wi_ways i)) as [([w|], ls)| |]; cbn [bind]; try discriminate; [|eauto].
  destruct (attach (mk_way_tag k) _ _ _) as [((ts, la), tls)| |]; cbn [bind]; try discriminate. destruct (attach (mk_way_node k) _ _ _) as [((xs, la'), xls)| |]; cbn [bind]; discriminate.
Qed.
Lemma rel_steps i x j : rel_next k i = Ok (Some x, j) -> table_next (mk_relation k) (ri_rels i) = Ok (Some (fst (fst x)), ri_rels j) /\
  exists xs, attach (mk_member k) (fun d => key_eqb (member_key d) (obj_key (fst (fst x)))) (fst (ri_members i)) (snd (ri_members i)) = Ok (xs, fst (ri_members j), snd (ri_members j)).
Proof.
  unfold rel_next. destruct (table_next (mk_relation k) (ri_rels i)) as [([w|], ls)| |]; cbn [bind]; try discriminate.
  destruct (attach (mk_relation_tag k) _ _ _) as [((ts, la), tls)| |]; cbn [bind]; try discriminate.
  change (member_same (or_id w) (or_version w)) with (fun d => key_eqb (member_key d) (obj_key w)).
  destruct (attach (mk_member k) _ _ _) as [((xs, la'), xls)| |] eqn:A; cbn [bind]; try discriminate. intros H. injection H as <- <-. cbn [fst snd ri_rels ri_members]. split; auto. exists xs. exact A.
Qed.
Lemma rel_stops i j : rel_next k i = Ok (None, j) -> exists ls, table_next (mk_relation k) (ri_rels i) = Ok (None, ls).
Proof.
  unfold rel_next. destruct (table_next (mk_relation k) (ri_rels i)) as [([w|], ls)| |]; cbn [bind]; try discriminate; [|eauto].
  destruct (attach (mk_relation_tag k) _ _ _) as [((ts, la), tls)| |]; cbn [bind]; try discriminate. destruct (attach (mk_member k) _ _ _) as [((xs, la'), xls)| |]; cbn [bind]; discriminate.
Qed.
End Nexts.

(** ** Sentinels *)
Lemma sentinels_app a b : sentinels (a ++ b) = (sentinels a + sentinels b)%nat.
Proof. unfold sentinels. rewrite filter_app, app_length. reflexivity. Qed.
Section None.
Context {I O : Type} (next : I -> res (option O * I)) (make : O -> res element).
Lemma stuck_none i xs : (forall x e, make x = Ok e -> e <> ESentinel) -> stuck next make i xs -> sentinels xs = 0%nat.
Proof.
  intros NS. induction 1 as [i E|i x j E M|i x j e ys E M S IH]; auto. change (e :: ys) with ([e] ++ ys). rewrite sentinels_app, IH. specialize (NS _ _ M). destruct e; cbn; congruence.
Qed.
Lemma group_none i xs j : (forall x e, make x = Ok e -> e <> ESentinel) -> group next make i xs j -> sentinels xs = 0%nat.
Proof.
  intros NS. induction 1 as [i j E|i x j e ys j' E M G IH]; auto. change (e :: ys) with ([e] ++ ys). rewrite sentinels_app, IH. specialize (NS _ _ M). destruct e; cbn; congruence.
Qed.
End None.
Lemma node_no_sentinel us cs x e : node_made us cs x = Ok e -> e <> ESentinel.
Proof. unfold node_made, make_node. destruct (bt_get _ cs); cbn [bind]; try discriminate. destruct (bt_get _ us); cbn [bind]; try discriminate. intros X. injection X as <-. discriminate. Qed.
Lemma way_no_sentinel us cs x e : way_made us cs x = Ok e -> e <> ESentinel.
Proof. unfold way_made, make_way. destruct (bt_get _ cs); cbn [bind]; try discriminate. destruct (bt_get _ us); cbn [bind]; try discriminate. intros X. injection X as <-. discriminate. Qed.
Lemma rel_no_sentinel us cs x e : rel_made us cs x = Ok e -> e <> ESentinel.
Proof. unfold rel_made, make_relation. destruct (bt_get _ cs); cbn [bind]; try discriminate. destruct (bt_get _ us); cbn [bind]; try discriminate. intros X. injection X as <-. discriminate. Qed.

Section Dump.
Variables (unescape : bytes -> option bytes) (sort_file : list (nat * ftype) -> bytes -> res bytes).
Hypothesis SORTS : sorts sort_file.
Variables (dir : bytes -> option bytes) (cat : catalogue) (rows : table -> list row_of).
(** the rows in the order of the sorted table *)
Definition arranged (t : table) (fs : list nat) (lines : list bytes) : Prop :=
  exists cols rows', fields_of t cols fs /\ Permutation (rows t) rows' /\ Forall2 (fun w l => columns l = map w cols /\ data_line l = true) rows' lines /\
    Forall (fun w => Forall (fun c => exists z, int64 z (w c)) (number_columns t)) rows' /\ ordered (name_key_le (key_names t)) rows'.
Lemma text_arranged t : In t ten -> text_table dir cat t (rows t) -> exists df sorted, sorted_table sort_file dir cat t df sorted /\ arranged t (td_fields df) (lines_of sorted).
Proof.
  intros T H. apply (table_opens sort_file SORTS dir) in H as (df & sorted & S & cols & prs & F & P & L & O).
  - exists df, sorted. split; auto. exists cols, (map fst prs). split; auto. split; auto.
    assert (E : map fst prs = map snd prs) by (clear - L; induction L as [|(r, w) l ps ls ((E & _) & _) L IH]; cbn [map fst snd] in *; congruence).
    split; [clear - L; induction L as [|(r, w) l ps ls ((E & _) & C & D) L IH]; [constructor|]; cbn [map fst snd] in *; subst r; constructor; auto|].
    split; [clear - L; induction L as [|(r, w) l ps ls ((E & N) & C & D) L IH]; [constructor|]; cbn [map fst snd] in *; subst r; constructor; auto|].
    rewrite E. apply ordered_map. exact O.
  - apply ten_read. exact T.
  - intros r w (_ & N). clear - T N. unfold name_keyed. cbn in T. repeat (destruct T as [<- |T]; [cbn [key_names number_columns] in *; opens_; repeat (apply Forall_cons; [cbn [fst snd]; intros K; first [discriminate K|
      match goal with H : exists z, int64 z _ |- _ => destruct H as (? & ? & ?); eauto; fail end]|]); try apply Forall_nil; fail|]). destruct T.
Qed.
Lemma loads_arranged rd : catalogued dir cat -> (forall t, In t ten -> text_table dir cat t (rows t)) -> ApidbRead.reader_new sort_file dir = Ok rd ->
  forall t, In t ten -> exists fs ls, open_table rd t = Ok (fs, ls) /\ arranged t fs ls.
Proof.
  intros C T RD. destruct (reader_gaps sort_file dir cat C) as (rd' & RD' & OP & _).
  { intros t I _. destruct (text_arranged t I (T t I)) as (df & s & S & _). eauto. }
  rewrite RD in RD'. injection RD' as <-. intros t I. destruct (text_arranged t I (T t I)) as (df & s & S & L). eexists _, _. split; [apply OP; eauto|exact L].
Qed.
Definition in_order (k : creators) (s : eiter) : Prop := exists us cs ln lnt lw lwn lwt lr lrm lrt fw fwn fr frm,
  s = EIter us cs Start (NodeIter ln (None, lnt)) (WayIter lw (None, lwn) (None, lwt)) (RelIter lr (None, lrm) (None, lrt)) /\
  mk_way k = create_obj fw /\ mk_way_node k = create_way_node fwn /\ mk_relation k = create_obj fr /\ mk_member k = create_relation_member unescape frm /\
  arranged T_ways fw lw /\ arranged T_way_nodes fwn lwn /\ arranged T_relations fr lr /\ arranged T_relation_members frm lrm.
Lemma opened_arranged rd k s : (forall t, In t ten -> exists fs ls, open_table rd t = Ok (fs, ls) /\ arranged t fs ls) -> ApidbRead.elements unescape rd = Ok (k, s) -> in_order k s.
Proof.
  intros L. unfold ApidbRead.elements.
  destruct (L T_users ltac:(cbn; tauto)) as (fu & lu & -> & LU). destruct (L T_changesets ltac:(cbn; tauto)) as (fc & lc & -> & LC).
  destruct (L T_nodes ltac:(cbn; tauto)) as (fn & ln & -> & LN). destruct (L T_node_tags ltac:(cbn; tauto)) as (fnt & lnt & -> & LNT).
  destruct (L T_ways ltac:(cbn; tauto)) as (fw & lw & -> & LW). destruct (L T_way_nodes ltac:(cbn; tauto)) as (fwn & lwn & -> & LWN). destruct (L T_way_tags ltac:(cbn; tauto)) as (fwt & lwt & -> & LWT).
  destruct (L T_relations ltac:(cbn; tauto)) as (fr & lr & -> & LR). destruct (L T_relation_members ltac:(cbn; tauto)) as (frm & lrm & -> & LRM). destruct (L T_relation_tags ltac:(cbn; tauto)) as (frt & lrt & -> & LRT).
  cbn [unwrap_res bind]. destruct (table_all (create_user fu) lu) as [us| |]; cbn [bind]; try discriminate. destruct (table_all (create_changeset fc) lc) as [cs| |]; cbn [bind]; try discriminate.
  intros E. injection E as <- <-. eexists _, _, ln, lnt, lw, lwn, lwt, lr, lrm, lrt, fw, fwn, fr, frm. sconj; auto.
Qed.
Lemma arranged_says {R} t c r (create : bytes -> res R) (key : R -> Z * Z) fs ls : key_names t = (str c, FInteger) :: (str "version", FInteger) :: r ->
  (forall x, In x [str c; str "version"] -> In x (number_columns t)) ->
  (forall cols w l, columns l = map w cols -> fields_of t cols fs -> outcome (create l) (readable_row t w) (fun r => key r = row_key c w)) -> arranged t fs ls ->
  exists ws, Permutation (rows t) ws /\ Forall2 (says_o create key (readable_row t) (row_key c)) ws ls /\ ordered (fun a b => ~ key_lt (row_key c b) (row_key c a)) ws.
Proof.
  intros KN NC OC (cols & ws & F & P & L & N & O). exists ws. split; auto. split.
  - eapply Forall2_impl2; [|exact L]. intros w l (C & DL). split; auto. eapply OC; eauto.
  - rewrite KN in O. eapply ordered_impl with (P := fun w : row_of => Forall (fun c0 => exists z, int64 z (w c0)) (number_columns t)); [|exact N|exact O]. intros a b A B. cbv beta in A, B. rewrite Forall_forall in A, B. apply row_le; apply Forall_forall; intros x I; auto.
Qed.
(** C93: a way node or member that cannot be read makes the iteration panic before the Sentinel behind the ways or relations, if every row of
    its table belongs to an object that is there *)
Theorem C93_parts t p c n w rd k s es o : catalogued dir cat -> (forall t, In t ten -> text_table dir cat t (rows t)) ->
  ApidbRead.reader_new sort_file dir = Ok rd -> ApidbRead.elements unescape rd = Ok (k, s) -> run (element_next k) s es o ->
  parts_of t = Some (p, c, n) -> (forall w, In w (rows t) -> exists w', In w' (rows p) /\ same_version c w w') ->
  In w (rows t) -> ~ readable_row t w -> o = Panicked /\ (sentinels es <= n)%nat.
Proof.
  intros C T RD EL RUN PO OWN IW BAD. destruct (opened_arranged rd k s (loads_arranged rd C T RD) EL) as (us & cs & ln & lnt & lw & lwn & lwt & lr & lrm & lrt & fw & fwn & fr & frm & -> & EW & EWN & ER & ERM & AW & AWN & AR & ARM).
  assert (OWN' : forall os ds, Permutation (rows p) os -> Permutation (rows t) ds -> forall d, In d ds -> exists o, In o os /\ row_key c d = row_key c o).
  { intros os ds P1 P2 d J. destruct (OWN d) as (w' & I' & (x & ? & [<- |[]] & X1 & X2) & (y & ? & [<- |[]] & Y1 & Y2)); [eapply Permutation_in; [symmetry; exact P2|exact J]|].
    exists w'. split; [eapply Permutation_in; eauto|]. unfold row_key. rewrite (reads_num _ _ X1), (reads_num _ _ X2), (reads_num _ _ Y1), (reads_num _ _ Y2). reflexivity. }
  assert (WAYS : forall ns j, way_group k us cs (WayIter lw (None, lwn) (None, lwt)) ns j -> t <> T_way_nodes).
  { intros ns j G ->. injection PO as <- <- <-.
    destruct (arranged_says T_ways "way_id" [] (mk_way k) obj_key fw lw) as (os & P1 & F1 & O1); [reflexivity|cbn; tauto|intros; rewrite EW; eapply way_key; eauto|exact AW|].
    destruct (arranged_says T_way_nodes "way_id" [(str "sequence_id", FInteger)] (mk_way_node k) way_node_key fwn lwn) as (ds & P2 & F2 & O2); [reflexivity|cbn; tauto|intros; rewrite EWN; eapply way_node_outcome_key; eauto|exact AWN|].
    assert (A : Forall (readable_row T_way_nodes) ds).
    { eapply (consumed (way_next k) (way_made us cs) (mk_way k) (mk_way_node k) wi_ways wi_nodes (fun x => fst (fst x)) obj_key way_node_key (way_steps k) (way_stops k)); [exact G|exact F1|exact O1|exact F2|exact O2|apply OWN'; auto]. }
    rewrite Forall_forall in A. apply BAD, A. eapply Permutation_in; eauto. }
  assert (RELS : forall ns j, rel_group k us cs (RelIter lr (None, lrm) (None, lrt)) ns j -> t <> T_relation_members).
  { intros ns j G ->. injection PO as <- <- <-.
    destruct (arranged_says T_relations "relation_id" [] (mk_relation k) obj_key fr lr) as (os & P1 & F1 & O1); [reflexivity|cbn; tauto|intros; rewrite ER; eapply rel_key; eauto|exact AR|].
    eassert (X : _) by (refine (arranged_says T_relation_members "relation_id" _ (mk_member k) member_key frm lrm eq_refl _ _ ARM); [cbn; tauto|intros; rewrite ERM; eapply member_outcome_key; eauto]).
    destruct X as (ds & P2 & F2 & O2).
    assert (A : Forall (readable_row T_relation_members) ds).
    { eapply (consumed (rel_next k) (rel_made us cs) (mk_relation k) (mk_member k) ri_rels ri_members (fun x => fst (fst x)) obj_key member_key (rel_steps k) (rel_stops k)); [exact G|exact F1|exact O1|exact F2|exact O2|apply OWN'; auto]. }
    rewrite Forall_forall in A. apply BAD, A. eapply Permutation_in; eauto. }
  apply run_stream in RUN. destruct RUN as [(-> & ns & ws & rs & j1 & j2 & j3 & -> & G1 & G2 & G3)|(-> & [S|[(ns & j1 & ws & G1 & S & ->)|(ns & j1 & ws & j2 & rs & G1 & G2 & S & ->)]])].
  - exfalso. pose proof (WAYS _ _ G2). pose proof (RELS _ _ G3). destruct t; try discriminate PO; congruence.
  - split; auto. rewrite (stuck_none (node_next k) _ _ _ (node_no_sentinel us cs) S). lia.
  - split; auto. change (ns ++ ESentinel :: ws) with (ns ++ [ESentinel] ++ ws). rewrite !sentinels_app, (group_none _ _ _ _ _ (node_no_sentinel us cs) G1), (stuck_none _ _ _ _ (way_no_sentinel us cs) S).
    destruct t; try discriminate PO; injection PO as _ _ <-; cbn; lia.
  - split; auto. pose proof (WAYS _ _ G2). change (ns ++ ESentinel :: ws ++ ESentinel :: rs) with (ns ++ [ESentinel] ++ ws ++ [ESentinel] ++ rs).
    rewrite !sentinels_app, (group_none _ _ _ _ _ (node_no_sentinel us cs) G1), (group_none _ _ _ _ _ (way_no_sentinel us cs) G2), (stuck_none _ _ _ _ (rel_no_sentinel us cs) S).
    destruct t; try discriminate PO; injection PO as _ _ <-; cbn; try lia; congruence.
Qed.
End Dump.
