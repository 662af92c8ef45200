(** C95: what pbf-io, apidb-to-pbf and pbf-to-apidb leave behind when they do not run to their end. *)
From Coq Require Import ZArith List Bool Lia Strings.Byte Strings.String.
From Verif Require Import Base BaseFacts Types Proto ProtoFacts Block BlockFacts BlockRead FileFormat FileFacts WriterFacts Spec SpecFacts FileSpec FormatSpec ModelSpec
  PropBlock PropFile PropLegal CallSpec Calls PropCalls FileInfoModel InfoSpec PropInfo Pipelines PropPipelines Pipelines2 Stopped.
From Verif Require ApidbWrite ApidbRead DumpStop StopSpec PropStop DumpSpec.
Import ListNotations.
Local Notation length := List.length.
Local Notation concat := List.concat.
Open Scope Z_scope.

(** ** writing never returns Err *)
Lemma stb_add_ne m b s : stb_add m b s <> Err.
Proof. unfold stb_add. ne. Qed.
Lemma add_tags_ne m ts : forall b, add_tags m b ts <> Err.
Proof. induction ts as [|t ts IH]; intros b; cbn [add_tags]; [discriminate|]. apply bind_ne; [apply stb_add_ne|]. intros (k, b1). apply bind_ne; [apply stb_add_ne|]. intros (v, b2). apply bind_ne; [apply IH|]. intros (l, b3). discriminate. Qed.
Lemma deltas_ne m l : forall p, deltas m p l <> Err.
Proof. induction l as [|x l IH]; intros p; cbn [deltas]; [discriminate|]. apply bind_ne; [apply arith64_ne|intros]. apply bind_ne; [apply IH|discriminate]. Qed.
Lemma add_members_ne m l : forall p b, add_members m p b l <> Err.
Proof. induction l as [|x l IH]; intros p b; cbn [add_members]; [discriminate|]. apply bind_ne; [apply stb_add_ne|]. intros (r, b1). apply bind_ne; [apply arith64_ne|intros]. apply bind_ne; [apply IH|]. intros (((? & ?) & ?) & ?). discriminate. Qed.
Lemma ser_step_ne m s e : ser_step m s e <> Err.
Proof.
  destruct e as [n|w|r|]; cbn [ser_step]; [|apply bind_ne; [|intros (?, ?); discriminate]|apply bind_ne; [|intros (?, ?); discriminate]|discriminate].
  - destruct (bs_dense s) as [d|]; (apply bind_ne; [|intros (?, ?); discriminate]).
    + unfold dgb_add. do 6 (apply bind_ne; [first [apply arith64_ne|apply arith32_ne]|intros]). apply bind_ne; [apply stb_add_ne|]. intros (?, ?). apply bind_ne; [apply arith32_ne|intros]. apply bind_ne; [apply add_tags_ne|].
      intros (?, ?). destruct (db_dense d) as [? [[]|] ? ? ?]; discriminate.
    + unfold dgb_new. apply bind_ne; [apply stb_add_ne|]. intros (?, ?). apply bind_ne; [apply add_tags_ne|]. intros (?, ?). discriminate.
  - unfold way_convert. apply bind_ne; [apply deltas_ne|intros]. apply bind_ne; [apply add_tags_ne|]. intros (?, ?). apply bind_ne; [apply stb_add_ne|]. intros (?, ?). discriminate.
  - unfold relation_convert. apply bind_ne; [apply add_members_ne|]. intros (((? & ?) & ?) & ?). apply bind_ne; [apply add_tags_ne|]. intros (?, ?). apply bind_ne; [apply stb_add_ne|]. intros (?, ?). discriminate.
Qed.
Lemma ser_loop_ne m es : forall s, ser_loop m s es <> Err.
Proof. induction es as [|e es IH]; intros s; cbn [ser_loop]; [discriminate|]. apply bind_ne; [apply ser_step_ne|auto]. Qed.
Lemma write_elements_ne m c w es : write_elements m c w es <> Err.
Proof.
  unfold write_elements, write_file_block. apply bind_ne; [|discriminate]. unfold fblock_serialize. apply bind_ne; [|intros ((?, ?), ?); discriminate].
  apply bind_ne; [|discriminate]. unfold osm_data_serialize, build_block. apply bind_ne; [|discriminate]. apply bind_ne; [apply ser_loop_ne|discriminate].
Qed.
Lemma write_element_ne m c w e : write_element m c w e <> Err.
Proof.
  unfold write_element. apply bind_ne; [|intros (o, a); destruct o; [apply write_elements_ne|discriminate]]. pose proof (acc_add_total (wr_acc w) e) as T. destruct (acc_add (wr_acc w) e); [discriminate|contradiction|discriminate].
Qed.
Lemma writer_close_ne m c w : writer_close m c w <> Err.
Proof. unfold writer_close. destruct (acc_elements (wr_acc w)); [discriminate|apply write_elements_ne]. Qed.

(** ** the loop *)
Section Loop.
Variables (m : mode) (c : codec) (keep : element -> bool).
Lemma calls_all es : forall w, do_wcalls m c w (map CElement es) = write_all m c w es.
Proof. induction es as [|e es IH]; intros w; cbn; auto. destruct (write_element m c w e); cbn; auto. Qed.
Lemma write_all_app a b : forall w, write_all m c w (a ++ b) = (w' <- write_all m c w a ;; write_all m c w' b).
Proof. induction a as [|e a IH]; intros w; cbn; auto. destruct (write_element m c w e); cbn; auto. Qed.
Lemma loop_spec es o : forall w r file, write_loop m c keep w es o = (r, file) ->
  exists accepted rest w', filter keep es = accepted ++ rest /\ write_all m c w accepted = Ok w' /\
   ((rest = [] /\ o = Panicked /\ r = Panic /\ file = wr_file w') \/
    (rest = [] /\ o = Ended /\ exists w2, writer_close m c w' = Ok w2 /\ r = Ok tt /\ file = wr_file w2) \/
    (rest = [] /\ o = Ended /\ writer_close m c w' = Panic /\ r = Panic /\ file = wr_file w') \/
    (exists e rest', rest = e :: rest' /\ write_element m c w' e = Panic /\ r = Panic /\ file = wr_file w')).
Proof.
  induction es as [|e es IH]; intros w r file H; cbn [write_loop filter] in *.
  - exists [], [], w. split; auto. split; auto. destruct o.
    + pose proof (writer_close_ne m c w) as NE. destruct (writer_close m c w) as [w2| |] eqn:C; [|congruence|]; injection H as <- <-; [right; left|right; right; left]; eauto 6.
    + injection H as <- <-. auto.
  - destruct (keep e).
    + pose proof (write_element_ne m c w e) as NE. destruct (write_element m c w e) as [w1| |] eqn:W; [|congruence|].
      * destruct (IH _ _ _ H) as (acc & rest & w' & E & A & R). exists (e :: acc), rest, w'. split; [cbn; congruence|]. split; [cbn; rewrite W; exact A|exact R].
      * injection H as <- <-. exists [], (e :: filter keep es), w. split; auto. split; auto. right. right. right. eauto 6.
    + exact (IH _ _ _ H).
Qed.
End Loop.
Lemma picked_is_filter (keep : element -> bool) es kept : picked (fun e => keep e = true) es kept -> kept = filter keep es.
Proof. induction 1 as [|x l l' K H IH|x l l' K H IH]; cbn; auto; destruct (keep x); congruence. Qed.
Lemma fit_prefix m c k a b : blocks_fit m c k (a ++ b) -> blocks_fit m c k a.
Proof. intros H x y d E. apply (H x y (d ++ b)). rewrite E, <- !app_assoc. reflexivity. Qed.
Lemma wos_app a b : forall s, without_sentinels (a ++ b) s -> exists s1 s2, s = s1 ++ s2 /\ without_sentinels a s1 /\ without_sentinels b s2.
Proof.
  induction a as [|e a IH]; intros s H; [exists [], s; split; auto; split; auto; constructor|]. cbn in H. inversion H as [|? ? H'|? ? ? NS H']; subst.
  - destruct (IH _ H') as (s1 & s2 & -> & A & B). exists s1, s2. split; auto. split; auto. constructor; auto.
  - destruct (IH _ H') as (s1 & s2 & -> & A & B). exists (e :: s1), s2. split; auto. split; auto. constructor; auto.
Qed.

(** C95: the file at the end of the loop, whichever end it is: a valid file with the header and the elements [stored], a beginning of the elements kept by the filter; of those
    handed to the writer with success fewer than 8000 are missing; none if the program ended well *)
Theorem C95_file_left m c i k keep es o kept stream r file :
  codec_ok c -> info_ok i -> ~ info_empty i -> header_fits c k i -> Forall supported (fi_required i) ->
  picked (fun e => keep e = true) es kept -> without_sentinels kept stream -> Forall element_ok kept -> blocks_fit m c k stream ->
  writes m c i k keep es o = (r, file) ->
  exists stored pending rest i' got, stream = stored ++ pending ++ rest /\ zlen pending < 8000 /\
    (r = Ok tt -> o = Ended /\ pending = [] /\ rest = []) /\ (acceptable stream -> serializable m stream -> rest = [] /\ (o = Ended -> r = Ok tt)) /\
    r <> Err /\ (o = Panicked -> r = Panic) /\
    reader_new m c file = Ok i' /\ info_written_read i i' /\ elements_run m c file got Ended /\ Forall2 written_read stored got.
Proof.
  intros C IO NE HF SU PK WS EO BF H. apply picked_is_filter in PK. unfold writes in H. rewrite write_header_spec in H.
  set (w0 := Writer i k (frame_bytes (header_frame c k i)) acc_new) in *.
  destruct (loop_spec _ _ _ _ _ _ _ _ H) as (acc & rest & w' & E & A & R). rewrite <- PK in E. rewrite E in WS.
  destruct (wos_app _ _ _ WS) as (s1 & s2 & -> & W1 & W2).
  assert (EOA : Forall element_ok acc) by (rewrite E in EO; apply Forall_app in EO as (X & _); exact X).
  assert (WF : forall ww, do_wcalls m c w0 (map CElement acc) = Ok ww -> calls_file m c i k (map CElement acc) = Ok (wr_file ww)).
  { intros ww D. unfold calls_file. rewrite write_header_spec. fold w0. cbn [bind]. rewrite D. reflexivity. }
  assert (SI : singles (map CElement acc) = acc) by (clear; unfold singles; induction acc as [|x l IH]; cbn; [reflexivity|f_equal; exact IH]).
  assert (BA : batches (map CElement acc) = []) by (clear; unfold batches; induction acc; cbn; auto).
  assert (FU : forall a b, without_sentinels acc a -> without_sentinels acc b -> a = b).
  { intros a b X Y. apply no_sentinels_spec in X, Y. congruence. }
  assert (ACC : acceptable (s1 ++ s2) -> serializable m (s1 ++ s2) -> exists wa wc, write_all m c w0 (acc ++ rest) = Ok wa /\ writer_close m c wa = Ok wc).
  { intros AC SE. destruct (C59_exactly_these_streams m c i k _ _ WS SE) as ((X & _) & _). destruct (X AC) as (f & F). unfold write_file in F. rewrite write_header_spec in F. fold w0 in F. cbn [bind] in F.
    destruct (write_all m c w0 (acc ++ rest)) as [wa| |]; try discriminate F. cbn [bind] in F. destruct (writer_close m c wa) as [wc| |] eqn:WC; try discriminate F. eauto. }
  assert (STOP : calls_file m c i k (map CElement acc) = Ok file -> exists stored pending i' got, s1 = stored ++ pending /\ zlen pending < 8000 /\
     reader_new m c file = Ok i' /\ info_written_read i i' /\ elements_run m c file got Ended /\ Forall2 written_read stored got).
  { intros D. destruct (C58_any_calls m c i k (map CElement acc) file C IO NE HF SU) as (bs & pending & i' & got & LO & RN & IW & ER & F2); auto.
    - apply Forall_map. exact EOA.
    - split; [|rewrite BA; constructor]. rewrite SI. intros st X. rewrite (FU _ _ X W1). eapply fit_prefix; eauto.
    - destruct LO as [L1 (L2 & _) _ L4 _ _]. rewrite SI in L1. rewrite BA in L4. pose proof (FU _ _ W1 L1) as ES.
      assert (flat_map content bs = concat (from_singles bs)) as FC.
      { revert L4. clear. induction bs as [|[es|es] bs IH]; cbn; intros F; auto; [rewrite IH; auto|inversion F]. }
      exists (flat_map content bs), pending, i', got. rewrite <- FC in ES. sconj; auto. }
  assert (NOTACC : forall e rest', rest = e :: rest' -> write_element m c w' e = Panic -> ~ (acceptable (s1 ++ s2) /\ serializable m (s1 ++ s2))).
  { intros e rest' -> WP (AC & SE). destruct (ACC AC SE) as (wa & wc & X & _). rewrite write_all_app, A in X. cbn [bind write_all] in X. rewrite WP in X. discriminate X. }
  destruct R as [(-> & -> & -> & ->)|[(-> & -> & w2 & WC & -> & ->)|[(-> & -> & WC & -> & ->)|(e & rest' & -> & WP & -> & ->)]]].
  - inversion W2; subst. destruct (STOP (WF w' ltac:(rewrite calls_all; exact A))) as (st & pe & i' & got & -> & Z1 & RN & IW & ER & F2).
    exists st, pe, [], i', got. rewrite !app_nil_r. sconj; auto; try discriminate. intros _ _. split; [reflexivity|discriminate].
  - inversion W2; subst. clear STOP. rewrite app_nil_r in *.
    assert (D : calls_file m c i k (map CElement acc ++ [CClose]) = Ok (wr_file w2)).
    { unfold calls_file. rewrite write_header_spec. fold w0. cbn [bind].
      assert (G : forall a w, do_wcalls m c w (map CElement a ++ [CClose]) = (x <- write_all m c w a ;; writer_close m c x)).
      { clear. induction a as [|e a IH]; intros w; cbn; [destruct (writer_close m c w); reflexivity|]. destruct (write_element m c w e); cbn; auto. }
      rewrite G, A. cbn [bind]. rewrite WC. reflexivity. }
    assert (SI2 : singles (map CElement acc ++ [CClose]) = acc) by (unfold singles; rewrite flat_map_app; cbn; rewrite app_nil_r; exact SI).
    assert (BA2 : batches (map CElement acc ++ [CClose]) = []) by (unfold batches; rewrite flat_map_app; cbn; rewrite app_nil_r; exact BA).
    assert (CO2 : Forall call_ok (map CElement acc ++ [CClose])) by (apply Forall_app; split; [apply Forall_map; exact EOA|repeat constructor]).
    assert (CF2 : calls_fit m c k (map CElement acc ++ [CClose])).
    { split; [|rewrite BA2; constructor]. rewrite SI2. intros st X. rewrite (FU _ _ X W1). exact BF. }
    destruct (C58_any_calls m c i k _ _ C IO NE HF SU CO2 CF2 D) as (bs & pending & i' & got & LO & RN & IW & ER & F2).
    destruct LO as [L1 (L2 & _) _ L4 L5 _]. rewrite SI2 in L1. rewrite BA2 in L4. pose proof (FU _ _ W1 L1) as ES. rewrite (L5 _ eq_refl), app_nil_r in ES.
      assert (flat_map content bs = concat (from_singles bs)) as FC.
      { revert L4. clear. induction bs as [|[es|es] bs IH]; cbn; intros F; auto; [rewrite IH; auto|inversion F]. }
      exists s1, [], [], i', got. rewrite FC, <- ES in F2. rewrite !app_nil_r. change (zlen (@nil element)) with 0. sconj; auto; try discriminate. lia.
  - inversion W2; subst. destruct (STOP (WF w' ltac:(rewrite calls_all; exact A))) as (st & pe & i' & got & -> & Z1 & RN & IW & ER & F2).
    exists st, pe, [], i', got. rewrite app_nil_r. rewrite !app_nil_r in *. sconj; auto; try discriminate.
    intros AC SE. destruct (ACC AC SE) as (wa & wc & X & Y). rewrite A in X. injection X as <-. congruence.
  - destruct (STOP (WF w' ltac:(rewrite calls_all; exact A))) as (st & pe & i' & got & -> & Z1 & RN & IW & ER & F2).
    exists st, pe, s2, i', got. rewrite <- app_assoc in *. sconj; auto; try discriminate.
    intros AC SE. exfalso. eapply NOTACC; eauto.
Qed.

(** ** the programs *)
Definition with_file (r : res unit) (f : bytes) : res bytes := match r with Ok _ => Ok f | Err => Err | Panic => Panic end.
Lemma loop_write m c keep es : forall w r file, write_loop m c keep w es Ended = (r, file) ->
  (w1 <- write_all m c w (filter keep es) ;; w2 <- writer_close m c w1 ;; Ok (wr_file w2)) = with_file r file.
Proof.
  induction es as [|e es IH]; intros w r file H; cbn [write_loop filter] in *.
  - cbn. destruct (writer_close m c w); injection H as <- <-; reflexivity.
  - destruct (keep e); [|apply IH; exact H]. cbn [write_all]. destruct (write_element m c w e); cbn [bind]; [apply IH; exact H| |]; injection H as <- <-; reflexivity.
Qed.
Lemma writes_write_file m c i k keep es r file : writes m c i k keep es Ended = (r, file) -> write_file m c i k (filter keep es) = with_file r file.
Proof.
  unfold writes, write_file. destruct (write_header m c (writer_new i k)) as [w| |]; intros H; cbn [bind]; [|injection H as <- <-; reflexivity|injection H as <- <-; reflexivity].
  apply loop_write. exact H.
Qed.
Lemma writes_panicked m c i k keep es r file : writes m c i k keep es Panicked = (r, file) -> r = Panic.
Proof.
  unfold writes. rewrite write_header_spec. intros H. destruct (loop_spec _ _ _ _ _ _ _ _ H) as (acc & rest & w' & _ & _ & R).
  destruct R as [(_ & _ & -> & _)|[(_ & X & _)|[(_ & X & _)|(e & r' & _ & _ & -> & _)]]]; auto; discriminate X.
Qed.

(** the two descriptions of pbf-io agree on how it ends, and there is one outcome *)
Theorem C95_same_outcome m c filter_out program k input :
  (exists! p, copy_leaves m c filter_out program k input (fst p) (snd p)) /\
  forall r out, copy_leaves m c filter_out program k input r out ->
    copies m c filter_out program k input (match r, out with Ok _, Some f => Ok f | Ok _, None => Panic | Err, _ => Err | Panic, _ => Panic end).
Proof.
  split.
  - destruct (reader_new m c input) as [i| |] eqn:RN.
    + destruct (C20_elements_terminate m c input) as (es & o & R). destruct (writes m c (set_field i (SetProgramStr program)) k (fun e => negb (filter_out e)) es o) as (r, file) eqn:W.
      exists (r, Some file). split; [eapply cl_run; eauto|]. intros (r', out) H. cbn [fst snd] in H. destruct H as [X|X|i0 es0 o0 r0 f0 X Y Z]; try congruence.
      rewrite RN in X. injection X as <-. destruct (C16_unique _ _ _ _ _ _ _ R Y) as (<- & <-). congruence.
    + exists (Err, None). split; [constructor; auto|]. intros (r', out) H. cbn [fst snd] in H. destruct H; congruence.
    + exists (Panic, None). split; [constructor; auto|]. intros (r', out) H. cbn [fst snd] in H. destruct H; congruence.
  - intros r out H. destruct H as [X|X|i es o r file X Y Z]; [constructor; auto|constructor; auto|]. destruct o.
    + apply writes_write_file in Z. destruct r; cbn [with_file] in Z; rewrite <- Z; eapply cp_write; eauto.
    + apply writes_panicked in Z. subst r. eapply cp_read_panic; eauto.
Qed.

(** C95, pbf-io: whatever the input and however the program ends, once the reader accepts the header the output is a file that reads to its end *)
Theorem C95_copy m c filter_out program k input i es o kept r out :
  codec_ok c -> utf8_ok program = true -> reader_new m c input = Ok i -> elements_run m c input es o ->
  picked (fun e => filter_out e = false) es kept ->
  header_fits c k (set_field i (SetProgramStr program)) -> Forall coordinates_ok kept -> blocks_fit m c k kept ->
  copy_leaves m c filter_out program k input r out ->
  exists file stored pending rest i' got, out = Some file /\ kept = stored ++ pending ++ rest /\ zlen pending < 8000 /\
    (r = Ok tt -> o = Ended /\ pending = [] /\ rest = []) /\ (acceptable kept -> serializable m kept -> rest = [] /\ (o = Ended -> r = Ok tt)) /\
    r <> Err /\ (o = Panicked -> r = Panic) /\
    reader_new m c file = Ok i' /\ info_written_read (set_field i (SetProgramStr program)) i' /\ elements_run m c file got Ended /\ Forall2 written_read stored got.
Proof.
  intros C U RN RE PK HF CO BF CL.
  destruct CL as [X|X|i0 es0 o0 r file X Y Z]; [congruence|congruence|]. rewrite RN in X. injection X as <-. destruct (C16_unique _ _ _ _ _ _ _ RE Y) as (<- & <-).
  assert (PK2 : picked (fun e => negb (filter_out e) = true) es kept).
  { clear - PK. induction PK as [|x l l' K H IH|x l l' K H IH]; constructor; auto; [rewrite K; reflexivity|destruct (filter_out x); [cbn; congruence|exfalso; apply K; reflexivity]]. }
  pose proof (picked_is_filter _ _ _ PK2) as KE.
  destruct (filter_legal m c input es o (fun e => negb (filter_out e)) RE) as (L & NS). rewrite <- KE in L, NS.
  assert (LI : info_ok (set_field i (SetProgramStr program))).
  { apply C67_header_is_legal, legal_info_ok in RN. destruct i. unfold info_ok in *. cbn in *. decompose [and] RN. sconj; auto. intros s [= <-]. auto. }
  assert (SU : Forall supported (fi_required (set_field i (SetProgramStr program)))).
  { apply C14_feature_gate in RN. destruct RN as (h & body & b & p & hd & _ & _ & _ & _ & _ & _ & F). destruct i. exact F. }
  assert (NE : ~ info_empty (set_field i (SetProgramStr program))).
  { unfold info_empty. destruct i. cbn. intros E. apply (f_equal FileFormat.fi_program) in E. discriminate E. }
  assert (EO : Forall element_ok kept).
  { apply Forall_forall. intros e I. rewrite Forall_forall in L, CO. apply legal_ok; auto. }
  destruct (C95_file_left m c _ k _ _ _ _ _ _ _ C LI NE HF SU PK2 (no_sentinel_stream _ NS) EO BF Z) as (st & pe & re & i' & got & R).
  exists file, st, pe, re, i', got. split; auto.
Qed.

(** C95, apidb-to-pbf: [stream] is what the dump reader yields before it ends or panics, without sentinels *)
Theorem C95_from_dump m c unescape sort_file dir rd ks s es o stream r out :
  codec_ok c -> ApidbRead.reader_new sort_file dir = Ok rd -> ApidbRead.elements unescape rd = Ok (ks, s) -> run (ApidbRead.element_next ks) s es o ->
  without_sentinels es stream -> Forall element_ok es -> header_fits c Zlib apidb_to_pbf_info -> blocks_fit m c Zlib stream ->
  apidb_to_pbf_leaves m c unescape sort_file dir r out ->
  exists file stored pending rest i' got, out = Some file /\ stream = stored ++ pending ++ rest /\ zlen pending < 8000 /\
    (r = Ok tt -> o = Ended /\ pending = [] /\ rest = []) /\ (acceptable stream -> serializable m stream -> rest = [] /\ (o = Ended -> r = Ok tt)) /\
    r <> Err /\ (o = Panicked -> r = Panic) /\
    reader_new m c file = Ok i' /\ info_written_read apidb_to_pbf_info i' /\ elements_run m c file got Ended /\ Forall2 written_read stored got.
Proof.
  intros C RN EL RU WS EO HF BF H.
  assert (IO : info_ok apidb_to_pbf_info).
  { unfold info_ok, utf8_all, utf8_opt, i64_opt, apidb_to_pbf_info. cbn [fi_required fi_optional fi_program fi_source fi_ts fi_seq fi_url].
    sconj; try (intros ? [= <-]; reflexivity); try discriminate; repeat (apply Forall_cons; [reflexivity|]); apply Forall_nil. }
  assert (SU : Forall supported (fi_required apidb_to_pbf_info)) by (unfold supported, apidb_to_pbf_info; cbn [fi_required]; repeat (apply Forall_cons; [auto|]); auto).
  destruct H as [X|X|rd0 r X Y|rd0 k0 s0 es0 o0 r file X Y Z W]; try congruence.
  - rewrite RN in X. injection X as <-. rewrite EL in Y. destruct Y as [(Y & _)|(Y & _)]; discriminate Y.
  - rewrite RN in X. injection X as <-. rewrite EL in Y. injection Y as <- <-. destruct (run_det _ _ _ _ _ _ RU Z) as (<- & <-).
    assert (PK : picked (fun _ : element => true = true) es es) by (clear; induction es; constructor; auto).
    destruct (C95_file_left m c _ _ _ _ _ _ _ _ _ C IO ltac:(intros E; discriminate E) HF SU PK WS EO BF W) as (st & pe & re & i' & got & R).
    exists file, st, pe, re, i', got. split; auto.
Qed.
(** if the dump cannot be opened, the header and nothing else has been written by then *)
Theorem C95_from_bad_dump m c unescape sort_file dir rd r out :
  codec_ok c -> ApidbRead.reader_new sort_file dir = Ok rd -> (forall x, ApidbRead.elements unescape rd <> Ok x) -> header_fits c Zlib apidb_to_pbf_info -> blocks_fit m c Zlib [] ->
  apidb_to_pbf_leaves m c unescape sort_file dir r out ->
  exists file i', r <> Ok tt /\ out = Some file /\ reader_new m c file = Ok i' /\ info_written_read apidb_to_pbf_info i' /\ elements_run m c file [] Ended.
Proof.
  intros C RN EL HF BF H.
  assert (IO : info_ok apidb_to_pbf_info).
  { unfold info_ok, utf8_all, utf8_opt, i64_opt, apidb_to_pbf_info. cbn [fi_required fi_optional fi_program fi_source fi_ts fi_seq fi_url].
    sconj; try (intros ? [= <-]; reflexivity); try discriminate; repeat (apply Forall_cons; [reflexivity|]); apply Forall_nil. }
  assert (SU : Forall supported (fi_required apidb_to_pbf_info)) by (unfold supported, apidb_to_pbf_info; cbn [fi_required]; repeat (apply Forall_cons; [auto|]); auto).
  destruct H as [X|X|rd0 r X Y|rd0 k0 s0 es0 o0 r file X Y Z W]; try congruence.
  - destruct (writes m c apidb_to_pbf_info Zlib (fun _ => true) [] Panicked) as (r0, file) eqn:W.
    destruct (C95_file_left m c _ _ _ _ _ [] [] _ _ C IO ltac:(intros E; discriminate E) HF SU (pk_nil _) (ws_nil) (Forall_nil _) BF W) as (st & pe & re & i' & got & E & _ & _ & _ & _ & _ & R1 & R2 & R3 & R4).
    symmetry in E. apply app_eq_nil in E as (-> & _). inversion R4; subst. exists file, i'. cbn [snd]. destruct Y as [(_ & ->)|(_ & ->)]; sconj; auto; discriminate.
Qed.
Theorem C95_from_dump_same m c unescape sort_file dir r out : apidb_to_pbf_leaves m c unescape sort_file dir r out ->
  apidb_to_pbf m c unescape sort_file dir (match r, out with Ok _, Some f => Ok f | Ok _, None => Panic | Err, _ => Err | Panic, _ => Panic end).
Proof.
  intros H. destruct H as [X|X|rd r X Y|rd k s es o r file X Y Z W]; [constructor; auto|constructor; auto| |].
  - destruct Y as [(Y & ->)|(Y & ->)]; [eapply ap_elements_err; eauto|eapply ap_elements_panic; eauto].
  - destruct o.
    + apply writes_write_file in W. assert (F : filter (fun _ : element => true) es = es) by (clear; induction es; cbn; congruence). rewrite F in W.
      destruct r; cbn [with_file] in W; rewrite <- W; eapply ap_write; eauto.
    + apply writes_panicked in W. subst r. eapply ap_read_panic; eauto.
Qed.

(** C95, pbf-to-apidb: stopped by a panic of the reader, it leaves table files from which a reader yields no element *)
Theorem C95_to_dump m c escape unescape sort_file input disk dir :
  StopSpec.sorts_nothing sort_file -> pbf_to_apidb_stops m c escape input disk -> StopSpec.leaves disk dir ->
  forall rd k s l o, ApidbRead.reader_new sort_file dir = Ok rd -> ApidbRead.elements unescape rd = Ok (k, s) -> run (ApidbRead.element_next k) s l o -> Forall (eq ESentinel) l.
Proof.
  intros SN (i & es & w & _ & _ & W & D) LV rd k s l o RN EL R.
  eapply (PropStop.C80_nothing_early sort_file escape (fun V l => l) (fun _ => 0) [] unescape es DumpStop.Writing w [] disk dir); eauto.
  - apply (DumpStop.st_writing _ _ _ _ es es [] w); auto. rewrite app_nil_r. reflexivity.
  - split; [intros t; exists []; rewrite app_nil_r, D; reflexivity|intros t []].
Qed.
