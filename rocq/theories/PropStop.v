(** Property C80: reading a dump whose writer was stopped. *)
From Coq Require Import ZArith List Bool Strings.Byte Strings.String Lia Permutation.
From Verif Require Import Base BaseFacts Types Model2 ModelFacts ApidbText ApidbSpec CalendarFacts ApidbTextFacts TileFacts DumpSpec ApidbWrite ApidbWriteFacts PropApidbWrite ApidbRead DumpReadSpec
  FileFormat ApidbReadFacts TocFacts JoinFacts ReaderFacts PropApidbRead PropDump RoundSpec RoundFacts PropRound PropRoundTrip PropLimits ResolveSpec PropResolve DumpStop StopSpec.
Import ListNotations.
Local Notation length := List.length.
Local Notation concat := List.concat.
Local Notation writer := ApidbWrite.writer.
Local Notation write_element := ApidbWrite.write_element.
Local Notation writer_new := ApidbWrite.writer_new.
Local Notation append := ApidbWrite.append.
Local Notation reader_new := ApidbRead.reader_new.
Open Scope Z_scope.

(** ** What reaches the table files *)
Section Files.
Variables (esc : bytes -> bytes) (hash_order : forall V, list (Z * V) -> list (Z * V)) (clock : nat -> Z) (lib : bytes).
Definition grows (a b : writer) : Prop := forall t, exists rest, files b t = files a t ++ rest.
Lemma grows_refl a : grows a a. Proof. intros t. exists []. rewrite app_nil_r. reflexivity. Qed.
Lemma grows_trans a b c : grows a b -> grows b c -> grows a c.
Proof. intros H1 H2 t. destruct (H1 t) as (r1 & E1), (H2 t) as (r2 & E2). exists (r1 ++ r2). rewrite E2, E1, app_assoc. reflexivity. Qed.
Lemma files_cell t w : files w t = fst (ApidbWriteFacts.cell t w). Proof. reflexivity. Qed.
Lemma append_grows t b w : grows w (append t b w).
Proof. intros t'. unfold append, upd. cbn [files]. destruct (table_eqb t t') eqn:E; [apply table_eqb_eq in E; subst; eauto|exists []; rewrite app_nil_r; reflexivity]. Qed.
Lemma put_grows t ls id v w : grows w (put_current t ls id v w).
Proof.
  unfold put_current. destruct (set_last_lines ls id v (currents w t)) as (out, c). destruct out as [l|].
  - intros t'. change (exists rest, files (append t (concat l) (set_current t c w)) t' = files w t' ++ rest). destruct (append_grows t (concat l) (set_current t c w) t') as (r & E). exists r. rewrite E. reflexivity.
  - intros t'. exists []. rewrite app_nil_r. reflexivity.
Qed.
Lemma remember_grows a b c w : grows w (remember a b c w). Proof. intros t. exists []. rewrite app_nil_r. reflexivity. Qed.
Ltac grow := first [apply grows_refl | (eapply grows_trans; [|first [apply append_grows | apply put_grows | apply remember_grows]]; grow)].
Lemma element_grows e w w' : write_element esc e w = Ok w' -> grows w w'.
Proof.
  destruct e as [n|x|r|]; cbn [write_element]; unfold write_node, write_way, write_relation; cbv zeta.
  1-3: destruct (to_sql_time_millis _) as [s| |]; cbn [bind]; try discriminate; intros E; injection E as <-; grow.
  intros E; injection E as <-. apply grows_refl.
Qed.
Lemma elements_grow es : forall w w', ApidbWrite.write_elements esc es w = Ok w' -> grows w w'.
Proof.
  induction es as [|e es IH]; cbn [ApidbWrite.write_elements]; intros w w' E; [injection E as <-; apply grows_refl|].
  destruct (write_element esc e w) as [w1| |] eqn:E1; cbn [bind] in E; try discriminate. eapply grows_trans; [eapply element_grows; eauto|auto].
Qed.
Lemma flush_grows w : grows w (flushed hash_order w).
Proof.
  intros t. change (files (flushed hash_order w) t) with (files (flush_current_object_lines w) t). rewrite flush_files.
  destruct (existsb _ _); eauto. exists []. rewrite app_nil_r. reflexivity.
Qed.
Lemma users_grow us : forall i w w', write_users clock i us w = Ok w' -> grows w w'.
Proof.
  induction us as [|(a, b) us IH]; cbn [write_users]; intros i w w' E; [injection E as <-; apply grows_refl|].
  destruct (to_sql_time_micros (clock i)); cbn [bind] in E; try discriminate. eapply grows_trans; [apply append_grows|eauto].
Qed.
Lemma changesets_grow us : forall i w w', write_changesets clock lib i us w = Ok w' -> grows w w'.
Proof.
  induction us as [|(a, b) us IH]; cbn [write_changesets]; cbv zeta; intros i w w' E; [injection E as <-; apply grows_refl|].
  destruct (to_sql_time_micros (clock i)); cbn [bind] in E; try discriminate. eapply grows_trans; [apply append_grows|]. eapply grows_trans; [apply append_grows|eauto].
Qed.
Lemma close_grows ts : forall w, grows w (fold_left (fun w t => append t terminator w) ts w).
Proof. induction ts as [|t ts IH]; intros w; cbn [fold_left]; [apply grows_refl|]. eapply grows_trans; [apply append_grows|apply IH]. Qed.
Lemma close_same ts t : forall w, ~ In t ts -> files (fold_left (fun w t => append t terminator w) ts w) t = files w t.
Proof.
  induction ts as [|a ts IH]; intros w N; cbn [fold_left]; auto. rewrite IH by (intros I; apply N; right; auto).
  unfold append, upd. cbn [files]. destruct (table_eqb a t) eqn:E; auto. apply table_eqb_eq in E. subst. exfalso. apply N. left; auto.
Qed.
Lemma elements_app es1 es2 : forall w w', ApidbWrite.write_elements esc (es1 ++ es2) w = Ok w' ->
  exists w1, ApidbWrite.write_elements esc es1 w = Ok w1 /\ ApidbWrite.write_elements esc es2 w1 = Ok w'.
Proof.
  induction es1 as [|e es1 IH]; cbn [app ApidbWrite.write_elements]; intros w w' E; [eauto|].
  destruct (write_element esc e w) as [w1| |]; cbn [bind] in *; try discriminate. auto.
Qed.
Lemma users_app us1 us2 : forall i w w', write_users clock i (us1 ++ us2) w = Ok w' ->
  exists w1, write_users clock i us1 w = Ok w1 /\ write_users clock (i + length us1) us2 w1 = Ok w'.
Proof.
  induction us1 as [|(a, b) us1 IH]; cbn [app write_users length]; intros i w w' E; [rewrite Nat.add_0_r; eauto|].
  destruct (to_sql_time_micros (clock i)); cbn [bind] in *; try discriminate. apply IH in E as (w1 & E1 & E2). exists w1. split; auto.
  replace (i + S (length us1))%nat with (S i + length us1)%nat by lia. auto.
Qed.
Lemma changesets_app us1 us2 : forall i w w', write_changesets clock lib i (us1 ++ us2) w = Ok w' ->
  exists w1, write_changesets clock lib i us1 w = Ok w1 /\ write_changesets clock lib (i + length us1) us2 w1 = Ok w'.
Proof.
  induction us1 as [|(a, b) us1 IH]; cbn [app write_changesets length]; cbv zeta; intros i w w' E; [rewrite Nat.add_0_r; eauto|].
  destruct (to_sql_time_micros (clock i)); cbn [bind] in *; try discriminate. apply IH in E as (w1 & E1 & E2). exists w1. split; auto.
  replace (i + S (length us1))%nat with (S i + length us1)%nat by lia. auto.
Qed.
(** the parts of a whole run *)
Lemma dump_parts es w : ApidbWrite.dump esc hash_order clock lib es = Ok w -> exists w0 w1 w2,
  ApidbWrite.write_elements esc es writer_new = Ok w0 /\ write_users clock 0 (user_index (flushed hash_order w0)) (flushed hash_order w0) = Ok w1 /\
  write_changesets clock lib (length (user_index w1)) (changeset_index w1) w1 = Ok w2 /\ w = fold_left (fun w t => append t terminator w) all_tables w2.
Proof.
  unfold ApidbWrite.dump, ApidbWrite.close. cbv zeta. intros E. apply bind_ok in E as (w0 & E0 & E). apply bind_ok in E as (w1 & E1 & E). apply bind_ok in E as (w2 & E2 & E).
  injection E as <-. exists w0, w1, w2. auto.
Qed.
(** at every moment the table files hold the beginning of the finished ones *)
Lemma stage_grows es m w closed w' : stage esc hash_order clock lib es m w closed -> ApidbWrite.dump esc hash_order clock lib es = Ok w' ->
  grows w w' /\ forall t, In t closed -> files w t = files w' t.
Proof.
  intros S D. destruct (dump_parts es w' D) as (w0 & w1 & w2 & E0 & E1 & E2 & ->).
  assert (grows w0 (fold_left (fun w t => append t terminator w) all_tables w2)) as G0.
  { eapply grows_trans; [apply flush_grows|]. eapply grows_trans; [eapply users_grow; eauto|]. eapply grows_trans; [eapply changesets_grow; eauto|apply close_grows]. }
  destruct S as [before after w -> E|before e after w9 t w -> EB EP ET|w9 before after w EA EI EU|w9 w8 before after w EA EU EI EC|w9 w8 w7 closed next after w EA EU EC AT LN ->].
  - split; [|intros t []]. apply elements_app in E0 as (w9 & X & Y). rewrite E in X. injection X as <-. eapply grows_trans; [eapply elements_grow; eauto|auto].
  - exfalso. apply elements_app in E0 as (w8 & X & Y). rewrite EB in X. injection X as <-. cbn [ApidbWrite.write_elements] in Y. rewrite EP in Y. discriminate.
  - split; [|intros t []]. rewrite E0 in EA. injection EA as <-. rewrite EI in E1. apply users_app in E1 as (w8 & X & Y). rewrite EU in X. injection X as <-.
    eapply grows_trans; [eapply users_grow; eauto|]. eapply grows_trans; [eapply changesets_grow; eauto|apply close_grows].
  - split; [|intros t []]. rewrite E0 in EA. injection EA as <-. rewrite E1 in EU. injection EU as <-. rewrite EI in E2. apply changesets_app in E2 as (w7 & X & Y).
    rewrite EC in X. injection X as <-. eapply grows_trans; [eapply changesets_grow; eauto|apply close_grows].
  - rewrite E0 in EA. injection EA as <-. rewrite E1 in EU. injection EU as <-. rewrite E2 in EC. injection EC as <-.
    rewrite AT. rewrite (app_assoc closed next after), (fold_left_app _ (closed ++ next) after). split; [apply close_grows|]. intros t I. symmetry. apply close_same. intros J.
    assert (NoDup all_tables) as ND. { unfold all_tables. repeat (constructor; [cbn; intuition discriminate|]). constructor. }
    rewrite AT in ND. rewrite app_assoc in ND.
    clear - I J ND. assert (In t (closed ++ next)) as I' by (apply in_app_iff; auto). revert I' ND. generalize (closed ++ next). clear I. intros l I ND.
    induction l as [|a l IH]; [destruct I|]. cbn in ND. inversion ND; subst. destruct I as [->|I]; auto. apply H1, in_app_iff. auto.
Qed.
(** until the changesets are written their table is empty *)
Lemma element_other e w w' t : write_element esc e w = Ok w' -> t = T_changesets \/ t = T_users -> files w' t = files w t.
Proof.
  intros E T. destruct (write_element_cell esc e w w' E) as (_ & C). specialize (C t).
  assert (ApidbWriteFacts.cell t w' = ApidbWriteFacts.cell t w) as X; [|rewrite !files_cell, X; reflexivity].
  rewrite C. destruct e as [n|x|r|]; destruct T as [-> | ->]; cbn; rewrite ?app_nil_r; reflexivity.
Qed.
Lemma elements_other es t : t = T_changesets \/ t = T_users -> forall w w', ApidbWrite.write_elements esc es w = Ok w' -> files w' t = files w t.
Proof.
  intros T. induction es as [|e es IH]; cbn [ApidbWrite.write_elements]; intros w w' E; [injection E as <-; auto|].
  apply bind_ok in E as (w1 & E1 & E). rewrite (IH _ _ E). eapply element_other; eauto.
Qed.
Lemma users_other us t : t <> T_users -> forall i w w', write_users clock i us w = Ok w' -> files w' t = files w t.
Proof.
  intros T. induction us as [|(a, b) us IH]; cbn [write_users]; intros i w w' E; [injection E as <-; auto|].
  apply bind_ok in E as (s & _ & E). rewrite (IH _ _ _ E). unfold append, upd. cbn [files]. destruct (table_eqb T_users t) eqn:X; auto. apply table_eqb_eq in X. congruence.
Qed.
Lemma flushed_other w t : t = T_changesets \/ t = T_users -> files (flushed hash_order w) t = files w t.
Proof. intros T. change (files (flushed hash_order w) t) with (files (flush_current_object_lines w) t). rewrite flush_files. destruct T as [-> | ->]; reflexivity. Qed.
Lemma no_changesets_yet es m w closed : stage esc hash_order clock lib es m w closed -> m = Writing \/ m = Writing_users -> files w T_changesets = [].
Proof.
  intros S M. destruct S as [before after w -> E|before e after w9 t w -> EB EP ET|w9 before after w EA EI EU|w9 w8 before after w EA EU EI EC|w9 w8 w7 closed next after w EA EU EC AT LN ->].
  4-5: exfalso; destruct M; discriminate.
  - rewrite (elements_other _ T_changesets (or_introl eq_refl) _ _ E). reflexivity.
  - rewrite (element_other _ _ _ T_changesets ET (or_introl eq_refl)), (elements_other _ T_changesets (or_introl eq_refl) _ _ EB). reflexivity.
  - rewrite (users_other _ T_changesets ltac:(discriminate) _ _ _ EU), (flushed_other _ _ (or_introl eq_refl)), (elements_other _ T_changesets (or_introl eq_refl) _ _ EA). reflexivity.
Qed.
End Files.

(** ** Opening such a directory *)
Lemma catalogue_unique (cat : catalogue) : NoDup (map (fun e => fst (fst e)) cat) -> forall n c1 f1 c2 f2, In (n, c1, f1) cat -> In (n, c2, f2) cat -> c1 = c2 /\ f1 = f2.
Proof.
  intros ND. induction cat as [|((n0, c0), f0) cat IH]; intros n c1 f1 c2 f2 I1 I2; [destruct I1|]. cbn in ND. inversion ND as [|? ? N1 N2]; subst.
  assert (forall c f, In (n0, c, f) cat -> False) as NO by (intros c f I; apply N1; apply in_map_iff; exists (n0, c, f); auto).
  destruct I1 as [E1|I1], I2 as [E2|I2].
  - injection E1 as <- <- <-. injection E2 as <- <-. auto.
  - injection E1 as <- <- <-. destruct (NO _ _ I2).
  - injection E2 as <- <- <-. destruct (NO _ _ I1).
  - eapply IH; eauto.
Qed.
Lemma res_map_forall {A B} (f : A -> res B) l : forall bs, res_map f l = Ok bs -> Forall2 (fun a b => f a = Ok b) l bs.
Proof.
  induction l as [|a l IH]; cbn [res_map]; intros bs E; [injection E as <-; constructor|]. apply bind_ok in E as (b & E1 & E). apply bind_ok in E as (bs' & E2 & E).
  injection E as <-. constructor; auto.
Qed.
Section Opening.
Variable sort_file : list (nat * ftype) -> bytes -> res bytes.
Lemma reader_table dir rd t : (exists toc, dir (str "toc.dat") = Some toc /\ describes toc) -> reader_new sort_file dir = Ok rd -> In t object_tables ->
  exists d data sorted, get_table t rd = Some (d, sorted) /\ dir (table_file t) = Some data /\ sort_file (td_key d) data = Ok sorted.
Proof.
  intros (toc & DT & entries & cat & TT & ND & F2 & IC) RN IT. pose proof (catalogue_unique cat ND) as UNI.
  destruct (defs_ok cat entries F2 ND) with (acc := @nil (table * table_def)) as (defs & DE & NDE & INE).
  - intros t' cols file TI IN. destruct (UNI _ _ _ _ _ IN (IC t' TI)) as (-> & ->). apply def_exists; auto.
  - constructor.
  - intros t' [].
  - unfold reader_new in RN. rewrite DT in RN. cbn [of_option bind] in RN. rewrite (toc_strings _ _ TT) in RN. cbn [bind] in RN. rewrite DE in RN. cbn [bind] in RN.
    apply res_map_forall in RN. destruct (def_exists t (table_file t) IT) as (d & D).
    assert (In (t, d) defs) as ID by (apply INE; right; split; [exact IT|exists (schema t), (table_file t); auto]).
    destruct (table_def_ok t (table_file t) (schema t) IT (needs_schema t IT)) as (fs & ks & D' & _). rewrite D in D'. injection D' as ->.
    assert (map fst rd = map fst defs) as MF.
    { clear - RN. induction RN as [|p q ps qs H F IH]; auto. cbn. rewrite IH. f_equal. apply bind_ok in H as (x & _ & H). apply bind_ok in H as (y & _ & H). injection H as <-. reflexivity. }
    destruct (Forall2_in_l _ _ _ _ RN ID) as (q & IQ & H). cbn [fst snd td_file td_key] in H. apply bind_ok in H as (data & X & H). apply bind_ok in H as (sorted & SO & H). injection H as <-.
    exists (TableDef (table_file t) fs ks), data, sorted. sconj; auto.
    + apply get_table_In; auto. rewrite MF. exact NDE.
    + destruct (dir (table_file t)); [injection X as ->; reflexivity|discriminate].
Qed.
Lemma next_changesets k s o s' : element_next k s = Ok (o, s') -> ei_changesets s' = ei_changesets s /\ (ei_changesets s = [] -> forall e, o = Some e -> e = ESentinel).
Proof.
  assert (forall s o s', next_started k s = Ok (o, s') -> ei_changesets s' = ei_changesets s /\ (ei_changesets s = [] -> forall e, o = Some e -> e = ESentinel)) as X.
  { clear. intros s o s'. unfold next_started. destruct (ei_state s); intros E; try discriminate.
    - apply bind_ok in E as ((o1 & ni) & _ & E). destruct o1 as [(n & ts)|]; cbv zeta in E.
      + apply bind_ok in E as (e & M & E). injection E as <- <-. split; [reflexivity|]. intros Z. rewrite Z in M. discriminate M.
      + injection E as <- <-. split; [reflexivity|]. intros _ e Y. injection Y as <-. reflexivity.
    - apply bind_ok in E as ((o1 & ni) & _ & E). destruct o1 as [((n & xs) & ts)|]; cbv zeta in E.
      + apply bind_ok in E as (e & M & E). injection E as <- <-. split; [reflexivity|]. intros Z. rewrite Z in M. discriminate M.
      + injection E as <- <-. split; [reflexivity|]. intros _ e Y. injection Y as <-. reflexivity.
    - apply bind_ok in E as ((o1 & ni) & _ & E). destruct o1 as [((n & xs) & ts)|]; cbv zeta in E.
      + apply bind_ok in E as (e & M & E). injection E as <- <-. split; [reflexivity|]. intros Z. rewrite Z in M. discriminate M.
      + injection E as <- <-. split; [reflexivity|]. intros _ e Y. injection Y as <-. reflexivity.
    - injection E as <- <-. split; auto. intros _ e Y. discriminate. }
  unfold element_next. destruct (ei_state s); intros E; apply X in E; auto.
Qed.
Lemma run_changesets k s l o : run (element_next k) s l o -> ei_changesets s = [] -> Forall (eq ESentinel) l.
Proof.
  induction 1 as [s s' E|s E|s a s' l o E R IH]; intros Z; [constructor..|]. apply next_changesets in E as (E1 & E2).
  constructor; [symmetry; apply E2; auto|]. apply IH. congruence.
Qed.
(** C80, before: as long as no row of changesets has reached the disk, reading yields no object, whatever has reached
    the other tables and wherever their last rows are cut. *)
Theorem C80_nothing_early esc hash_order clock lib unescape es m w closed disk dir :
  sorts_nothing sort_file -> stage esc hash_order clock lib es m w closed -> m = Writing \/ m = Writing_users \/ disk T_changesets = [] -> on_disk w closed disk -> leaves disk dir ->
  forall rd k s l o, reader_new sort_file dir = Ok rd -> ApidbRead.elements unescape rd = Ok (k, s) -> run (element_next k) s l o -> Forall (eq ESentinel) l.
Proof.
  intros SN ST M (DP & _) (TOC & DF) rd k s l o RN EL R. apply (run_changesets k s l o R).
  assert (disk T_changesets = []) as E.
  { assert (m = Writing \/ m = Writing_users -> disk T_changesets = []) as X; [|destruct M as [M|[M|M]]; auto]. clear M. intros M.
    pose proof (no_changesets_yet _ _ _ _ _ _ _ _ ST M) as NC. destruct (DP T_changesets) as (rest & E). rewrite NC in E. symmetry in E. apply app_eq_nil in E as (E & _). exact E. }
  destruct (reader_table dir rd T_changesets TOC RN ltac:(cbn; tauto)) as (d & data & sorted & GT & DD & SO). rewrite DF, E in DD. injection DD as <-. apply SN in SO. subst sorted.
  unfold ApidbRead.elements in EL. apply bind_ok in EL as ((fu & lu) & _ & EL). apply bind_ok in EL as (us & _ & EL). apply bind_ok in EL as ((fc & lc) & OC & EL). apply bind_ok in EL as (cs & TC & EL).
  repeat (apply bind_ok in EL as ((? & ?) & _ & EL)). injection EL as _ <-. cbn [ei_changesets].
  unfold open_table in OC. rewrite GT in OC. cbn in OC. injection OC as <- <-. cbn in TC. injection TC as <-. reflexivity.
Qed.
End Opening.

(** ** Files cut after a row *)
Definition marker : bytes := str "\." ++ [x0a].
Lemma feeds_app a b : line_feeds (a ++ b) = (line_feeds a + line_feeds b)%nat.
Proof. unfold line_feeds. rewrite filter_app, app_length. reflexivity. Qed.
Lemma feeds_none a : ~ In x0a a -> line_feeds a = 0%nat.
Proof.
  unfold line_feeds. induction a as [|b a IH]; cbn [filter]; auto. intros N. destruct (Byte.eqb x0a b) eqn:E; [apply Byte.byte_dec_bl in E; subst; exfalso; apply N; left; auto|]. apply IH. intros I. apply N. right; auto.
Qed.
Lemma prefix_cases {A} (a b c d : list A) : a ++ b = c ++ d -> (exists e, c = a ++ e /\ b = e ++ d) \/ (exists e, e <> [] /\ a = c ++ e /\ d = e ++ b).
Proof.
  revert c. induction a as [|x a IH]; intros c E; [left; exists c; auto|]. destruct c as [|y c].
  - right. exists (x :: a). split; [discriminate|]. auto.
  - cbn in E. injection E as -> E. destruct (IH c E) as [(e & -> & ->)|(e & N & -> & ->)]; [left|right]; exists e; auto.
Qed.
Lemma whole_tail a b : whole_rows (a ++ b) -> whole_rows b.
Proof.
  intros [E|(u & E)]; [apply app_eq_nil in E as (_ & ->); left; auto|]. destruct (list_eq_nil_or_last b) as [->|(b' & x & ->)]; [left; auto|].
  rewrite app_assoc in E. apply app_inj_tail in E as (_ & ->). right. eauto.
Qed.
Lemma cut_lines (lines : list bytes) : Forall (fun l => exists t, l = t ++ [x0a] /\ ~ In x0a t) lines -> forall tail data rest, concat lines ++ tail = data ++ rest -> whole_rows data ->
  (data = concat (firstn (line_feeds data) lines) /\ (line_feeds data <= length lines)%nat) \/
  (exists t1, t1 <> [] /\ data = concat lines ++ t1 /\ tail = t1 ++ rest /\ line_feeds data = (length lines + line_feeds t1)%nat).
Proof.
  induction 1 as [|l lines (t & -> & NT) F IH]; intros tail data rest E W.
  - destruct data as [|b data]; [left; split; cbn; auto|]. right. exists (b :: data). cbn in *. sconj; auto. discriminate.
  - destruct data as [|b0 data0]; [left; cbn; split; auto; lia|]. set (data := b0 :: data0) in *. cbn [concat] in E. rewrite <- app_assoc in E. apply prefix_cases in E as [(e & ED & E)|(e & NE & ED & E)].
    + rewrite ED in W. pose proof (whole_tail _ _ W) as W2. assert (line_feeds data = S (line_feeds e)) as LF.
      { rewrite ED, feeds_app, feeds_app, (feeds_none t NT). reflexivity. }
      destruct (IH tail e rest E W2) as [(E1 & E2)|(t1 & N1 & E1 & E2 & E3)].
      * left. rewrite LF. cbn [firstn concat length]. rewrite <- E1. split; [exact ED|lia].
      * right. exists t1. sconj; auto; [cbn [concat]; rewrite ED, E1, app_assoc; reflexivity|rewrite LF, E3; reflexivity].
    + exfalso. (* the data ends inside the first line *)
      assert (In x0a data) as ID. { destruct W as [W|(u & W)]; [discriminate W|]. rewrite W. apply in_app_iff. right. left. auto. }
      destruct (list_eq_nil_or_last e) as [->|(e' & x & ->)]; [congruence|]. rewrite app_assoc in ED. apply app_inj_tail in ED as (-> & _).
      apply NT. apply in_app_iff. auto.
Qed.
Lemma row_lines rows lines : Forall2 copy_line rows lines -> Forall clean_row rows -> Forall (fun l => exists t, l = t ++ [x0a] /\ ~ In x0a t) lines.
Proof.
  induction 1 as [|cols l rows lines H F IH]; intros C; constructor; inversion C; subst; auto. destruct (copy_line_app _ _ H) as (t & -> & ->).
  exists (join_cols cols). split; auto. apply join_no_lf, clean_cols_lf. match goal with H : clean_row cols |- _ => exact (proj1 H) end.
Qed.
Lemma F2_length {A B} (P : A -> B -> Prop) l m : Forall2 P l m -> length l = length m.
Proof. induction 1; cbn; auto. Qed.
Lemma firstn_F2 {A B} (P : A -> B -> Prop) n l m : Forall2 P l m -> Forall2 P (firstn n l) (firstn n m).
Proof. intros F. revert n. induction F; intros [|n]; cbn; constructor; auto. Qed.
Lemma firstn_F {A} (P : A -> Prop) n l : Forall P l -> Forall P (firstn n l).
Proof. intros F. revert n. induction F; intros [|n]; cbn; constructor; auto. Qed.
Lemma marker_part (t1 rest : bytes) blank : t1 <> [] -> whole_rows t1 -> marker ++ repeat x0a blank = t1 ++ rest -> exists b, t1 = marker ++ repeat x0a b.
Proof.
  intros N W E. apply prefix_cases in E as [(e & -> & E)|(e & NE & E & _)].
  - exists (length e). f_equal. clear - E. revert blank E. induction e as [|b e IH]; intros [|k] E; cbn in *; try discriminate; auto. injection E as <- E. f_equal. eauto.
  - exfalso. destruct W as [->|(u & ->)]; [congruence|]. unfold marker in E. cbn in E.
    destruct u as [|b u]; [discriminate E|]. destruct u as [|c u]; [discriminate E|]. cbn in E. injection E as _ _ E. destruct u as [|d u]; cbn in E; [injection E as E; subst; congruence|].
    injection E as _ E. destruct u; discriminate E.
Qed.
(** a file cut after a row is the file of fewer rows, except that the end marker may be missing *)
Lemma cut_copy rows file data rest : copy_file rows file -> Forall clean_row rows -> file = data ++ rest -> whole_rows data ->
  exists data', (data' = data \/ data' = data ++ marker) /\ copy_file (firstn (line_feeds data) rows) data'.
Proof.
  intros (lines & blank & F & E0) C E W. rewrite E in E0. symmetry in E0. pose proof (row_lines _ _ F C) as RL.
  destruct (cut_lines lines RL _ _ _ E0 W) as [(E1 & LE)|(t1 & N & E1 & E2 & LF)].
  - exists (data ++ marker). split; auto. exists (firstn (line_feeds data) lines), 0%nat. split; [apply firstn_F2; auto|]. cbn [repeat]. rewrite <- E1. unfold marker. rewrite app_nil_r. reflexivity.
  - assert (whole_rows t1) as W1 by (rewrite E1 in W; eapply whole_tail; eauto). destruct (marker_part t1 rest blank N W1) as (b & B); [unfold marker; rewrite <- app_assoc; exact E2|].
    exists data. split; auto. exists lines, b. rewrite firstn_all2.
    + split; auto. rewrite E1, B. unfold marker. rewrite <- !app_assoc. reflexivity.
    + rewrite LF. clear - F. assert (length rows = length lines) as -> by (eapply F2_length; eauto). lia.
Qed.
Lemma copy_feeds rows file : copy_file rows file -> Forall clean_row rows -> (length rows <= line_feeds file)%nat.
Proof.
  intros (lines & blank & F & ->) C. rewrite feeds_app. assert (length rows <= line_feeds (concat lines))%nat; [|lia].
  pose proof (row_lines _ _ F C) as RL. rewrite (F2_length _ _ _ F). clear - RL. induction RL as [|l lines (t & -> & N) R IH]; cbn [concat length]; [lia|]. rewrite !feeds_app. cbn. lia.
Qed.

Lemma combine_map_l {A B C} (f : A -> B) (l : list A) (m : list C) : combine (map f l) m = map (fun p => (f (fst p), snd p)) (combine l m).
Proof. revert m. induction l as [|a l IH]; intros [|c m]; cbn; auto. f_equal. auto. Qed.
Lemma NoDup_firstn {A} n (l : list A) : NoDup l -> NoDup (firstn n l).
Proof.
  intros N. revert n. induction N as [|a l I N IH]; intros [|n]; cbn; constructor; auto. intros J. apply I. rewrite <- (firstn_skipn n l). apply in_app_iff. auto.
Qed.
Lemma kept_incl {R} disk t (rs : list R) : incl (kept disk t rs) rs.
Proof. intros r I. unfold kept in I. rewrite <- (firstn_skipn (line_feeds (disk t)) rs). apply in_app_iff. auto. Qed.
Lemma kept_keys {R K} (key : R -> K) disk t rs : NoDup (map key rs) -> NoDup (map key (kept disk t rs)).
Proof. unfold kept. rewrite <- firstn_map. apply NoDup_firstn. Qed.
Lemma res_map_ext {A B} (f g : A -> res B) l : (forall a, f a = g a) -> res_map f l = res_map g l.
Proof. intros E. induction l as [|a l IH]; cbn; auto. rewrite E, IH. reflexivity. Qed.


(** counting what was read *)
Definition is_node (i : item) := match i with ANode _ => true | _ => false end.
Definition is_way (i : item) := match i with AWay _ => true | _ => false end.
Definition is_relation (i : item) := match i with ARelation _ => true | _ => false end.
Lemma read_counts d items l : Forall2 (item_element d) items l ->
  length (nodes_in l) = length (filter is_node items) /\ length (ways_in l) = length (filter is_way items) /\ length (relations_in l) = length (filter is_relation items).
Proof.
  induction 1 as [|i e items l H F (A & B & C)]; [auto|]. unfold nodes_in, ways_in, relations_in in *. cbn [flat_map filter]. rewrite !app_length, A, B, C.
  destruct i as [r|r|r|]; cbn [item_element] in H; cbn [is_node is_way is_relation];
    [destruct H as (? & ? & ? & ? & ? & _ & _ & _ & _ & ->)|destruct H as (? & ? & ? & ? & ? & ? & _ & _ & _ & _ & _ & ->)|destruct H as (? & ? & ? & ? & ? & ? & _ & _ & _ & _ & _ & ->)|subst e]; cbn; auto.
Qed.
Lemma filter_all {A} (f : A -> bool) l : (forall a, In a l -> f a = true) -> filter f l = l.
Proof. induction l as [|a l IH]; cbn [filter]; intros H; auto. rewrite (H a (or_introl eq_refl)), IH; auto. intros b I. apply H. right; auto. Qed.
Lemma filter_no {A} (f : A -> bool) l : (forall a, In a l -> f a = false) -> filter f l = [].
Proof. induction l as [|a l IH]; cbn [filter]; intros H; auto. rewrite (H a (or_introl eq_refl)), IH; auto. intros b I. apply H. right; auto. Qed.
Lemma item_counts ns ws rs : let items := map ANode ns ++ [AMark] ++ map AWay ws ++ [AMark] ++ map ARelation rs ++ [AMark] in
  length (filter is_node items) = length ns /\ length (filter is_way items) = length ws /\ length (filter is_relation items) = length rs.
Proof.
  cbv zeta. rewrite !filter_app, !app_length. cbn [filter is_node is_way is_relation length].
  assert (forall A (f : A -> item) p l b, (forall a, p (f a) = b) -> length (filter p (map f l)) = if b then length l else 0%nat) as X.
  { intros A f p l b H. destruct b; [rewrite filter_all, map_length; auto|rewrite filter_no; auto]; intros a I; apply in_map_iff in I as (x & <- & _); auto. }
  rewrite !(X _ ANode is_node ns true), !(X _ ANode is_way ns false), !(X _ ANode is_relation ns false), !(X _ AWay is_node ws false), !(X _ AWay is_way ws true), !(X _ AWay is_relation ws false),
    !(X _ ARelation is_node rs false), !(X _ ARelation is_way rs false), !(X _ ARelation is_relation rs true) by auto. cbn [Nat.add]. rewrite !Nat.add_0_r. auto.
Qed.
Lemma closed_before_users closed rest : all_tables = closed ++ rest -> In T_users closed -> In T_nodes closed /\ In T_relations closed /\ In T_changesets closed.
Proof.
  intros E I. assert (closed = firstn (length closed) all_tables) as F by (rewrite E, firstn_app, Nat.sub_diag, firstn_all, app_nil_r; reflexivity).
  assert (forall k, In T_users (firstn k all_tables) -> In T_nodes (firstn k all_tables) /\ In T_relations (firstn k all_tables) /\ In T_changesets (firstn k all_tables)) as K; [|rewrite F in I |- *; apply K; exact I].
  clear. intros k. destruct (Nat.le_gt_cases (length all_tables) k) as [L|L]; [rewrite firstn_all2 by exact L; intros _; cbn; tauto|].
  assert (forallb (fun k => implb (existsb (table_eqb T_users) (firstn k all_tables)) (existsb (table_eqb T_nodes) (firstn k all_tables) && existsb (table_eqb T_relations) (firstn k all_tables)
    && existsb (table_eqb T_changesets) (firstn k all_tables))) (seq 0 (length all_tables)) = true) as B by (vm_compute; reflexivity).
  rewrite forallb_forall in B. specialize (B k ltac:(apply in_seq; lia)). intros I.
  assert (forall t l, In t l <-> existsb (table_eqb t) l = true) as X.
  { intros t l. rewrite existsb_exists. split; [intros J; exists t; split; auto; apply table_eqb_eq; auto|intros (x & J & Y); apply table_eqb_eq in Y; subst; auto]. }
  apply X in I. rewrite I in B. cbn [implb] in B. apply andb_true_iff in B as (B & B3). apply andb_true_iff in B as (B1 & B2). rewrite !X. auto.
Qed.

Section Cut.
Variables (esc : bytes -> bytes) (unescape : bytes -> option bytes).
Variables (hash_order : forall V, list (Z * V) -> list (Z * V)) (clock : nat -> Z) (lib : bytes).
Hypothesis HO : any_order hash_order.
Variable sort_file : list (nat * ftype) -> bytes -> res bytes.
Hypothesis SORTS : sorts sort_file.
Hypothesis MARKER : marker_ignored sort_file.

Lemma cut_holds {R} (cat : catalogue) dir disk t (says : R -> row_of -> Prop) rs full : NoDup (map (fun e => fst (fst e)) cat) ->
  In (table_name t, schema t, table_file t) cat -> table_holds dir cat t says rs -> dir (table_file t) = Some full -> (exists rest, full = disk t ++ rest) -> whole_rows (disk t) ->
  (disk t = full -> kept disk t rs = rs) /\
  exists data, (data = disk t \/ data = disk t ++ marker) /\ forall dir', dir' (table_file t) = Some data -> table_holds dir' cat t says (kept disk t rs).
Proof.
  intros ND IC (cols & file & data & rows & I & NE & DF & SY & CL & CF) DT (rest & E) W. destruct (catalogue_unique cat ND _ _ _ _ _ I IC) as (-> & ->).
  rewrite DF in DT. injection DT as ->. split.
  { intros Y. unfold kept. apply firstn_all2. rewrite Y. pose proof (copy_feeds _ _ CF CL) as L. rewrite map_length in L. rewrite (F2_length _ _ _ SY). exact L. }
  destruct (cut_copy _ _ _ _ CF CL E W) as (data' & D & CF'). exists data'. split; auto. intros dir' DF'.
  exists (schema t), (table_file t), data', (firstn (line_feeds (disk t)) rows). rewrite <- firstn_map. sconj; auto; [apply firstn_F2; auto|apply firstn_F; auto].
Qed.
Definition with_files (choose : table -> bytes) (dir : bytes -> option bytes) (f : bytes) : option bytes :=
  match List.find (fun t => bytes_eqb (table_file t) f) all_tables with Some t => Some (choose t) | None => dir f end.
Lemma with_files_table choose dir t : with_files choose dir (table_file t) = Some (choose t).
Proof. destruct t; reflexivity. Qed.
Lemma with_files_reader choose disk dir : (forall t, choose t = disk t \/ choose t = disk t ++ marker) -> (forall t, whole_rows (disk t)) -> (forall t, dir (table_file t) = Some (disk t)) ->
  reader_new sort_file dir = reader_new sort_file (with_files choose dir).
Proof.
  intros C W DF. unfold reader_new. change (with_files choose dir (str "toc.dat")) with (dir (str "toc.dat")).
  destruct (dir (str "toc.dat")) as [toc|]; cbn [of_option bind]; [|reflexivity]. destruct (get_table_def_strings toc) as [raws| |]; cbn [bind]; auto.
  destruct (table_defs raws []) as [defs| |]; cbn [bind]; auto. apply res_map_ext. intros (t, d). cbn [fst snd].
  unfold with_files. destruct (List.find (fun t => bytes_eqb (table_file t) (td_file d)) all_tables) as [t'|] eqn:F; auto.
  apply find_some in F as (_ & F). apply bytes_eqb_eq in F. rewrite <- F, DF. cbn [of_option bind]. destruct (C t') as [-> | ->]; auto. unfold marker. rewrite MARKER; auto.
Qed.

Lemma stopped_dump es m w closed w' disk dir : stage esc hash_order clock lib es m w closed -> ApidbWrite.dump esc hash_order clock lib es = Ok w' -> readable esc unescape clock es ->
  on_disk w closed disk -> (forall t, whole_rows (disk t)) -> leaves disk dir ->
  exists users changesets clocks, let d := left_over disk es users changesets clocks in authors_of es users changesets /\
    (forall e, In e es -> e <> ESentinel -> exists cid uid uid' name', changesets_in [e] = [(cid, uid)] /\ In (cid, uid') changesets /\ In (uid', name') users) /\
    (forall t, In t closed -> (t = T_nodes -> d_nodes d = map node_record (nodes_in es)) /\ (t = T_relations -> d_relations d = map relation_record (relations_in es)) /\
       (t = T_users -> forall u, In u users -> In (UserRec (fst u) (snd u)) (d_users d)) /\
       (t = T_changesets -> forall c, In c changesets -> exists tm, In (changeset_record tm (fst c) (snd c)) (d_changesets d))) /\
    exists dir', dump_in unescape dir' d /\ primary_keys d /\ reader_new sort_file dir = reader_new sort_file dir'.
Proof.
  intros ST D RB (DP & DC0) W ((toc & DT & entries & cat & TT & ND & F2 & IC) & DF).
  destruct (stage_grows _ _ _ _ _ _ _ _ _ ST D) as (G & GC).
  assert (forall t, exists rest, files w' t = disk t ++ rest) as PRE.
  { intros t. destruct (DP t) as (r1 & E1), (G t) as (r2 & E2). exists (r1 ++ r2). rewrite E2, E1, app_assoc. reflexivity. }
  set (full := with_files (files w') dir).
  assert (directory w' full) as DIR.
  { split; [|intros t; apply with_files_table]. exists toc. split; [exact DT|]. exists entries, cat. auto. }
  destruct (written_tables esc unescape hash_order clock lib HO es w' D RB) as (us & cs & n & U1 & U2 & C1 & C2 & RES & CR & TS).
  destruct (TS full cat IC) as (T1 & T2 & T3 & T4 & T5 & T6 & T7 & T8 & T9 & T10).
  pose proof RB as (_ & (DN & DW & DR) & _).
  exists us, cs, (map clock (seq n (length cs))). cbv zeta. split; [unfold authors_of; sconj; auto|].
  set (d := left_over disk es us cs (map clock (seq n (length cs)))).
  assert (forall t, full (table_file t) = Some (files w' t)) as FF by (intros; apply with_files_table).
  destruct (cut_holds cat full disk T_nodes _ _ _ ND (IC T_nodes ltac:(clear; cbn; tauto)) (T1 (FF _)) (FF _) (PRE _) (W _)) as (Z1 & f1 & X1 & Y1).
  destruct (cut_holds cat full disk T_node_tags _ _ _ ND (IC T_node_tags ltac:(clear; cbn; tauto)) (T2 (FF _)) (FF _) (PRE _) (W _)) as (Z2 & f2 & X2 & Y2).
  destruct (cut_holds cat full disk T_ways _ _ _ ND (IC T_ways ltac:(clear; cbn; tauto)) (T3 (FF _)) (FF _) (PRE _) (W _)) as (Z3 & f3 & X3 & Y3).
  destruct (cut_holds cat full disk T_way_nodes _ _ _ ND (IC T_way_nodes ltac:(clear; cbn; tauto)) (T4 (FF _)) (FF _) (PRE _) (W _)) as (Z4 & f4 & X4 & Y4).
  destruct (cut_holds cat full disk T_way_tags _ _ _ ND (IC T_way_tags ltac:(clear; cbn; tauto)) (T5 (FF _)) (FF _) (PRE _) (W _)) as (Z5 & f5 & X5 & Y5).
  destruct (cut_holds cat full disk T_relations _ _ _ ND (IC T_relations ltac:(clear; cbn; tauto)) (T6 (FF _)) (FF _) (PRE _) (W _)) as (Z6 & f6 & X6 & Y6).
  destruct (cut_holds cat full disk T_relation_members _ _ _ ND (IC T_relation_members ltac:(clear; cbn; tauto)) (T7 (FF _)) (FF _) (PRE _) (W _)) as (Z7 & f7 & X7 & Y7).
  destruct (cut_holds cat full disk T_relation_tags _ _ _ ND (IC T_relation_tags ltac:(clear; cbn; tauto)) (T8 (FF _)) (FF _) (PRE _) (W _)) as (Z8 & f8 & X8 & Y8).
  destruct (cut_holds cat full disk T_changesets _ _ _ ND (IC T_changesets ltac:(clear; cbn; tauto)) (T9 (FF _)) (FF _) (PRE _) (W _)) as (Z9 & f9 & X9 & Y9).
  destruct (cut_holds cat full disk T_users _ _ _ ND (IC T_users ltac:(clear; cbn; tauto)) (T10 (FF _)) (FF _) (PRE _) (W _)) as (Z10 & f10 & X10 & Y10).
  set (choose := fun t => match t with T_nodes => f1 | T_node_tags => f2 | T_ways => f3 | T_way_nodes => f4 | T_way_tags => f5 | T_relations => f6 | T_relation_members => f7
    | T_relation_tags => f8 | T_changesets => f9 | T_users => f10 | t => disk t end).
  assert (forall t, choose t = disk t \/ choose t = disk t ++ marker) as CH by (intros t; destruct t; auto).
  assert (d_changesets d = kept disk T_changesets (d_changesets (written clock es us cs n))) as DC.
  { cbn [d left_over written d_changesets]. rewrite combine_map_l, map_map. reflexivity. }
  split; [intros e I NS; destruct (RES e I NS) as (c & uid & uid' & nm & nm' & ? & ? & _ & ?); exists c, uid, uid', nm'; auto|]. split.
  { intros t I. assert (disk t = files w' t) as FU by (rewrite <- (GC t I); apply DC0; exact I). sconj; intros ->.
    - apply Z1. exact FU.
    - apply Z6. exact FU.
    - intros u IU. change (d_users d) with (kept disk T_users (d_users (written clock es us cs n))). rewrite (Z10 FU). apply in_map_iff. exists u. auto.
    - intros c I2. rewrite DC, (Z9 FU).
      assert (In c (map snd (combine (seq n (length cs)) cs))) as I3 by (rewrite combine_snd; auto; apply seq_length).
      apply in_map_iff in I3 as ((i & c') & <- & I3). exists (clock i). apply in_map_iff. exists (i, c'). auto. }
  exists (with_files choose dir). split; [|split; [|exact (with_files_reader choose disk dir CH W DF)]].
  - exists toc, entries, cat. sconj; auto. rewrite DC; apply Y9; apply with_files_table.
  - unfold primary_keys. rewrite DC. cbn [d left_over d_nodes d_ways d_relations d_users]. sconj; apply kept_keys; cbn [written d_changesets]; rewrite map_map; auto.
    + eapply increasing_snd; [apply combine_snd; apply seq_length|exact C1].
    + apply increasing_NoDup. exact U1.
Qed.

(** C80, rows: stopped at any moment of a run that would have succeeded, with files cut after a row, the directory reads as
    the dump of exactly the rows that reached the disk (C76 says how such a dump reads): every object whose row is there
    and whose author is known, up to the first object of unknown author, which panics. *)
Theorem C80_rows_on_disk es m w closed w' disk dir : stage esc hash_order clock lib es m w closed -> ApidbWrite.dump esc hash_order clock lib es = Ok w' -> readable esc unescape clock es ->
  on_disk w closed disk -> (forall t, whole_rows (disk t)) -> leaves disk dir ->
  exists users changesets clocks, let d := left_over disk es users changesets clocks in authors_of es users changesets /\
  exists rd k s items l o, reader_new sort_file dir = Ok rd /\ ApidbRead.elements unescape rd = Ok (k, s) /\
    run (element_next k) s l o /\ items_of d items /\ read_until d items l o.
Proof.
  intros ST D RB OD W LV. destruct (stopped_dump es m w closed w' disk dir ST D RB OD W LV) as (us & cs & ck & AU & _ & _ & dir' & DI & PK & RN).
  exists us, cs, ck. cbv zeta. split; auto. rewrite RN. apply (C76_reading unescape sort_file SORTS); auto.
Qed.
(** C80, loss: once the file of users is closed, a stop leaves a dump that reads to its end without an error; all nodes and
    relations come back, but of the ways only those whose rows happened to reach the disk. *)
Theorem C80_silent_loss es m w closed w' disk dir : stage esc hash_order clock lib es m w closed -> ApidbWrite.dump esc hash_order clock lib es = Ok w' -> readable esc unescape clock es ->
  on_disk w closed disk -> (forall t, whole_rows (disk t)) -> leaves disk dir -> In T_users closed ->
  exists rd k s l, reader_new sort_file dir = Ok rd /\ ApidbRead.elements unescape rd = Ok (k, s) /\ run (element_next k) s l Ended /\
    length (nodes_in l) = length (nodes_in es) /\ length (relations_in l) = length (relations_in es) /\
    length (ways_in l) = Nat.min (line_feeds (disk T_ways)) (length (ways_in es)).
Proof.
  intros ST D RB OD W LV IU. destruct (stopped_dump es m w closed w' disk dir ST D RB OD W LV) as (us & cs & ck & AU & RES & CL & dir' & DI & PK & RN).
  destruct (C76_reading unescape sort_file SORTS dir' _ DI PK) as (rd & k & s & items & l & o & E1 & E2 & R & IT & RU).
  assert (exists rest, all_tables = closed ++ rest) as (rest & AT) by (destruct ST; try (destruct IU; fail); eauto).
  destruct (closed_before_users closed rest AT IU) as (IN & IR & IC).
  set (d := left_over disk es us cs ck) in *.
  pose proof (proj1 (CL _ IN) eq_refl) as DN. pose proof (proj1 (proj2 (CL _ IR)) eq_refl) as DR. pose proof (proj1 (proj2 (proj2 (CL _ IU))) eq_refl) as DU. pose proof (proj2 (proj2 (proj2 (CL _ IC))) eq_refl) as DC.
  assert (forall e, In e es -> e <> ESentinel -> forall c uid, changesets_in [e] = [(c, uid)] -> exists uid' name, author d c uid' name) as AK.
  { intros e I NS c uid E. destruct (RES e I NS) as (c' & uid0 & uid' & nm & E' & J1 & J2). rewrite E in E'. injection E' as <- <-. destruct (DC _ J1) as (tm & J3).
    exists uid', nm. exists (changeset_record tm c uid'), (UserRec uid' nm). sconj; auto. apply (DU _ J2). }
  destruct IT as (ns & ws & rs & P1 & _ & P2 & _ & P3 & _ & EI).
  destruct RU as [(-> & F)|(-> & before & i & after & EB & _ & c & EC & NA)].
  - exists rd, k, s, l. rewrite RN. destruct (read_counts _ _ _ F) as (N1 & N2 & N3). rewrite EI in N1, N2, N3. destruct (item_counts ns ws rs) as (M1 & M2 & M3). cbv zeta in M1, M2, M3.
    rewrite M1 in N1. rewrite M2 in N2. rewrite M3 in N3.
    sconj; auto.
    + rewrite N1, (Permutation_length P1), DN, map_length. reflexivity.
    + rewrite N3, (Permutation_length P3), DR, map_length. reflexivity.
    + rewrite N2, (Permutation_length P2). change (d_ways d) with (kept disk T_ways (map way_record (ways_in es))). unfold kept. rewrite firstn_length, map_length. reflexivity.
  - exfalso. assert (In i items) as II by (rewrite EB; apply in_app_iff; right; left; auto).
    assert (exists e uid, In e es /\ e <> ESentinel /\ changesets_in [e] = [(c, uid)]) as (e & uid & IE & NS & CE).
    { rewrite EI, !in_app_iff in II. cbn [In] in II. destruct II as [II|[[II|[]]|[II|[[II|[]]|[II|[II|[]]]]]]]; try (subst i; discriminate EC); apply in_map_iff in II as (r & <- & II); cbn [changeset_of] in EC; injection EC as <-.
      - apply (Permutation_in _ P1) in II. rewrite DN in II. apply in_map_iff in II as (x & <- & II). exists (ENode x), (n_uid x). sconj; [apply in_nodes; auto|discriminate|reflexivity].
      - apply (Permutation_in _ P2) in II. apply (kept_incl disk T_ways (map way_record (ways_in es))) in II. apply in_map_iff in II as (x & <- & II). exists (EWay x), (w_uid x). sconj; [apply in_ways; auto|discriminate|reflexivity].
      - apply (Permutation_in _ P3) in II. rewrite DR in II. apply in_map_iff in II as (x & <- & II). exists (ERelation x), (r_uid x). sconj; [apply in_relations; auto|discriminate|reflexivity]. }
    destruct (AK e IE NS c uid CE) as (uid' & nm & A). exact (NA _ _ A).
Qed.
Lemma close_marks ts t : forall w, In t ts -> exists u, files (fold_left (fun w t => append t terminator w) ts w) t = u ++ [x0a].
Proof.
  induction ts as [|a ts IH]; intros w I; [destruct I|]. cbn [fold_left]. destruct (existsb (table_eqb t) ts) eqn:E.
  - apply IH. apply existsb_exists in E as (x & J & X). apply table_eqb_eq in X. subst. exact J.
  - destruct I as [->|I]; [|exfalso; assert (existsb (table_eqb t) ts = true) by (apply existsb_exists; exists t; split; auto; apply table_eqb_eq; auto); congruence].
    rewrite close_same; [|intros J; assert (existsb (table_eqb t) ts = true) by (apply existsb_exists; exists t; split; auto; apply table_eqb_eq; auto); congruence].
    unfold append, upd. cbn [files]. replace (table_eqb t t) with true by (symmetry; apply table_eqb_eq; auto). exists (files w t ++ str "\."). unfold terminator. rewrite <- app_assoc. reflexivity.
Qed.
(** C80: the loss does happen: every dump with ways can be stopped so that it reads to its end without them *)
Theorem C80_ways_can_be_lost es w' : ApidbWrite.dump esc hash_order clock lib es = Ok w' -> readable esc unescape clock es ->
  exists w closed disk, stage esc hash_order clock lib es Closing w closed /\ on_disk w closed disk /\ (forall t, whole_rows (disk t)) /\
    forall dir, leaves disk dir -> exists rd k s l, reader_new sort_file dir = Ok rd /\ ApidbRead.elements unescape rd = Ok (k, s) /\ run (element_next k) s l Ended /\
      length (nodes_in l) = length (nodes_in es) /\ length (relations_in l) = length (relations_in es) /\ ways_in l = [].
Proof.
  intros D RB. destruct (dump_parts _ _ _ _ _ _ D) as (w0 & w1 & w2 & E0 & E1 & E2 & _).
  set (closed := firstn 50 all_tables). set (w := fold_left (fun w t => append t terminator w) closed w2).
  set (disk := fun t => if existsb (table_eqb t) closed then files w t else []).
  assert (stage esc hash_order clock lib es Closing w closed) as ST by (eapply (st_closing _ _ _ _ _ w0 w1 w2 closed [] (skipn 50 all_tables)); auto).
  assert (forall t, existsb (table_eqb t) closed = true <-> In t closed) as X.
  { intros t. rewrite existsb_exists. split; [intros (x & J & Y); apply table_eqb_eq in Y; subst; auto|intros J; exists t; split; auto; apply table_eqb_eq; auto]. }
  assert (on_disk w closed disk) as OD.
  { split; intros t; unfold disk; [destruct (existsb (table_eqb t) closed); [exists []; rewrite app_nil_r; reflexivity|eexists; reflexivity]|]. intros I. rewrite (proj2 (X t) I). reflexivity. }
  assert (forall t, whole_rows (disk t)) as W.
  { intros t. unfold disk. destruct (existsb (table_eqb t) closed) eqn:E; [|left; auto]. right. apply close_marks. apply X. exact E. }
  exists w, closed, disk. sconj; auto. intros dir LV.
  assert (In T_users closed) as IU by (apply X; reflexivity).
  destruct (C80_silent_loss _ _ _ _ _ _ _ ST D RB OD W LV IU) as (rd & k & s & l & R1 & R2 & R3 & N1 & N2 & N3).
  exists rd, k, s, l. sconj; auto. replace (disk T_ways) with (@nil byte) in N3 by reflexivity. apply length_zero_iff_nil. exact N3.
Qed.
End Cut.
