(** Property C78: exactly which streams the parallel writer rejects and which it writes out of order. *)
From Coq Require Import ZArith List Bool Strings.Byte Strings.String Lia Sorted Permutation.
From Verif Require Import Base BaseFacts Types ModelSpec ModelFacts FileFormat Pool ParallelWriteSpec ParallelWrite OrderFacts DisorderSpec.
Import ListNotations.
Open Scope nat_scope.
Local Notation length := List.length.
Local Notation concat := List.concat.

Section Facts.
  Variable B K : nat.
  Variable sort : list element -> list element.
  Hypothesis Sort : sort_ok sort.
  Hypothesis HK : 1 <= K.
  Notation do_calls := (do_calls B K sort).
  Notation do_call := (do_call B K sort).

  (** the minimum is the first element of the block passed on last *)
  Definition last_first (st : ord) : Prop :=
    match o_min st with
    | None => o_out st = []
    | Some f => exists l i r, o_out st = l ++ [(i, f :: r)]
    end.
  Lemma push_out st e st' : push st e = Ok st' -> o_out st' = o_out st /\ o_min st' = o_min st /\ o_buf st' = o_buf st ++ [e].
  Proof. unfold push. destruct (assert_order st e); [|discriminate]. intros [= <-]. auto. Qed.
  Lemma push_all_out es : forall st st', push_all st es = Ok st' -> o_out st' = o_out st /\ o_min st' = o_min st /\ o_buf st' = o_buf st ++ es.
  Proof.
    induction es as [|e es IH]; intros st st' H; cbn in H; [injection H as <-; rewrite app_nil_r; auto|].
    destruct (push st e) as [s1| |] eqn:P; try discriminate. cbn in H. destruct (push_out _ _ _ P) as (A & Bq & C).
    destruct (IH _ _ H) as (A' & B' & C'). rewrite A', A, B', Bq, C', C, <- app_assoc. auto.
  Qed.
  (** a call pushes its elements, then flushes if the buffer is full *)
  Lemma call_split st c : do_call st c = (s <- push_all st (written c) ;; Ok (flush_if_full B K sort s)).
  Proof.
    destruct c as [e|es]; cbn [do_call ParallelWrite.do_call written push_all]; [|reflexivity].
    unfold add_element. destruct (push st e); reflexivity.
  Qed.
  Lemma last_first_full st : last_first st -> last_first (flush_if_full B K sort st).
  Proof.
    intros H. unfold flush_if_full. destruct (Nat.ltb_spec B (length (o_buf st))) as [L|]; auto.
    unfold flush_sorted_top, flush_block. cbn [sort_buffer o_buf o_min o_index o_out].
    destruct (split_file_block K (sort (o_buf st))) as [blk rest] eqn:S. destruct (split_spec _ _ _ _ S) as (_ & _ & _ & N).
    assert (NE : blk <> []). { apply N; auto. apply sort_nonempty; auto. destruct (o_buf st); [cbn in L; lia|discriminate]. }
    unfold last_first. cbn. destruct blk as [|f r]; [congruence|]. cbn. eauto.
  Qed.
  Lemma last_first_call st c st' : last_first st -> do_call st c = Ok st' -> last_first st'.
  Proof.
    intros H D. rewrite call_split in D. destruct (push_all st (written c)) as [s| |] eqn:P; try discriminate. cbn in D. injection D as <-.
    apply last_first_full. destruct (push_all_out _ _ _ P) as (A & Bq & _). unfold last_first in *. rewrite A, Bq. exact H.
  Qed.
  Lemma last_first_calls cs : forall st st', last_first st -> do_calls st cs = Ok st' -> last_first st'.
  Proof.
    induction cs as [|c cs IH]; intros st st' H D; cbn in D; [injection D as <-; auto|].
    destruct (do_call st c) as [s| |] eqn:P; try discriminate. cbn in D. eapply IH; [|exact D]. eapply last_first_call; eauto.
  Qed.
  Lemma do_calls_app cs1 cs2 : forall st, do_calls st (cs1 ++ cs2) = (s <- do_calls st cs1 ;; do_calls s cs2).
  Proof. induction cs1 as [|c cs IH]; intros st; cbn; [reflexivity|]. destruct (do_call st c); cbn; auto. Qed.

  Lemma push_not_error st e : push st e <> Err.
  Proof. unfold push. destruct (assert_order st e); discriminate. Qed.
  Lemma push_all_not_error es : forall st, push_all st es <> Err.
  Proof. induction es as [|e es IH]; intros st; cbn; [discriminate|]. destruct (push st e) eqn:P; cbn; auto; [exfalso; eapply push_not_error; eauto|discriminate]. Qed.
  Lemma call_not_error st c : do_call st c <> Err.
  Proof. rewrite call_split. destruct (push_all st (written c)) eqn:P; cbn; try discriminate. exfalso; eapply push_all_not_error; eauto. Qed.

  (** an element is refused iff it precedes the minimum *)
  Lemma push_panics st e : not_sentinel e -> (forall f, o_min st = Some f -> not_sentinel f) ->
    (push st e = Panic <-> exists f, o_min st = Some f /\ precedes e f).
  Proof.
    intros Ne Nm. unfold push, assert_order. assert (is_sentinel e = false) as -> by (destruct e; auto; destruct (Ne eq_refl)). cbn [orb].
    destruct (o_min st) as [f|]; [|split; [discriminate|intros (f & E & _); discriminate]]. specialize (Nm f eq_refl). destruct (element_cmp e f) eqn:C.
    - split; [discriminate|]. intros (g & [= <-] & P). apply cmp_lt_iff in P; auto. congruence.
    - split; [|reflexivity]. intros _. exists f. split; auto. apply cmp_lt_iff; auto.
    - split; [discriminate|]. intros (g & [= <-] & P). apply cmp_lt_iff in P; auto. congruence.
  Qed.
  Lemma push_all_panics es : forall st, Forall not_sentinel es -> (forall f, o_min st = Some f -> not_sentinel f) ->
    (push_all st es = Panic <-> exists e f, In e es /\ o_min st = Some f /\ precedes e f).
  Proof.
    induction es as [|e es IH]; intros st Ne Nm; cbn [push_all]; [split; [discriminate|intros (? & ? & [] & _)]|].
    inversion Ne as [|? ? N1 N2]; subst. pose proof (push_panics st e N1 Nm) as PP. destruct (push st e) as [s| |] eqn:P; cbn [bind].
    - destruct (push_out _ _ _ P) as (_ & M & _). rewrite IH; auto; [|rewrite M; auto]. rewrite M. split.
      + intros (x & f & I & R). exists x, f. split; [right; auto|auto].
      + intros (x & f & [<-|I] & R); [|eauto]. destruct PP as [_ PP]. discriminate PP. eauto.
    - exfalso; eapply push_not_error; eauto.
    - split; auto. intros _. destruct PP as [PP _]. destruct (PP eq_refl) as (f & M & Pr). exists e, f. split; [left; auto|auto].
  Qed.
  Lemma calls_panic cs : do_calls ord_new cs = Panic <-> exists cs1 c cs2 st, cs = cs1 ++ c :: cs2 /\ do_calls ord_new cs1 = Ok st /\ do_call st c = Panic.
  Proof.
    split.
    - induction cs as [|c cs IH] using rev_ind; [discriminate|]. rewrite do_calls_app. destruct (do_calls ord_new cs) as [st| |] eqn:D; cbn.
      + destruct (do_call st c) eqn:C; cbn; try discriminate. intros _. exists cs, c, [], st. auto.
      + discriminate.
      + intros _. destruct (IH eq_refl) as (cs1 & c1 & cs2 & st & -> & R). exists cs1, c1, (cs2 ++ [c]), st. rewrite <- app_assoc. auto.
    - intros (cs1 & c & cs2 & st & -> & D & C). rewrite do_calls_app, D. cbn. rewrite C. reflexivity.
  Qed.
  Lemma min_ns cs st f : Forall not_sentinel (flat_map written cs) -> do_calls ord_new cs = Ok st -> o_min st = Some f -> not_sentinel f.
  Proof. intros NS D. apply (safe_calls B K sort Sort cs ord_new st safe_new D NS). Qed.

  Lemma panics_iff cs : Forall not_sentinel (flat_map written cs) -> (do_calls ord_new cs = Panic <-> noticed B K sort cs).
  Proof.
    intros NS. rewrite calls_panic. split.
    - intros (cs1 & c & cs2 & st & -> & D & C). rewrite flat_map_app in NS. cbn in NS. apply Forall_app in NS. destruct NS as [N1 NS]. apply Forall_app in NS. destruct NS as [N2 _].
      rewrite call_split in C. destruct (push_all st (written c)) as [s| |] eqn:P; try discriminate C. apply push_all_panics in P; auto; [|intros f; eapply min_ns; eauto].
      destruct P as (e & f & I & M & Pr). pose proof (last_first_calls cs1 ord_new st eq_refl D) as LF. unfold last_first in LF. rewrite M in LF.
      destruct LF as (l & i & r & O). exists cs1, e, l, i, f, r. split; [exists c, cs2; auto|]. split; auto. exists st; auto.
    - intros (cs1 & e & l & i & f & r & (c & cs2 & -> & I) & (st & D & O) & Pr). rewrite flat_map_app in NS. cbn in NS. apply Forall_app in NS. destruct NS as [N1 NS]. apply Forall_app in NS. destruct NS as [N2 _].
      exists cs1, c, cs2, st. split; auto. split; auto. rewrite call_split. assert (P : push_all st (written c) = Panic).
      { apply push_all_panics; auto; [intros g; eapply min_ns; eauto|]. exists e, f. split; auto. split; auto.
        pose proof (last_first_calls cs1 ord_new st eq_refl D) as LF. unfold last_first in LF. destruct (o_min st) as [g|].
        - destruct LF as (l' & i' & r' & O'). rewrite O in O'. apply app_inj_tail in O'. destruct O' as [_ [= <- <- <-]]. reflexivity.
        - rewrite O in LF. destruct l; discriminate. }
      rewrite P. reflexivity.
  Qed.

  (** what has been passed on stays a prefix *)
  Lemma call_grows st c st' : do_call st c = Ok st' -> exists more, out_elements st' = out_elements st ++ more.
  Proof.
    rewrite call_split. destruct (push_all st (written c)) as [s| |] eqn:P; try discriminate. cbn. intros [= <-].
    destruct (push_all_out _ _ _ P) as (A & _ & _). unfold flush_if_full. destruct (Nat.ltb B (length (o_buf s))).
    - unfold flush_sorted_top, flush_block. cbn [sort_buffer o_buf o_min o_index o_out]. destruct (split_file_block K (sort (o_buf s))) as [blk rest].
      unfold out_elements. cbn. rewrite A, map_app, concat_app. cbn. rewrite app_nil_r. eauto.
    - exists []. unfold out_elements. rewrite A, app_nil_r. auto.
  Qed.
  Lemma calls_grow cs : forall st st', do_calls st cs = Ok st' -> exists more, out_elements st' = out_elements st ++ more.
  Proof.
    induction cs as [|c cs IH]; intros st st' D; cbn in D; [injection D as <-; exists []; rewrite app_nil_r; auto|].
    destruct (do_call st c) as [s| |] eqn:C; try discriminate. cbn in D. destruct (call_grows _ _ _ C) as (m1 & E1). destruct (IH _ _ D) as (m2 & E2).
    exists (m1 ++ m2). rewrite E2, E1, app_assoc. reflexivity.
  Qed.

  (** while nothing is late, what has been passed on is in order and below the buffer *)
  Record tidy (st : ord) : Prop := { t_sorted : in_order (out_elements st); t_below : forall a b, In a (out_elements st) -> In b (o_buf st) -> not_after a b }.
  Lemma tidy_full st : tidy st -> Forall not_sentinel (o_buf st) -> tidy (flush_if_full B K sort st).
  Proof.
    intros [So Be] NS. unfold flush_if_full. destruct (Nat.ltb B (length (o_buf st))); [|constructor; auto].
    unfold flush_sorted_top, flush_block. cbn [sort_buffer o_buf o_min o_index o_out].
    destruct (Sort (o_buf st)) as [PS SO]. specialize (SO NS).
    destruct (split_file_block K (sort (o_buf st))) as [blk rest] eqn:S. destruct (split_spec _ _ _ _ S) as (E & _).
    rewrite E in SO. apply in_order_app in SO. destruct SO as (S1 & S2 & S3).
    assert (OE : out_elements (Ord rest (set_min (o_min st) blk) (Datatypes.S (o_index st)) (o_out st ++ [(o_index st, blk)])) = out_elements st ++ blk).
    { unfold out_elements. cbn. rewrite map_app, concat_app. cbn. rewrite app_nil_r. reflexivity. }
    assert (InB : forall b, In b (blk ++ rest) -> In b (o_buf st)) by (intros b I; rewrite <- E in I; eapply Permutation_in; [apply Permutation_sym; exact PS|exact I]).
    constructor; rewrite ?OE; cbn [o_buf].
    - apply in_order_app. split; auto. split; auto. intros a b I J. apply Be; auto. apply InB, in_or_app. auto.
    - intros a b I J. apply in_app_or in I. destruct I as [I|I]; [apply Be; auto; apply InB, in_or_app; auto|apply S3; auto].
  Qed.
  Lemma buf_ns cs st : Forall not_sentinel (flat_map written cs) -> do_calls ord_new cs = Ok st -> Forall not_sentinel (o_buf st).
  Proof. intros NS D. apply (safe_calls B K sort Sort cs ord_new st safe_new D NS). Qed.
  Lemma tidy_calls cs : forall st, Forall not_sentinel (flat_map written cs) -> do_calls ord_new cs = Ok st -> ~ late B K sort cs -> tidy st.
  Proof.
    induction cs as [|c cs IH] using rev_ind; intros st NS D NL.
    - injection D as <-. constructor; cbn; [constructor|intros ? ? []].
    - rewrite do_calls_app in D. destruct (do_calls ord_new cs) as [s| |] eqn:D1; try discriminate D. cbn in D.
      destruct (do_call s c) as [s'| |] eqn:C; try discriminate D. cbn in D. injection D as <-.
      rewrite flat_map_app in NS. cbn in NS. rewrite app_nil_r in NS. apply Forall_app in NS. destruct NS as [N1 N2].
      assert (T : tidy s).
      { apply IH; auto. intros (cs1 & e & bl & x & (c1 & cs2 & -> & I) & R). apply NL. exists cs1, e, bl, x. split; auto. exists c1, (cs2 ++ [c]). rewrite <- app_assoc. auto. }
      rewrite call_split in C. destruct (push_all s (written c)) as [s2| |] eqn:P; try discriminate C. cbn in C. injection C as <-.
      destruct (push_all_out _ _ _ P) as (A & _ & Bf). apply tidy_full.
      + destruct T as [So Be]. constructor; unfold out_elements in *; rewrite A; auto. rewrite Bf. intros a b I J. apply in_app_or in J. destruct J as [J|J]; auto.
        intros Pr. apply NL. exists cs, b, (o_out s), a. split; [exists c, []; auto|]. split; auto. exists s; auto.
      + rewrite Bf. apply Forall_app. split; auto. eapply buf_ns; eauto.
  Qed.

  Lemma order_iff cs blocks : Forall not_sentinel (flat_map written cs) -> blocks_submitted B K sort cs blocks ->
    (in_order (concat (map snd blocks)) <-> ~ late B K sort cs).
  Proof.
    intros NS (st & st' & D & F & ->). fold (out_elements st'). unfold flush_all_sorted in F. rewrite (loop_out K _ _ F).
    change (out_elements (sort_buffer sort st)) with (out_elements st). cbn [sort_buffer o_buf]. split.
    - intros IO (cs1 & e & bl & x & (c & cs2 & -> & I) & (s1 & D1 & <-) & Ix & Pr).
      rewrite do_calls_app, D1 in D. cbn in D. destruct (do_call s1 c) as [s2| |] eqn:C; try discriminate D. cbn in D.
      destruct (calls_grow (c :: cs2) s1 st) as (more & G); [cbn; rewrite C; exact D|].
      rewrite G, <- app_assoc in IO. apply in_order_app in IO. destruct IO as (_ & _ & IO).
      apply (IO x e); [exact Ix| |exact Pr].
      (* e is among what is passed on later *)
      pose proof (basic_calls B K sort Sort (c :: cs2) (out_elements s1 ++ o_buf s1) s1 st) as Bs.
      assert (D2 : ParallelWrite.do_calls B K sort s1 (c :: cs2) = Ok st) by (cbn; rewrite C; exact D).
      destruct (basic_calls B K sort Sort cs1 [] ord_new s1 (basic_new K) D1) as [P1 Q1 R1 T1].
      assert (B0 : basic K (out_elements s1 ++ o_buf s1) s1) by (constructor; auto).
      destruct (Bs B0 D2) as [P _ _ _]. rewrite G, <- !app_assoc in P. apply Permutation_app_inv_l in P.
      apply in_or_app. assert (J : In e (more ++ o_buf st)).
      { eapply Permutation_in; [exact P|]. apply in_or_app. right. cbn. apply in_or_app. auto. }
      apply in_app_or in J. destruct J as [J|J]; auto. right. eapply Permutation_in; [apply Sort|exact J].
    - intros NL. destruct (tidy_calls cs st NS D NL) as [So Be]. destruct (Sort (o_buf st)) as [PS SO]. apply in_order_app. split; auto.
      split; [apply SO; eapply buf_ns; eauto|]. intros a b I J. apply Be; auto. eapply Permutation_in; [apply Permutation_sym; exact PS|exact J].
  Qed.
  Lemma submitted_iff cs : (exists blocks, blocks_submitted B K sort cs blocks) <-> do_calls ord_new cs <> Panic.
  Proof.
    split.
    - intros (bl & st & st' & D & _). rewrite D. discriminate.
    - intros NP. destruct (do_calls ord_new cs) as [st| |] eqn:D.
      + destruct (loop_terminates K HK (sort_buffer sort st)) as (st' & L). exists (o_out st'), st, st'. auto.
      + exfalso. clear NP. revert D. generalize ord_new. induction cs as [|c cs IH]; intros st D; cbn in D; [discriminate|].
        destruct (do_call st c) eqn:C; cbn in D; [eapply IH; eauto|eapply call_not_error; eauto|discriminate].
      + congruence.
  Qed.
  Lemma noticed_late cs : noticed B K sort cs -> late B K sort cs.
  Proof.
    intros (cs1 & e & l & i & f & r & W & P & Pr). exists cs1, e, (l ++ [(i, f :: r)]), f. split; auto. split; auto. split; auto.
    rewrite map_app, concat_app. apply in_or_app. right. cbn. left; auto.
  Qed.
  Lemma precedes_dec a b : precedes a b \/ ~ precedes a b.
  Proof. unfold precedes. lia. Qed.
  Lemma some_precedes_dec es xs : (exists e x, In e es /\ In x xs /\ precedes e x) \/ ~ (exists e x, In e es /\ In x xs /\ precedes e x).
  Proof.
    assert (D1 : forall e, (exists x, In x xs /\ precedes e x) \/ ~ exists x, In x xs /\ precedes e x).
    { intros e. induction xs as [|x xs IH]; [right; intros (? & [] & _)|]. destruct (precedes_dec e x) as [P|P]; [left; exists x; split; [left|]; auto|].
      destruct IH as [(y & I & Q)|N]; [left; exists y; split; [right|]; auto|]. right. intros (y & [<-|I] & Q); eauto. }
    induction es as [|e es IH]; [right; intros (? & ? & [] & _)|]. destruct (D1 e) as [(x & I & P)|N]; [left; exists e, x; split; [left|]; auto|].
    destruct IH as [(e' & x & I & Q)|N2]; [left; exists e', x; split; [right|]; auto|]. right. intros (e' & x & [<-|I] & Q); eauto.
  Qed.
  Lemma late_dec cs : late B K sort cs \/ ~ late B K sort cs.
  Proof.
    induction cs as [|c cs IH] using rev_ind.
    - right. intros (cs1 & e & bl & x & (c & cs2 & E & _) & _). destruct cs1; discriminate.
    - destruct IH as [(cs1 & e & bl & x & (c1 & cs2 & -> & I) & R)|NL].
      + left. exists cs1, e, bl, x. split; auto. exists c1, (cs2 ++ [c]). rewrite <- app_assoc. auto.
      + assert (Q : (exists st, do_calls ord_new cs = Ok st /\ exists e x, In e (written c) /\ In x (out_elements st) /\ precedes e x) \/
                    ~ exists st, do_calls ord_new cs = Ok st /\ exists e x, In e (written c) /\ In x (out_elements st) /\ precedes e x).
        { destruct (do_calls ord_new cs) as [st| |]; [|right; intros (? & ? & _); discriminate|right; intros (? & ? & _); discriminate].
          destruct (some_precedes_dec (written c) (out_elements st)) as [S|N]; [left; eauto|right]. intros (s & [= <-] & R). auto. }
        destruct Q as [(st & D & e & x & I & Ix & P)|N].
        * left. exists cs, e, (o_out st), x. split; [exists c, []; auto|]. split; [exists st; auto|auto].
        * right. intros (cs1 & e & bl & x & (c1 & cs2 & E & I) & (st & D & <-) & Ix & P). destruct cs2 as [|c2 cs2 _] using rev_ind.
          -- apply app_inj_tail in E. destruct E as [-> ->]. apply N. exists st. split; auto. exists e, x. auto.
          -- replace (cs1 ++ c1 :: cs2 ++ [c2]) with ((cs1 ++ c1 :: cs2) ++ [c2]) in E by (rewrite <- app_assoc; reflexivity).
             apply app_inj_tail in E. destruct E as [-> _]. apply NL. exists cs1, e, (o_out st), x. split; [exists c1, cs2; auto|]. split; [exists st; auto|auto].
  Qed.
End Facts.

(** *** C78 *)
(** the stream is rejected exactly when an element is noticed, and otherwise closing passes on all blocks *)
Theorem C78_rejected B K sort cs : sort_ok sort -> 1 <= K -> Forall not_sentinel (flat_map written cs) ->
  (do_calls B K sort ord_new cs = Panic <-> noticed B K sort cs) /\
  ((exists blocks, blocks_submitted B K sort cs blocks) <-> ~ noticed B K sort cs).
Proof.
  intros S HK NS. pose proof (panics_iff B K sort S HK cs NS) as P. split; [exact P|].
  rewrite (submitted_iff B K sort HK cs), P. reflexivity.
Qed.
(** the output of a stream that is not rejected is in order exactly when no element is late *)
Theorem C78_in_order B K sort cs blocks : sort_ok sort -> 1 <= K -> Forall not_sentinel (flat_map written cs) ->
  blocks_submitted B K sort cs blocks -> (in_order (concat (map snd blocks)) <-> ~ late B K sort cs).
Proof. intros S HK NS. apply order_iff; auto. Qed.
(** so a disordered output is produced silently exactly for the streams with a late element and none noticed *)
Theorem C78_silent B K sort cs : sort_ok sort -> 1 <= K -> Forall not_sentinel (flat_map written cs) ->
  ((exists blocks, blocks_submitted B K sort cs blocks /\ ~ in_order (concat (map snd blocks))) <-> late B K sort cs /\ ~ noticed B K sort cs) /\
  (noticed B K sort cs -> late B K sort cs).
Proof.
  intros S HK NS. split; [|apply noticed_late]. destruct (C78_rejected B K sort cs S HK NS) as [_ R]. split.
  - intros (bl & Sb & NI). split; [|apply R; eauto]. pose proof (C78_in_order B K sort cs bl S HK NS Sb) as O.
    destruct (late_dec B K sort HK cs) as [L|NL]; auto. destruct (NI (proj2 O NL)).
  - intros [L NN]. apply R in NN. destruct NN as (bl & Sb). exists bl. split; auto. intros IO. apply (C78_in_order B K sort cs bl S HK NS Sb) in IO. auto.
Qed.
