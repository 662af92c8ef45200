(** C85: write_header of a ParallelWriter called late, repeatedly or never; a disk that fails. *)
From Coq Require Import ZArith List Bool Lia Strings.Byte Strings.String Sorted Permutation.
From Verif Require Import Base BaseFacts Types Proto ProtoFacts Block BlockFacts BlockRead FileFormat FileFacts WriterFacts Spec FileSpec
  PropBlock PropFile Pool PoolFacts ModelSpec ParallelWriteSpec ParallelWrite OrderFacts EncodeFacts PropParallelWrite CallSpec Calls PropCalls Crash PropCrash WriteFails.
Import ListNotations.
Local Notation length := List.length.
Local Notation concat := List.concat.
Open Scope nat_scope.

Section F.
Variables (m : mode) (c : codec) (k : compression) (header : bytes).
Local Notation tstep := (tstep m c k).
Local Notation texec := (texec m c k).
Local Notation dstep := (dstep m c k header).
Local Notation dexec := (dexec m c k header).

(** a state as if the header had been written at the beginning *)
Definition as_if (t : threads) : threads :=
  Threads (t_pending t) (t_encq t) (t_encs t) (t_wrq t) (t_buffer t) (t_next t) (t_w t) (Some match t_file t with None => header | Some f => f end).
Lemma tstep_as_if t t' : tstep t t' -> t_w t' <> WFailed -> tstep (as_if t) (as_if t').
Proof. intros H N. destruct H; unfold as_if; cbn [t_pending t_encq t_encs t_wrq t_buffer t_next t_w t_file] in *; try (econstructor; eauto; fail). contradiction. Qed.
Lemma tstep_failed t t' : tstep t t' -> t_w t = WFailed -> t_w t' = WFailed /\ t_file t' = t_file t.
Proof. intros H E. destruct H; cbn in *; try discriminate; auto. Qed.
Lemma dstep_failed t t' : dstep t t' -> t_w t = WFailed -> t_w t' = WFailed /\ t_file t' = t_file t.
Proof. intros H E. destruct H; cbn in *; try discriminate; auto. eapply tstep_failed; eauto. Qed.
Lemma tstep_fails t t' : tstep t t' -> t_w t <> WFailed -> t_w t' = WFailed -> t_file t = None /\ t_file t' = None.
Proof. intros H E F. destruct H; cbn in *; try contradiction; try discriminate; auto. Qed.

(** while the writing thread is alive the threads are in a state they could be in had the header been written first; when it has
    stopped, the file is a beginning of such a file *)
Lemma dexec_inv n blocks t : dexec (threads_no_header n blocks) t ->
  (t_w t <> WFailed -> exists j, texec (threads_new header n blocks) j (as_if t)) /\
  (forall file, t_file t = Some file -> exists j t' file', texec (threads_new header n blocks) j t' /\ t_file t' = Some file' /\ prefix file file').
Proof.
  intros X. remember (threads_no_header n blocks) as t0 eqn:E. induction X as [t0|t0 t1 t2 X IH H]; subst.
  - split; [intros _; exists 0; constructor|discriminate].
  - destruct (IH eq_refl) as (A & B). clear IH.
    assert (ALIVE : t_w t2 <> WFailed -> exists j, texec (threads_new header n blocks) j (as_if t2)).
    { intros N. assert (t_w t1 <> WFailed) as N1 by (intros F; apply N; apply (dstep_failed _ _ H F)). destruct (A N1) as (j & Y).
      destruct H; try (exists j; exact Y); try contradiction. exists (S j). econstructor; [exact Y|]. apply tstep_as_if; auto. }
    split; [exact ALIVE|]. intros file F2.
    assert (D : t_w t2 = WFailed \/ t_w t2 <> WFailed) by (destruct (t_w t2); auto; right; discriminate).
    destruct D as [D|D].
    + assert (D1 : t_w t1 = WFailed \/ t_w t1 <> WFailed) by (destruct (t_w t1); auto; right; discriminate).
      destruct D1 as [D1|D1]; [apply B; rewrite <- F2; symmetry; apply (dstep_failed _ _ H D1)|].
      destruct (A D1) as (j & Y). destruct H; cbn [t_w t_file] in *; try discriminate; try contradiction.
      * destruct (tstep_fails _ _ H D1 D). congruence.
      * injection F2 as <-. exists j, (as_if (Threads p q es w bf n0 WIdle None)), header. split; [exact Y|]. split; [reflexivity|]. exists (skipn l header). symmetry. apply firstn_skipn.
      * injection F2 as <-. eexists (S j), _, _. split; [econstructor; [exact Y|unfold as_if; cbn [t_pending t_encq t_encs t_wrq t_buffer t_next t_w t_file]; apply ts_write; eassumption]|].
        cbn [t_file]. split; [reflexivity|]. exists (skipn l (write_blob hb)). rewrite <- app_assoc, firstn_skipn. reflexivity.
    + destruct (ALIVE D) as (j & Y). exists j, (as_if t2), file. split; [exact Y|]. unfold as_if. cbn [t_file]. rewrite F2. split; [reflexivity|]. exists []. symmetry. apply app_nil_r.
Qed.
Lemma dexec_texec t0 t j t' : dexec t0 t -> texec t j t' -> dexec t0 t'.
Proof. intros D X. induction X as [t|t j t1 t2 X IH H]; auto. econstructor; [apply IH; exact D|constructor; exact H]. Qed.
Lemma write_blob_long hb : 4 <= length (write_blob hb).
Proof. unfold write_blob. rewrite app_length. unfold be32. cbn. lia. Qed.

(** C85: as long as the writing thread is alive, a file that exists is exactly as if write_header had been called first, so
    C28, C51, C52 and C61 apply to it *)
Theorem C85_as_if_first n blocks t file : dexec (threads_no_header n blocks) t -> t_w t <> WFailed -> t_file t = Some file ->
  exists j, texec (threads_new header n blocks) j t.
Proof.
  intros X N F. destruct (dexec_inv n blocks t X) as (A & _). destruct (A N) as (j & Y). exists j. destruct t. cbn in F. subst. exact Y.
Qed.
(** C85: without a panic nothing is lost: when close has returned, either there was nothing to write, or every block is in the file, after
    exactly one header *)
Theorem C85_closed n blocks t : map fst blocks = seq 1 (length blocks) -> dexec (threads_no_header n blocks) t -> closed t ->
  (blocks = [] /\ t_file t = None) \/
  exists blobs, Forall2 (fun b blob => fblock_serialize m c k (FData 0 (snd b)) = Ok blob) blocks blobs /\ t_file t = Some (header ++ concat (map write_blob blobs)).
Proof.
  intros I X C. assert (N : t_w t <> WFailed) by (destruct C as (_ & _ & _ & _ & ->); discriminate). destruct (dexec_inv n blocks t X) as (A & _). destruct (A N) as (j & Y).
  destruct (file_spec m c k blocks header n j _ I Y) as (w & hbs & _ & F & E & W). specialize (W C). subst w. rewrite firstn_all in F. destruct (t_file t) as [f|] eqn:TF.
  - right. exists hbs. split; [exact F|]. unfold as_if in E. cbn [t_file] in E. rewrite TF in E. exact E.
  - left. split; auto. unfold as_if in E. cbn [t_file] in E. rewrite TF in E. injection E as E. assert (hbs = []) as ->; [|inversion F; auto].
    destruct hbs as [|hb hbs]; auto. exfalso. apply (f_equal (@length byte)) in E. rewrite app_length in E. cbn [map concat] in E. rewrite app_length in E. pose proof (write_blob_long hb). lia.
Qed.
(** C85: write_header never called: there is never a file *)
Theorem C85_no_header n blocks j t : texec (threads_no_header n blocks) j t -> t_file t = None.
Proof.
  intros X. remember (threads_no_header n blocks) as t0 eqn:E. induction X as [t0|t0 j t1 t2 X IH H]; subst; [reflexivity|]. specialize (IH eq_refl).
  destruct H; cbn [t_file] in *; auto; discriminate.
Qed.
(** C85: a writing thread that has panicked never writes again, whatever is called *)
Theorem C85_stays t t' : dexec t t' -> t_w t = WFailed -> t_w t' = WFailed /\ t_file t' = t_file t.
Proof.
  induction 1 as [t|t t1 t2 X IH H]; intros F; auto. destruct (IH F) as (A & B). destruct (dstep_failed _ _ H A) as (C & D). split; congruence.
Qed.
(** C85: write_header called after elements have been given can be too late: if the first block is filled and encoded, there is a schedule in which
    the writing thread panics before the call has its effect; then there is no file, and never will be *)
Theorem C85_too_late n b hb blocks : 1 <= n -> fblock_serialize m c k (FData 0 b) = Ok hb ->
  exists j t, texec (threads_no_header n ((1, b) :: blocks)) j t /\ t_w t = WFailed /\ t_pending t = blocks /\ forall t', dexec t t' -> t_file t' = None /\ ~ closed t'.
Proof.
  intros N S. destruct n as [|n]; [lia|]. assert (S1 : fblock_serialize m c k (FData (Z.of_nat 1) b) = Ok hb) by (rewrite (serialize_data_index m c k (Z.of_nat 1) 0); exact S).
  eexists 6, _. split; [|split; [|split]].
  - econstructor; [econstructor; [econstructor; [econstructor; [econstructor; [econstructor; [constructor|]|]|]|]|]|]; unfold threads_no_header.
    + apply ts_submit. unfold queue_size. cbn [length]. lia.
    + cbn [app]. eapply ts_take with (e := 0). reflexivity.
    + eapply ts_encode with (e := 0); [reflexivity|exact S1].
    + eapply ts_push with (e := 0); [reflexivity|unfold queue_size; cbn [length]; lia].
    + cbn [app]. apply ts_receive.
    + eapply ts_write_fails. unfold insert. cbn [lookup]. rewrite Nat.eqb_refl. reflexivity.
  - reflexivity.
  - reflexivity.
  - intros t' X. destruct (C85_stays _ _ X eq_refl) as (A & B). split; [exact B|]. intros (_ & _ & _ & _ & Cw). rewrite A in Cw. discriminate.
Qed.

(** ** blocks in front of a writing thread that has stopped *)
Definition busy (es : list encoder) : nat := sum (fun e => match e with EIdle => 0 | _ => 1 end) es.
Definition ahead (t : threads) : nat := length (t_pending t) + length (t_encq t) + busy (t_encs t) + length (t_wrq t).
Definition small (n : nat) (t : threads) : Prop := length (t_encq t) <= queue_size /\ length (t_wrq t) <= queue_size /\ length (t_encs t) = n.
Lemma busy_le es : busy es <= length es.
Proof. unfold busy. induction es as [|e es IH]; cbn [sum length]; [auto|]. destruct e; lia. Qed.
Ltac sets := match goal with N : nth_error ?es ?e = Some _ |- context [set_nth ?e ?x ?es] => let l := fresh "l" in let r := fresh "r" in destruct (set_enc e x _ _ N) as (l & r & -> & ->) end.
Lemma tstep_ahead n t t' : tstep t t' -> small n t -> small n t' /\ (t_w t = WFailed -> ahead t' = ahead t).
Proof.
  unfold small, ahead. intros H (A & B & C). destruct H; cbn [t_pending t_encq t_encs t_wrq t_buffer t_next t_w t_file] in *; try sets;
    unfold busy in *; rewrite ?app_length, ?sum_app in *; cbn [length sum] in *; (split; [lia|intros F; try discriminate F; lia]).
Qed.
Lemma dstep_ahead n t t' : dstep t t' -> small n t -> small n t' /\ (t_w t = WFailed -> ahead t' = ahead t).
Proof. intros H. destruct H; [eapply tstep_ahead; eauto|..]; unfold small, ahead; cbn [t_pending t_encq t_encs t_wrq t_buffer t_next t_w t_file]; intros (A & B & C); repeat split; auto; discriminate. Qed.
Lemma dexec_small n t t' : dexec t t' -> small n t -> small n t' /\ (t_w t = WFailed -> ahead t' = ahead t).
Proof.
  induction 1 as [t|t t1 t2 X IH H]; intros S; auto. destruct (IH S) as (S1 & A1). destruct (dstep_ahead n _ _ H S1) as (S2 & A2). split; auto.
  intros F. rewrite A2, A1; auto. apply (C85_stays _ _ X F).
Qed.
(** C85: when the writing thread has panicked and more than 512 blocks and the number of encoders are still to come, the thread that submits them is
    stuck: the queues fill and are never emptied, so not all blocks are ever submitted and close does not return *)
Theorem C85_stuck n blocks t t' : dexec (threads_no_header n blocks) t -> t_w t = WFailed -> 512 + n < length (t_pending t) -> dexec t t' -> t_pending t' <> [].
Proof.
  intros X F L Y E. destruct (dexec_small n _ _ X) as (S & _); [unfold small; cbn; rewrite repeat_length; lia|].
  destruct (dexec_small n _ _ Y S) as ((A & B & C) & D). specialize (D F). unfold ahead in D. rewrite E in D. pose proof (busy_le (t_encs t')). unfold queue_size in *. cbn [length] in D. lia.
Qed.
End F.

Open Scope Z_scope.
(** C85: whatever goes wrong and whenever the header is written, a file that exists reads as a beginning of what was given to the writer, like the file
    of an interrupted program (C61), and so does any beginning of it *)
Theorem C85_reads m c k i B K sort n done blocks w t file p :
  codec_ok c -> info_ok i -> ~ info_empty i -> header_fits c k i -> Forall supported (fi_required i) ->
  sort_ok sort -> Forall element_ok (flat_map written done) -> choices_fit m c k K (flat_map written done) ->
  submitted_so_far B K sort done blocks -> write_header m c (writer_new i k) = Ok w ->
  dexec m c k (wr_file w) (threads_no_header n blocks) t -> t_file t = Some file -> prefix p file ->
  (exists buffered, Permutation (flat_map written done) (concat (map snd blocks) ++ buffered)) /\
  ((reader_new m c p = Err \/ reader_new m c p = Panic) \/
   exists q i' stream got o, reader_new m c p = Ok i' /\ info_written_read i i' /\ elements_run m c p got o /\
     without_sentinels (concat (map snd (firstn q blocks))) stream /\ Forall2 written_read stream got).
Proof.
  intros C IO NE HF SU S EO FIT H W X F (r & ->). destruct (proj2 (dexec_inv m c k _ n blocks t X) _ F) as (j & t' & file' & Y & F' & (r' & ->)).
  destruct (C61_parallel_crash m c k i B K sort n done blocks w j t' _ p C IO NE HF SU S EO FIT H W Y F') as (A & D).
  - exists (r ++ r'). rewrite app_assoc. reflexivity.
  - split; [exact A|]. destruct D as [D|(q & i' & stream & got & o & D1 & D2 & D3 & D4 & D5 & _)]; [left; exact D|right]. exists q, i', stream, got, o. auto.
Qed.
