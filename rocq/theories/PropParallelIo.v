(** C71: the parallel filter pipeline, from file to file. *)
From Coq Require Import ZArith List Bool Lia Strings.Byte Strings.String Sorted Permutation.
From Verif Require Import Base BaseFacts Types Proto ProtoFacts Block BlockFacts FileFormat FileFacts WriterFacts Spec SpecFacts FileSpec FormatSpec ModelSpec ModelFacts
  PropBlock PropFile WireSpec WireFacts PropWire PropLegal CallSpec PropCalls FileInfoModel InfoSpec PropInfo Pipelines PropPipelines
  Pool ParallelSpec PoolFacts ParallelRead ParallelReadFacts PropParallelRead ParallelWriteSpec ParallelWrite OrderFacts EncodeFacts PropParallelWrite ParallelIo PropReadAny.
Import ListNotations.
Local Notation length := List.length.
Local Notation concat := List.concat.
Open Scope nat_scope.

Lemma picked_is_filter (f : element -> bool) es kept : picked (fun e => f e = false) es kept -> kept = filter (fun e => negb (f e)) es.
Proof.
  induction 1 as [|x l l' K H IH|x l l' K H IH]; cbn; auto.
  - rewrite K. cbn. congruence.
  - destruct (f x); [auto|congruence].
Qed.
Lemma blocks_unique m c input a b : file_blocks m c input a -> file_blocks m c input b -> a = b.
Proof. intros A B. destruct (PropReadAny.run_unique _ _ _ _ _ _ A _ _ B); auto. Qed.
Lemma written_batches l : flat_map written (map WriteElements l) = concat l.
Proof. induction l as [|x l IH]; [reflexivity|cbn; rewrite IH; reflexivity]. Qed.
Lemma kept_legal m c input blks f : file_blocks m c input blks -> Forall legal (filter f (flat_map elements_of blks)) /\ Forall not_sentinel (filter f (flat_map elements_of blks)).
Proof.
  intros FB. apply C67_blocks_are_legal in FB.
  assert (L : Forall legal (filter f (flat_map elements_of blks))).
  { apply Forall_forall. intros e I. apply filter_In in I. destruct I as (I & _). apply in_flat_map in I. destruct I as (b & Ib & Ie). rewrite Forall_forall in FB. specialize (FB b Ib).
    destruct b; [destruct Ie|]. rewrite Forall_forall in FB. auto. }
  split; auto. revert L. apply Forall_impl. intros e Le ->. exact Le.
Qed.
Lemma info_program_ok m c input i program : utf8_ok program = true -> reader_new m c input = Ok i ->
  info_ok (set_field i (SetProgramStr program)) /\ Forall supported (fi_required (set_field i (SetProgramStr program))) /\ ~ info_empty (set_field i (SetProgramStr program)).
Proof.
  intros U RN. pose proof RN as G. apply C14_feature_gate in G. destruct G as (h & body & b & p & hd & _ & _ & _ & _ & _ & _ & F).
  apply C67_header_is_legal, legal_info_ok in RN. split; [|split].
  - destruct i. unfold info_ok in *. cbn in *. decompose [and] RN. sconj; auto. intros s [= <-]. auto.
  - destruct i. exact F.
  - unfold info_empty. destruct i. cbn. intros E. apply (f_equal FileFormat.fi_program) in E. discriminate E.
Qed.
(** sorted lists with the same elements and no two elements in the same place are equal *)
Definition all_places_differ (l : list element) : Prop := forall a x b y c, l = a ++ x :: b ++ y :: c -> ~ same_place x y.
Lemma differ_cons x l : all_places_differ (x :: l) -> all_places_differ l /\ Forall (fun y => ~ same_place x y) l.
Proof.
  intros D. split.
  - intros a p b q c ->. apply (D (x :: a) p b q c). reflexivity.
  - apply Forall_forall. intros y I. apply in_split in I. destruct I as (b & c & ->). apply (D [] x b y c). reflexivity.
Qed.
Lemma sorted_unique l1 : in_order l1 -> all_places_differ l1 -> forall l2, in_order l2 -> Permutation l1 l2 -> l1 = l2.
Proof.
  induction l1 as [|x l1 IH]; intros O D l2 O2 P; [apply Permutation_nil in P; auto|].
  destruct l2 as [|y l2]; [apply Permutation_sym, Permutation_nil in P; discriminate P|].
  apply StronglySorted_inv in O. destruct O as (O & Fx). pose proof O2 as O2'. apply StronglySorted_inv in O2. destruct O2 as (O2 & Fy). apply differ_cons in D. destruct D as (D & Nx).
  assert (x = y) as <-.
  { assert (Iy : In y (x :: l1)) by (eapply Permutation_in; [apply Permutation_sym; exact P|left; auto]). destruct Iy as [|Iy]; auto. exfalso.
    assert (Ix : In x (y :: l2)) by (eapply Permutation_in; [exact P|left; auto]). rewrite Forall_forall in *. specialize (Fx _ Iy). specialize (Nx _ Iy). destruct Ix as [<-|Ix]; [apply Nx; unfold same_place; auto|].
    specialize (Fy _ Ix). unfold not_after, precedes, same_place in *. lia. }
  f_equal. apply IH; auto. eapply Permutation_cons_inv; eauto.
Qed.
Lemma in_order_back l l' : Forall2 written_read l l' -> in_order l' -> in_order l.
Proof.
  induction 1 as [|e e' l l' W F IH]; intros O; [constructor|]. apply StronglySorted_inv in O. destruct O as [O H].
  constructor; [apply IH; auto|]. apply written_read_place in W. clear - W F H. revert H. induction F as [|x x' l l' X F IH]; intros H; constructor; inversion H; subst; auto.
  apply written_read_place in X. unfold not_after, precedes, same_place in *. lia.
Qed.

(** *** Whatever the schedule, a finished run leaves a readable file with exactly the kept elements; in order if they fit in the ordering buffer *)
Theorem C71_copy m c filter_out program k tasks B K sort n input output i blks kept :
  codec_ok c -> utf8_ok program = true -> sort_ok sort ->
  reader_new m c input = Ok i -> file_blocks m c input blks ->
  picked (fun e => filter_out e = false) (flat_map elements_of blks) kept ->
  header_fits c k (set_field i (SetProgramStr program)) -> Forall coordinates_ok kept -> choices_fit m c k K kept ->
  parallel_copy m c filter_out program k tasks B K sort n input output ->
  exists i' stream es', reader_new m c output = Ok i' /\ info_written_read (set_field i (SetProgramStr program)) i' /\
    elements_run m c output es' Ended /\ Forall2 written_read stream es' /\ Permutation stream kept /\
    (1 <= K -> length kept + K <= B + 1 -> in_order stream /\
       (in_order kept -> all_places_differ kept -> stream = kept)).
Proof.
  intros C U S RN FB PK HF CO FIT (id & i0 & tr & steps & p & RN0 & E & F & W). assert (i0 = i) by congruence. subst i0.
  apply picked_is_filter in PK. destruct (info_program_ok _ _ _ _ _ U RN) as (IO & SU & NE).
  destruct (C33_filter_pipeline m c input tasks (fun e => negb (filter_out e)) id tr steps p k _ B K sort n output C IO NE HF SU S E F W) as (blks' & FB' & X).
  rewrite (blocks_unique _ _ _ _ _ FB' FB) in *. rewrite <- PK in X. destruct (kept_legal m c input blks (fun e => negb (filter_out e)) FB) as (L & _). rewrite <- PK in L.
  assert (EO : Forall element_ok kept) by (rewrite Forall_forall in *; intros e I; apply legal_ok; auto).
  destruct (X EO FIT) as (i' & st & st' & R1 & R2 & R3 & R4 & R5 & R6). exists i', st, st'. repeat (split; [solve [auto]|]). intros HK LK. split.
  - eapply in_order_back; eauto.
  - intros O D. symmetry. apply sorted_unique; auto using Permutation_sym. eapply in_order_back; eauto.
Qed.

(** *** Inputs that fit in the ordering buffer: every schedule can be completed, none fails, none runs for ever *)
Section Reading.
  Context {It J A S : Type} (next : It -> res (option J * It)) (plan : J -> option (list A)) (act : nat -> A -> S -> option S) (cap : nat).
  Definition goes_well (p : @pool It J A S) : Prop :=
    (match p_main p with Submitting it => exists js, run next it js Ended /\ Forall (fun j => exists l, plan j = Some l) js | ShutDown => True | Dead => False end) /\
    Forall (fun j => exists l, plan j = Some l) (p_queue p) /\ Forall (fun w => w <> Failed) (p_workers p).
  Lemma well_no_failure p : goes_well p -> no_failure p.
  Proof. intros (A1 & _ & A3). split; auto. intros E. rewrite E in A1. exact A1. Qed.
  Lemma well_step p a p' : (forall w x s, act w x s <> None) -> goes_well p -> step next plan act cap p a p' -> goes_well p'.
  Proof.
    intros T (G1 & G2 & G3) X. destruct X as [it j it' q ws s N L|it it' q ws s N|it q ws s N|mn j q w ws s l N P|mn j q w ws s N P|mn q w ws s a l s' N P|mn q w ws s a l N P|mn q w ws s N|w ws s N];
      unfold goes_well in *; cbn [p_main p_queue p_workers] in *.
    - destruct G1 as (js & R & F). inversion R as [? s1 E|? E|? b s1 l o E R']; subst; try congruence. assert (b = j /\ s1 = it') as (-> & ->) by (rewrite E in N; injection N as -> ->; auto).
      inversion F; subst. sconj; eauto. apply Forall_app. auto.
    - sconj; auto.
    - destruct G1 as (js & R & F). inversion R; subst; destruct N; congruence.
    - inversion G2; subst. sconj; auto. apply set_nth_forall; auto. discriminate.
    - inversion G2 as [|? ? (l & X)]; subst. congruence.
    - sconj; auto. apply set_nth_forall; auto. discriminate.
    - destruct (T _ _ _ P).
    - sconj; auto. apply set_nth_forall; auto. discriminate.
    - sconj; auto. apply set_nth_forall; auto. discriminate.
  Qed.
  Lemma well_exec p tr k p' : (forall w x s, act w x s <> None) -> goes_well p -> exec next plan act cap p tr k p' -> goes_well p'.
  Proof. intros T G X. revert G. induction X as [|q tr k q' o q'' X IH St]; intros G; auto. eapply well_step; [exact T|apply IH; exact G|exact St]. Qed.
  (** executions one after the other *)
  Lemma exec_trans p tr k p' : exec next plan act cap p tr k p' -> forall tr2 k2 p2, exec next plan act cap p' tr2 k2 p2 -> exec next plan act cap p (tr ++ tr2) (k + k2) p2.
  Proof.
    intros X tr2 k2 p2 Y. induction Y as [|q tr2 k2 q' o q'' Y IH St]; [rewrite app_nil_r, Nat.add_0_r; auto|].
    rewrite app_assoc, Nat.add_succ_r. eapply ex_snoc; eauto.
  Qed.
  Lemma exec_one p o p' : step next plan act cap p o p' -> exec next plan act cap p (match o with Some x => [x] | None => [] end) 1 p'.
  Proof. intros X. change (match o with Some x => [x] | None => [] end) with ([] ++ match o with Some x => [x] | None => [] end). eapply ex_snoc; [constructor|auto]. Qed.
  (** worker [w] performs all its remaining actions *)
  Lemma exec_acts w mn q : forall l ws s s', nth_error ws w = Some (Busy l) -> effects act (map (pair w) l) s = Some s' ->
    exists k, exec next plan act cap (Pool mn q ws s) (map (pair w) l) k (Pool mn q (set_nth w Idle ws) s').
  Proof.
    induction l as [|a l IH]; intros ws s s' N E; cbn in E.
    - injection E as <-. exists 1. apply (exec_one _ None). apply st_done. auto.
    - destruct (act w a s) as [s1|] eqn:X; [|discriminate].
      assert (N' : nth_error (set_nth w (Busy l) ws) w = Some (Busy l)) by (eapply set_nth_same; eauto).
      destruct (IH _ _ _ N' E) as (k & Y). exists (1 + k).
      replace (set_nth w Idle (set_nth w (Busy l) ws)) with (set_nth w (@Idle A) ws) in Y by (clear; revert w; induction ws as [|y ws IH]; intros [|w]; cbn; auto; f_equal; auto).
      change (map (pair w) (a :: l)) with ([(w, a)] ++ map (pair w) l). eapply exec_trans; [|exact Y]. apply (exec_one _ (Some (w, a))). eapply st_act; eauto.
  Qed.
  Lemma set_nth_id {X} (w : nat) (x : X) : forall ws, nth_error ws w = Some x -> set_nth w x ws = ws.
  Proof. induction w; intros [|y ws] E; cbn in *; try discriminate; [congruence|f_equal; auto]. Qed.
  Lemma set_nth_twice {X} (w : nat) (x y : X) : forall ws, set_nth w x (set_nth w y ws) = set_nth w x ws.
  Proof. induction w; intros [|z ws]; cbn; auto. f_equal; auto. Qed.
  (** worker [w] serves the next job *)
  Lemma exec_serve w it j it' ws s l s' : 1 <= cap -> next it = Ok (Some j, it') -> plan j = Some l -> nth_error ws w = Some Idle -> effects act (map (pair w) l) s = Some s' ->
    exists k, exec next plan act cap (Pool (Submitting it) [] ws s) (map (pair w) l) k (Pool (Submitting it') [] ws s').
  Proof.
    intros CP N P I E. destruct (exec_acts w (Submitting it') [] l (set_nth w (Busy l) ws) s s') as (k & X); [eapply set_nth_same; eauto|auto|].
    rewrite set_nth_twice, (set_nth_id w Idle ws I) in X. exists (1 + (1 + k)). change (map (pair w) l) with ([] ++ [] ++ map (pair w) l).
    eapply exec_trans; [apply (exec_one _ None); apply st_submit; [exact N|cbn; lia]|]. eapply exec_trans; [|exact X]. apply (exec_one _ None). apply st_take; auto.
  Qed.
  (** all workers leave *)
  Lemma exec_leave s : forall b a, Forall (fun w => w = @Exited A) a -> Forall (fun w => w = Idle) b ->
    exists k, exec next plan act cap (Pool ShutDown [] (a ++ b) s) [] k (Pool ShutDown [] (a ++ map (fun _ => Exited) b) s).
  Proof.
    induction b as [|x b IH]; intros a Fa Fb; [exists 0; constructor|]. inversion Fb; subst. destruct (IH (a ++ [Exited])) as (k & X); auto.
    { apply Forall_app. auto. }
    rewrite <- !app_assoc in X. cbn [app] in X. exists (1 + k). refine (exec_trans _ [] 1 _ _ [] k _ X).
    replace (a ++ Exited :: b) with (set_nth (length a) Exited (a ++ Idle :: b)) by (clear; induction a; cbn; auto; f_equal; auto).
    apply (exec_one _ None). apply st_exit. rewrite nth_error_app2, Nat.sub_diag by lia. reflexivity.
  Qed.
End Reading.

Lemma pipeline_total keep id w e s : pipeline_call keep id w e s <> None.
Proof. destruct s as (tl & bs). unfold pipeline_call. discriminate. Qed.
(** the blobs and commands of a file that can be read to its end *)
Lemma blobs_of_blocks m c input s blks : run (fb_next m c input) s blks Ended ->
  exists ds, run (blob_next input) s ds Ended /\ Forall2 (fun d b => from_blob_desc m c input d = Ok b) ds blks.
Proof.
  intros R. remember Ended as o. induction R as [s s' E|s E|s b s' l o E R IH]; try discriminate Heqo.
  - exists []. split; [|constructor]. unfold fb_next in E. destruct (blob_next input s) as [[[d|] s1]| |] eqn:X; cbn [bind] in E; try discriminate E; [|eapply run_end; eauto].
    destruct (from_blob_desc m c input d); discriminate E.
  - destruct (IH Heqo) as (ds & RD & F). unfold fb_next in E. destruct (blob_next input s) as [[[d|] s1]| |] eqn:X; cbn [bind] in E; try discriminate E.
    destruct (from_blob_desc m c input d) as [b'| |] eqn:Y; try discriminate E. cbn in E. injection E as -> ->. exists (d :: ds). split; [eapply run_step; eauto|constructor; auto].
Qed.
Lemma commands_ok m c input ds blks : Forall2 (fun d b => from_blob_desc m c input d = Ok b) ds blks -> Forall2 (fun d b => iteration_calls m c input d = Some (calls_of b)) ds blks.
Proof. induction 1 as [|d b ds blks E F IH]; constructor; auto. unfold iteration_calls. rewrite E. destruct b; reflexivity. Qed.
Lemma reading_well m c input blks tasks s0 : file_blocks m c input blks ->
  @goes_well _ _ _ (tl_state * list (list element)) (blob_next input) (iteration_calls m c input) (pool_new bit_new tasks s0).
Proof.
  intros FB. destruct (blobs_of_blocks _ _ _ _ _ FB) as (ds & R & F). apply commands_ok in F. unfold goes_well, pool_new. cbn [p_main p_queue p_workers]. split; [|split; auto].
  - exists ds. split; auto. clear - F. induction F as [|d b ds blks E F IH]; [constructor|]. constructor; [eexists; exact E|exact IH].
  - clear. induction tasks; cbn; constructor; auto. discriminate.
Qed.
Theorem C71_small_inputs c filter_out program k tasks B K sort n input i blks kept id :
  sort_ok sort -> reader_new Wrapping c input = Ok i -> file_blocks Wrapping c input blks ->
  picked (fun e => filter_out e = false) (flat_map elements_of blks) kept ->
  1 <= tasks -> 1 <= n -> 1 <= K -> length kept + K <= B + 1 ->
  (** reading ends and never fails or gets stuck *)
  (exists bound, forall tr steps p, reads Wrapping c filter_out tasks id input tr steps p -> steps <= bound) /\
  (forall tr steps p, reads Wrapping c filter_out tasks id input tr steps p ->
     no_failure p /\ (finished p \/ exists a p', reads Wrapping c filter_out tasks id input (tr ++ a) (steps + 1) p')) /\
  (** and then the ordering thread accepts every batch and the encoders finish *)
  (forall tr steps p, reads Wrapping c filter_out tasks id input tr steps p -> finished p ->
     exists output, writes Wrapping c k (set_field i (SetProgramStr program)) B K sort n (calls_made p) output) /\
  (forall tr steps p blocks w j t, reads Wrapping c filter_out tasks id input tr steps p -> finished p ->
     blocks_submitted B K sort (calls_made p) blocks -> write_header Wrapping c (writer_new (set_field i (SetProgramStr program)) k) = Ok w ->
     texec Wrapping c k (threads_new (wr_file w) n blocks) j t ->
     j <= 7 * length blocks /\ (closed t \/ exists t', tstep Wrapping c k t t')).
Proof.
  intros S RN FB PK T1 N1 K1 LK. apply picked_is_filter in PK.
  destruct (blobs_of_blocks _ _ _ _ _ FB) as (ds & R & _).
  destruct (C50_terminates Wrapping c input tasks (pipeline_call (fun e => negb (filter_out e)) id) (tl_init, []) ds Ended R) as (BD & PR); [lia|].
  assert (NF : forall tr steps p, reads Wrapping c filter_out tasks id input tr steps p -> no_failure p).
  { intros tr steps p X. eapply well_no_failure. eapply well_exec; [|eapply reading_well; exact FB|exact X]. intros; apply pipeline_total. }
  assert (OK : forall tr steps p, reads Wrapping c filter_out tasks id input tr steps p -> finished p -> exists blocks, blocks_submitted B K sort (calls_made p) blocks).
  { intros tr steps p X F. destruct (C33_pipeline_batches _ _ _ _ _ _ _ _ _ X F) as (blks' & FB' & _ & P & _). rewrite (blocks_unique _ _ _ _ _ FB' FB), <- PK in P.
    destruct (kept_legal Wrapping c input blks (fun e => negb (filter_out e)) FB) as (_ & NS). rewrite <- PK in NS.
    destruct (C29_order_restored B K sort (calls_made p) S K1) as (BS & _); auto; unfold calls_made; rewrite written_batches.
    - eapply Permutation_Forall; [apply Permutation_sym; exact P|exact NS].
    - intros before x after big rest Eq Pm _. apply (f_equal (@length _)) in Eq. rewrite app_length in Eq. cbn in Eq. apply Permutation_length in Pm. rewrite app_length in Pm. apply Permutation_length in P. lia. }
  split; [exact BD|]. split; [|split].
  - intros tr steps p X. split; [eauto|]. destruct (PR _ _ _ X (NF _ _ _ X)) as [F|(a & p' & St)]; [auto|]. right.
    exists (match a with Some x => [x] | None => [] end), p'. unfold reads, for_each_exec. rewrite Nat.add_1_r. eapply ex_snoc; eauto.
  - intros tr steps p X F. destruct (OK _ _ _ X F) as (blocks & BS). rewrite <- (write_header_spec Wrapping c) || idtac.
    destruct (write_header Wrapping c (writer_new (set_field i (SetProgramStr program)) k)) as [w| |] eqn:W; rewrite write_header_spec in W; try discriminate W. rewrite <- write_header_spec with (m := Wrapping) in W.
    destruct (C52_release_finishes c k B K sort (calls_made p) blocks (wr_file w) n 0 (threads_new (wr_file w) n blocks) S BS N1 (te_nil _ _ _ _)) as (_ & j & t & X2 & _ & CL).
    destruct (C28_schedule_independent _ _ _ _ _ _ _ _ _ _ _ _ S BS X2) as (w' & blobs & _ & _ & FI & _).
    eexists. exists blocks, w, j, t. repeat (split; [eassumption|]). exact FI.
  - intros tr steps p blocks w j t X F BS W X2. split; [apply (C52_encoders_terminate _ _ _ _ _ _ _ _ _ _ _ _ S BS X2)|].
    apply (C52_release_finishes c k B K sort (calls_made p) blocks (wr_file w) n j t S BS N1 X2).
Qed.

(** *** Inputs that do not fit: an unlucky schedule makes the ordering thread panic on a sorted file *)
Lemma get_same tl w id e w' : w <> w' -> tl_get (tl_add tl w id e) w' id = tl_get tl w' id.
Proof. intros N. rewrite tl_add_spec. destruct (Nat.eqb_spec w w'); [congruence|]. apply app_nil_r. Qed.
Lemma block_effects keep id w : forall es tl bs, ~ In ESentinel es ->
  exists tl', effects (pipeline_call keep id) (map (pair w) (es ++ [ESentinel])) (tl, bs) = Some (tl', bs ++ [tl_get tl w id ++ filter keep es]) /\
    tl_get tl' w id = [] /\ forall w', w' <> w -> tl_get tl' w' id = tl_get tl w' id.
Proof.
  induction es as [|e es IH]; intros tl bs NI.
  - cbn [app map effects pipeline_call filter]. destruct (tl_elements_spec tl w id) as (A & B). destruct (tl_elements tl w id) as (l, tl') eqn:E. cbn [fst snd] in *. exists tl'. rewrite app_nil_r, A. split; auto.
    split; [rewrite B, Nat.eqb_refl; auto|]. intros w' N. rewrite B. destruct (Nat.eqb_spec w w'); [congruence|auto].
  - assert (NI' : ~ In ESentinel es) by (intros I; apply NI; right; auto). cbn [app map effects].
    assert (X : pipeline_call keep id w e (tl, bs) = Some (if keep e then (tl_add tl w id e, bs) else (tl, bs))) by (destruct e; try reflexivity; destruct NI; left; auto).
    rewrite X. cbn [filter]. destruct (keep e).
    + destruct (IH (tl_add tl w id e) bs NI') as (tl' & E & G & O). exists tl'. rewrite tl_add_spec, Nat.eqb_refl in E. rewrite <- app_assoc in E. cbn [app] in E. split; auto. split; auto.
      intros w' N. rewrite O by auto. apply get_same. auto.
    + destruct (IH tl bs NI') as (tl' & E & G & O). exists tl'. auto.
Qed.
Lemma calls_effects keep id w b tl bs : ~ In ESentinel (elements_of b) -> (forall w, tl_get tl w id = []) ->
  exists tl', effects (pipeline_call keep id) (map (pair w) (calls_of b)) (tl, bs) = Some (tl', bs ++ kept_batch keep b) /\ forall w, tl_get tl' w id = [].
Proof.
  intros NI Z. destruct b as [ix inf|ix es]; cbn [calls_of kept_batch elements_of] in *.
  - exists tl. rewrite app_nil_r. auto.
  - destruct (block_effects keep id w es tl bs NI) as (tl' & E & G & O). exists tl'. rewrite Z in E. split; auto. intros w'. destruct (Nat.eq_dec w' w) as [->|]; [auto|]. rewrite O; auto.
Qed.
(** worker [w] serves all the remaining blocks *)
Lemma serve_all m c input keep id w ws : nth_error ws w = Some Idle -> forall ds it blks, run (blob_next input) it ds Ended ->
  Forall2 (fun d b => iteration_calls m c input d = Some (calls_of b)) ds blks -> Forall (fun b => ~ In ESentinel (elements_of b)) blks ->
  forall tl bs, (forall w, tl_get tl w id = []) -> exists tr k it' it'' tl', blob_next input it' = Ok (None, it'') /\ (forall w, tl_get tl' w id = []) /\
    exec (blob_next input) (iteration_calls m c input) (pipeline_call keep id) for_each_queue (Pool (Submitting it) [] ws (tl, bs)) tr k
      (Pool (Submitting it') [] ws (tl', bs ++ flat_map (kept_batch keep) blks)).
Proof.
  intros I. induction ds as [|d ds IH]; intros it blks R F NS tl bs Z; inversion F as [|? b ? blks' E F']; subst.
  - inversion R as [? s' E| |]; subst. exists [], 0, it, s', tl. rewrite app_nil_r. split; auto. split; auto. constructor.
  - inversion R as [| |? ? s' ? ? E' R']; subst. inversion NS as [|? ? NI NS']; subst. destruct (calls_effects keep id w b tl bs NI Z) as (tl1 & EF & Z1).
    destruct (exec_serve (blob_next input) (iteration_calls m c input) (pipeline_call keep id) for_each_queue w it d s' ws (tl, bs) _ _ ltac:(unfold for_each_queue; lia) E' E I EF) as (k1 & X1).
    destruct (IH s' blks' R' F' NS' tl1 (bs ++ kept_batch keep b) Z1) as (tr & k & it' & it'' & tl' & N & Z' & X). exists (map (pair w) (calls_of b) ++ tr), (k1 + k), it', it'', tl'.
    split; auto. split; auto. cbn [flat_map]. rewrite app_assoc. eapply exec_trans; eauto.
Qed.
(** a schedule in which the second block is delivered last *)
Lemma late_schedule m c input keep id tasks h b rest : 2 <= tasks -> file_blocks m c input (h :: b :: rest) ->
  exists tr k p, for_each_exec m c input tasks (pipeline_call keep id) (tl_init, []) tr k p /\ finished p /\
    snd (p_shared p) = kept_batch keep h ++ flat_map (kept_batch keep) rest ++ kept_batch keep b.
Proof.
  intros T FB. assert (NS : Forall (fun b => ~ In ESentinel (elements_of b)) (h :: b :: rest)).
  { eapply Forall_impl; [|eapply blocks_readable; exact FB]. cbn. intros x H I. rewrite Forall_forall in H. exact (H _ I). }
  destruct (blobs_of_blocks _ _ _ _ _ FB) as (ds & R & F). apply commands_ok in F.
  inversion F as [|dh ? ds1 ? Eh F1]; subst. inversion F1 as [|db ? ds2 ? Eb F2]; subst. inversion R as [| |? ? s1 ? ? Nh R1]; subst. inversion R1 as [| |? ? s2 ? ? Nb R2]; subst.
  inversion NS as [|? ? NIh NS1]; subst. inversion NS1 as [|? ? NIb NS2]; subst.
  destruct tasks as [|[|tasks]]; [lia|lia|]. unfold for_each_exec, pool_new. cbn [repeat]. set (ws := Idle :: Idle :: repeat (@Idle element) tasks).
  assert (Z0 : forall w, tl_get tl_init w id = []) by reflexivity.
  destruct (calls_effects keep id 0 h tl_init [] NIh Z0) as (tl1 & EF1 & Z1).
  destruct (exec_serve (blob_next input) (iteration_calls m c input) (pipeline_call keep id) for_each_queue 0 bit_new dh s1 ws (tl_init, []) _ _ ltac:(unfold for_each_queue; lia) Nh Eh eq_refl EF1) as (k1 & X1).
  set (ws' := Busy (calls_of b) :: Idle :: repeat (@Idle element) tasks).
  assert (X2 : exec (blob_next input) (iteration_calls m c input) (pipeline_call keep id) for_each_queue (Pool (Submitting s1) [] ws (tl1, [] ++ kept_batch keep h)) [] 2 (Pool (Submitting s2) [] ws' (tl1, [] ++ kept_batch keep h))).
  { refine (exec_trans _ _ _ _ _ [] 1 (Pool (Submitting s2) [db] ws (tl1, [] ++ kept_batch keep h)) _ [] 1 _ _).
    - apply (exec_one _ _ _ _ _ None). apply (st_submit _ _ _ _ _ _ _ []); [exact Nb|cbn; unfold for_each_queue; lia].
    - apply (exec_one _ _ _ _ _ None). apply (st_take _ _ _ _ _ db [] 0 ws _ (calls_of b)); auto. }
  destruct (serve_all m c input keep id 1 ws' eq_refl ds2 s2 rest R2 F2 NS2 tl1 ([] ++ kept_batch keep h) Z1) as (tr3 & k3 & it' & it'' & tl3 & N3 & Z3 & X3).
  destruct (calls_effects keep id 0 b tl3 (([] ++ kept_batch keep h) ++ flat_map (kept_batch keep) rest) NIb Z3) as (tl4 & EF4 & Z4).
  destruct (exec_acts (blob_next input) (iteration_calls m c input) (pipeline_call keep id) for_each_queue 0 (Submitting it') [] (calls_of b) ws' _ _ eq_refl EF4) as (k4 & X4).
  change (set_nth 0 Idle ws') with ws in X4.
  set (sf := (tl4, (([] ++ kept_batch keep h) ++ flat_map (kept_batch keep) rest) ++ kept_batch keep b)) in *.
  assert (X5 : exec (blob_next input) (iteration_calls m c input) (pipeline_call keep id) for_each_queue (Pool (Submitting it') [] ws sf) [] 1 (Pool ShutDown [] ws sf)) by (apply (exec_one _ _ _ _ _ None); eapply st_shutdown; eauto).
  destruct (exec_leave (blob_next input) (iteration_calls m c input) (pipeline_call keep id) for_each_queue sf ws [] (Forall_nil _)) as (k6 & X6).
  { unfold ws. constructor; auto. constructor; auto. clear. induction tasks; cbn; auto. }
  cbn [app] in X6. do 3 eexists. split; [exact (exec_trans _ _ _ _ _ _ _ _ X1 _ _ _ (exec_trans _ _ _ _ _ _ _ _ X2 _ _ _ (exec_trans _ _ _ _ _ _ _ _ X3 _ _ _ (exec_trans _ _ _ _ _ _ _ _ X4 _ _ _ (exec_trans _ _ _ _ _ _ _ _ X5 _ _ _ X6)))))|].
  split; [|unfold sf; cbn [p_shared snd app]; rewrite <- app_assoc; reflexivity]. split; [reflexivity|]. split; [reflexivity|]. cbn [p_workers]. apply Forall_forall. intros w Iw. apply in_map_iff in Iw. destruct Iw as (? & <- & _). reflexivity.
Qed.
(** elements before [x] are lost: whatever the ordering thread has flushed comes after [x] *)
Section Late.
  Variable B K : nat.
  Variable sort : list element -> list element.
  Hypothesis S : sort_ok sort.
  Hypothesis K1 : 1 <= K.
  Variable x : element.
  Definition flushed_after (st : ord) : Prop := Forall (precedes x) (o_buf st) /\ match o_min st with Some e => precedes x e | None => length (o_buf st) <= B end.
  Lemma push_all_buf es : forall st st', push_all st es = Ok st' -> o_buf st' = o_buf st ++ es /\ o_min st' = o_min st.
  Proof.
    induction es as [|e es IH]; intros st st' H; cbn in H; [injection H as <-; rewrite app_nil_r; auto|].
    unfold push in H. destruct (assert_order st e); cbn [bind] in H; [|discriminate H]. apply IH in H. cbn [o_buf o_min] in H. rewrite <- app_assoc in H. exact H.
  Qed.
  Lemma late_calls : forall bs st, flushed_after st -> Forall (precedes x) (concat bs) ->
    do_calls B K sort st (map WriteElements bs) = Panic \/
    exists st', do_calls B K sort st (map WriteElements bs) = Ok st' /\ flushed_after st' /\ (o_min st' = None -> o_min st = None /\ o_buf st' = o_buf st ++ concat bs).
  Proof.
    induction bs as [|es bs IH]; intros st (F1 & F2) P; cbn [map do_calls do_call].
    - right. exists st. split; auto. split; [split; auto|]. intros H. cbn. rewrite app_nil_r. auto.
    - cbn [concat] in P. apply Forall_app in P. destruct P as (P1 & P2). unfold add_elements. destruct (push_all st es) as [st1| |] eqn:E; cbn [bind]; auto.
      2:{ exfalso. revert E. clear. revert st. induction es as [|e es IH]; intros st; cbn; [discriminate|]. unfold push. destruct (assert_order st e); cbn; [apply IH|discriminate]. }
      apply push_all_buf in E. destruct E as (Eb & Em). assert (F1' : Forall (precedes x) (o_buf st1)) by (rewrite Eb; apply Forall_app; auto).
      assert (G : flushed_after (flush_if_full B K sort st1) /\ (o_min (flush_if_full B K sort st1) = None -> o_min st = None /\ o_buf (flush_if_full B K sort st1) = o_buf st ++ es)).
      { unfold flush_if_full. destruct (Nat.ltb_spec B (length (o_buf st1))) as [L|L].
        - unfold flush_sorted_top, flush_block, flushed_after. destruct (split_file_block K (o_buf (sort_buffer sort st1))) as (blk, rest) eqn:SP. apply split_spec in SP. destruct SP as (SB & _ & _ & NE).
          cbn [sort_buffer o_buf o_min] in *. destruct (S (o_buf st1)) as (PM & _). assert (FS : Forall (precedes x) (sort (o_buf st1))) by (eapply Permutation_Forall; eauto).
          rewrite SB in FS. apply Forall_app in FS. destruct FS as (FB & FR). destruct blk as [|e blk].
          + exfalso. apply NE; [lia|intros Z; rewrite Z in PM; apply Permutation_sym, Permutation_nil in PM; rewrite PM in L; cbn in L; lia|reflexivity].
          + inversion FB; subst. cbn [set_min]. split; [split; auto|discriminate].
        - unfold flushed_after. rewrite Em in *. destruct (o_min st); split; auto; intros H; discriminate H. }
      destruct G as (G & G2). destruct (IH _ G P2) as [H|(st' & H & I & J)]; [auto|]. right. exists st'. split; auto. split; auto.
      intros N. destruct (J N) as (J1 & J2). destruct (G2 J1) as (J3 & J4). split; auto. rewrite J2, J4, <- app_assoc. reflexivity.
  Qed.
End Late.
Theorem C71_unlucky_schedule m c filter_out tasks B K sort input h b rest x kept_b kept_rest id :
  2 <= tasks -> 1 <= K -> sort_ok sort -> file_blocks m c input (h :: b :: rest) ->
  (** the file is sorted: its first block is the header, the first kept element of the second comes before all those of the later ones *)
  elements_of h = [] ->
  picked (fun e => filter_out e = false) (elements_of b) (x :: kept_b) ->
  picked (fun e => filter_out e = false) (flat_map elements_of rest) kept_rest -> Forall (precedes x) kept_rest ->
  (** and the later blocks do not fit in the ordering buffer *)
  B < length kept_rest ->
  exists tr steps p, reads m c filter_out tasks id input tr steps p /\ finished p /\
    do_calls B K sort ord_new (calls_made p) = Panic.
Proof.
  intros T K1 S FB Eh Pb Pr LT BIG. apply picked_is_filter in Pb. apply picked_is_filter in Pr. set (keep := fun e => negb (filter_out e)) in *.
  destruct (late_schedule m c input keep id tasks h b rest T FB) as (tr & k & p & X & F & E). exists tr, k, p. split; [exact X|]. split; auto.
  assert (LG : forall b, In b (h :: b :: rest) -> True) by auto. clear LG.
  assert (KH : concat (kept_batch keep h) = []) by (destruct h; [reflexivity|]; cbn in *; rewrite Eh; reflexivity).
  assert (KB : forall l, concat (flat_map (kept_batch keep) l) = filter keep (flat_map elements_of l)).
  { clear. induction l as [|y l IH]; cbn; auto. rewrite concat_app, filter_app, IH. destruct y; cbn; rewrite ?app_nil_r; auto. }
  assert (NSx : x <> ESentinel).
  { intros ->. assert (I : In ESentinel (filter keep (elements_of b))) by (rewrite <- Pb; left; auto). apply filter_In in I. destruct I as (I & _).
    apply blocks_readable in FB. rewrite Forall_forall in FB. specialize (FB b ltac:(right; left; auto)). cbn in FB. rewrite Forall_forall in FB. exact (FB _ I). }
  assert (Z : kept_batch keep b = [x :: kept_b]).
  { destruct b; cbn in *; [discriminate Pb|congruence]. }
  unfold calls_made. rewrite E, Z, app_assoc, map_app.
  assert (DA : forall a b st, do_calls B K sort st (a ++ b) = (st' <- do_calls B K sort st a ;; do_calls B K sort st' b)).
  { clear. induction a as [|y a IH]; intros b st; cbn [app do_calls bind]; [reflexivity|]. destruct (do_call B K sort st y); cbn [bind]; auto. }
  rewrite DA. assert (CC : concat (kept_batch keep h ++ flat_map (kept_batch keep) rest) = kept_rest) by (rewrite concat_app, KH, KB; symmetry; exact Pr).
  destruct (late_calls B K sort S K1 x (kept_batch keep h ++ flat_map (kept_batch keep) rest) ord_new) as [->|(st & -> & (I1 & I2) & I3)].
  - split; cbn; auto. lia.
  - rewrite CC. exact LT.
  - reflexivity.
  - cbn [bind map do_calls do_call]. unfold add_elements. cbn [push_all]. unfold push, assert_order. destruct (o_min st) as [mn|] eqn:EM.
    + assert (is_sentinel x = false) as -> by (destruct x; auto; congruence). cbn [orb].
      assert (mn <> ESentinel -> element_cmp x mn = Lt).
      { intros NM. pose proof (element_cmp_spec x mn NSx NM) as Q. destruct (element_cmp x mn); auto; exfalso; unfold precedes, same_place in *; lia. }
      assert (NM : mn <> ESentinel \/ mn = ESentinel) by (destruct mn; auto; left; discriminate). destruct NM as [NM|NM]; [rewrite H by exact NM; reflexivity|].
      subst mn. destruct x; try reflexivity. congruence.
    + exfalso. destruct (I3 eq_refl) as (_ & Q). cbn [ord_new o_buf app] in Q. rewrite CC in Q. rewrite Q in I2. lia.
Qed.
