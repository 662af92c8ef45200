(** Non-vacuity of the properties of parallel reading, and the refutation of C25. *)
From Coq Require Import ZArith List Bool Strings.Byte Strings.String Lia Permutation Reals Lra.
From Verif Require Import Base BaseFacts Types Proto Block BlockFacts FloatFacts Spec SpecFacts FileFormat FileFacts FileSpec PropFile.
From Verif Require Import ModelSpec ModelFacts Pool ParallelSpec PoolFacts ParallelRead ParallelReadFacts PropParallelRead ExBlock ExFile.
Import ListNotations.
Open Scope Z_scope.
Local Notation length := List.length.
Local Notation concat := List.concat.

(** ** A scheduler: agent 0 is the submitting thread, agent w+1 is worker w; agents that cannot move are skipped *)
Section Sched.
  Context {It J A S : Type}.
  Variable next : It -> res (option J * It).
  Variable plan : J -> option (list A).
  Variable act : nat -> A -> S -> option S.
  Variable cap : nat.
  Definition try_step (i : nat) (p : @pool It J A S) : option (option (nat * A) * @pool It J A S) :=
    let 'Pool mn q ws s := p in
    match i with
    | O => match mn with
           | Submitting it =>
             match next it with
             | Ok (Some j, it') => if Nat.ltb (length q) cap then Some (None, Pool (Submitting it') (q ++ [j]) ws s) else None
             | Ok (None, _) => Some (None, Pool ShutDown q ws s)
             | _ => Some (None, Pool Dead q ws s)
             end
           | _ => None
           end
    | Datatypes.S w =>
      match nth_error ws w with
      | Some Idle =>
        match q with
        | j :: q' => match plan j with
                     | Some l => Some (None, Pool mn q' (set_nth w (Busy l) ws) s)
                     | None => Some (None, Pool mn q' (set_nth w Failed ws) s)
                     end
        | [] => match mn with ShutDown => Some (None, Pool ShutDown [] (set_nth w Exited ws) s) | _ => None end
        end
      | Some (Busy []) => Some (None, Pool mn q (set_nth w Idle ws) s)
      | Some (Busy (a :: l)) =>
        match act w a s with
        | Some s' => Some (Some (w, a), Pool mn q (set_nth w (Busy l) ws) s')
        | None => Some (Some (w, a), Pool mn q (set_nth w Failed ws) s)
        end
      | _ => None
      end
    end.
  Lemma try_step_sound i p o p' : try_step i p = Some (o, p') -> step next plan act cap p o p'.
  Proof.
    destruct p as [mn q ws s]. destruct i as [|w]; cbn [try_step].
    - destruct mn as [it| |]; try (intros; discriminate). destruct (next it) as [[[j|] it']| |] eqn:E.
      + destruct (Nat.ltb_spec (length q) cap); [|intros; discriminate]. intros XX; injection XX as <- <-. eapply st_submit; eauto.
      + intros XX; injection XX as <- <-. eapply st_shutdown; eauto.
      + intros XX; injection XX as <- <-. apply st_dead; auto.
      + intros XX; injection XX as <- <-. apply st_dead; auto.
    - destruct (nth_error ws w) as [[|[|a l]| |]|] eqn:E; try (intros; discriminate).
      + destruct q as [|j q]; [destruct mn; try (intros; discriminate); intros XX; injection XX as <- <-; eapply st_exit; eauto|].
        destruct (plan j) eqn:P; intros XX; injection XX as <- <-; [eapply st_take|eapply st_bad]; eauto.
      + intros XX; injection XX as <- <-. eapply st_done; eauto.
      + destruct (act w a s) eqn:Ac; intros XX; injection XX as <- <-; [eapply st_act|eapply st_act_bad]; eauto.
  Qed.
  Fixpoint sched (agents : list nat) (p : @pool It J A S) (tr : list (nat * A)) (k : nat) : list (nat * A) * nat * @pool It J A S :=
    match agents with
    | [] => (tr, k, p)
    | i :: r => match try_step i p with
                | Some (o, p') => sched r p' (tr ++ match o with Some x => [x] | None => [] end) (Datatypes.S k)
                | None => sched r p tr k
                end
    end.
  Lemma sched_sound agents : forall p0 p tr k tr' k' p', exec next plan act cap p0 tr k p ->
    sched agents p tr k = (tr', k', p') -> exec next plan act cap p0 tr' k' p'.
  Proof.
    induction agents as [|i r IH]; intros p0 p tr k tr' k' p' E H; cbn in H.
    - injection H as <- <- <-. exact E.
    - destruct (try_step i p) as [[o q]|] eqn:T; [|eauto]. eapply IH; [|exact H]. econstructor; eauto. eapply try_step_sound, T.
  Qed.
  Lemma sched_exec {X} (obs : list (nat * A) -> @pool It J A S -> X) v agents p0 :
    (let '(tr, k, p) := sched agents p0 [] 0 in obs tr p) = v -> exists tr k p, exec next plan act cap p0 tr k p /\ obs tr p = v.
  Proof.
    destruct (sched agents p0 [] 0) as [[tr k] p] eqn:E. intros H. exists tr, k, p. split; auto. eapply sched_sound; eauto. constructor.
  Qed.
End Sched.
Fixpoint round_robin (n : nat) (l : list nat) : list nat := match n with O => [] | S m => l ++ round_robin m l end.
Definition finishedb {It J A S} (p : @pool It J A S) : bool :=
  match p_main p, p_queue p with ShutDown, [] => forallb (fun w => match w with Exited => true | _ => false end) (p_workers p) | _, _ => false end.
Lemma finishedb_spec {It J A S} (p : @pool It J A S) : finishedb p = true -> finished p.
Proof.
  destruct p as [[it| |] [|j q] ws s]; cbn; try discriminate. intros H. split; [reflexivity|]. split; [reflexivity|]. cbn.
  apply Forall_forall. intros w I. rewrite forallb_forall in H. specialize (H w I). destruct w; congruence.
Qed.

(** ** A file with two data blocks *)
Definition ex_two_blocks : bytes :=
  match (w0 <- write_header Checked ex_codec (writer_new ex_info Zlib) ;;
         w1 <- write_elements Checked ex_codec w0 [ENode ex_node1; ENode ex_node2] ;;
         w2 <- write_elements Checked ex_codec w1 [EWay ex_way] ;; Ok (wr_file w2))
  with Ok f => f | _ => [] end.
(** C23, C50: two workers, interleaved: a finished execution in which both workers have made calls *)
Definition log (w : nat) (e : element) (s : list Z) : option (list Z) := Some (s ++ [element_id e]).
Example ex_for_each : exists tr k p, for_each_exec Checked ex_codec ex_two_blocks 2 log [] tr k p /\ finished p /\
  map fst tr = [1; 0; 1; 0; 0]%nat /\ p_shared p = [10; 5000000001; 0; -7; 0].
Proof.
  destruct (sched_exec (blob_next ex_two_blocks) (iteration_calls Checked ex_codec ex_two_blocks) log for_each_queue (fun tr p => (map fst tr, p_shared p, finishedb p)) ([1; 0; 1; 0; 0]%nat, [10; 5000000001; 0; -7; 0], true)
     ([0; 1; 1; 0; 1; 0; 2]%nat ++ round_robin 20 [2; 1; 0]%nat) (pool_new bit_new 2 [])) as (tr & k & p & X & E); [vm_compute; reflexivity|].
  exists tr, k, p. split; [exact X|]. injection E as E1 E2 E3. split; [apply finishedb_spec; auto|auto].
Qed.
Example ex_for_each_calls : exists tr k p, for_each_exec Checked ex_codec ex_two_blocks 2 log [] tr k p /\ finished p /\
  (forall blks, file_blocks Checked ex_codec ex_two_blocks blks -> length blks = 3%nat).
Proof.
  destruct ex_for_each as (tr & k & p & E & F & _). exists tr, k, p. split; auto. split; auto.
  intros blks B. assert (R : exists l, file_blocks Checked ex_codec ex_two_blocks l /\ length l = 3%nat).
  { eexists. split; [do 3 (eapply run_step; [vm_compute; reflexivity|]); eapply run_end; vm_compute; reflexivity|reflexivity]. }
  destruct R as (l & R & <-). destruct (run_det _ _ _ _ _ _ B R) as [-> _]. reflexivity.
Qed.
(** C24 *)
Example ex_count : exists tr k p, for_each_exec Checked ex_codec ex_two_blocks 3 count_one (Counters 0 0 0) tr k p /\ finished p /\
  counted (p_shared p) = (2, 1, 0).
Proof.
  destruct (sched_exec (blob_next ex_two_blocks) (iteration_calls Checked ex_codec ex_two_blocks) count_one for_each_queue (fun _ p => (counted (p_shared p), finishedb p)) (2, 1, 0, true)
     (round_robin 20 [0; 3; 2; 1]%nat) (pool_new bit_new 3 (Counters 0 0 0))) as (tr & k & p & X & E); [vm_compute; reflexivity|].
  exists tr, k, p. split; [exact X|]. split; [apply finishedb_spec; exact (f_equal snd E)|exact (f_equal fst E)].
Qed.
(** C25 *)
Example ex_hull : exists tr k p b, calc_exec Checked ex_codec ex_two_blocks 2 tr k p /\ finished p /\
  calc_result (p_shared p) = Ok b /\ bb_top b = grid_f64 515074456 /\ bb_right b = f_of_Z 180.
Proof.
  destruct (sched_exec (blob_next ex_two_blocks) (bbox_calls Checked ex_codec ex_two_blocks) bbox_merge_result 1024
     (fun _ p => (match p_shared p with Some b => Some (bb_top b, bb_right b) | None => None end, finishedb p))
     (Some (grid_f64 515074456, f_of_Z 180), true)
     (round_robin 20 [0; 1; 2]%nat) (pool_new bit_new 2 None)) as (tr & k & p & X & E); [vm_compute; reflexivity|].
  exists tr, k, p. injection E as E1 E2. destruct (p_shared p) as [b|] eqn:Eb; [|discriminate]. exists b. injection E1 as E3 E4.
  split; [exact X|]. split; [apply finishedb_spec; auto|]. auto.
Qed.
Example ex_nodes_first : exists blks, file_blocks Checked ex_codec ex_two_blocks blks /\ Forall nodes_first blks /\ length blks = 3%nat.
Proof.
  eexists. split; [do 3 (eapply run_step; [vm_compute; reflexivity|]); eapply run_end; vm_compute; reflexivity|].
  split; [|reflexivity]. constructor; [|constructor; [|constructor; [|constructor]]].
  - exists [], []. split; [reflexivity|]. auto.
  - eexists [_; _], []. split; [reflexivity|]. repeat constructor.
  - eexists [], [_]. split; [reflexivity|]. repeat constructor.
Qed.

(** a block of three groups: a node at (1, 1), a way, a node at (2, 2) *)
Definition mixed_block : pblock :=
  PBlock [ [] ] [PGroup [] (Some (Dense [1] None [10000000] [10000000] [0])) [] [] [];
                 PGroup [] None [PWay 5 [] [] None [1] [] []] [] [];
                 PGroup [] (Some (Dense [2] None [20000000] [20000000] [0])) [] [] []] None None None None.
Definition mixed_file : bytes :=
  match fblock_serialize Checked ex_codec Uncompressed (FHeader 0 ex_info) with
  | Ok hb => write_blob hb ++
     (let body := blob_encode (Blob None (Some (Raw (pblock_encode mixed_block)))) in
      write_blob (blob_header_encode (BlobHeader (str "OSMData") None (zlen body)), body))
  | _ => []
  end.
(** C25 refuted as stated: the file is valid and readable, and calc misses its second node for
    every number of workers and every schedule *)
Theorem C25_refuted : exists blks q, file_blocks Checked ex_codec mixed_file blks /\ node_at blks q /\
  (exists tr k p, calc_exec Checked ex_codec mixed_file 2 tr k p /\ finished p) /\
  forall tasks tr k p, calc_exec Checked ex_codec mixed_file tasks tr k p -> finished p ->
    exists b, calc_result (p_shared p) = Ok b /\ ~ in_box q b.
Proof.
  assert (R : exists l, file_blocks Checked ex_codec mixed_file l /\ exists h a w b, l = [h; FData 1 [ENode a; EWay w; ENode b]] /\
      elements_of h = [] /\ n_coord a = Coordinate (grid_f64 10000000) (grid_f64 10000000) /\ n_coord b = Coordinate (grid_f64 20000000) (grid_f64 20000000)).
  { eexists. split; [do 2 (eapply run_step; [vm_compute; reflexivity|]); eapply run_end; vm_compute; reflexivity|].
    eexists _, _, _, _. split; [reflexivity|]. split; [reflexivity|]. split; vm_compute; reflexivity. }
  destruct R as (l & R & h & a & w & b & El & H0 & Ha & Hb). exists l, (n_coord b). split; [exact R|]. split.
  { subst l. exists (FData 1 [ENode a; EWay w; ENode b]), b. split; [right; left; auto|]. split; [right; right; left; auto|auto]. }
  split.
  { destruct (sched_exec (blob_next mixed_file) (bbox_calls Checked ex_codec mixed_file) bbox_merge_result 1024 (fun _ p => finishedb p) true
       (round_robin 20 [0; 1; 2]%nat) (pool_new bit_new 2 None)) as (tr & k & p & X & E); [vm_compute; reflexivity|].
    exists tr, k, p. split; [exact X|]. apply finishedb_spec; auto. }
  intros tasks tr k p E F. destruct (finished_spec _ _ _ _ _ _ _ _ _ _ E F) as (ds & plans & owners & Rn & Pl & L & O & T & Sh & Ef).
  destruct (bbox_blocks _ _ _ _ _ Pl) as (blks & F2 & ->). pose proof (blobs_blocks _ _ _ _ _ Rn _ F2) as B.
  destruct (run_det _ _ _ _ _ _ B R) as [-> _]. subst l. cbn [map elements_of] in *. rewrite H0 in *.
  pose proof (trace_is_all_actions _ _ _ _ L O T Sh) as P. cbn in P. apply Permutation_sym, Permutation_length_1_inv in P.
  destruct tr as [|[w0 x] [|y tr]]; try discriminate. cbn in P. injection P as ->. cbn in Ef. injection Ef as Ef. rewrite <- Ef. cbn.
  eexists. split; [reflexivity|]. intros (_ & X & _). rewrite Ha, Hb in X. cbn in X.
  assert (Y : fle (grid_f64 20000000) (grid_f64 10000000) = true).
  { apply fle_spec; [..|exact X]; apply ex_deg; lia. }
  vm_compute in Y. discriminate.
Qed.

(** C32: two threads, two accumulators *)
Example ex_acc : let h := [TAdd 0 (str "a") (ENode ex_node1); TAdd 1 (str "a") (EWay ex_way); TAdd 0 (str "b") (EWay ex_way);
                           TElements 1 (str "a"); TAdd 0 (str "a") (ENode ex_node2)] in
  added_since 0 (str "a") (map op_event (rev h)) = [ENode ex_node1; ENode ex_node2] /\
  fst (tl_elements (fst (tl_run tl_init h)) 0 (str "a")) = [ENode ex_node1; ENode ex_node2] /\
  snd (tl_run tl_init h) = [[EWay ex_way]].
Proof. split; [reflexivity|]. split; reflexivity. Qed.

(** C33: keep ways only; two workers *)
Example ex_pipeline : exists tr k p, for_each_exec Checked ex_codec ex_two_blocks 2 (pipeline_call is_way (str "id")) (tl_init, []) tr k p /\
  finished p /\ map (map element_id) (snd (p_shared p)) = [[10]; []].
Proof.
  destruct (sched_exec (blob_next ex_two_blocks) (iteration_calls Checked ex_codec ex_two_blocks) (pipeline_call is_way (str "id")) for_each_queue (fun _ p => (map (map element_id) (snd (p_shared p)), finishedb p)) ([[10]; []], true)
     ([0; 1; 1; 0; 1; 0; 2]%nat ++ round_robin 20 [2; 1; 0]%nat) (pool_new bit_new 2 (tl_init, []))) as (tr & k & p & X & E); [vm_compute; reflexivity|].
  exists tr, k, p. split; [exact X|]. injection E as E1 E2. split; [apply finishedb_spec; auto|auto].
Qed.
