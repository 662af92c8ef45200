(** Non-vacuity of the properties of the parallel writer, and the refutation of C30. *)
From Coq Require Import ZArith List Bool Strings.Byte Strings.String Lia Permutation Sorted.
From Verif Require Import Base BaseFacts Types Proto Block BlockFacts FloatFacts Spec SpecFacts FileFormat FileFacts FileSpec PropFile.
From Verif Require Import ModelSpec Model2 ModelFacts Pool ParallelSpec PoolFacts ParallelRead ParallelReadFacts PropParallelRead ExBlock ExFile ExParallelRead.
From Verif Require Import ParallelWriteSpec ParallelWrite OrderFacts EncodeFacts PropParallelWrite.
Import ListNotations.
Open Scope nat_scope.
Local Notation length := List.length.
Local Notation concat := List.concat.

(** ** A sort that meets the contract of [slice::sort] *)
Fixpoint insert_el (e : element) (l : list element) : list element :=
  match l with [] => [e] | x :: r => match element_cmp e x with Gt => x :: insert_el e r | _ => e :: l end end.
Definition isort (l : list element) : list element := fold_right insert_el [] l.
Lemma insert_perm e l : Permutation (e :: l) (insert_el e l).
Proof. induction l as [|x l IH]; cbn; auto. destruct (element_cmp e x); auto. rewrite perm_swap. constructor. exact IH. Qed.
Lemma insert_sorted e l : not_sentinel e -> Forall not_sentinel l -> in_order l -> in_order (insert_el e l).
Proof.
  intros NE NS. induction l as [|x l IH]; intros O; cbn; [repeat constructor|]. inversion NS as [|? ? Nx Nl]; subst.
  apply StronglySorted_inv in O. destruct O as [O F].
  assert (A : (element_cmp e x = Gt -> not_after x e) /\ (element_cmp e x <> Gt -> not_after e x)).
  { pose proof (cmp_lt_iff e x NE Nx) as L. split; intros H P.
    - apply L in P. congruence.
    - apply (cmp_gt_iff e x NE Nx) in P. contradiction. }
  destruct A as [A1 A2]. destruct (element_cmp e x) eqn:C.
  - constructor; [constructor; auto|]. assert (not_after e x) by (apply A2; discriminate). constructor; auto. eapply Forall_impl; [|exact F]. intros y. apply not_after_trans. auto.
  - constructor; [constructor; auto|]. assert (not_after e x) by (apply A2; discriminate). constructor; auto. eapply Forall_impl; [|exact F]. intros y. apply not_after_trans. auto.
  - constructor; [apply IH; auto|]. eapply Permutation_Forall; [apply insert_perm|]. constructor; auto.
Qed.
Lemma isort_ok : sort_ok isort.
Proof.
  intros l. assert (P : Permutation l (isort l)).
  { induction l as [|e l IH]; cbn; auto. rewrite <- insert_perm. constructor. exact IH. }
  split; auto. intros NS. induction l as [|e l IH]; cbn; [constructor|]. inversion NS; subst.
  assert (P' : Permutation l (isort l)). { clear. induction l as [|e l IH]; cbn; auto. rewrite <- insert_perm. constructor. exact IH. }
  apply insert_sorted; auto. eapply Permutation_Forall; eauto.
Qed.

(** ** Running the ordering thread *)
Fixpoint flush_run (K fuel : nat) (st : ord) : option ord :=
  match fuel with O => None | S f => match o_buf st with [] => Some st | _ => flush_run K f (flush_block K st) end end.
Lemma flush_run_sound K fuel : forall st st', flush_run K fuel st = Some st' -> flush_loop K st st'.
Proof.
  induction fuel as [|f IH]; intros st st' H; cbn in H; [discriminate|]. destruct (o_buf st) eqn:E.
  - injection H as <-. constructor; auto.
  - econstructor 2; [rewrite E; discriminate|]. auto.
Qed.
Definition run_calls (B K fuel : nat) (cs : list call) : option (list (nat * list element)) :=
  match do_calls B K isort ord_new cs with
  | Ok st => match flush_run K fuel (sort_buffer isort st) with Some st' => Some (o_out st') | None => None end
  | _ => None
  end.
Lemma run_calls_sound B K fuel cs bs : run_calls B K fuel cs = Some bs -> blocks_submitted B K isort cs bs.
Proof.
  unfold run_calls. intros H. destruct (do_calls B K isort ord_new cs) as [st| |] eqn:E; try discriminate.
  destruct (flush_run K fuel (sort_buffer isort st)) as [st'|] eqn:F; [|discriminate]. injection H as <-.
  exists st, st'. split; auto. split; auto. apply flush_run_sound with fuel. exact F.
Qed.

Definition nd (i : Z) : element := ENode (Node i 1 (Coordinate (grid_f64 10000000) (grid_f64 20000000)) 0 0 0 [] true []).
Definition wy (i : Z) : element := EWay (Way i 1 0 0 0 [] true [1; 2]%Z []).
(** C27, C29: a buffer of three, blocks of two; nodes and ways out of order by one *)
Definition ex_calls : list call := [WriteElements [nd 2; nd 1]; WriteElement (nd 3); WriteElements [wy 5; nd 4]; WriteElement (wy 6)].
Example ex_submitted : blocks_submitted 3 2 isort ex_calls [(1, [nd 1; nd 2]); (2, [nd 3; nd 4]); (3, [wy 5; wy 6])].
Proof. apply run_calls_sound with 10. vm_compute. reflexivity. Qed.
(** a decidable form of the displacement bound *)
Definition precedesb (a b : element) : bool :=
  ((type_rank a <? type_rank b) || (type_rank a =? type_rank b) && ((element_id a <? element_id b) || (element_id a =? element_id b) && (element_version a <? element_version b)))%Z.
Lemma precedesb_spec a b : precedesb a b = true <-> precedes a b.
Proof. unfold precedesb, precedes. rewrite !orb_true_iff, !andb_true_iff, !orb_true_iff, !andb_true_iff, !Z.ltb_lt, !Z.eqb_eq. tauto. Qed.
Fixpoint displacedb (d : nat) (before l : list element) : bool :=
  match l with [] => true | x :: r => (length (filter (precedesb x) before) <=? d) && displacedb d (before ++ [x]) r end.
Lemma filter_perm {A} (f : A -> bool) l l' : Permutation l l' -> Permutation (filter f l) (filter f l').
Proof. induction 1; cbn; auto; [destruct (f x); auto| |etransitivity; eauto]. destruct (f x), (f y); auto. apply perm_swap. Qed.
Lemma displacedb_sound d stream : displacedb d [] stream = true -> displaced_at_most d stream.
Proof.
  intros H before x after big rest E P F.
  assert (G : forall l pre, displacedb d pre l = true -> forall b y a, l = b ++ y :: a -> length (filter (precedesb y) (pre ++ b)) <= d).
  { induction l as [|z l IH]; intros pre HD b y a El; [destruct b; discriminate|]. cbn in HD. apply andb_prop in HD. destruct HD as [H1 H2].
    destruct b as [|z' b]; cbn in El; injection El as <- El.
    - rewrite app_nil_r. apply Nat.leb_le. exact H1.
    - specialize (IH _ H2 _ _ _ El). rewrite <- app_assoc in IH. exact IH. }
  specialize (G _ _ H _ _ _ E). cbn [app] in G. apply (filter_perm (precedesb x)) in P. apply Permutation_length in P.
  rewrite filter_app, app_length in P. assert (Ef : filter (precedesb x) big = big).
  { clear - F. induction F as [|y l Hy F IH]; cbn; auto. apply precedesb_spec in Hy. rewrite Hy, IH. reflexivity. }
  rewrite Ef in P. lia.
Qed.
Example ex_displaced : displaced_at_most (3 + 1 - 2) (flat_map written ex_calls) /\ Forall not_sentinel (flat_map written ex_calls) /\
  in_order (concat (map snd [(1, [nd 1; nd 2]); (2, [nd 3; nd 4]); (3, [wy 5; wy 6])])) /\ ~ in_order (flat_map written ex_calls).
Proof.
  assert (D : displaced_at_most (3 + 1 - 2) (flat_map written ex_calls)) by (apply displacedb_sound; reflexivity).
  assert (N : Forall not_sentinel (flat_map written ex_calls)) by (repeat constructor; discriminate).
  split; auto. split; auto. split.
  - apply (C29_order_restored 3 2 isort ex_calls isort_ok ltac:(lia) N D). exact ex_submitted.
  - intros O. apply StronglySorted_inv in O. destruct O as [_ O]. inversion O as [|? ? O1 _]; subst. apply O1. unfold precedes. cbn. lia.
Qed.

(** C30 refuted as stated: the input 1 5 9 3 is accepted although the order of the file is lost *)
Theorem C30_refuted : exists B K sort cs blocks, sort_ok sort /\ 1 <= K <= B + 1 /\ Forall not_sentinel (flat_map written cs) /\
  blocks_submitted B K sort cs blocks /\ ~ in_order (concat (map snd blocks)).
Proof.
  exists 2, 2, isort, (map WriteElement [nd 1; nd 5; nd 9; nd 3]), [(1, [nd 1; nd 5]); (2, [nd 3; nd 9])].
  split; [apply isort_ok|]. split; [lia|]. split; [repeat constructor; discriminate|]. split.
  - apply run_calls_sound with 10. vm_compute. reflexivity.
  - intros O. apply StronglySorted_inv in O. destruct O as [O _]. apply StronglySorted_inv in O. destruct O as [_ O].
    inversion O as [|? ? O1 _]; subst. apply O1. unfold precedes. cbn. lia.
Qed.
(** C30: an input that is rejected *)
Example ex_rejected : do_calls 2 2 isort ord_new (map WriteElement [nd 5; nd 6; nd 9; nd 3]) = Panic.
Proof. vm_compute. reflexivity. Qed.

(** ** Running the encoders and the writer: agent 0 submits, agent 1 is the writer, agent e+2 is encoder e *)
Section TSched.
  Variable m : mode.
  Variable c : codec.
  Variable k : compression.
  Definition try_t (a : nat) (t : threads) : option threads :=
    let 'Threads p q es w bf n ws f := t in
    match a with
    | 0 => match p with b :: p' => if Nat.ltb (length q) queue_size then Some (Threads p' (q ++ [b]) es w bf n ws f) else None | [] => None end
    | 1 => match ws with
           | WIdle => match w with (i, hb) :: w' => Some (Threads p q es w' (insert i hb bf) n WDraining f) | [] => None end
           | WDraining => match lookup n bf with
                          | Some hb => match f with
                                       | Some f' => Some (Threads p q es w (remove n bf) (S n) WDraining (Some (f' ++ write_blob hb)))
                                       | None => None
                                       end
                          | None => Some (Threads p q es w bf n WIdle f)
                          end
           | WFailed => None
           end
    | S (S e) => match nth_error es e with
                 | Some EIdle => match q with (i, b) :: q' => Some (Threads p q' (set_nth e (Encoding i b) es) w bf n ws f) | [] => None end
                 | Some (Encoding i b) => match fblock_serialize m c k (FData (Z.of_nat i) b) with
                                          | Ok hb => Some (Threads p q (set_nth e (Encoded i hb) es) w bf n ws f) | _ => None end
                 | Some (Encoded i hb) => if Nat.ltb (length w) queue_size then Some (Threads p q (set_nth e EIdle es) (w ++ [(i, hb)]) bf n ws f) else None
                 | _ => None
                 end
    end.
  Lemma try_t_sound a t t' : try_t a t = Some t' -> tstep m c k t t'.
  Proof.
    destruct t as [p q es w bf n ws f]. destruct a as [|[|e]]; cbn [try_t].
    - destruct p as [|b p]; [discriminate|]. destruct (Nat.ltb_spec (length q) queue_size); [|discriminate]. intros [= <-]. constructor; auto.
    - destruct ws; [destruct w as [|[i hb] w]; [discriminate|]; intros [= <-]; constructor| |discriminate].
      destruct (lookup n bf) eqn:L; [destruct f; [|discriminate]|]; intros [= <-]; constructor; auto.
    - destruct (nth_error es e) as [[|i b|i hb|]|] eqn:N; try discriminate.
      + destruct q as [|[i b] q]; [discriminate|]. intros [= <-]. constructor; auto.
      + destruct (fblock_serialize m c k (FData (Z.of_nat i) b)) eqn:S; try discriminate. intros [= <-]. eapply ts_encode; eauto.
      + destruct (Nat.ltb_spec (length w) queue_size); [|discriminate]. intros [= <-]. eapply ts_push; eauto.
  Qed.
  Fixpoint sched_t (l : list nat) (t : threads) (j : nat) : nat * threads :=
    match l with [] => (j, t) | a :: r => match try_t a t with Some t' => sched_t r t' (S j) | None => sched_t r t j end end.
  Lemma sched_t_sound l : forall t0 t j j' t', texec m c k t0 j t -> sched_t l t j = (j', t') -> texec m c k t0 j' t'.
  Proof.
    induction l as [|a l IH]; intros t0 t j j' t' X H; cbn in H; [injection H as <- <-; auto|].
    destruct (try_t a t) as [t1|] eqn:T; [|eauto]. eapply IH; [|exact H]. econstructor; eauto. apply try_t_sound with a. exact T.
  Qed.
  Lemma sched_t_exec {X} (obs : threads -> X) v l t0 : obs (snd (sched_t l t0 0)) = v -> exists j t, texec m c k t0 j t /\ obs t = v.
  Proof. destruct (sched_t l t0 0) as [j t] eqn:E. cbn. intros H. exists j, t. split; auto. eapply sched_t_sound; eauto. constructor. Qed.
End TSched.
Definition closedb (t : threads) : bool :=
  match t_pending t, t_encq t, t_wrq t, t_w t with [], [], [], WIdle => forallb (fun e => match e with EIdle => true | _ => false end) (t_encs t) | _, _, _, _ => false end.
Lemma closedb_spec t : closedb t = true -> closed t.
Proof.
  unfold closedb, closed. destruct (t_pending t), (t_encq t), (t_wrq t), (t_w t); try discriminate. intros H.
  split; [reflexivity|]. split; [reflexivity|]. split; [|auto]. rewrite forallb_forall in H. apply Forall_forall. intros e I. specialize (H e I). destruct e; congruence.
Qed.
Definition ex_header : bytes := match write_header Checked ex_codec (writer_new ex_info Zlib) with Ok w => wr_file w | _ => [] end.
(** C28, C52: two encoders finish in the reverse order; first a state with the second blob waiting
    while the file holds the header only, then the finished file *)
Example ex_out_of_order : exists j t, texec Checked ex_codec Zlib (threads_new ex_header 2 [(1, [nd 1; nd 2]); (2, [nd 3; nd 4]); (3, [wy 5; wy 6])]) j t /\
  t_file t = Some ex_header /\ map fst (t_buffer t) = [2].
Proof.
  destruct (sched_t_exec Checked ex_codec Zlib (fun t => (t_file t, map fst (t_buffer t))) (Some ex_header, [2])
    [0; 0; 0; 2; 3; 3; 3; 1] (threads_new ex_header 2 [(1, [nd 1; nd 2]); (2, [nd 3; nd 4]); (3, [wy 5; wy 6])])) as (j & t & X & E); [vm_compute; reflexivity|].
  exists j, t. split; auto. split; [exact (f_equal fst E)|exact (f_equal snd E)].
Qed.
Example ex_parallel_file : exists file, parallel_file Checked ex_codec Zlib ex_info 3 2 isort 2 ex_calls file /\ (zlen file > 300)%Z.
Proof.
  destruct (sched_t_exec Checked ex_codec Zlib (fun t => (closedb t, match t_file t with Some f => Z.ltb 300 (zlen f) | None => false end)) (true, true)
    ([0; 0; 0; 2; 3; 3; 3; 1] ++ round_robin 20 [1; 2; 3]) (threads_new ex_header 2 [(1, [nd 1; nd 2]); (2, [nd 3; nd 4]); (3, [wy 5; wy 6])])) as (j & t & X & E); [vm_compute; reflexivity|].
  destruct (t_file t) as [f|] eqn:F; [|discriminate (f_equal snd E)]. exists f. split; [|pose proof (f_equal snd E) as L; cbn in L; lia].
  exists [(1, [nd 1; nd 2]); (2, [nd 3; nd 4]); (3, [wy 5; wy 6])].
  assert (W : exists w, write_header Checked ex_codec (writer_new ex_info Zlib) = Ok w) by (rewrite write_header_spec; eauto).
  destruct W as (w & W). exists w, j, t. split; [exact ex_submitted|]. split; [exact W|]. split; [|split; [apply closedb_spec; exact (f_equal fst E)|exact F]].
  unfold ex_header in X. rewrite W in X. exact X.
Qed.
(** the size hypothesis of C51 *)
Fixpoint tuples {A} (n : nat) (l : list A) : list (list A) :=
  match n with O => [[]] | S n' => [] :: flat_map (fun x => map (cons x) (tuples n' l)) l end.
Lemma tuples_in {A} n (l : list A) : forall b, length b <= n -> Forall (fun x => In x l) b -> In b (tuples n l).
Proof.
  induction n as [|n IH]; intros b L F; destruct b as [|x b]; cbn in *; auto; [lia|]. right. inversion F; subst.
  apply in_flat_map. exists x. split; auto. apply in_map. apply IH; auto. lia.
Qed.
Lemma tuples_fit m c k K l : forallb (piece_small m c k) (tuples K l) = true -> choices_fit m c k K l.
Proof.
  intros H b rest P L. assert (I : In b (tuples K l)).
  { apply tuples_in; auto. apply Forall_forall. intros x Ix. eapply Permutation_in; [apply Permutation_sym; exact P|]. apply in_or_app. auto. }
  rewrite forallb_forall in H. specialize (H b I). unfold piece_small in H. rewrite serialize_data.
  destruct (osm_data_serialize m b) as [x| |]; [|split; intros; discriminate|split; intros; discriminate].
  apply andb_prop in H. destruct H as [H1 H2]. split.
  - intros data [= <-]. red. lia.
  - cbn [bind]. intros h body [= <- <-]. red. unfold data_frame in H2. cbn [snd frame_of] in H2. lia.
Qed.
Example ex_fits : choices_fit Checked ex_codec Zlib 2 (flat_map written ex_calls) /\ Forall element_ok (flat_map written ex_calls).
Proof.
  split; [apply tuples_fit; vm_compute; reflexivity|].
  assert (N : forall i, (Z.abs i < 100)%Z -> element_ok (nd i)).
  { intros i H. cbn. split; [split; cbn; unfold I64, I32; repeat split; try lia; constructor|]. split; apply ex_deg; lia. }
  assert (W : forall i, (Z.abs i < 100)%Z -> element_ok (wy i)).
  { intros i H. cbn. split; cbn; unfold I64, I32; repeat split; try lia; repeat constructor; lia. }
  repeat (apply Forall_cons; [first [apply N; lia|apply W; lia]|]). apply Forall_nil.
Qed.
(** C31: the hypothesis of the refutation *)
Example ex_unflushed : do_calls 5 0 isort ord_new [WriteElement (nd 1)] = Ok (Ord [nd 1] None 1 []).
Proof. reflexivity. Qed.
