(** Lemmas about the ordering thread of the parallel writer. *)
From Coq Require Import ZArith List Bool Strings.Byte Strings.String Lia Sorted Permutation.
From Verif Require Import Base BaseFacts Types ModelSpec ModelFacts FileFormat Pool ParallelWriteSpec ParallelWrite.
Import ListNotations.
Open Scope nat_scope.
Local Notation length := List.length.
Local Notation concat := List.concat.

Lemma not_after_refl a : not_after a a. Proof. apply precedes_irrefl. Qed.
Lemma not_after_trans a b c : not_after a b -> not_after b c -> not_after a c.
Proof. unfold not_after, precedes. lia. Qed.
Lemma precedes_not_after a b c : precedes a b -> not_after b c -> precedes a c.
Proof. unfold not_after, precedes. lia. Qed.
Lemma same_type_rank a b : same_type a b = true <-> type_rank a = type_rank b.
Proof. destruct a, b; cbn; split; intros; auto; try discriminate; lia. Qed.

Definition in_order_app l1 l2 : in_order (l1 ++ l2) <-> in_order l1 /\ in_order l2 /\ forall a b, In a l1 -> In b l2 -> not_after a b.
Proof.
  unfold in_order. induction l1 as [|x l1 IH]; cbn.
  - split; [intros H; split; [constructor|split; [auto|intros ? ? []]]|tauto].
  - split.
    + intros H. apply StronglySorted_inv in H. destruct H as [H F]. apply IH in H. destruct H as (A & B & C). rewrite Forall_app in F. destruct F as [F1 F2].
      split; [constructor; auto|]. split; auto. intros a b [<-|I] J; [rewrite Forall_forall in F2; auto|auto].
    + intros (A & B & C). apply StronglySorted_inv in A. destruct A as [A F]. constructor; [apply IH; split; auto; split; auto|].
      apply Forall_app. split; auto. apply Forall_forall. intros b J. apply C; auto.
Qed.

(** *** split_file_block *)
Lemma split_loop_spec k : forall es buf blk rest, split_loop k es buf = (blk, rest) ->
  one_type es -> (exists taken, blk = es ++ taken /\ buf = taken ++ rest /\ length taken <= k) /\ one_type blk.
Proof.
  induction k as [|k IH]; intros es buf blk rest H O; cbn in H.
  - injection H as <- <-. split; auto. exists []. rewrite app_nil_r. auto.
  - destruct buf as [|e r].
    + injection H as <- <-. split; auto. exists []. rewrite app_nil_r. split; auto. split; auto. cbn. lia.
    + destruct es as [|e0 es].
      * destruct (IH _ _ _ _ H) as ((tk & -> & -> & L) & O'); [intros a b [<-|[]] [<-|[]]; auto|].
        split; auto. exists (e :: tk). cbn. split; auto. split; auto. lia.
      * destruct (same_type e e0) eqn:S.
        -- destruct (IH _ _ _ _ H) as ((tk & -> & -> & L) & O').
           { apply same_type_rank in S. assert (X : forall a, In a ((e0 :: es) ++ [e]) -> type_rank a = type_rank e0).
             { intros a I. apply in_app_or in I. destruct I as [I|[<-|[]]]; auto. apply O; auto. left; auto. }
             intros a b I J. rewrite (X a I), (X b J). reflexivity. }
           split; auto. exists (e :: tk). rewrite <- app_assoc. cbn. split; auto. split; auto. lia.
        -- injection H as <- <-. split; auto. exists []. rewrite app_nil_r. split; auto. split; auto. cbn. lia.
Qed.
Lemma split_spec K buf blk rest : split_file_block K buf = (blk, rest) ->
  buf = blk ++ rest /\ length blk <= K /\ one_type blk /\ (0 < K -> buf <> [] -> blk <> []).
Proof.
  unfold split_file_block. intros H. destruct (split_loop_spec _ _ _ _ _ H) as ((tk & -> & -> & L) & O); [intros ? ? []|].
  cbn [app]. split; auto. split; auto. split; auto. intros HK NE. destruct K; [lia|]. cbn in H.
  destruct (tk ++ rest) as [|e r] eqn:E; [congruence|]. destruct (split_loop_spec _ _ _ _ _ H) as ((t2 & -> & _) & _); [intros a b [<-|[]] [<-|[]]; auto|]. discriminate.
Qed.

Section Facts.
  Variable B K : nat.
  Variable sort : list element -> list element.
  Hypothesis Sort : sort_ok sort.
  Notation push := (push).
  Notation flush_block := (flush_block K).
  Notation do_calls := (do_calls B K sort).
  Notation do_call := (do_call B K sort).

  Definition out_elements (st : ord) : list element := concat (map snd (o_out st)).

  (** ** what every run preserves *)
  Record basic (inp : list element) (st : ord) : Prop := {
    b_perm : Permutation inp (out_elements st ++ o_buf st);
    b_blocks : Forall (fun b => length (snd b) <= K /\ one_type (snd b)) (o_out st);
    b_nonempty : 0 < K -> Forall (fun b => snd b <> []) (o_out st);
    b_index : map fst (o_out st) = seq 1 (length (o_out st)) /\ o_index st = S (length (o_out st)) }.
  Lemma basic_new : basic [] ord_new.
  Proof. constructor; cbn; auto. Qed.
  Lemma basic_flush inp st : basic inp st -> (0 < K -> o_buf st <> []) -> basic inp (flush_block st).
  Proof.
    intros [P Bl NE [I1 I2]] H. unfold ParallelWrite.flush_block. destruct (split_file_block K (o_buf st)) as [blk rest] eqn:S.
    destruct (split_spec _ _ _ _ S) as (E & L & O & N). constructor; unfold out_elements in *; cbn.
    - rewrite map_app, concat_app. cbn. rewrite app_nil_r, <- app_assoc, <- E. exact P.
    - apply Forall_app. split; auto.
    - intros HK. apply Forall_app. split; auto.
    - rewrite map_app, app_length, seq_app, I1, I2. cbn. split; [reflexivity|lia].
  Qed.
  Lemma basic_sort inp st : basic inp st -> basic inp (sort_buffer sort st).
  Proof. intros [P Bl NE I]. constructor; auto. cbn. rewrite P. apply Permutation_app_head. apply Sort. Qed.
  Lemma sort_nonempty l : l <> [] -> sort l <> [].
  Proof. intros H E. apply H. destruct (Sort l) as [P _]. rewrite E in P. apply Permutation_sym, Permutation_nil in P. exact P. Qed.
  Lemma basic_push inp st e st' : basic inp st -> push st e = Ok st' -> basic (inp ++ [e]) st'.
  Proof.
    unfold ParallelWrite.push. intros [P Bl NE I] H. destruct (assert_order st e); [|discriminate]. injection H as <-.
    constructor; auto. unfold out_elements in *. cbn. rewrite P, <- app_assoc. reflexivity.
  Qed.
  Lemma basic_push_all es : forall inp st st', basic inp st -> push_all st es = Ok st' -> basic (inp ++ es) st'.
  Proof.
    induction es as [|e es IH]; intros inp st st' Bs H; cbn in H.
    - injection H as <-. rewrite app_nil_r. auto.
    - destruct (push st e) as [s1| |] eqn:P; try discriminate. cbn in H. replace (inp ++ e :: es) with ((inp ++ [e]) ++ es) by (rewrite <- app_assoc; reflexivity).
      eapply IH; [eapply basic_push; eauto|exact H].
  Qed.
  Lemma basic_full inp st : basic inp st -> basic inp (flush_if_full B K sort st).
  Proof.
    intros H. unfold flush_if_full. destruct (Nat.ltb_spec B (length (o_buf st))); auto.
    unfold flush_sorted_top. apply basic_flush; [apply basic_sort; auto|]. intros _. cbn. apply sort_nonempty. destruct (o_buf st); [cbn in *; lia|discriminate].
  Qed.
  Lemma basic_call inp st c st' : basic inp st -> do_call st c = Ok st' -> basic (inp ++ written c) st'.
  Proof.
    intros Bs H. destruct c as [e|es]; cbn in *; unfold add_element, add_elements in H.
    - destruct (push st e) as [s1| |] eqn:P; try discriminate. cbn in H. injection H as <-. apply basic_full. eapply basic_push; eauto.
    - destruct (push_all st es) as [s1| |] eqn:P; try discriminate. cbn in H. injection H as <-. apply basic_full. eapply basic_push_all; eauto.
  Qed.
  Lemma basic_calls cs : forall inp st st', basic inp st -> do_calls st cs = Ok st' -> basic (inp ++ flat_map written cs) st'.
  Proof.
    induction cs as [|c cs IH]; intros inp st st' Bs H; cbn in H.
    - injection H as <-. cbn. rewrite app_nil_r. auto.
    - destruct (do_call st c) as [s1| |] eqn:P; try discriminate. cbn in H. cbn [flat_map]. rewrite app_assoc. eapply IH; [eapply basic_call; eauto|exact H].
  Qed.
  Lemma basic_loop inp st st' : flush_loop K st st' -> basic inp st -> basic inp st' /\ o_buf st' = [].
  Proof. induction 1 as [st E|st st' NE L IH]; intros Bs; [auto|]. apply IH, basic_flush; auto. Qed.

  Lemma blocks_basic cs blocks : blocks_submitted B K sort cs blocks ->
    Permutation (flat_map written cs) (concat (map snd blocks)) /\
    Forall (fun b => length (snd b) <= K /\ one_type (snd b)) blocks /\
    (0 < K -> Forall (fun b => snd b <> []) blocks) /\ map fst blocks = seq 1 (length blocks).
  Proof.
    intros (st & st' & H & L & ->). pose proof (basic_calls cs [] _ _ basic_new H) as Bs. cbn [app] in Bs. apply basic_sort in Bs.
    destruct (basic_loop _ _ _ L Bs) as [[P Bl NE [I _]] E]. rewrite E, app_nil_r in P. auto.
  Qed.

  (** ** termination of close *)
  Lemma flush_block_length st : 0 < K -> o_buf st <> [] -> length (o_buf (flush_block st)) < length (o_buf st).
  Proof.
    intros HK NE. unfold ParallelWrite.flush_block. destruct (split_file_block K (o_buf st)) as [blk rest] eqn:S.
    destruct (split_spec _ _ _ _ S) as (E & _ & _ & N). cbn. rewrite E, app_length. specialize (N HK NE). destruct blk; [congruence|cbn; lia].
  Qed.
  Lemma loop_terminates : 0 < K -> forall st, exists st', flush_loop K st st'.
  Proof.
    intros HK st. remember (length (o_buf st)) as n eqn:En. revert st En. induction n as [n IH] using lt_wf_ind. intros st En.
    destruct (o_buf st) as [|e r] eqn:Eb; [exists st; constructor; auto|].
    destruct (IH (length (o_buf (flush_block st)))) with (st := flush_block st) as (st' & L); auto.
    { subst n. rewrite <- Eb. apply flush_block_length; auto. rewrite Eb. discriminate. }
    exists st'. econstructor 2; eauto. rewrite Eb. discriminate.
  Qed.
  Lemma loop_det st st1 : flush_loop K st st1 -> forall st2, flush_loop K st st2 -> st1 = st2.
  Proof. induction 1 as [st E|st st' NE L IH]; intros st2 H; inversion H; subst; auto; congruence. Qed.

  (** ** order *)
  Lemma loop_out st st' : flush_loop K st st' -> out_elements st' = out_elements st ++ o_buf st.
  Proof.
    induction 1 as [st E|st st' NE L IH]; [rewrite E, app_nil_r; auto|]. rewrite IH. unfold ParallelWrite.flush_block.
    destruct (split_file_block K (o_buf st)) as [blk rest] eqn:S. destruct (split_spec _ _ _ _ S) as (E & _). unfold out_elements. cbn.
    rewrite map_app, concat_app. cbn. rewrite app_nil_r, <- app_assoc, <- E. reflexivity.
  Qed.
  Record ordered (inp : list element) (st : ord) : Prop := {
    r_perm : Permutation inp (out_elements st ++ o_buf st);
    r_sorted : in_order (out_elements st);
    r_below : forall a b, In a (out_elements st) -> In b (o_buf st) -> not_after a b;
    r_big : forall y, In y (out_elements st) -> exists big rest, Permutation inp (big ++ rest) /\ Forall (not_after y) big /\ B + 1 - K < length big;
    r_min : forall f, o_min st = Some f -> In f (out_elements st) }.
  Lemma ordered_new : ordered [] ord_new.
  Proof. constructor; cbn; auto; try (intros; contradiction); try discriminate. constructor. Qed.
  Lemma ordered_flush inp st : ordered inp st -> B < length (o_buf st) -> Forall not_sentinel (o_buf st) ->
    ordered inp (flush_sorted_top K sort st).
  Proof.
    intros [P So Be Bi Mi] L NS. unfold flush_sorted_top, ParallelWrite.flush_block. cbn [sort_buffer o_buf o_min o_index o_out].
    destruct (Sort (o_buf st)) as [PS SO]. specialize (SO NS).
    destruct (split_file_block K (sort (o_buf st))) as [blk rest] eqn:S. destruct (split_spec _ _ _ _ S) as (E & LK & O & N).
    rewrite E in SO. apply in_order_app in SO. destruct SO as (S1 & S2 & S3).
    assert (OE : out_elements (Ord rest (set_min (o_min st) blk) (Datatypes.S (o_index st)) (o_out st ++ [(o_index st, blk)])) = out_elements st ++ blk).
    { unfold out_elements. cbn. rewrite map_app, concat_app. cbn. rewrite app_nil_r. reflexivity. }
    assert (InB : forall b, In b (blk ++ rest) -> In b (o_buf st)) by (intros b I; rewrite <- E in I; eapply Permutation_in; [apply Permutation_sym; exact PS|exact I]).
    constructor; rewrite ?OE; cbn [o_buf o_min].
    - rewrite P, PS, E, app_assoc. reflexivity.
    - apply in_order_app. split; auto. split; auto. intros a b I J. apply Be; auto. apply InB, in_or_app. auto.
    - intros a b I J. apply in_app_or in I. destruct I as [I|I]; [apply Be; auto; apply InB, in_or_app; auto|apply S3; auto].
    - intros y I. apply in_app_or in I. destruct I as [I|I]; [apply Bi; auto|].
      apply in_split in I. destruct I as (b1 & b2 & Eb). exists (y :: rest), (out_elements st ++ b1 ++ b2). split; [|split].
      + rewrite P, PS, E, Eb. etransitivity; [apply Permutation_app_comm|]. cbn [app].
        transitivity (y :: b1 ++ b2 ++ rest ++ out_elements st).
        { rewrite <- !app_assoc. cbn. apply Permutation_sym, Permutation_middle. }
        constructor. rewrite app_assoc. rewrite (Permutation_app_comm (b1 ++ b2)). rewrite <- !app_assoc. reflexivity.
      + constructor; [apply not_after_refl|]. apply Forall_forall. intros b J. apply S3; auto. rewrite Eb. apply in_or_app. right; left; auto.
      + cbn. apply Permutation_length in PS. rewrite E, app_length in PS. lia.
    - intros f H. destruct blk as [|e blk]; cbn in H; [rewrite app_nil_r; auto|]. injection H as <-. apply in_or_app. right; left; auto.
  Qed.
  Lemma in_out_input inp st : Permutation inp (out_elements st ++ o_buf st) -> Forall not_sentinel inp -> Forall not_sentinel (out_elements st) /\ Forall not_sentinel (o_buf st).
  Proof. intros P F. apply Forall_app. eapply Permutation_Forall; eauto. Qed.
  Lemma ordered_push inp st x after : ordered inp st -> displaced_at_most (B + 1 - K) (inp ++ x :: after) ->
    Forall not_sentinel (inp ++ x :: after) -> exists st', push st x = Ok st' /\ ordered (inp ++ [x]) st'.
  Proof.
    intros [P So Be Bi Mi] D NS.
    assert (NP : forall y, In y (out_elements st) -> not_after y x).
    { intros y I H. destruct (Bi y I) as (big & rest & P1 & F & L). assert (L2 : length big <= B + 1 - K); [|lia].
      eapply (D inp x after big rest); eauto. eapply Forall_impl; [|exact F]. cbn. intros b Hb. eapply precedes_not_after; eauto. }
    apply Forall_app in NS. destruct NS as [N1 N2]. inversion N2 as [|? ? Nx _]; subst. destruct (in_out_input _ _ P N1) as [NO NB].
    unfold ParallelWrite.push. assert (A : assert_order st x = true).
    { unfold assert_order. destruct x; try reflexivity; cbn [is_sentinel orb]; (destruct (o_min st) as [f|] eqn:M; [|reflexivity]);
      specialize (Mi f eq_refl); rewrite Forall_forall in NO; pose proof (NO f Mi) as Nf; specialize (NP f Mi);
      match goal with |- match element_cmp ?a f with _ => _ end = _ => destruct (element_cmp a f) eqn:C; auto; destruct (NP (proj1 (cmp_lt_iff a f Nx Nf) C)) end. }
    rewrite A. eexists. split; [reflexivity|]. constructor; unfold out_elements in *; cbn [o_buf o_min o_out]; auto.
    - rewrite P, <- app_assoc. reflexivity.
    - intros a b I J. apply in_app_or in J. destruct J as [J|[<-|[]]]; auto.
    - intros y I. destruct (Bi y I) as (big & rest & P1 & F & L). exists big, (rest ++ [x]). split; auto. rewrite P1, <- app_assoc. reflexivity.
  Qed.
  Lemma ordered_push_all es : forall inp st after, ordered inp st -> displaced_at_most (B + 1 - K) (inp ++ es ++ after) ->
    Forall not_sentinel (inp ++ es ++ after) -> exists st', push_all st es = Ok st' /\ ordered (inp ++ es) st'.
  Proof.
    induction es as [|e es IH]; intros inp st after O D NS; cbn [push_all].
    - exists st. rewrite app_nil_r. auto.
    - destruct (ordered_push inp st e (es ++ after) O D NS) as (s1 & -> & O1). cbn [bind].
      replace (inp ++ e :: es) with ((inp ++ [e]) ++ es) by (rewrite <- app_assoc; reflexivity). apply (IH _ _ after O1);
      rewrite <- app_assoc; auto.
  Qed.
  Lemma ordered_full inp st : ordered inp st -> Forall not_sentinel inp -> ordered inp (flush_if_full B K sort st).
  Proof.
    intros O NS. unfold flush_if_full. destruct (Nat.ltb_spec B (length (o_buf st))); auto. apply ordered_flush; auto.
    destruct O as [P _ _ _ _]. apply (in_out_input _ _ P NS).
  Qed.
  Lemma ordered_call inp st c after : ordered inp st -> displaced_at_most (B + 1 - K) (inp ++ written c ++ after) ->
    Forall not_sentinel (inp ++ written c ++ after) -> exists st', do_call st c = Ok st' /\ ordered (inp ++ written c) st'.
  Proof.
    intros O D NS. assert (N2 : Forall not_sentinel (inp ++ written c)) by (rewrite app_assoc in NS; apply Forall_app in NS; tauto).
    destruct c as [e|es]; cbn [do_call written app] in *; unfold add_element, add_elements.
    - destruct (ordered_push inp st e after O D NS) as (s1 & -> & O1). cbn [bind]. eexists. split; [reflexivity|]. apply ordered_full; auto.
    - destruct (ordered_push_all es inp st after O D NS) as (s1 & -> & O1). cbn [bind]. eexists. split; [reflexivity|]. apply ordered_full; auto.
  Qed.
  Lemma ordered_calls cs : forall inp st, ordered inp st -> displaced_at_most (B + 1 - K) (inp ++ flat_map written cs) ->
    Forall not_sentinel (inp ++ flat_map written cs) -> exists st', do_calls st cs = Ok st' /\ ordered (inp ++ flat_map written cs) st'.
  Proof.
    induction cs as [|c cs IH]; intros inp st O D NS; cbn [do_calls ParallelWrite.do_calls flat_map] in *.
    - exists st. rewrite app_nil_r. auto.
    - destruct (ordered_call inp st c _ O D NS) as (s1 & -> & O1). cbn [bind]. rewrite app_assoc in *. apply IH; auto.
  Qed.

  (** ** what is guaranteed without any assumption on the order of the input *)
  Definition bounds (e : element) (b : nat * list element) : Prop := match snd b with [] => True | f :: _ => not_after f e end.
  Inductive layered : list (nat * list element) -> Prop :=
  | ly_nil : layered []
  | ly_snoc bs b : layered bs -> in_order (snd b) -> Forall (fun e => Forall (bounds e) bs) (snd b) -> layered (bs ++ [b]).
  Record safe (st : ord) : Prop := {
    s_layer : layered (o_out st);
    s_buf : Forall (fun e => Forall (bounds e) (o_out st)) (o_buf st);
    s_min : forall b f r, In b (o_out st) -> snd b = f :: r -> exists g, o_min st = Some g /\ not_after f g;
    s_ns : Forall not_sentinel (o_buf st) /\ forall g, o_min st = Some g -> not_sentinel g }.
  Lemma safe_new : safe ord_new.
  Proof. constructor; cbn; [constructor|constructor|intros; contradiction|split; [constructor|discriminate]]. Qed.
  Lemma safe_push st e st' : safe st -> push st e = Ok st' -> not_sentinel e -> safe st'.
  Proof.
    intros [L Bf Mi [N1 N2]] H NS. unfold ParallelWrite.push in H. destruct (assert_order st e) eqn:A; [|discriminate]. injection H as <-.
    constructor; cbn; auto.
    - apply Forall_app. split; auto. constructor; auto. apply Forall_forall. intros b I. unfold bounds. destruct (snd b) as [|f r] eqn:E; auto.
      destruct (Mi _ _ _ I E) as (g & M & NA). unfold assert_order in A. rewrite M in A.
      apply not_after_trans with g; auto. intros X. apply cmp_lt_iff in X; auto. rewrite X in A. destruct e; try discriminate. apply NS; auto.
    - split; auto. apply Forall_app. split; auto.
  Qed.
  Lemma safe_block st : safe st -> in_order (o_buf st) -> safe (flush_block st) /\ in_order (o_buf (flush_block st)).
  Proof.
    intros [L Bf Mi [N1 N2]] SO. unfold ParallelWrite.flush_block.
    destruct (split_file_block K (o_buf st)) as [blk rest] eqn:S. destruct (split_spec _ _ _ _ S) as (E & LK & O & N).
    rewrite E in SO, Bf, N1. apply in_order_app in SO. destruct SO as (S1 & S2 & S3). apply Forall_app in Bf. destruct Bf as [B1 B2].
    apply Forall_app in N1. destruct N1 as [N11 N12].
    cbn [o_buf]. split; auto. constructor; cbn [o_out o_buf o_min].
    - constructor; auto.
    - rewrite Forall_forall in *. intros e I. apply Forall_app. split; auto. constructor; auto. unfold bounds. cbn. destruct blk; auto. apply S3; auto. left; auto.
    - intros b f r I Eb. apply in_app_or in I. destruct I as [I|[<-|[]]].
      + destruct (Mi _ _ _ I Eb) as (g & M & NA). destruct blk as [|e blk]; cbn; [eauto|]. exists e. split; auto.
        rewrite Forall_forall in B1. specialize (B1 e (or_introl eq_refl)). rewrite Forall_forall in B1. specialize (B1 b I). unfold bounds in B1. rewrite Eb in B1. exact B1.
      + cbn in Eb. subst blk. cbn. exists f. split; auto. apply not_after_refl.
    - split; auto. destruct blk as [|e blk]; cbn; auto. intros g [= <-]. inversion N11; auto.
  Qed.
  Lemma safe_sort st : safe st -> safe (sort_buffer sort st) /\ in_order (o_buf (sort_buffer sort st)).
  Proof.
    intros [L Bf Mi [N1 N2]]. destruct (Sort (o_buf st)) as [P SO]. split; [|cbn; auto]. constructor; cbn; auto.
    - eapply Permutation_Forall; eauto.
    - split; auto. eapply Permutation_Forall; eauto.
  Qed.
  Lemma safe_full st : safe st -> safe (flush_if_full B K sort st).
  Proof.
    intros H. unfold flush_if_full. destruct (Nat.ltb B (length (o_buf st))); auto. unfold flush_sorted_top.
    destruct (safe_sort st H). apply safe_block; auto.
  Qed.
  Lemma safe_push_all es : forall st st', safe st -> push_all st es = Ok st' -> Forall not_sentinel es -> safe st'.
  Proof.
    induction es as [|e es IH]; intros st st' Sf H NS; cbn in H; [injection H as <-; auto|]. inversion NS; subst.
    destruct (push st e) as [s1| |] eqn:P; try discriminate. cbn in H. eapply IH; [|exact H|assumption]. eapply safe_push; eauto.
  Qed.
  Lemma safe_calls cs : forall st st', safe st -> do_calls st cs = Ok st' -> Forall not_sentinel (flat_map written cs) -> safe st'.
  Proof.
    induction cs as [|c cs IH]; intros st st' Sf H NS; cbn in H; [injection H as <-; auto|]. cbn in NS. apply Forall_app in NS. destruct NS as [N1 N2].
    destruct (do_call st c) as [s1| |] eqn:P; try discriminate. cbn in H. eapply IH; [|exact H|assumption]. destruct c as [e|es]; cbn in *; unfold add_element, add_elements in P.
    - destruct (push st e) as [s2| |] eqn:P2; try discriminate. cbn in P. injection P as <-. apply safe_full. eapply safe_push; eauto. inversion N1; auto.
    - destruct (push_all st es) as [s2| |] eqn:P2; try discriminate. cbn in P. injection P as <-. apply safe_full. eapply safe_push_all; eauto.
  Qed.
  Lemma safe_loop st st' : flush_loop K st st' -> safe st -> in_order (o_buf st) -> safe st'.
  Proof. induction 1 as [st E|st st' NE L IH]; intros Sf SO; auto. destruct (safe_block st Sf SO). auto. Qed.
  Lemma layered_spec bs : layered bs -> Forall (fun b => in_order (snd b)) bs /\
    forall l1 b1 l2 b2 l3 f r e, bs = l1 ++ b1 :: l2 ++ b2 :: l3 -> snd b1 = f :: r -> In e (snd b2) -> not_after f e.
  Proof.
    induction 1 as [|bs b L [IH1 IH2] SO Bn].
    - split; auto. intros l1 b1 l2 b2 l3 f r e E. destruct l1; discriminate.
    - split; [apply Forall_app; auto|]. intros l1 b1 l2 b2 l3 f r e E E1 I.
      destruct l3 as [|x l3 _] using rev_ind.
      + replace (l1 ++ b1 :: l2 ++ [b2]) with ((l1 ++ b1 :: l2) ++ [b2]) in E by (rewrite <- app_assoc; reflexivity). apply app_inj_tail in E. destruct E as [-> ->].
        rewrite Forall_forall in Bn. specialize (Bn e I). rewrite Forall_forall in Bn. specialize (Bn b1 ltac:(apply in_or_app; right; left; auto)).
        unfold bounds in Bn. rewrite E1 in Bn. exact Bn.
      + replace (l1 ++ b1 :: l2 ++ b2 :: l3 ++ [x]) with ((l1 ++ b1 :: l2 ++ b2 :: l3) ++ [x]) in E by (rewrite <- !app_assoc; cbn; rewrite <- !app_assoc; reflexivity).
        apply app_inj_tail in E. destruct E as [-> ->]. eapply IH2; eauto.
  Qed.
End Facts.
