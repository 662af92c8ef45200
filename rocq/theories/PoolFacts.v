(** Invariants, deadlock freedom and termination of the thread pool. *)
From Coq Require Import ZArith List Bool Lia Permutation.
From Verif Require Import Base FileFormat Pool ParallelSpec.
Import ListNotations.
Open Scope nat_scope.

Lemma set_nth_length {X} i (x : X) l : length (set_nth i x l) = length l.
Proof. revert i. induction l; intros [|i]; cbn; auto. Qed.
Lemma set_nth_same {X} i (x y : X) l : nth_error l i = Some y -> nth_error (set_nth i x l) i = Some x.
Proof. revert i. induction l; intros [|i]; cbn; auto; discriminate. Qed.
Lemma set_nth_other {X} i j (x : X) l : i <> j -> nth_error (set_nth i x l) j = nth_error l j.
Proof. revert i j. induction l; intros [|i] [|j] H; cbn; auto; congruence. Qed.
Lemma set_nth_forall {X} (P : X -> Prop) i x l : P x -> Forall P l -> Forall P (set_nth i x l).
Proof. intros Px H. revert i. induction H; intros [|i]; cbn; auto. Qed.
Lemma set_nth_split {X} i (x y : X) l : nth_error l i = Some y -> exists a b, l = a ++ y :: b /\ set_nth i x l = a ++ x :: b /\ length a = i.
Proof.
  revert i. induction l as [|z l IH]; intros [|i] H; cbn in *; try discriminate.
  - injection H as ->. exists [], l. auto.
  - destruct (IH _ H) as (a & b & E & F & L). exists (z :: a), b. cbn. rewrite F, E, L. auto.
Qed.

Lemma by_worker_app {X} w (a b : list (nat * X)) : by_worker w (a ++ b) = by_worker w a ++ by_worker w b.
Proof. unfold by_worker. rewrite filter_app, map_app. reflexivity. Qed.
Lemma share_snoc {X} w owners (plans : list (list X)) o l : length owners = length plans ->
  share w (owners ++ [o]) (plans ++ [l]) = share w owners plans ++ (if Nat.eqb o w then l else []).
Proof.
  intros L. unfold share. assert (E : combine (owners ++ [o]) (plans ++ [l]) = combine owners plans ++ [(o, l)]).
  { revert plans L. induction owners; intros [|p plans] L; try discriminate; cbn; auto. f_equal. apply IHowners. cbn in L. lia. }
  rewrite E, filter_app, map_app, concat_app. cbn. destruct (Nat.eqb o w); cbn; rewrite ?app_nil_r; reflexivity.
Qed.

Section Facts.
  Context {It J A S : Type}.
  Variable next : It -> res (option J * It).
  Variable plan : J -> option (list A).
  Variable act : nat -> A -> S -> option S.
  Variable cap : nat.
  Notation pool := (@pool It J A S).
  Notation step := (@step It J A S next plan act cap).
  Notation exec := (@exec It J A S next plan act cap).

  (** the iterator has yielded [l] and is in state [it'] *)
  Inductive yields : It -> list J -> It -> Prop :=
  | y_nil it : yields it [] it
  | y_snoc it l it' j it'' : yields it l it' -> next it' = Ok (Some j, it'') -> yields it (l ++ [j]) it''.
  Lemma yields_run it l it' : yields it l it' -> forall l' o, run next it' l' o -> run next it (l ++ l') o.
  Proof.
    induction 1 as [|it l it' j it'' Y IH N]; intros l' o R; cbn; auto.
    rewrite <- app_assoc. apply IH. cbn. econstructor; eauto.
  Qed.

  Definition submitted (it0 : It) (mn : @submitter It) (js : list J) : Prop :=
    match mn with
    | Submitting it => yields it0 js it
    | ShutDown => run next it0 js Ended
    | Dead => False
    end.
  Definition rest (w : @worker A) : list A := match w with Busy l => l | _ => [] end.

  (** the actions performed so far, with their effect on the shared state *)
  Fixpoint effects (tr : list (nat * A)) (s : S) : option S :=
    match tr with
    | [] => Some s
    | (w, a) :: r => match act w a s with Some s' => effects r s' | None => None end
    end.
  Lemma effects_app a b s : effects (a ++ b) s = match effects a s with Some s' => effects b s' | None => None end.
  Proof. revert s. induction a as [|[w x] a IH]; intros s; cbn; auto. destruct (act w x s); auto. Qed.

  Inductive inv (it0 : It) (n : nat) (s0 : S) (tr : list (nat * A)) (p : pool) : Prop :=
  | inv_intro (jobs : list J) (owners : list nat) (plans : list (list A))
    (i_sub : submitted it0 (p_main p) (jobs ++ p_queue p))
    (i_len : length owners = length jobs)
    (i_plan : map plan jobs = map Some plans)
    (i_own : Forall (fun w => (w < n)%nat) owners)
    (i_n : length (p_workers p) = n)
    (i_share : forall w ws, nth_error (p_workers p) w = Some ws -> by_worker w tr ++ rest ws = share w owners plans)
    (i_tr : Forall (fun x => (fst x < n)%nat) tr)
    (i_eff : effects tr s0 = Some (p_shared p)).

  Lemma failed_stable p o p' : step p o p' -> ~ no_failure p -> ~ no_failure p'.
  Proof.
    intros H F G. apply F. destruct G as [G1 G2].
    destruct H; unfold no_failure in *; cbn [p_main p_workers] in *; (split; [try assumption; discriminate|]); auto;
    match goal with
    | E : nth_error ?ws ?w = Some ?y |- _ => destruct (set_nth_split w Failed y ws E) as (a' & b' & E1 & _ & E3);
       apply Forall_forall; intros z Z; 
       try (match type of G2 with Forall _ (set_nth _ ?x _) => destruct (set_nth_split w x y ws E) as (a2 & b2 & E4 & E5 & E6);
         rewrite E5 in G2; rewrite E4 in Z; apply in_app_or in Z; rewrite Forall_forall in G2;
         destruct Z as [Z|[Z|Z]]; [apply G2, in_or_app; auto|subst z; discriminate|apply G2, in_or_app; right; right; auto] end)
    end.
  Qed.

  Lemma inv_init it0 n s0 : inv it0 n s0 [] (pool_new it0 n s0).
  Proof.
    exists [] [] []; cbn; auto.
    - constructor.
    - apply repeat_length.
    - intros w ws H. apply nth_error_In, repeat_spec in H. subst. reflexivity.
  Qed.

  Lemma nth_lt {X} (l : list X) i x : nth_error l i = Some x -> (i < length l)%nat.
  Proof. intros H. apply nth_error_Some. congruence. Qed.

  Lemma by_worker_one w w' (a : A) : by_worker w [(w', a)] = if Nat.eqb w' w then [a] else [].
  Proof. unfold by_worker. cbn. destruct (Nat.eqb w' w); reflexivity. Qed.

  Lemma inv_step it0 n s0 tr p o p' : inv it0 n s0 tr p -> step p o p' -> no_failure p' ->
    inv it0 n s0 (tr ++ match o with Some x => [x] | None => [] end) p'.
  Proof.
    intros I H NF. destruct I as [jobs owners plans Sub Len Pl Own N Sh Tr Eff].
    assert (PLen : length plans = length jobs) by (apply (f_equal (@length _)) in Pl; rewrite !map_length in Pl; auto).
    destruct H as [it j it' q ws s E C|it it' q ws s E|it q ws s E|mn j q w ws s l E P|mn j q w ws s E P|mn q w ws s a l s' E Ac|mn q w ws s a l E Ac|mn q w ws s E|w ws s E];
      cbn [p_main p_queue p_workers p_shared] in *; rewrite ?app_nil_r.
    - exists jobs owners plans; cbn [p_main p_queue p_workers p_shared]; auto. rewrite app_assoc. cbn. econstructor; eauto.
    - exists jobs owners plans; cbn [p_main p_queue p_workers p_shared]; auto. cbn. cbn in Sub.
      rewrite <- (app_nil_r (jobs ++ q)). eapply yields_run; eauto. econstructor; eauto.
    - destruct NF as [NF _]. destruct NF. reflexivity.
    - exists (jobs ++ [j]) (owners ++ [w]) (plans ++ [l]); cbn [p_main p_queue p_workers p_shared]; auto.
      + rewrite <- app_assoc. exact Sub.
      + rewrite !app_length, Len. reflexivity.
      + rewrite !map_app, Pl. cbn. rewrite P. reflexivity.
      + apply Forall_app. split; auto. constructor; auto. rewrite <- N. eapply nth_lt; eauto.
      + rewrite set_nth_length. auto.
      + intros v wv Hv. rewrite share_snoc by lia. destruct (Nat.eqb_spec w v) as [<-|NE].
        * rewrite (set_nth_same _ _ _ _ E) in Hv. injection Hv as <-. cbn. f_equal. rewrite <- (Sh w Idle E). cbn. rewrite app_nil_r. reflexivity.
        * rewrite set_nth_other in Hv by auto. rewrite app_nil_r. auto.
    - destruct NF as [_ NF]. rewrite Forall_forall in NF. exfalso. eapply (NF Failed); auto.
      eapply nth_error_In. apply set_nth_same with (1 := E).
    - exists jobs owners plans; cbn [p_main p_queue p_workers p_shared]; auto.
      + rewrite set_nth_length. auto.
      + intros v wv Hv. rewrite by_worker_app, by_worker_one. destruct (Nat.eqb_spec w v) as [<-|NE].
        * rewrite (set_nth_same _ _ _ _ E) in Hv. injection Hv as <-. cbn. rewrite <- (Sh w _ E). cbn. rewrite <- app_assoc. reflexivity.
        * rewrite set_nth_other in Hv by auto. rewrite app_nil_r. auto.
      + apply Forall_app. split; auto. constructor; auto. cbn. rewrite <- N. eapply nth_lt; eauto.
      + rewrite effects_app, Eff. cbn. rewrite Ac. reflexivity.
    - destruct NF as [_ NF]. rewrite Forall_forall in NF. exfalso. eapply (NF Failed); auto.
      eapply nth_error_In. apply set_nth_same with (1 := E).
    - exists jobs owners plans; cbn [p_main p_queue p_workers p_shared]; auto.
      + rewrite set_nth_length. auto.
      + intros v wv Hv. destruct (Nat.eq_dec w v) as [<-|NE].
        * rewrite (set_nth_same _ _ _ _ E) in Hv. injection Hv as <-. rewrite <- (Sh w _ E). reflexivity.
        * rewrite set_nth_other in Hv by auto. auto.
    - exists jobs owners plans; cbn [p_main p_queue p_workers p_shared]; auto.
      + rewrite set_nth_length. auto.
      + intros v wv Hv. destruct (Nat.eq_dec w v) as [<-|NE].
        * rewrite (set_nth_same _ _ _ _ E) in Hv. injection Hv as <-. rewrite <- (Sh w _ E). reflexivity.
        * rewrite set_nth_other in Hv by auto. auto.
  Qed.

  Lemma no_failure_dec (p : pool) : no_failure p \/ ~ no_failure p.
  Proof.
    destruct p as [mn q ws s]. unfold no_failure; cbn.
    assert (Dec : forall w : @worker A, {w <> Failed} + {~ w <> Failed}) by (intros [| | |]; [left|left|left|right]; try discriminate; auto).
    destruct (Forall_dec _ Dec ws) as [F|F]; [|right; tauto].
    destruct mn; [left|left|right]; try (split; [discriminate|assumption]). tauto.
  Qed.
  Lemma exec_no_failure p tr k p' : exec p tr k p' -> no_failure p' -> no_failure p.
  Proof.
    induction 1 as [|p tr k p1 o p2 E IH H]; auto. intros NF. apply IH.
    destruct (no_failure_dec p1) as [D|D]; auto. destruct (failed_stable _ _ _ H D NF).
  Qed.
  Lemma exec_inv it0 n s0 tr k p : exec (pool_new it0 n s0) tr k p -> no_failure p -> inv it0 n s0 tr p.
  Proof.
    remember (pool_new it0 n s0) as p0 eqn:E0. induction 1 as [|p tr k p1 o p2 E IH H]; intros NF; subst.
    - apply inv_init.
    - eapply inv_step; eauto. apply IH; auto. destruct (no_failure_dec p1) as [D|D]; auto. destruct (failed_stable _ _ _ H D NF).
  Qed.

  (** a finished pool has executed every job exactly once *)
  Lemma finished_spec it0 n s0 tr k p : exec (pool_new it0 n s0) tr k p -> finished p ->
    exists jobs plans owners, run next it0 jobs Ended /\ map plan jobs = map Some plans /\
      length owners = length plans /\ Forall (fun w => (w < n)%nat) owners /\ Forall (fun x => (fst x < n)%nat) tr /\
      (forall w, (w < n)%nat -> by_worker w tr = share w owners plans) /\
      effects tr s0 = Some (p_shared p).
  Proof.
    intros E (F1 & F2 & F3). destruct (exec_inv _ _ _ _ _ _ E) as [jobs owners plans Sub Len Pl Own N Sh Tr Eff].
    { split; [rewrite F1; discriminate|]. eapply Forall_impl; [|exact F3]. cbn. intros; subst; discriminate. }
    rewrite F1, F2, app_nil_r in Sub. exists jobs, plans, owners. split; [exact Sub|]. split; [exact Pl|].
    split; [apply (f_equal (@length _)) in Pl; rewrite !map_length in Pl; lia|]. split; [exact Own|]. split; [exact Tr|]. split; [|exact Eff].
    intros w Hw. destruct (nth_error (p_workers p) w) as [ws|] eqn:Ew; [|apply nth_error_None in Ew; lia].
    rewrite <- (Sh _ _ Ew). rewrite Forall_forall in F3. rewrite (F3 ws (nth_error_In _ _ Ew)). cbn. rewrite app_nil_r. reflexivity.
  Qed.

  (** every schedule of the workers gives a permutation of all the actions *)
  Lemma tr_permutation n (tr : list (nat * A)) : Forall (fun x => (fst x < n)%nat) tr ->
    Permutation (map snd tr) (concat (map (fun w => by_worker w tr) (seq 0 n))).
  Proof.
    induction tr as [|[w a] tr IH]; intros H.
    - cbn. assert (Z : concat (map (fun _ : nat => @nil A) (seq 0 n)) = []) by (induction (seq 0 n); auto).
      unfold by_worker. cbn. rewrite Z. constructor.
    - inversion H as [|? ? H1 H2]; subst. cbn [fst] in H1. cbn [map snd]. rewrite (IH H2).
      assert (X : forall l, In w l -> NoDup l ->
         Permutation (a :: concat (map (fun v => by_worker v tr) l)) (concat (map (fun v => by_worker v ((w, a) :: tr)) l))).
      { induction l as [|v l IHl]; intros I ND; [destruct I|]. inversion ND as [|? ? N1 N2]; subst. cbn [map concat].
        destruct (Nat.eq_dec v w) as [->|NE].
        - assert (B : by_worker w ((w, a) :: tr) = a :: by_worker w tr) by (unfold by_worker; cbn; rewrite Nat.eqb_refl; reflexivity).
          rewrite B. cbn. constructor. apply Permutation_app_head.
          assert (Y : map (fun v => by_worker v tr) l = map (fun v => by_worker v ((w, a) :: tr)) l).
          { apply map_ext_in. intros v Hv. unfold by_worker. cbn. destruct (Nat.eqb_spec w v); subst; [contradiction|reflexivity]. }
          rewrite Y. reflexivity.
        - assert (B : by_worker v ((w, a) :: tr) = by_worker v tr) by (unfold by_worker; cbn; destruct (Nat.eqb_spec w v); [congruence|reflexivity]).
          rewrite B. destruct I as [I|I]; [congruence|]. rewrite <- (IHl I N2). apply Permutation_middle. }
      apply X; [apply in_seq; lia|apply seq_NoDup].
  Qed.
  Lemma share_permutation n owners (plans : list (list A)) : length owners = length plans ->
    Forall (fun w => (w < n)%nat) owners ->
    Permutation (concat (map (fun w => share w owners plans) (seq 0 n))) (concat plans).
  Proof.
    revert plans. induction owners as [|o owners IH]; intros [|p plans] L H; try discriminate.
    - assert (Z : forall l, concat (map (fun w : nat => share w [] (@nil (list A))) l) = []) by (induction l; auto). rewrite Z. constructor.
    - inversion H as [|? ? H1 H2]; subst. cbn in L. injection L as L. cbn [concat]. rewrite <- (IH plans L H2).
      assert (X : forall l, In o l -> NoDup l ->
         Permutation (concat (map (fun v => share v (o :: owners) (p :: plans)) l)) (p ++ concat (map (fun v => share v owners plans) l))).
      { induction l as [|v l IHl]; intros I ND; [destruct I|]. inversion ND as [|? ? N1 N2]; subst. cbn [map concat].
        destruct (Nat.eq_dec v o) as [->|NE].
        - assert (B : share o (o :: owners) (p :: plans) = p ++ share o owners plans) by (unfold share; cbn; rewrite Nat.eqb_refl; reflexivity).
          rewrite B, <- app_assoc. do 2 apply Permutation_app_head.
          assert (Y : map (fun v => share v (o :: owners) (p :: plans)) l = map (fun v => share v owners plans) l).
          { apply map_ext_in. intros v Hv. unfold share. cbn. destruct (Nat.eqb_spec o v); subst; [contradiction|reflexivity]. }
          rewrite Y. reflexivity.
        - assert (B : share v (o :: owners) (p :: plans) = share v owners plans) by (unfold share; cbn; destruct (Nat.eqb_spec o v); [congruence|reflexivity]).
          rewrite B. destruct I as [I|I]; [congruence|]. rewrite (IHl I N2).
          rewrite !app_assoc. apply Permutation_app_tail. apply Permutation_app_comm. }
      apply X; [apply in_seq; lia|apply seq_NoDup].
  Qed.
  Lemma trace_is_all_actions n (tr : list (nat * A)) owners (plans : list (list A)) : length owners = length plans ->
    Forall (fun w => (w < n)%nat) owners -> Forall (fun x => (fst x < n)%nat) tr ->
    (forall w, (w < n)%nat -> by_worker w tr = share w owners plans) ->
    Permutation (map snd tr) (concat plans).
  Proof.
    intros L O T Sh. rewrite (tr_permutation n tr T), <- (share_permutation n owners plans L O).
    replace (map (fun w => by_worker w tr) (seq 0 n)) with (map (fun w => share w owners plans) (seq 0 n)); [reflexivity|].
    apply map_ext_in. intros w I. apply in_seq in I. symmetry. apply Sh. lia.
  Qed.

  (** workers leave only after the shutdown, when the queue is empty *)
  Lemma exec_exited p tr k p' : exec p tr k p' -> Forall (fun w => w <> Exited) (p_workers p) ->
    In Exited (p_workers p') -> p_main p' = ShutDown /\ p_queue p' = [].
  Proof.
    induction 1 as [|p tr k p1 o p2 E IH H]; intros F X.
    - rewrite Forall_forall in F. destruct (F _ X). reflexivity.
    - assert (K : forall w x y ws, nth_error ws w = Some y -> x <> Exited -> In Exited (set_nth w x ws) -> In (@Exited A) ws).
      { intros w x y ws N NE I. destruct (set_nth_split w x y ws N) as (a & b & E1 & E2 & _). rewrite E2 in I. rewrite E1.
        apply in_or_app. apply in_app_or in I. destruct I as [I|[I|I]]; auto; [congruence|right; right; auto]. }
      destruct H; cbn [p_main p_queue p_workers] in *; auto;
        try (destruct (IH F) as [M Q]; [first [assumption|eapply K; [ | |exact X]; [eassumption|discriminate]]|]; cbn in M, Q; subst; try discriminate; auto; fail).
  Qed.
  (** deadlock freedom *)
  Lemma progress it0 n s0 tr k p : exec (pool_new it0 n s0) tr k p -> no_failure p -> (0 < n)%nat -> (0 < cap)%nat ->
    finished p \/ exists o p', step p o p'.
  Proof.
    intros E NF Hn Hc. destruct (exec_inv _ _ _ _ _ _ E NF) as [jobs owners plans Sub Len Pl Own N Sh Tr Eff].
    destruct p as [mn q ws s]. cbn in *.
    assert (W : (exists w l, nth_error ws w = Some (Busy l)) \/ (exists w, nth_error ws w = Some Idle) \/ Forall (fun w => w = Exited) ws).
    { destruct NF as [_ NF]. cbn in NF. clear - NF. induction NF as [|w ws H NF IH]; [auto|].
      destruct w as [|l| |]; [right; left; exists 0%nat; reflexivity|left; exists 0%nat, l; reflexivity| |congruence].
      destruct IH as [(w & l & IH)|[(w & IH)|IH]]; [left; exists (Datatypes.S w), l; auto|right; left; exists (Datatypes.S w); auto|right; right; constructor; auto]. }
    destruct W as [(w & [|a l] & W)|[(w & W)|W]].
    - right. exists None. eexists. eapply st_done; eauto.
    - right. destruct (act w a s) as [s'|] eqn:Ac; eexists (Some (w, a)); eexists; [eapply st_act; eauto|eapply st_act_bad; eauto].
    - right. destruct q as [|j q].
      + destruct mn as [it| |]; [|exists None; eexists; eapply st_exit; eauto|destruct NF as [NF _]; destruct NF; reflexivity].
        exists None. destruct (next it) as [[[j|] it']| |] eqn:Ne.
        * eexists. eapply st_submit; eauto.
        * eexists. eapply st_shutdown; eauto.
        * eexists. eapply st_dead; eauto.
        * eexists. eapply st_dead; eauto.
      + exists None. destruct (plan j) as [l|] eqn:P; eexists; [eapply st_take; eauto|eapply st_bad; eauto].
    - left. assert (X : In Exited ws) by (destruct ws as [|w0 ws]; [cbn in N; lia|inversion W; subst; left; reflexivity]).
      assert (F0 : Forall (fun w => w <> Exited) (p_workers (pool_new it0 n s0 : pool))) by (cbn; apply Forall_forall; intros x I; apply repeat_spec in I; subst; discriminate).
      destruct (exec_exited _ _ _ _ E F0 X) as [M Q].
      cbn in M, Q. subst. repeat split; auto.
  Qed.

  (** termination: a measure that decreases with every step *)
  Definition plan_len (j : J) : nat := match plan j with Some l => length l | None => 0 end.
  Fixpoint sum {X} (f : X -> nat) (l : list X) : nat := match l with [] => 0 | x :: r => f x + sum f r end.
  Lemma sum_app {X} (f : X -> nat) a b : sum f (a ++ b) = sum f a + sum f b.
  Proof. induction a; cbn; lia. Qed.
  Definition wmeasure (w : @worker A) : nat := match w with Idle => 1 | Busy l => 2 + length l | _ => 0 end.
  Definition measure (rem : list J) (p : pool) : nat :=
    sum (fun j => 4 + plan_len j) rem + match p_main p with Submitting _ => 1 | _ => 0 end
    + sum (fun j => 3 + plan_len j) (p_queue p) + sum wmeasure (p_workers p).
  (** what the submitting thread has still to submit *)
  Definition remaining (p : pool) (rem : list J) (o : ending) : Prop :=
    match p_main p with Submitting it => run next it rem o | _ => rem = [] end.
  Lemma sum_set w (x y : @worker A) ws : nth_error ws w = Some y -> sum wmeasure (set_nth w x ws) + wmeasure y = sum wmeasure ws + wmeasure x.
  Proof. intros H. destruct (set_nth_split w x y ws H) as (a & b & -> & -> & _). rewrite !sum_app. cbn. lia. Qed.
  Lemma step_decreases p o p' rem e : step p o p' -> remaining p rem e ->
    exists rem', remaining p' rem' e /\ (measure rem' p' < measure rem p)%nat.
  Proof.
    intros H R. destruct H as [it j it' q ws s E C|it it' q ws s E|it q ws s E|mn j q w ws s l E P|mn j q w ws s E P|mn q w ws s a l s' E Ac|mn q w ws s a l E Ac|mn q w ws s E|w ws s E];
      unfold remaining, measure in *; cbn [p_main p_queue p_workers] in *.
    - inversion R as [s1 s2 N|s1 N|s1 a s2 l o N R']; subst; try congruence. assert (a = j /\ s2 = it') as [-> ->] by (split; congruence).
      exists l. split; auto. rewrite sum_app. cbn [sum]. lia.
    - exists []. split; auto. inversion R as [s1 s2 N|s1 N|s1 a s2 l o N R']; subst; try congruence. cbn. lia.
    - exists []. split; auto. inversion R as [s1 s2 N|s1 N|s1 a s2 l o N R']; subst; try (destruct E; congruence). cbn. lia.
    - exists rem. split; auto. pose proof (sum_set w (Busy l) _ ws E) as X. cbn [wmeasure] in X. cbn [sum]. assert (PL : plan_len j = length l) by (unfold plan_len; rewrite P; reflexivity). lia.
    - exists rem. split; auto. pose proof (sum_set w Failed _ ws E) as X. cbn [wmeasure] in X. cbn [sum]. lia.
    - exists rem. split; auto. pose proof (sum_set w (Busy l) _ ws E) as X. cbn [wmeasure length] in X. lia.
    - exists rem. split; auto. pose proof (sum_set w Failed _ ws E) as X. cbn [wmeasure length] in X. lia.
    - exists rem. split; auto. pose proof (sum_set w Idle _ ws E) as X. cbn [wmeasure length] in X. lia.
    - exists rem. split; auto. pose proof (sum_set w Exited _ ws E) as X. cbn [wmeasure length] in X. lia.
  Qed.
  Lemma exec_bounded it0 n s0 jobs e : run next it0 jobs e ->
    exists bound, forall tr k p, exec (pool_new it0 n s0) tr k p -> (k <= bound)%nat.
  Proof.
    intros R. exists (measure jobs (pool_new it0 n s0)). intros tr k p E.
    assert (G : exists rem, remaining p rem e /\ (measure rem p + k <= measure jobs (pool_new it0 n s0))%nat); [|destruct G as (rem & _ & G); lia].
    remember (pool_new it0 n s0) as p0. assert (R0 : remaining p0 jobs e) by (subst; exact R).
    clear Heqp0. induction E as [p|p tr k p1 o p2 E IH H].
    - exists jobs. split; auto. lia.
    - destruct (IH R0) as (rem & A1 & A2). destruct (step_decreases _ _ _ _ _ H A1) as (rem' & B1 & B2). exists rem'. split; auto. lia.
  Qed.
End Facts.
