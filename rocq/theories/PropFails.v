(** C86: parallel_for_each when calls fail or blobs cannot be decoded. *)
From Coq Require Import ZArith List Bool Strings.Byte Strings.String Lia Permutation.
From Verif Require Import Base BaseFacts Types FileFormat FileFacts Pool ModelSpec ModelFacts.
From Verif Require Import ParallelSpec PoolFacts ParallelRead ParallelReadFacts PropParallelRead FailPool FailSpec.
Import ListNotations.
Open Scope nat_scope.
Local Notation length := List.length.
Local Notation concat := List.concat.

Section Facts.
  Context {It J A S : Type}.
  Variable next : It -> res (option J * It).
  Variable plan : J -> option (list A).
  Variable act : nat -> A -> S -> S * bool.
  Variable cap : nat.
  Notation pool := (@pool It J A S).
  Notation fstep := (@fstep It J A S next plan act cap).
  Notation fexec := (@fexec It J A S next plan act cap).

  Definition begun_with (it0 : It) (mn : @submitter It) (js : list J) : Prop :=
    match mn with
    | Submitting it => yields next it0 js it
    | ShutDown => run next it0 js Ended
    | Dead => exists it, yields next it0 js it /\ (next it = Panic \/ next it = Err)
    end.
  (** a job, its worker, the actions made *)
  Record job := Job { jb : J; ow : nat; mk : list A }.
  Definition settled (x : job) : Prop :=
    plan (jb x) = Some (mk x) \/ (plan (jb x) = None /\ mk x = []) \/
    exists before a after s, plan (jb x) = Some (before ++ a :: after) /\ mk x = before ++ [a] /\ snd (act (ow x) a s) = false.
  Definition mine (w : nat) (js : list job) : list A := concat (map mk (filter (fun x => Nat.eqb (ow x) w) js)).
  Definition at_work (js : list job) (w : nat) (ws : @worker A) : Prop :=
    match ws with
    | Busy l => exists a x b, js = a ++ x :: b /\ ow x = w /\ Forall (fun y => ow y = w -> settled y) a /\ Forall (fun y => ow y <> w) b /\ plan (jb x) = Some (mk x ++ l)
    | _ => Forall (fun y => ow y = w -> settled y) js
    end.
  Inductive finv (it0 : It) (n : nat) (tr : list (nat * A)) (p : pool) : Prop :=
  | finv_intro (js : list job)
    (f_sub : begun_with it0 (p_main p) (map jb js ++ p_queue p))
    (f_own : Forall (fun x => (ow x < n)%nat) js)
    (f_n : length (p_workers p) = n)
    (f_tr : Forall (fun x => (fst x < n)%nat) tr)
    (f_mine : forall w, by_worker w tr = mine w js)
    (f_work : forall w ws, nth_error (p_workers p) w = Some ws -> at_work js w ws).

  Lemma mine_app w a b : mine w (a ++ b) = mine w a ++ mine w b.
  Proof. unfold mine. rewrite filter_app, map_app, concat_app. reflexivity. Qed.
  Lemma mine_cons w x b : mine w (x :: b) = (if Nat.eqb (ow x) w then mk x else []) ++ mine w b.
  Proof. unfold mine. cbn. destruct (Nat.eqb (ow x) w); reflexivity. Qed.
  Lemma mine_none w b : Forall (fun y => ow y <> w) b -> mine w b = [].
  Proof. unfold mine. induction 1 as [|y b H F IH]; auto. cbn. destruct (Nat.eqb_spec (ow y) w); [contradiction|exact IH]. Qed.

  (** other workers' view when the job of [w] in the middle gets another action *)
  Lemma at_work_other js a x b x' v wv : js = a ++ x :: b -> ow x' = ow x -> jb x' = jb x -> v <> ow x -> at_work js v wv -> at_work (a ++ x' :: b) v wv.
  Proof.
    intros -> O Jx NE H.
    assert (G : forall l, Forall (fun y => ow y = v -> settled y) (a ++ x :: l) -> Forall (fun y => ow y = v -> settled y) (a ++ x' :: l)).
    { intros l F. apply Forall_app in F as (F1 & F2). apply Forall_app. split; auto. inversion F2; subst. constructor; auto. intros E. congruence. }
    destruct wv as [|l| |]; cbn [at_work] in *; auto. destruct H as (a1 & y & b1 & E & Oy & Fa & Fb & P).
    assert (X : forall (a b a1 b1 : list job) x y, a ++ x :: b = a1 ++ y :: b1 -> ow x <> ow y ->
       (exists m, a1 = a ++ x :: m /\ b = m ++ y :: b1) \/ (exists m, a = a1 ++ y :: m /\ b1 = m ++ x :: b)).
    { clear. induction a as [|z a IH]; intros b a1 b1 x y E NE; destruct a1 as [|z1 a1]; cbn in E; injection E as E1 E2; subst.
      - contradiction.
      - left. exists a1. auto.
      - right. exists a. auto.
      - destruct (IH _ _ _ _ _ E2 NE) as [(m & -> & ->)|(m & -> & ->)]; [left|right]; exists m; auto. }
    destruct (X _ _ _ _ _ _ E) as [(m & -> & ->)|(m & -> & ->)]; [congruence| |].
    - exists (a ++ x' :: m), y, b1. rewrite <- app_assoc. cbn. split; [reflexivity|]. split; auto.
    - exists a1, y, (m ++ x' :: b). rewrite <- app_assoc. cbn. split; [reflexivity|]. split; auto. split; auto. split; auto.
      apply Forall_app in Fb as (F1 & F2). apply Forall_app. split; auto. inversion F2; subst. constructor; auto. congruence.
  Qed.
  Lemma settled_all a x b w : ow x = w -> Forall (fun y => ow y = w -> settled y) a -> Forall (fun y => ow y <> w) b -> settled x -> Forall (fun y => ow y = w -> settled y) (a ++ x :: b).
  Proof.
    intros O Fa Fb Sx. apply Forall_app. split; auto. constructor; auto. eapply Forall_impl; [|exact Fb]. cbv beta. intros y N E. contradiction.
  Qed.
  Lemma at_work_snoc js x v wv : ow x <> v -> at_work js v wv -> at_work (js ++ [x]) v wv.
  Proof.
    intros NE H. destruct wv as [|l| |]; cbn [at_work] in *; try (apply Forall_app; split; auto; constructor; auto; intros E; contradiction).
    destruct H as (a & y & b & -> & O & Fa & Fb & P). exists a, y, (b ++ [x]). rewrite <- app_assoc. cbn. split; auto. split; auto. split; auto. split; auto. apply Forall_app. auto.
  Qed.

  Lemma finv_init it0 n s0 : finv it0 n [] (pool_new it0 n s0).
  Proof.
    exists []; cbn; auto.
    - constructor.
    - apply repeat_length.
    - intros w ws H. apply nth_error_In, repeat_spec in H. subst. constructor.
  Qed.
  Lemma finv_step it0 n tr p o p' : finv it0 n tr p -> fstep p o p' -> finv it0 n (tr ++ match o with Some x => [x] | None => [] end) p'.
  Proof.
    intros I H. destruct I as [js Sub Own N Tr Mi Wk].
    destruct H as [it j it' q ws s E C|it it' q ws s E|it q ws s E|mn j q w ws s l E P|mn j q w ws s E P|mn q w ws s a l s' E Ac|mn q w ws s a l s' E Ac|mn q w ws s E|w ws s E|mn q w ws s E];
      cbn [p_main p_queue p_workers p_shared] in *; rewrite ?app_nil_r.
    - exists js; cbn [p_main p_queue p_workers]; auto. rewrite app_assoc. cbn in *. econstructor; eauto.
    - exists js; cbn [p_main p_queue p_workers]; auto. cbn in *. rewrite <- (app_nil_r (map jb js ++ q)). eapply yields_run; eauto. econstructor; eauto.
    - exists js; cbn [p_main p_queue p_workers]; auto. cbn in *. eauto.
    - exists (js ++ [Job j w []]); cbn [p_main p_queue p_workers]; auto.
      + rewrite map_app, <- app_assoc. exact Sub.
      + apply Forall_app. split; auto. constructor; auto. cbn. rewrite <- N. eapply nth_lt; eauto.
      + rewrite set_nth_length. auto.
      + intros v. rewrite mine_app, mine_cons. cbn. destruct (Nat.eqb w v); cbn; rewrite app_nil_r; auto.
      + intros v wv Hv. destruct (Nat.eq_dec w v) as [<-|NE].
        * rewrite (set_nth_same _ _ _ _ E) in Hv. injection Hv as <-. cbn. exists js, (Job j w []), []. split; auto. split; auto. split; [exact (Wk _ _ E)|]. split; auto.
        * rewrite set_nth_other in Hv by auto. apply at_work_snoc; auto.
    - exists (js ++ [Job j w []]); cbn [p_main p_queue p_workers]; auto.
      + rewrite map_app, <- app_assoc. exact Sub.
      + apply Forall_app. split; auto. constructor; auto. cbn. rewrite <- N. eapply nth_lt; eauto.
      + rewrite set_nth_length. auto.
      + intros v. rewrite mine_app, mine_cons. cbn. destruct (Nat.eqb w v); cbn; rewrite app_nil_r; auto.
      + intros v wv Hv. destruct (Nat.eq_dec w v) as [<-|NE].
        * rewrite (set_nth_same _ _ _ _ E) in Hv. injection Hv as <-. cbn. apply Forall_app. split; [exact (Wk _ _ E)|]. constructor; auto. intros _. right. left. auto.
        * rewrite set_nth_other in Hv by auto. apply at_work_snoc; auto.
    - destruct (Wk _ _ E) as (a0 & x & b0 & -> & O & Fa & Fb & P).
      exists (a0 ++ Job (jb x) w (mk x ++ [a]) :: b0); cbn [p_main p_queue p_workers].
      + rewrite map_app in *. exact Sub.
      + apply Forall_app in Own as (O1 & O2). inversion O2; subst. apply Forall_app. split; auto.
      + rewrite set_nth_length. auto.
      + apply Forall_app. split; auto. constructor; auto. cbn. rewrite <- N. eapply nth_lt; eauto.
      + intros v. rewrite by_worker_app, by_worker_one, Mi, !mine_app, !mine_cons. cbn [ow mk]. rewrite O. destruct (Nat.eqb_spec w v) as [<-|NE]; rewrite ?app_nil_r; auto.
        rewrite (mine_none w b0 Fb), !app_nil_r, app_assoc. reflexivity.
      + intros v wv Hv. destruct (Nat.eq_dec w v) as [<-|NE].
        * rewrite (set_nth_same _ _ _ _ E) in Hv. injection Hv as <-. cbn. exists a0, (Job (jb x) w (mk x ++ [a])), b0. split; auto. split; auto. split; auto. split; auto. cbn. rewrite <- app_assoc. exact P.
        * rewrite set_nth_other in Hv by auto. eapply at_work_other; [reflexivity|..]; cbn [ow jb]; auto; congruence.
    - destruct (Wk _ _ E) as (a0 & x & b0 & -> & O & Fa & Fb & P).
      exists (a0 ++ Job (jb x) w (mk x ++ [a]) :: b0); cbn [p_main p_queue p_workers].
      + rewrite map_app in *. exact Sub.
      + apply Forall_app in Own as (O1 & O2). inversion O2; subst. apply Forall_app. split; auto.
      + rewrite set_nth_length. auto.
      + apply Forall_app. split; auto. constructor; auto. cbn. rewrite <- N. eapply nth_lt; eauto.
      + intros v. rewrite by_worker_app, by_worker_one, Mi, !mine_app, !mine_cons. cbn [ow mk]. rewrite O. destruct (Nat.eqb_spec w v) as [<-|NE]; rewrite ?app_nil_r; auto.
        rewrite (mine_none w b0 Fb), !app_nil_r, app_assoc. reflexivity.
      + intros v wv Hv. destruct (Nat.eq_dec w v) as [<-|NE].
        * rewrite (set_nth_same _ _ _ _ E) in Hv. injection Hv as <-. cbn. apply settled_all; auto. right. right. cbn. exists (mk x), a, l, s. split; auto. split; auto. rewrite Ac. reflexivity.
        * rewrite set_nth_other in Hv by auto. eapply at_work_other; [reflexivity|..]; cbn [ow jb]; auto; congruence.
    - exists js; cbn [p_main p_queue p_workers]; auto; [rewrite set_nth_length; auto|].
      intros v wv Hv. destruct (Nat.eq_dec w v) as [<-|NE]; [|rewrite set_nth_other in Hv by auto; auto].
      rewrite (set_nth_same _ _ _ _ E) in Hv. injection Hv as <-. cbn. destruct (Wk _ _ E) as (a0 & x & b0 & -> & O & Fa & Fb & P). apply settled_all; auto. left. rewrite app_nil_r in P. exact P.
    - exists js; cbn [p_main p_queue p_workers]; auto; [rewrite set_nth_length; auto|].
      intros v wv Hv. destruct (Nat.eq_dec w v) as [<-|NE]; [|rewrite set_nth_other in Hv by auto; auto].
      rewrite (set_nth_same _ _ _ _ E) in Hv. injection Hv as <-. exact (Wk _ _ E).
    - exists js; cbn [p_main p_queue p_workers]; auto; [rewrite set_nth_length; auto|].
      intros v wv Hv. destruct (Nat.eq_dec w v) as [<-|NE]; [|rewrite set_nth_other in Hv by auto; auto].
      rewrite (set_nth_same _ _ _ _ E) in Hv. injection Hv as <-. exact (Wk _ _ E).
  Qed.
  Lemma fexec_inv it0 n s0 tr k p : fexec (pool_new it0 n s0) tr k p -> finv it0 n tr p.
  Proof.
    remember (pool_new it0 n s0) as p0 eqn:E0. induction 1 as [|p tr k p1 o p2 E IH H]; subst; [apply finv_init|]. eapply finv_step; eauto.
  Qed.
  (** in every state the job of a worker is settled or at work *)
  Lemma finv_jobs n (p : pool) js : Forall (fun x => (ow x < n)%nat) js -> length (p_workers p) = n -> (forall w ws, nth_error (p_workers p) w = Some ws -> at_work js w ws) ->
    Forall (fun x => settled x \/ exists l, plan (jb x) = Some (mk x ++ l)) js.
  Proof.
    intros Own N Wk. apply Forall_forall. intros x I. rewrite Forall_forall in Own. specialize (Own x I).
    destruct (nth_error (p_workers p) (ow x)) as [ws|] eqn:E; [|apply nth_error_None in E; lia]. specialize (Wk _ _ E).
    destruct ws as [|l| |]; cbn in Wk; try (rewrite Forall_forall in Wk; left; apply Wk; auto; fail).
    destruct Wk as (a & y & b & -> & O & Fa & Fb & P). rewrite Forall_forall in Fa, Fb. apply in_app_or in I as [I|[->|I]].
    - left. apply Fa; auto.
    - right. eauto.
    - destruct (Fb _ I eq_refl).
  Qed.
  Lemma share_mine w js : share w (map ow js) (map mk js) = mine w js.
  Proof.
    unfold share, mine. f_equal. induction js as [|x js IH]; auto. cbn. destruct (Nat.eqb (ow x) w); cbn; rewrite IH; reflexivity.
  Qed.

  (** termination *)
  Definition fmeasure_w (w : @worker A) : nat := match w with Idle => 1 | Busy l => 2 + length l | Failed => 2 | Exited => 0 end.
  Definition fmeasure (rem : list J) (p : pool) : nat :=
    sum (fun j => 4 + plan_len plan j) rem + match p_main p with Submitting _ => 1 | _ => 0 end
    + sum (fun j => 3 + plan_len plan j) (p_queue p) + sum fmeasure_w (p_workers p).
  Lemma fsum_set w (x y : @worker A) ws : nth_error ws w = Some y -> sum fmeasure_w (set_nth w x ws) + fmeasure_w y = sum fmeasure_w ws + fmeasure_w x.
  Proof. intros H. destruct (set_nth_split w x y ws H) as (a & b & -> & -> & _). rewrite !sum_app. cbn. lia. Qed.
  Lemma fstep_decreases p o p' rem e : fstep p o p' -> remaining next p rem e ->
    exists rem', remaining next p' rem' e /\ (fmeasure rem' p' < fmeasure rem p)%nat.
  Proof.
    intros H R. destruct H as [it j it' q ws s E C|it it' q ws s E|it q ws s E|mn j q w ws s l E P|mn j q w ws s E P|mn q w ws s a l s' E Ac|mn q w ws s a l s' E Ac|mn q w ws s E|w ws s E|mn q w ws s E];
      unfold remaining, fmeasure in *; cbn [p_main p_queue p_workers] in *.
    - inversion R as [s1 s2 N|s1 N|s1 a s2 l o N R']; subst; try congruence. assert (a = j /\ s2 = it') as [-> ->] by (split; congruence).
      exists l. split; auto. rewrite sum_app. cbn [sum]. lia.
    - exists []. split; auto. inversion R as [s1 s2 N|s1 N|s1 a s2 l o N R']; subst; try congruence. cbn. lia.
    - exists []. split; auto. inversion R as [s1 s2 N|s1 N|s1 a s2 l o N R']; subst; try (destruct E; congruence). cbn. lia.
    - exists rem. split; auto. pose proof (fsum_set w (Busy l) _ ws E) as X. cbn [fmeasure_w] in X. cbn [sum]. assert (PL : plan_len plan j = length l) by (unfold plan_len; rewrite P; reflexivity). lia.
    - exists rem. split; auto. pose proof (fsum_set w Failed _ ws E) as X. cbn [fmeasure_w] in X. cbn [sum]. lia.
    - exists rem. split; auto. pose proof (fsum_set w (Busy l) _ ws E) as X. cbn [fmeasure_w length] in X. lia.
    - exists rem. split; auto. pose proof (fsum_set w Failed _ ws E) as X. cbn [fmeasure_w length] in X. lia.
    - exists rem. split; auto. pose proof (fsum_set w Idle _ ws E) as X. cbn [fmeasure_w length] in X. lia.
    - exists rem. split; auto. pose proof (fsum_set w Exited _ ws E) as X. cbn [fmeasure_w length] in X. lia.
    - exists rem. split; auto. pose proof (fsum_set w Idle _ ws E) as X. cbn [fmeasure_w length] in X. lia.
  Qed.
  Lemma fexec_bounded it0 n s0 jobs e : run next it0 jobs e ->
    exists bound, forall tr k p, fexec (pool_new it0 n s0) tr k p -> (k <= bound)%nat.
  Proof.
    intros R. exists (fmeasure jobs (pool_new it0 n s0)). intros tr k p E.
    assert (G : exists rem, remaining next p rem e /\ (fmeasure rem p + k <= fmeasure jobs (pool_new it0 n s0))%nat); [|destruct G as (rem & _ & G); lia].
    remember (pool_new it0 n s0) as p0. assert (R0 : remaining next p0 jobs e) by (subst; exact R).
    clear Heqp0. induction E as [p|p tr k p1 o p2 E IH H].
    - exists jobs. split; auto. lia.
    - destruct (IH R0) as (rem & A1 & A2). destruct (fstep_decreases _ _ _ _ _ H A1) as (rem' & B1 & B2). exists rem'. split; auto. lia.
  Qed.
  Lemma fexec_exited p tr k p' : fexec p tr k p' -> Forall (fun w => w <> Exited) (p_workers p) ->
    In Exited (p_workers p') -> p_main p' = ShutDown /\ p_queue p' = [].
  Proof.
    induction 1 as [|p tr k p1 o p2 E IH H]; intros F X.
    - rewrite Forall_forall in F. destruct (F _ X). reflexivity.
    - assert (K : forall w x y ws, nth_error ws w = Some y -> x <> Exited -> In Exited (set_nth w x ws) -> In (@Exited A) ws).
      { intros w x y ws N NE I. destruct (set_nth_split w x y ws N) as (a & b & E1 & E2 & _). rewrite E2 in I. rewrite E1.
        apply in_or_app. apply in_app_or in I. destruct I as [I|[I|I]]; auto; [congruence|right; right; auto]. }
      destruct H; cbn [p_main p_queue p_workers] in *; auto;
        try (destruct (IH F) as [M Q]; [first [assumption|eapply K; [ | |exact X]; [eassumption|discriminate]]|]; cbn in M, Q; subst; try discriminate; auto; fail).
  Qed.
  (** a pool whose workers go on never blocks *)
  Lemma fprogress it0 n s0 tr k p : fexec (pool_new it0 n s0) tr k p -> p_main p <> Dead -> (0 < n)%nat -> (0 < cap)%nat ->
    finished p \/ exists o p', fstep p o p'.
  Proof.
    intros E ND Hn Hc. destruct (fexec_inv _ _ _ _ _ _ E) as [js Sub Own N Tr Mi Wk].
    destruct p as [mn q ws s]. cbn in *.
    assert (W : (exists w l, nth_error ws w = Some (Busy l)) \/ (exists w, nth_error ws w = Some Idle) \/ (exists w, nth_error ws w = Some Failed) \/ Forall (fun w => w = Exited) ws).
    { clear. induction ws as [|w ws IH]; [auto|].
      destruct w as [|l| |]; [right; left; exists 0%nat; reflexivity|left; exists 0%nat, l; reflexivity| |right; right; left; exists 0%nat; reflexivity].
      destruct IH as [(w & l & IH)|[(w & IH)|[(w & IH)|IH]]]; [left; exists (Datatypes.S w), l; auto|right; left; exists (Datatypes.S w); auto|right; right; left; exists (Datatypes.S w); auto|right; right; right; constructor; auto]. }
    destruct W as [(w & [|a l] & W)|[(w & W)|[(w & W)|W]]].
    - right. exists None. eexists. eapply fs_done; eauto.
    - right. destruct (act w a s) as [s' [|]] eqn:Ac; eexists (Some (w, a)); eexists; [eapply fs_act; eauto|eapply fs_act_bad; eauto].
    - right. destruct q as [|j q].
      + destruct mn as [it| |]; [|exists None; eexists; eapply fs_exit; eauto|contradiction].
        exists None. destruct (next it) as [[[j|] it']| |] eqn:Ne.
        * eexists. eapply fs_submit; eauto.
        * eexists. eapply fs_shutdown; eauto.
        * eexists. eapply fs_dead; eauto.
        * eexists. eapply fs_dead; eauto.
      + exists None. destruct (plan j) as [l|] eqn:P; eexists; [eapply fs_take; eauto|eapply fs_bad; eauto].
    - right. exists None. eexists. eapply fs_on; eauto.
    - left. assert (X : In Exited ws) by (destruct ws as [|w0 ws]; [cbn in N; lia|inversion W; subst; left; reflexivity]).
      assert (F0 : Forall (fun w => w <> Exited) (p_workers (pool_new it0 n s0 : pool))) by (cbn; apply Forall_forall; intros x I; apply repeat_spec in I; subst; discriminate).
      destruct (fexec_exited _ _ _ _ E F0 X) as [M Q].
      cbn in M, Q. subst. repeat split; auto.
  Qed.
End Facts.

Section ForEach.
Context {S : Type}.
Variables (m : mode) (c : codec) (file : bytes) (tasks : nat) (f : nat -> element -> S -> S * bool) (s0 : S).

Lemma iteration_calls_of d : match from_blob_desc m c file d with Ok b => iteration_calls m c file d = Some (calls_of b) | _ => iteration_calls m c file d = None end.
Proof. unfold iteration_calls. destruct (from_blob_desc m c file d) as [[i inf|i es]| |]; reflexivity. Qed.
Lemma jobs_blobs P (js : list (@job blob_desc element)) : Forall (fun x => P (jb x) (ow x) (mk x)) js -> all_blobs P (map jb js) (map ow js) (map mk js).
Proof. induction 1; constructor; auto. Qed.

(** C86: when parallel_for_each has come to its end, every blob of the file was taken by one worker, which has made all the calls promised for it (C23) in their
    order, or those up to the first one that failed, or none if it could not be decoded; and there were no other calls *)
Theorem C86_calls_that_fail tr k p : fail_exec m c file tasks f s0 tr k p -> joined p ->
  exists ds owners mades, run (blob_next file) bit_new ds Ended /\ all_blobs (blob_done m c file f) ds owners mades /\
    (forall w, by_worker w tr = share w owners mades) /\ Permutation (map snd tr) (concat mades).
Proof.
  intros E (M & Q & W). destruct (fexec_inv _ _ _ _ _ _ _ _ _ _ E) as [js Sub Own N Tr Mi Wk]. rewrite M, Q, app_nil_r in Sub. cbn in Sub.
  exists (map jb js), (map ow js), (map mk js). split; [exact Sub|]. split; [|split].
  - apply jobs_blobs. apply Forall_forall. intros x I. rewrite Forall_forall in Own, W. specialize (Own x I).
    destruct (nth_error (p_workers p) (ow x)) as [ws|] eqn:Ew; [|apply nth_error_None in Ew; lia]. pose proof (Wk _ _ Ew) as G. specialize (W ws (nth_error_In _ _ Ew)).
    assert (ST : settled (iteration_calls m c file) f x) by (destruct W; subst; cbn in G; rewrite Forall_forall in G; apply G; auto).
    unfold blob_done. pose proof (iteration_calls_of (jb x)) as B. destruct ST as [ST|[(ST & ->)|(b & a & r & s & ST & -> & F)]]; destruct (from_blob_desc m c file (jb x)) as [bk| |]; rewrite ST in B; try discriminate B; auto.
    + injection B as B. left. auto.
    + injection B as B. right. exists b, a, r, s. auto.
  - intros w. rewrite Mi, share_mine. reflexivity.
  - eapply trace_is_all_actions with (n := tasks) (owners := map ow js); auto.
    + rewrite !map_length. reflexivity.
    + apply Forall_map. exact Own.
    + intros w _. rewrite Mi, share_mine. reflexivity.
Qed.
(** C86, at any moment: no call is made twice: the calls so far are, for each blob taken so far, a beginning of those promised for it *)
Theorem C86_at_any_moment tr k p : fail_exec m c file tasks f s0 tr k p ->
  exists ds owners mades it, yields (blob_next file) bit_new (ds ++ p_queue p) it /\ all_blobs (fun d _ made => blob_begun m c file d made) ds owners mades /\
    (forall w, by_worker w tr = share w owners mades) /\ Permutation (map snd tr) (concat mades).
Proof.
  intros E. destruct (fexec_inv _ _ _ _ _ _ _ _ _ _ E) as [js Sub Own N Tr Mi Wk].
  assert (Y : exists it, yields (blob_next file) bit_new (map jb js ++ p_queue p) it).
  { destruct (p_main p); cbn in Sub; [eauto| |destruct Sub as (it & Sub & _); eauto]. revert Sub. generalize (map jb js ++ p_queue p). generalize bit_new. clear. intros it0 l R.
    remember Ended as o eqn:Eo. induction R as [s1 s2 N|s1 N|s1 a s2 l o N R IH]; subst; try discriminate; [exists s1; constructor|].
    destruct (IH eq_refl) as (it & Y). exists it. assert (G : forall x la y, yields (blob_next file) x la y -> forall z b, blob_next file z = Ok (Some b, x) -> yields (blob_next file) z (b :: la) y).
    { clear. induction 1 as [x|x la y j y' Y IH N]; intros z b H; [apply (y_snoc _ z [] z b x); [constructor|exact H]|]. rewrite app_comm_cons. econstructor; [apply IH; exact H|exact N]. }
    eapply G; eauto. }
  destruct Y as (it & Y). exists (map jb js), (map ow js), (map mk js), it. split; [exact Y|]. split; [|split].
  - apply jobs_blobs. pose proof (finv_jobs _ _ tasks p js Own N Wk) as FJ. eapply Forall_impl; [|exact FJ]. cbv beta. intros x G. unfold blob_begun. pose proof (iteration_calls_of (jb x)) as B.
    destruct G as [[ST|[(ST & ->)|(b & a & r & s & ST & -> & F)]]|(l & ST)]; destruct (from_blob_desc m c file (jb x)) as [bk| |]; rewrite ST in B; try discriminate B; auto; injection B as B.
    + exists []. rewrite app_nil_r. auto.
    + exists r. rewrite <- app_assoc. auto.
    + exists l. auto.
  - intros w. rewrite Mi, share_mine. reflexivity.
  - eapply trace_is_all_actions with (n := tasks) (owners := map ow js); auto.
    + rewrite !map_length. reflexivity.
    + apply Forall_map. exact Own.
    + intros w _. rewrite Mi, share_mine. reflexivity.
Qed.
(** C86: on every file over which blob iteration ends the number of steps is bounded, failing calls or not; if workers go on after failed commands it can always continue
    until everything has been taken *)
Theorem C86_terminates ds o : run (blob_next file) bit_new ds o -> 0 < tasks ->
  (exists bound, forall tr k p, fail_exec m c file tasks f s0 tr k p -> k <= bound) /\
  (forall tr k p, fail_exec m c file tasks f s0 tr k p -> p_main p <> Dead -> finished p \/ exists a p', fstep (blob_next file) (iteration_calls m c file) f for_each_queue p a p').
Proof.
  intros R T. split.
  - eapply fexec_bounded; eauto.
  - intros tr k p E ND. eapply fprogress; eauto. unfold for_each_queue. lia.
Qed.
(** C86: if workers stop after failed commands (the step [fs_on] never happens) and all have stopped, nothing is taken any more: with more than 1024 blobs to come
    the submitting thread is stuck *)
Inductive stops_exec : @pool bit blob_desc element S -> @pool bit blob_desc element S -> Prop :=
| so_nil p : stops_exec p p
| so_snoc p p' a p'' : stops_exec p p' -> fstep (blob_next file) (iteration_calls m c file) f for_each_queue p' a p'' ->
    (forall w, nth_error (p_workers p') w = Some Failed -> nth_error (p_workers p'') w = Some Failed) -> stops_exec p p''.
Theorem C86_stuck it q ws s ds o p' : Forall (fun w => w = Failed) ws -> length q <= 1024 -> run (blob_next file) it ds o -> 1024 < length q + length ds ->
  stops_exec (Pool (Submitting it) q ws s) p' -> ~ joined p' /\ p_main p' <> Dead.
Proof.
  intros FW Q R L E.
  assert (G : exists it' ds', p_main p' = Submitting it' /\ p_workers p' = ws /\ run (blob_next file) it' ds' o /\ length (p_queue p') <= 1024 /\ length (p_queue p') + length ds' = length q + length ds).
  { remember (Pool (Submitting it) q ws s) as p0 eqn:E0. induction E as [p|p p1 a p2 E IH H K]; subst; [exists it, ds; cbn; auto|].
    destruct (IH eq_refl) as (it1 & ds1 & M & W & R1 & L1 & L2).
    assert (NI : forall w x, nth_error (p_workers p1) w = Some x -> x = Failed) by (intros w x I; rewrite W in I; apply nth_error_In in I; rewrite Forall_forall in FW; auto).
    destruct H as [it2 j it' q2 ws2 s2 N C|it2 it' q2 ws2 s2 N|it2 q2 ws2 s2 N|mn j q2 w ws2 s2 l N P|mn j q2 w ws2 s2 N P|mn q2 w ws2 s2 a l s' N Ac|mn q2 w ws2 s2 a l s' N Ac|mn q2 w ws2 s2 N|w ws2 s2 N|mn q2 w ws2 s2 N];
      cbn [p_main p_queue p_workers] in *; try (specialize (NI _ _ N); discriminate NI).
    - injection M as ->. inversion R1 as [s3 s4 N1|s3 N1|s3 b s4 l o1 N1 R']; subst; rewrite N in N1; try discriminate N1. injection N1 as <- <-. exists it', l. split; auto. split; auto. split; auto.
      rewrite app_length. cbn [length] in *. unfold for_each_queue in C. lia.
    - injection M as ->. inversion R1 as [s3 s4 N1|s3 N1|s3 b s4 l o1 N1 R']; subst; rewrite N in N1; try discriminate N1. cbn [length] in L2. lia.
    - injection M as ->. inversion R1 as [s3 s4 N1|s3 N1|s3 b s4 l o1 N1 R']; subst; try (destruct N as [N|N]; rewrite N in N1; discriminate N1). cbn [length] in L2. lia.
    - exfalso. specialize (K _ N). rewrite (set_nth_same _ _ _ _ N) in K. discriminate K. }
  destruct G as (it' & ds' & M & _). split; [intros (M' & _)|intros M']; rewrite M in M'; discriminate M'.
Qed.
End ForEach.
