(** C94: counts, bounding boxes and parallel copies of damaged files. *)
From Coq Require Import ZArith List Bool Strings.Byte Strings.String Lia Permutation.
From Verif Require Import Base BaseFacts Types FileFormat FileFacts Pool ModelSpec ModelFacts.
From Verif Require Import ParallelSpec PoolFacts ParallelRead ParallelReadFacts PropParallelRead BoxSpec PropBox FailPool FailSpec PropFails ReadFails PropReadFails DamagedParallel DamagedSpec.
Import ListNotations.
Open Scope nat_scope.
Local Notation length := List.length.
Local Notation concat := List.concat.

Section Facts.
  Context {It J A S : Type}.
  Variable next : It -> res (option J * It).
  Variable plan : J -> option (list A).
  Variable act : nat -> A -> S -> option S.
  Variable cap : nat.
  Hypothesis total : forall w a s, act w a s <> None.
  Notation pool := (@pool It J A S).
  Lemma fexec_effects p tr k p' : fexec next plan (never_fails act) cap p tr k p' -> effects act tr (p_shared p) = Some (p_shared p').
  Proof.
    induction 1 as [p|p tr k p1 o p2 E IH H]; [reflexivity|].
    destruct H as [it j it' q ws s N C|it it' q ws s N|it q ws s N|mn j q w ws s l N P|mn j q w ws s N P|mn q w ws s a l s' N Ac|mn q w ws s a l s' N Ac|mn q w ws s N|w ws s N|mn q w ws s N];
      cbn [p_shared] in *; rewrite ?app_nil_r; auto; rewrite effects_app, IH; cbn [effects]; unfold never_fails in Ac; destruct (act w a s) as [s1|] eqn:X; try (destruct (total _ _ _ X)); try discriminate Ac; injection Ac as ->; reflexivity.
  Qed.
  Definition plan_of (j : J) : list A := match plan j with Some l => l | None => [] end.
  Lemma joined_spec it0 n s0 tr k p : fexec next plan (never_fails act) cap (pool_new it0 n s0) tr k p -> joined p ->
    exists jobs owners, run next it0 jobs Ended /\ length owners = length jobs /\ Forall (fun w => (w < n)%nat) owners /\
      Forall (fun x => (fst x < n)%nat) tr /\ (forall w, by_worker w tr = share w owners (map plan_of jobs)) /\
      effects act tr s0 = Some (p_shared p).
  Proof.
    intros E (M & Q & W). destruct (fexec_inv _ _ _ _ _ _ _ _ _ _ E) as [js Sub Own N Tr Mi Wk]. rewrite M, Q, app_nil_r in Sub. cbn in Sub.
    exists (map jb js), (map ow js). split; [exact Sub|]. split; [rewrite !map_length; reflexivity|]. split; [apply Forall_map; exact Own|]. split; [exact Tr|].
    split; [|exact (fexec_effects _ _ _ _ E)]. intros w. rewrite Mi, <- share_mine. f_equal. rewrite map_map. apply map_ext_in. intros x I.
    rewrite Forall_forall in Own, W. specialize (Own x I). destruct (nth_error (p_workers p) (ow x)) as [ws|] eqn:Ew; [|apply nth_error_None in Ew; lia]. pose proof (Wk _ _ Ew) as G. specialize (W ws (nth_error_In _ _ Ew)).
    assert (ST : settled plan (never_fails act) x) by (destruct W; subst; cbn in G; rewrite Forall_forall in G; apply G; auto).
    unfold plan_of. destruct ST as [->|[(-> & ->)|(b & a & r & s & _ & _ & F)]]; auto. unfold never_fails in F. destruct (act (ow x) a s) eqn:X; [discriminate F|destruct (total _ _ _ X)].
  Qed.
End Facts.

(** the jobs without those that make no calls *)
Lemma share_skip {J A} (plan : J -> list A) (sel : J -> bool) : (forall j, sel j = false -> plan j = []) -> forall n js owners, length owners = length js -> Forall (fun w => w < n) owners ->
  exists owners', length owners' = length (filter sel js) /\ Forall (fun w => w < n) owners' /\ forall w, share w owners (map plan js) = share w owners' (map plan (filter sel js)).
Proof.
  intros H n. induction js as [|j js IH]; intros [|o owners] L O; try discriminate L.
  - exists []. auto.
  - cbn [length] in L. injection L as L. inversion O as [|? ? O1 O2]; subst. destruct (IH _ L O2) as (ow & L' & O' & Sh). cbn [filter]. destruct (sel j) eqn:Sj.
    + exists (o :: ow). cbn [length]. split; [lia|]. split; [constructor; auto|]. intros w. specialize (Sh w). unfold share in *. cbn. destruct (Nat.eqb o w); cbn; rewrite Sh; reflexivity.
    + exists ow. split; auto. split; auto. intros w. rewrite <- Sh. unfold share. cbn. rewrite (H _ Sj). destruct (Nat.eqb o w); reflexivity.
Qed.

Section Damaged.
Variables (m : mode) (c : codec) (file : bytes) (strikes : bit -> fault) (unreadable : blob_desc -> bool) (tasks : nat).
Definition can (d : blob_desc) : bool := negb (unreadable d) && match from_blob_desc m c file d with Ok _ => true | _ => false end.
Lemma obtained_readable ds : Forall (fun b => Forall readable (elements_of b)) (obtained m c file unreadable ds).
Proof.
  induction ds as [|d ds IH]; [constructor|]. cbn [obtained]. destruct (unreadable d); auto. destruct (from_blob_desc m c file d) as [[i inf|i es]| |] eqn:E; auto; constructor; auto; cbn [elements_of]; [constructor|].
  eapply desc_readable; eauto.
Qed.
Lemma obtained_plans {A} (g : fblock -> list A) (plan : blob_desc -> list A) ds : (forall d b, unreadable d = false -> from_blob_desc m c file d = Ok b -> plan d = g b) ->
  map plan (filter can ds) = map g (obtained m c file unreadable ds).
Proof.
  intros H. induction ds as [|d ds IH]; auto. cbn [filter obtained]. unfold can at 1. destruct (unreadable d) eqn:U; cbn [negb andb]; auto.
  destruct (from_blob_desc m c file d) as [b| |] eqn:E; auto. cbn [map]. rewrite IH, (H _ _ U E). reflexivity.
Qed.
Lemma no_strike l o : (forall s, strikes s = NoFault) -> forall s, run (fun s => blob_next_with (strikes s) file s) s l o -> run (blob_next file) s l o.
Proof.
  intros NF s R. induction R as [s s' E|s E|s a s' l o E R IH]; cbv beta in E; rewrite NF in E; cbn [blob_next_with] in E; [eapply run_end; eauto|eapply run_panic; eauto|eapply run_step; eauto].
Qed.
(** what the calls were *)
Lemma damaged_spec {A S} (act : nat -> A -> S -> option S) (plan : blob_desc -> option (list A)) (g : fblock -> list A) cap s0 ds0 o0 tr k p :
  (forall w a s, act w a s <> None) -> (forall d, match from_blob_desc m c file d with Ok b => plan d = Some (g b) | _ => plan d = None end) ->
  run (blob_next file) bit_new ds0 o0 ->
  fexec (fun s => blob_next_with (strikes s) file s) (fun d => if unreadable d then None else plan d) (never_fails act) cap (pool_new bit_new tasks s0) tr k p -> joined p ->
  exists ds rest owners, ds0 = ds ++ rest /\ ((forall s, strikes s = NoFault) -> rest = [] /\ o0 = Ended) /\
    length owners = length (obtained m c file unreadable ds) /\ Forall (fun w => w < tasks) owners /\ Forall (fun x => fst x < tasks) tr /\
    (forall w, by_worker w tr = share w owners (map g (obtained m c file unreadable ds))) /\
    Permutation (map snd tr) (concat (map g (obtained m c file unreadable ds))) /\ effects act tr s0 = Some (p_shared p).
Proof.
  intros T G R0 E Jn. destruct (joined_spec _ _ _ _ T _ _ _ _ _ _ E Jn) as (ds & owners & R & L & O & Tr & Sh & Ef).
  destruct (blobs_cut _ _ _ _ _ R _ _ R0) as (rest & ->). set (plan' := plan_of (fun d => if unreadable d then None else plan d)) in *.
  assert (NC : forall d, can d = false -> plan' d = []).
  { intros d H. unfold plan', plan_of, can in *. destruct (unreadable d); auto. specialize (G d). destruct (from_blob_desc m c file d); [discriminate H|rewrite G; reflexivity|rewrite G; reflexivity]. }
  destruct (share_skip plan' can NC tasks ds owners L O) as (ow & L' & O' & Sh').
  assert (OP : map plan' (filter can ds) = map g (obtained m c file unreadable ds)).
  { apply obtained_plans. intros d b U F. unfold plan', plan_of. rewrite U. specialize (G d). rewrite F in G. rewrite G. reflexivity. }
  assert (L2 : length ow = length (obtained m c file unreadable ds)) by (apply (f_equal (@length _)) in OP; rewrite !map_length in OP; rewrite <- OP; exact L').
  assert (Sh2 : forall w, by_worker w tr = share w ow (map g (obtained m c file unreadable ds))) by (intros w; rewrite Sh, Sh', OP; reflexivity).
  exists ds, rest, ow. split; auto. split.
  - intros NF. pose proof (no_strike _ _ NF _ R) as R1. destruct (run_det _ _ _ _ _ _ R1 R0) as (X & <-). split; auto. apply (f_equal (@length _)) in X. rewrite app_length in X. destruct rest; auto. cbn in X. lia.
  - split; auto. split; auto. split; auto. split; auto. split; auto. eapply trace_is_all_actions with (owners := ow); eauto. rewrite map_length. exact L2.
Qed.
End Damaged.

Open Scope Z_scope.
(** C94: whatever errors the disk reports and whichever blobs cannot be decoded: when count_objects comes to its end, the numbers are those of the elements in
    the blobs that could be had, of a beginning [ds] of the blobs of the file; of all blobs if the search for blobs met no error *)
Theorem C94_counts m c file strikes unreadable tasks ds0 o0 tr k p : run (blob_next file) bit_new ds0 o0 ->
  count_reads m c file strikes unreadable tasks tr k p -> joined p ->
  exists ds rest, ds0 = ds ++ rest /\ ((forall s, strikes s = NoFault) -> rest = [] /\ o0 = Ended) /\
    let es := flat_map elements_of (obtained m c file unreadable ds) in
    (zlen es <= max_i64 -> counted (p_shared p) = (number_of is_node es, number_of is_way es, number_of is_relation es)).
Proof.
  intros R0 E Jn. unfold count_reads, reads_exec in E.
  destruct (damaged_spec m c file strikes unreadable tasks count_one (iteration_calls m c file) calls_of _ _ _ _ _ _ _ ltac:(intros w a s; destruct a; discriminate) (iteration_calls_of m c file) R0 E Jn)
    as (ds & rest & owners & -> & NF & L & O & T & Sh & P & Ef).
  exists ds, rest. split; auto. split; auto. cbv zeta. intros Lim. eapply count_core; eauto.
Qed.
(** C94: the same for the bounding box: the least box around the leading nodes of the blobs that could be had; a panic exactly if there is none *)
Theorem C94_bounding_box m c file strikes unreadable tasks ds0 o0 tr k p : run (blob_next file) bit_new ds0 o0 ->
  calc_reads m c file strikes unreadable tasks tr k p -> joined p ->
  exists ds rest, ds0 = ds ++ rest /\ ((forall s, strikes s = NoFault) -> rest = [] /\ o0 = Ended) /\
    let blks := obtained m c file unreadable ds in
    match calc_result (p_shared p) with
    | Ok b => (exists q, leading_at blks q) /\ leading_hull blks b
    | _ => forall q, ~ leading_at blks q
    end.
Proof.
  intros R0 E Jn. unfold calc_reads in E.
  assert (G : forall d, match from_blob_desc m c file d with Ok b => bbox_calls m c file d = Some (match leading_box None (elements_of b) with Some x => [x] | None => [] end) | _ => bbox_calls m c file d = None end).
  { intros d. unfold bbox_calls. destruct (from_blob_desc m c file d) as [[i inf|i es]| |]; reflexivity. }
  destruct (damaged_spec m c file strikes unreadable tasks bbox_merge_result _ _ _ _ _ _ _ _ _ ltac:(intros w a s; discriminate) G R0 E Jn)
    as (ds & rest & owners & -> & NF & L & O & T & Sh & P & Ef).
  exists ds, rest. split; auto. split; auto. cbv zeta. eapply box_core; eauto. apply obtained_readable.
Qed.
(** C94: the same for the copying program: one batch for each block that could be had, the elements that pass the filter in their order, and nothing else *)
Theorem C94_copy m c file strikes unreadable tasks keep id ds0 o0 tr k p : run (blob_next file) bit_new ds0 o0 ->
  copy_reads m c file strikes unreadable tasks keep id tr k p -> joined p ->
  exists ds rest, ds0 = ds ++ rest /\ ((forall s, strikes s = NoFault) -> rest = [] /\ o0 = Ended) /\
    let blks := obtained m c file unreadable ds in
    Permutation (snd (p_shared p)) (flat_map (kept_batch keep) blks) /\
    Permutation (concat (snd (p_shared p))) (filter keep (flat_map elements_of blks)).
Proof.
  intros R0 E Jn. unfold copy_reads, reads_exec in E.
  assert (T : forall w a s, pipeline_call keep id w a s <> None) by (intros w a (tl & bs); discriminate).
  destruct (damaged_spec m c file strikes unreadable tasks (pipeline_call keep id) (iteration_calls m c file) calls_of _ _ _ _ _ _ _ T (iteration_calls_of m c file) R0 E Jn)
    as (ds & rest & owners & -> & NF & L & O & Tr & Sh & P & Ef).
  exists ds, rest. split; auto. split; auto. cbv zeta.
  assert (NS : Forall (fun b => ~ In ESentinel (elements_of b)) (obtained m c file unreadable ds)).
  { eapply Forall_impl; [|apply obtained_readable]. cbn. intros b H I. rewrite Forall_forall in H. exact (H _ I). }
  destruct (batches_core tasks keep id tr owners _ _ NS L O Tr Sh Ef) as (A & B & _). auto.
Qed.
