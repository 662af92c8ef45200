(** Properties of parallel reading: C23, C24, C25, C32, C33 (first half), C50. *)
From Coq Require Import ZArith List Bool Strings.Byte Strings.String Lia Permutation.
From Verif Require Import Base BaseFacts Types FileFormat FileFacts Pool ModelSpec ModelFacts.
From Verif Require Import ParallelSpec PoolFacts ParallelRead ParallelReadFacts.
Import ListNotations.
Open Scope Z_scope.
Local Notation length := List.length.
Local Notation concat := List.concat.

(** what a finished parallel_for_each has done, for every schedule *)
Lemma for_each_spec {S} m c file tasks (f : nat -> element -> S -> option S) s0 tr k p :
  for_each_exec m c file tasks f s0 tr k p -> finished p ->
  exists blks owners, file_blocks m c file blks /\ length owners = length blks /\
    Forall (fun w => (w < tasks)%nat) owners /\ Forall (fun x => (fst x < tasks)%nat) tr /\
    (forall w, by_worker w tr = share w owners (map calls_of blks)) /\
    Permutation (map snd tr) (concat (map calls_of blks)) /\ effects f tr s0 = Some (p_shared p).
Proof.
  intros E F. destruct (finished_spec _ _ _ _ _ _ _ _ _ _ E F) as (ds & plans & owners & R & Pl & L & O & T & Sh & Ef).
  destruct (calls_blocks _ _ _ _ _ Pl) as (blks & F2 & ->). rewrite map_length in L.
  exists blks, owners. split; [eapply blobs_blocks; eauto|]. split; [exact L|]. split; [exact O|]. split; [exact T|].
  split.
  { intros w. destruct (Nat.lt_ge_cases w tasks) as [H|H]; [apply Sh; auto|].
    rewrite (share_out tasks), (by_worker_out tasks); auto. }
  split; [|exact Ef]. eapply trace_is_all_actions; eauto. rewrite map_length. auto.
Qed.

(** C23: for every schedule of any number of workers, when parallel_for_each has finished, there is an
    assignment of the blocks to workers such that each worker has made exactly the calls promised for
    its blocks, block after block in file order; hence every element of the file is passed exactly
    once and Sentinel once per data block; and the elements are those of the sequential iterator *)
Theorem C23_exactly_once {S} m c file tasks (f : nat -> element -> S -> option S) s0 tr k p :
  for_each_exec m c file tasks f s0 tr k p -> finished p ->
  exists blks owners, file_blocks m c file blks /\ length owners = length blks /\
    (forall w, by_worker w tr = share w owners (map calls_of blks)) /\
    Permutation (map snd tr) (concat (map calls_of blks)) /\
    Forall (fun b => ~ In ESentinel (elements_of b)) blks /\
    (Forall (fun b => match b with FData _ _ => True | _ => False end) (tl blks) ->
       match blks with FHeader _ _ :: _ => True | _ => False end ->
       exists es, elements_run m c file es Ended /\ Permutation (filter (fun e => negb (is_sentinel e)) (map snd tr)) es).
Proof.
  intros E F. destruct (for_each_spec _ _ _ _ _ _ _ _ _ E F) as (blks & owners & B & L & O & T & Sh & P & Ef).
  exists blks, owners. split; [exact B|]. split; [exact L|]. split; [exact Sh|]. split; [exact P|].
  assert (NS : Forall (fun b => ~ In ESentinel (elements_of b)) blks).
  { eapply Forall_impl; [|eapply blocks_readable; exact B]. cbn. intros b H I. rewrite Forall_forall in H. exact (H _ I). }
  split; [exact NS|]. intros D HD. destruct blks as [|b0 blks]; [contradiction|]. destruct b0 as [i inf|]; [|contradiction]. cbn in D.
  exists (flat_map block_elements blks). split.
  { apply elements_run_blocks with (b0 := FHeader i inf); auto. }
  cbn in P. assert (Q : Permutation (filter (fun e => negb (is_sentinel e)) (map snd tr)) (filter (fun e => negb (is_sentinel e)) (concat (map calls_of blks)))).
  { clear - P. induction P; cbn; auto.
    - destruct (negb (is_sentinel x)); auto.
    - destruct (negb (is_sentinel x)), (negb (is_sentinel y)); auto; apply perm_swap.
    - etransitivity; eauto. }
  rewrite Q. clear - NS. inversion NS as [|? ? _ NS']; subst. clear NS. induction NS' as [|b blks H NS IH]; cbn; auto.
  rewrite filter_app, IH. apply Permutation_app_tail. destruct b as [j jf|j es]; cbn in *; auto.
  rewrite filter_app. cbn. rewrite app_nil_r. clear - H. induction es as [|e es IH]; cbn; auto.
  destruct e; cbn; try (constructor; apply IH; intros I; apply H; right; auto; fail). destruct H. left; auto.
Qed.

(** C50: parallel_for_each terminates under every schedule and cannot deadlock: no execution is longer
    than a bound depending on the file only, and as long as no call fails, an unfinished state has a
    next step *)
Theorem C50_terminates {S} m c file tasks (f : nat -> element -> S -> option S) s0 ds o :
  run (blob_next file) bit_new ds o -> (0 < tasks)%nat ->
  (exists bound, forall tr k p, for_each_exec m c file tasks f s0 tr k p -> (k <= bound)%nat) /\
  (forall tr k p, for_each_exec m c file tasks f s0 tr k p -> no_failure p ->
     finished p \/ exists a p', step (blob_next file) (iteration_calls m c file) f for_each_queue p a p').
Proof.
  intros R T. split.
  - eapply exec_bounded; eauto.
  - intros tr k p E NF. eapply progress; eauto. unfold for_each_queue. lia.
Qed.

Lemma count_core tr blks s : effects count_one tr (Counters 0 0 0) = Some s -> Permutation (map snd tr) (concat (map calls_of blks)) ->
  zlen (flat_map elements_of blks) <= max_i64 ->
  counted s = (number_of is_node (flat_map elements_of blks), number_of is_way (flat_map elements_of blks), number_of is_relation (flat_map elements_of blks)).
Proof.
  intros Ef P Lim.
  change (Counters 0 0 0) with (Counters (0 mod two64) (0 mod two64) (0 mod two64)) in Ef.
  apply count_effects in Ef. destruct Ef as (A1 & A2 & A3). rewrite (number_of_perm _ _ _ P) in A1; rewrite (number_of_perm _ _ _ P) in A2; rewrite (number_of_perm _ _ _ P) in A3.
  assert (N : forall Q, Q ESentinel = false -> number_of Q (concat (map calls_of blks)) = number_of Q (flat_map elements_of blks)).
  { intros Q HQ. clear - HQ. induction blks as [|b blks IH]; cbn; auto. rewrite !number_of_app, IH. f_equal.
    destruct b; cbn; auto. rewrite number_of_app, number_of_cons, HQ. unfold number_of at 2. cbn. change (zlen (@nil element)) with 0. lia. }
  rewrite !N in * by reflexivity.
  assert (W : forall Q, wrap64 ((0 + number_of Q (flat_map elements_of blks)) mod two64) = number_of Q (flat_map elements_of blks)).
  { intros Q. pose proof (number_of_nonneg Q (flat_map elements_of blks)) as NN.
    assert (number_of Q (flat_map elements_of blks) <= zlen (flat_map elements_of blks)).
    { unfold number_of, zlen. apply inj_le. generalize (flat_map elements_of blks). clear. induction l; cbn; auto. destruct (Q a); cbn; lia. }
    cbn [Z.add]. rewrite Z.mod_small by (unfold max_i64, two64 in *; lia). apply wrap64_id. unfold I64, min_i64, max_i64 in *. lia. }
  unfold counted. rewrite A1, A2, A3, !W. reflexivity.
Qed.
(** C24 *)
Theorem C24_count_objects m c file tasks tr k p :
  for_each_exec m c file tasks count_one (Counters 0 0 0) tr k p -> finished p ->
  exists blks, file_blocks m c file blks /\
    let es := flat_map elements_of blks in
    (zlen es <= max_i64 ->
     counted (p_shared p) = (number_of is_node es, number_of is_way es, number_of is_relation es)).
Proof.
  intros E F. destruct (for_each_spec _ _ _ _ _ _ _ _ _ E F) as (blks & owners & B & L & O & T & Sh & P & Ef).
  exists blks. split; [exact B|]. cbv zeta. intros Lim. eapply count_core; eauto.
Qed.

(** C25, for files in which the nodes of a block come before its other elements (all blocks this
    library writes): the result is the hull of the nodes, and there is none (a panic) only if there is
    no node *)
Theorem C25_hull_partial m c file tasks tr k p :
  calc_exec m c file tasks tr k p -> finished p ->
  exists blks, file_blocks m c file blks /\
    (Forall nodes_first blks ->
     match calc_result (p_shared p) with
     | Ok b => (exists q, node_at blks q) /\ hull blks b
     | _ => forall q, ~ node_at blks q
     end).
Proof.
  intros E F. destruct (finished_spec _ _ _ _ _ _ _ _ _ _ E F) as (ds & plans & owners & R & Pl & L & O & T & Sh & Ef).
  destruct (bbox_blocks _ _ _ _ _ Pl) as (blks & F2 & ->). exists blks. pose proof (blobs_blocks _ _ _ _ _ R _ F2) as B. split; [exact B|].
  intros NF. pose proof (blocks_readable _ _ _ _ _ _ B) as Rd.
  assert (P := trace_is_all_actions _ _ _ _ L O T Sh).
  assert (Lead : forall b, In b blks -> match leading_box None (elements_of b) with
     | None => forall n, ~ In (ENode n) (elements_of b)
     | Some x => box_ok x /\ (exists n, In (ENode n) (elements_of b)) /\
        (forall n, In (ENode n) (elements_of b) -> in_box (n_coord n) x) /\
        (forall o, (forall n, In (ENode n) (elements_of b) -> in_box (n_coord n) o) -> box_le x o) end).
  { intros b I. rewrite Forall_forall in NF, Rd. destruct (NF b I) as (ns & rest & E1 & E2 & E3).
    pose proof (leading_spec _ ns rest None E1 E2 E3 (Rd b I) Logic.I) as LS.
    assert (IN : forall n, In (ENode n) (elements_of b) <-> In (ENode n) ns).
    { intros n. rewrite E1, in_app_iff. split; auto. intros [X|X]; auto. rewrite Forall_forall in E3. specialize (E3 _ X). discriminate. }
    destruct (leading_box None (elements_of b)) as [x|].
    - cbn [app] in LS. destruct LS as (L1 & L2 & L3).
      assert (FM : forall q, In q (flat_map (fun e => match e with ENode n => [bb_from_point (n_coord n)] | _ => [] end) ns) <-> exists n, In (ENode n) ns /\ q = bb_from_point (n_coord n)).
      { intros q. rewrite in_flat_map. split.
        - intros (e & I1 & I2). destruct e as [n| | |]; try destruct I2. + exists n. auto. + destruct H.
        - intros (n & I1 & ->). exists (ENode n). split; auto. left; auto. }
      split; [exact L1|]. split.
      + destruct ns as [|e ns].
        * exfalso. cbn in E1. rewrite E1 in *. clear - L3 L1. cbn in L3.
          specialize (L3 (BBox (SpecFloat.S754_nan) (SpecFloat.S754_nan) (SpecFloat.S754_nan) (SpecFloat.S754_nan)) ltac:(intros ? [])).
          destruct L3 as (X & _). cbn in X. destruct (bb_left x); contradiction.
        * inversion E2; subst. destruct e as [n| | |]; try discriminate. exists n. rewrite IN. left; auto.
      + split.
        * intros n H. apply IN in H. apply (proj1 (point_in_le _ _)). apply L2, FM. eauto.
        * intros o K. apply L3. intros q Q. apply FM in Q. destruct Q as (n & Q & ->). apply (proj2 (point_in_le _ _)), K, IN, Q.
    - destruct LS as (_ & ->). intros n H. apply IN in H. destruct H. }
  set (g := fun b => match leading_box None (elements_of b) with Some x => [x] | None => [] end) in *.
  assert (Img : forall x, In x (map snd tr) <-> exists b, In b blks /\ leading_box None (elements_of b) = Some x).
  { intros x. rewrite (Permutation_in' (eq_refl x) P). rewrite in_concat. split.
    - intros (l & I1 & I2). apply in_map_iff in I1. destruct I1 as (b & <- & I1). exists b. split; auto. unfold g in I2.
      destruct (leading_box None (elements_of b)); cbn in I2; [destruct I2 as [->|[]]; auto|destruct I2].
    - intros (b & I1 & I2). exists (g b). split; [apply in_map; auto|]. unfold g. rewrite I2. left; auto. }
  assert (FB : Forall box_ok (map snd tr)).
  { apply Forall_forall. intros x I. apply Img in I. destruct I as (b & I1 & I2). specialize (Lead b I1). rewrite I2 in Lead. tauto. }
  pose proof (bbox_effects tr FB _ Ef) as Res. destruct (p_shared p) as [r|]; cbn.
  - destruct Res as [NE (L1 & L2 & L3)]. split.
    + destruct tr as [|[w x] tr]; [congruence|]. destruct (proj1 (Img x) (or_introl eq_refl)) as (b & I1 & I2).
      specialize (Lead b I1). rewrite I2 in Lead. destruct Lead as (_ & (n & I3) & _). exists (n_coord n), b, n. auto.
    + split; [exact L1|]. split.
      * intros q (b & n & I1 & I2 & <-). specialize (Lead b I1). destruct (leading_box None (elements_of b)) as [x|] eqn:Lb; [|destruct (Lead n I2)].
        eapply in_box_le; [apply Lead; exact I2|]. apply L2, Img. eauto.
      * intros o K. apply L3. intros x I. apply Img in I. destruct I as (b & I1 & I2). specialize (Lead b I1). rewrite I2 in Lead.
        apply Lead. intros n Hn. apply K. exists b, n. auto.
  - subst tr. intros q (b & n & I1 & I2 & <-). specialize (Lead b I1). destruct (leading_box None (elements_of b)) as [x|] eqn:Lb; [|exact (Lead n I2)].
    exact (proj2 (Img x) (ex_intro _ b (conj I1 Lb))).
Qed.

(** *** C32 *)
Definition op_event (o : tl_op) : nat * bytes * option element :=
  match o with TAdd t id e => (t, id, Some e) | TElements t id => (t, id, None) end.
Lemma tl_set_get s t id l t' id' : tl_set s t id l t' id' = if Nat.eqb t' t && bytes_eqb id' id then Some l else s t' id'.
Proof. reflexivity. Qed.
Lemma key_sym t t' id id' : Nat.eqb t' t && bytes_eqb id' id = Nat.eqb t t' && bytes_eqb id id'.
Proof.
  rewrite Nat.eqb_sym. f_equal. destruct (bytes_eqb id id') eqn:A.
  - apply bytes_eqb_eq in A. subst. apply bytes_eqb_eq. reflexivity.
  - destruct (bytes_eqb id' id) eqn:B; auto. apply bytes_eqb_eq in B. subst. assert (bytes_eqb id id = true) by (apply bytes_eqb_eq; reflexivity). congruence.
Qed.
Lemma tl_run_app s a b : tl_run s (a ++ b) =
  let '(s1, l1) := tl_run s a in let '(s2, l2) := tl_run s1 b in (s2, l1 ++ l2).
Proof.
  revert s. induction a as [|[t id e|t id] a IH]; intros s; cbn.
  - destruct (tl_run s b); reflexivity.
  - apply IH.
  - destruct (tl_elements s t id) as [l s']. rewrite IH. destruct (tl_run s' a) as [s1 l1]. destruct (tl_run s1 b). reflexivity.
Qed.
Lemma tl_content ops t id :
  match fst (tl_run tl_init ops) t id with Some l => l | None => [] end = added_since t id (map op_event (rev ops)).
Proof.
  induction ops as [|o ops IH] using rev_ind; [reflexivity|].
  rewrite tl_run_app, rev_app_distr. destruct (tl_run tl_init ops) as [s ls] eqn:R. cbn [fst] in IH. cbn [app rev map].
  destruct o as [t' id' e|t' id']; cbn [op_event added_since tl_run fst].
  - unfold tl_add. destruct (s t' id') as [acc|] eqn:G; cbn [fst]; rewrite tl_set_get, key_sym;
      (destruct (Nat.eqb t' t && bytes_eqb id' id) eqn:K; [|exact IH]);
      apply andb_true_iff in K; destruct K as [K1 K2]; apply Nat.eqb_eq in K1; apply bytes_eqb_eq in K2; subst; rewrite <- IH, G; reflexivity.
  - unfold tl_elements. destruct (s t' id') as [acc|] eqn:G; cbn [fst].
    + rewrite tl_set_get, key_sym. destruct (Nat.eqb t' t && bytes_eqb id' id); [reflexivity|exact IH].
    + destruct (Nat.eqb t' t && bytes_eqb id' id) eqn:K; [|exact IH].
      apply andb_true_iff in K; destruct K as [K1 K2]; apply Nat.eqb_eq in K1; apply bytes_eqb_eq in K2; subst. rewrite G. reflexivity.
Qed.

(** C32: whatever history of [add] and [elements] calls by any threads on any accumulators precedes it,
    [elements] by thread t on accumulator id returns what t has added to id since its previous call,
    in order; [len] counts it; afterwards it is empty and nobody else's accumulator has changed *)
Theorem C32_accumulator history t id :
  let s := fst (tl_run tl_init history) in
  let mine := added_since t id (map op_event (rev history)) in
  fst (tl_elements s t id) = mine /\ tl_len s t id = zlen mine /\
  snd (tl_run tl_init (history ++ [TElements t id])) = snd (tl_run tl_init history) ++ [mine] /\
  (let s' := snd (tl_elements s t id) in
   fst (tl_elements s' t id) = [] /\ tl_len s' t id = 0 /\
   forall t' id', (t', id') <> (t, id) ->
     fst (tl_elements s' t' id') = added_since t' id' (map op_event (rev history))).
Proof.
  cbv zeta. assert (D : forall s t id, fst (tl_elements s t id) = match s t id with Some l => l | None => [] end)
    by (intros s t0 id0; unfold tl_elements; destruct (s t0 id0); reflexivity).
  assert (N : forall s t id, tl_len s t id = zlen (match s t id with Some l => l | None => [] end))
    by (intros s t0 id0; unfold tl_len; destruct (s t0 id0); reflexivity).
  assert (A : forall s t id, match snd (tl_elements s t id) t id with Some l => l | None => [] end = []).
  { intros s t0 id0. unfold tl_elements. destruct (s t0 id0) eqn:G; cbn [snd]; [|rewrite G; reflexivity].
    rewrite tl_set_get, Nat.eqb_refl. assert (bytes_eqb id0 id0 = true) as -> by (apply bytes_eqb_eq; reflexivity). reflexivity. }
  split; [|split; [|split; [|split; [|split]]]].
  - rewrite D. apply tl_content.
  - rewrite N, tl_content. reflexivity.
  - rewrite tl_run_app. pose proof (tl_content history t id) as C. pose proof (D (fst (tl_run tl_init history)) t id) as D'.
    destruct (tl_run tl_init history) as [s ls]. cbn [tl_run fst snd] in *. destruct (tl_elements s t id) as [l s']. cbn [snd fst] in *. congruence.
  - rewrite D. apply A.
  - rewrite N, A. reflexivity.
  - intros t' id' NE. rewrite D. rewrite <- tl_content. unfold tl_elements at 1.
    destruct (fst (tl_run tl_init history) t id); cbn [snd]; [|reflexivity]. rewrite tl_set_get.
    destruct (Nat.eqb t' t && bytes_eqb id' id) eqn:K; [|reflexivity].
    apply andb_true_iff in K; destruct K as [K1 K2]; apply Nat.eqb_eq in K1; apply bytes_eqb_eq in K2; subst. congruence.
Qed.

(** *** C33, first half: what the filter pipeline hands to the writer *)
Fixpoint scan (keep : element -> bool) (acc : list element) (l : list element) : list (list element) * list element :=
  match l with
  | [] => ([], acc)
  | ESentinel :: r => let '(c, p) := scan keep [] r in (acc :: c, p)
  | e :: r => scan keep (if keep e then acc ++ [e] else acc) r
  end.
Lemma scan_app keep a : forall acc b, scan keep acc (a ++ b) =
  let '(c1, p1) := scan keep acc a in let '(c2, p2) := scan keep p1 b in (c1 ++ c2, p2).
Proof.
  induction a as [|e a IH]; intros acc b; cbn [app scan].
  - destruct (scan keep acc b); reflexivity.
  - destruct e; try apply IH. rewrite IH. destruct (scan keep [] a) as [c1 p1]. destruct (scan keep p1 b). reflexivity.
Qed.
Lemma scan_block keep es : ~ In ESentinel es -> forall acc, scan keep acc (es ++ [ESentinel]) = ([acc ++ filter keep es], []).
Proof.
  induction es as [|e es IH]; intros H acc; cbn [app scan].
  - rewrite app_nil_r. reflexivity.
  - destruct e; try (rewrite IH by (intros X; apply H; right; auto); cbn [filter]; destruct (keep _); rewrite <- ?app_assoc; reflexivity).
    destruct H. left. reflexivity.
Qed.
Lemma scan_share keep w blks : Forall (fun b => ~ In ESentinel (elements_of b)) blks -> forall owners,
  scan keep [] (share w owners (map calls_of blks)) = (share w owners (map (kept_batch keep) blks), []).
Proof.
  induction 1 as [|b blks H F IH]; intros [|o owners]; try reflexivity. unfold share in *. cbn [map combine filter fst].
  destruct (Nat.eqb o w); [|apply IH]. cbn [map snd List.concat]. rewrite scan_app.
  destruct b as [i inf|i es]; cbn [calls_of kept_batch app scan].
  - rewrite IH. reflexivity.
  - rewrite scan_block by exact H. rewrite IH. reflexivity.
Qed.
Lemma by_worker_snoc {X} w (tr : list (nat * X)) v a : by_worker w (tr ++ [(v, a)]) = by_worker w tr ++ (if Nat.eqb v w then [a] else []).
Proof. rewrite by_worker_app. f_equal. unfold by_worker. cbn. destruct (Nat.eqb v w); reflexivity. Qed.
Definition tl_get (s : tl_state) t id : list element := match s t id with Some l => l | None => [] end.
Lemma tl_elements_spec s t id : fst (tl_elements s t id) = tl_get s t id /\
  forall t', tl_get (snd (tl_elements s t id)) t' id = if Nat.eqb t t' then [] else tl_get s t' id.
Proof.
  unfold tl_elements, tl_get. split; [destruct (s t id); reflexivity|]. intros t'. destruct (s t id) eqn:G; cbn [snd].
  - unfold tl_set. rewrite bytes_eqb_refl, andb_true_r, Nat.eqb_sym. destruct (Nat.eqb t t'); reflexivity.
  - destruct (Nat.eqb_spec t t'); [subst; rewrite G|]; reflexivity.
Qed.
Lemma tl_add_spec s t id e t' : tl_get (tl_add s t id e) t' id = tl_get s t' id ++ (if Nat.eqb t t' then [e] else []).
Proof.
  unfold tl_add, tl_get. destruct (s t id) eqn:G; unfold tl_set; rewrite bytes_eqb_refl, andb_true_r, Nat.eqb_sym;
    (destruct (Nat.eqb_spec t t'); [subst; rewrite G; reflexivity|rewrite app_nil_r; reflexivity]).
Qed.
Lemma pipeline_effects keep id n tl0 tr : (forall w, tl_get tl0 w id = []) -> Forall (fun x => (fst x < n)%nat) tr ->
  exists tl tagged, effects (pipeline_call keep id) tr (tl0, []) = Some (tl, map snd tagged) /\
    Forall (fun x => (fst x < n)%nat) tagged /\
    forall w, scan keep [] (by_worker w tr) = (by_worker w tagged, tl_get tl w id).
Proof.
  intros Z. induction tr as [|[v e] tr IH] using rev_ind; intros F.
  - exists tl0, []. split; [reflexivity|]. split; [constructor|]. intros w. cbn. rewrite Z. reflexivity.
  - apply Forall_app in F. destruct F as [F1 F2]. destruct (IH F1) as (tl & tagged & E & T & S). rewrite effects_app, E. cbn [effects pipeline_call].
    assert (Keep : e <> ESentinel -> exists tl' tagged', Some (if keep e then (tl_add tl v id e, map snd tagged) else (tl, map snd tagged)) = Some (tl', map snd tagged') /\
       Forall (fun x => (fst x < n)%nat) tagged' /\ forall w, scan keep [] (by_worker w (tr ++ [(v, e)])) = (by_worker w tagged', tl_get tl' w id)).
    { intros NE. exists (if keep e then tl_add tl v id e else tl), tagged. split; [destruct (keep e); reflexivity|]. split; [exact T|].
      intros w. rewrite by_worker_snoc, scan_app, S.
      assert (X : scan keep (tl_get tl w id) (if Nat.eqb v w then [e] else []) = ([], tl_get (if keep e then tl_add tl v id e else tl) w id)).
      { destruct (Nat.eqb v w) eqn:K.
        - destruct e; try contradiction; cbn [scan]; destruct (keep _); rewrite ?tl_add_spec, ?K; try reflexivity.
        - cbn [scan]. destruct (keep e); rewrite ?tl_add_spec, ?K, ?app_nil_r; reflexivity. }
      rewrite X, app_nil_r. reflexivity. }
    destruct e as [x|x|x|]; try (apply Keep; discriminate). clear Keep.
    destruct (tl_elements_spec tl v id) as [G1 G2]. destruct (tl_elements tl v id) as [l tl'] eqn:TE. cbn [fst snd] in *.
    exists tl', (tagged ++ [(v, l)]). split; [rewrite map_app; reflexivity|]. split.
    + apply Forall_app. split; auto. inversion F2; subst. constructor; auto.
    + intros w. rewrite !by_worker_snoc, scan_app, S, G2. destruct (Nat.eqb v w) eqn:K; cbn [scan].
      * apply Nat.eqb_eq in K. subst. reflexivity.
      * reflexivity.
Qed.

Lemma batches_core tasks keep id tr owners blks s : Forall (fun b => ~ In ESentinel (elements_of b)) blks -> length owners = length blks ->
  Forall (fun w => (w < tasks)%nat) owners -> Forall (fun x => (fst x < tasks)%nat) tr -> (forall w, by_worker w tr = share w owners (map calls_of blks)) ->
  effects (pipeline_call keep id) tr (tl_init, []) = Some s ->
  Permutation (snd s) (flat_map (kept_batch keep) blks) /\ Permutation (concat (snd s)) (filter keep (flat_map elements_of blks)) /\ (forall w, tl_len (fst s) w id = 0).
Proof.
  intros NS L O T Sh Ef.
  destruct (pipeline_effects keep id tasks tl_init tr) as (tl & tagged & Ef' & Tg & Sc); [reflexivity|exact T|].
  rewrite Ef' in Ef. injection Ef as Ef.
  assert (SS : forall w, by_worker w tagged = share w owners (map (kept_batch keep) blks) /\ tl_get tl w id = []).
  { intros w. specialize (Sc w). rewrite Sh, scan_share in Sc by exact NS. injection Sc as S1 S2. auto. }
  rewrite <- Ef. cbn [fst snd].
  assert (PB : Permutation (map snd tagged) (flat_map (kept_batch keep) blks)).
  { rewrite flat_map_concat_map. eapply trace_is_all_actions with (owners := owners); eauto; [rewrite map_length; exact L|]. intros w _. apply SS. }
  split; [exact PB|]. split.
  - assert (C : forall a b : list (list element), Permutation a b -> Permutation (concat a) (concat b)).
    { induction 1; cbn; auto; [apply Permutation_app_head; auto| |etransitivity; eauto].
      rewrite !app_assoc. apply Permutation_app_tail, Permutation_app_comm. }
    rewrite (C _ _ PB). clear. induction blks as [|b blks IH]; cbn; auto. rewrite concat_app, filter_app, IH.
    destruct b; cbn; rewrite ?app_nil_r; reflexivity.
  - intros w. unfold tl_len. destruct (SS w) as [_ G]. unfold tl_get in G. destruct (tl w id); [subst|]; reflexivity.
Qed.
(** C33 (what reaches the writer): for every filter, number of workers and schedule, when
    parallel_for_each has finished, the batches handed to write_elements are, in some order, one per
    data block of the file: the elements of that block that pass the filter, in file order; nothing is left
    in the accumulators *)
Theorem C33_pipeline_batches m c file tasks keep id tr k p :
  for_each_exec m c file tasks (pipeline_call keep id) (tl_init, []) tr k p -> finished p ->
  exists blks, file_blocks m c file blks /\
    Permutation (snd (p_shared p)) (flat_map (kept_batch keep) blks) /\
    Permutation (concat (snd (p_shared p))) (filter keep (flat_map elements_of blks)) /\
    (forall w, tl_len (fst (p_shared p)) w id = 0).
Proof.
  intros E F. destruct (for_each_spec _ _ _ _ _ _ _ _ _ E F) as (blks & owners & B & L & O & T & Sh & P & Ef).
  exists blks. split; [exact B|].
  assert (NS : Forall (fun b => ~ In ESentinel (elements_of b)) blks).
  { eapply Forall_impl; [|eapply blocks_readable; exact B]. cbn. intros b H I. rewrite Forall_forall in H. exact (H _ I). }
  eapply batches_core; eauto.
Qed.
