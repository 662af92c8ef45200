(** C60: exactly what the bounding box calculation computes, for every file. *)
From Coq Require Import ZArith List Bool Lia Strings.Byte Strings.String Reals Permutation.
From Verif Require Import Base BaseFacts Types Proto ProtoFacts Block BlockFacts FloatFacts FileFormat FileFacts Spec ModelSpec Model2 ModelFacts
  ParallelSpec Pool PoolFacts ParallelRead ParallelReadFacts PropParallelRead BoxSpec.
Import ListNotations.
Local Notation length := List.length.
Local Notation concat := List.concat.
Open Scope Z_scope.

Fixpoint lead (es : list element) : list element :=
  match es with ENode n :: r => ENode n :: lead r | _ => [] end.
Lemma lead_box es : forall acc, leading_box acc es = leading_box acc (lead es).
Proof. induction es as [|e es IH]; intros acc; cbn; auto. destruct e; cbn; auto. Qed.
Lemma lead_nodes es : Forall (fun e => is_node e = true) (lead es).
Proof. induction es as [|e es IH]; cbn; auto. destruct e; auto. Qed.
Lemma lead_incl es e : In e (lead es) -> In e es.
Proof. induction es as [|x es IH]; cbn; auto. destruct x; cbn; try tauto. Qed.
Lemma lead_spec b n : leads b n <-> In (ENode n) (lead (elements_of b)).
Proof.
  unfold leads. generalize (elements_of b). clear b. induction l as [|e l IH].
  - split; [|intros []]. intros (pre & post & E & _). destruct pre; discriminate.
  - split.
    + intros (pre & post & E & P). destruct pre as [|x pre]; cbn in E.
      * injection E as -> ->. cbn. auto.
      * injection E as -> ->. inversion P as [|? ? (n' & ->) P']; subst. cbn. right. apply IH. eauto.
    + destruct e as [n0| | |]; cbn; try tauto. intros [X|X].
      * injection X as ->. exists [], l. auto.
      * apply IH in X. destruct X as (pre & post & -> & P). exists (ENode n0 :: pre), post. split; auto. constructor; eauto.
Qed.
Lemma box_core tr blks s : Forall (fun b => Forall readable (elements_of b)) blks ->
  Permutation (map snd tr) (concat (map (fun b => match leading_box None (elements_of b) with Some x => [x] | None => [] end) blks)) ->
  effects bbox_merge_result tr None = Some s ->
  match calc_result s with
  | Ok b => (exists q, leading_at blks q) /\ leading_hull blks b
  | _ => forall q, ~ leading_at blks q
  end.
Proof.
  intros Rd P Ef.
  assert (Lead : forall b, In b blks -> match leading_box None (elements_of b) with
     | None => forall n, ~ leads b n
     | Some x => box_ok x /\ (exists n, leads b n) /\
        (forall n, leads b n -> in_box (n_coord n) x) /\
        (forall o, (forall n, leads b n -> in_box (n_coord n) o) -> box_le x o) end).
  { intros b I. rewrite Forall_forall in Rd. specialize (Rd b I). rewrite lead_box. set (ns := lead (elements_of b)).
    assert (E2 : Forall (fun e => is_node e = true) ns) by apply lead_nodes.
    assert (RN : Forall readable ns) by (rewrite Forall_forall in *; intros e Ie; apply Rd, lead_incl, Ie).
    pose proof (leading_spec ns ns [] None (eq_sym (app_nil_r ns)) E2 (Forall_nil _) RN Logic.I) as LS.
    assert (IN : forall n, leads b n <-> In (ENode n) ns) by (intros; apply lead_spec).
    destruct (leading_box None ns) as [x|].
    - cbn [app] in LS. destruct LS as (L1 & L2 & L3).
      assert (FM : forall q, In q (flat_map (fun e => match e with ENode n => [bb_from_point (n_coord n)] | _ => [] end) ns) <-> exists n, In (ENode n) ns /\ q = bb_from_point (n_coord n)).
      { intros q. rewrite in_flat_map. split.
        - intros (e & I1 & I2). destruct e as [n| | |]; try destruct I2. + exists n. auto. + destruct H.
        - intros (n & I1 & ->). exists (ENode n). split; auto. left; auto. }
      split; [exact L1|]. split.
      + destruct ns as [|e ns0] eqn:En.
        * exfalso. clear - L3 L1. cbn in L3.
          specialize (L3 (BBox (SpecFloat.S754_nan) (SpecFloat.S754_nan) (SpecFloat.S754_nan) (SpecFloat.S754_nan)) ltac:(intros ? [])).
          destruct L3 as (X & _). cbn in X. destruct (bb_left x); contradiction.
        * inversion E2; subst. destruct e as [n| | |]; try discriminate. exists n. rewrite IN. left; auto.
      + split.
        * intros n H. apply IN in H. apply (proj1 (point_in_le _ _)). apply L2, FM. eauto.
        * intros o K. apply L3. intros q Q. apply FM in Q. destruct Q as (n & Q & ->). apply (proj2 (point_in_le _ _)), K, IN, Q.
    - destruct LS as (_ & LE). intros n H. apply IN in H. rewrite LE in H. destruct H. }
  set (g := fun b => match leading_box None (elements_of b) with Some x => [x] | None => [] end) in *.
  assert (Img : forall x, In x (map snd tr) <-> exists b, In b blks /\ leading_box None (elements_of b) = Some x).
  { intros x. rewrite (Permutation_in' (eq_refl x) P). rewrite in_concat. split.
    - intros (l & I1 & I2). apply in_map_iff in I1. destruct I1 as (b & <- & I1). exists b. split; auto. unfold g in I2.
      destruct (leading_box None (elements_of b)); cbn in I2; [destruct I2 as [->|[]]; auto|destruct I2].
    - intros (b & I1 & I2). exists (g b). split; [apply in_map; auto|]. unfold g. rewrite I2. left; auto. }
  assert (FB : Forall box_ok (map snd tr)).
  { apply Forall_forall. intros x I. apply Img in I. destruct I as (b & I1 & I2). specialize (Lead b I1). rewrite I2 in Lead. tauto. }
  pose proof (bbox_effects tr FB _ Ef) as Res. destruct s as [r|]; cbn.
  - destruct Res as [NE (L1 & L2 & L3)]. split.
    + destruct tr as [|[w x] tr]; [congruence|]. destruct (proj1 (Img x) (or_introl eq_refl)) as (b & I1 & I2).
      specialize (Lead b I1). rewrite I2 in Lead. destruct Lead as (_ & (n & I3) & _). exists (n_coord n), b, n. auto.
    + split; [exact L1|]. split.
      * intros q (b & n & I1 & I2 & <-). specialize (Lead b I1). destruct (leading_box None (elements_of b)) as [x|] eqn:Lb; [|destruct (Lead n I2)].
        eapply in_box_le; [apply Lead; exact I2|]. apply L2, Img. eauto.
      * intros o K. apply L3. intros x I. apply Img in I. destruct I as (b & I1 & I2). specialize (Lead b I1). rewrite I2 in Lead.
        apply Lead. intros n Hn. apply K. exists b, n. auto.
  - subst tr. intros q (b & n & I1 & I2 & <-). specialize (Lead b I1). destruct (leading_box None (elements_of b)) as [x|] eqn:Lb; [|exact (Lead n I2)].
    exact (proj2 (Img x) (ex_intro _ b (conj I1 Lb))).
Qed.
Theorem C60_exact_bounding_box m c file tasks tr k p :
  calc_exec m c file tasks tr k p -> finished p ->
  exists blks, file_blocks m c file blks /\
    match calc_result (p_shared p) with
    | Ok b => (exists q, leading_at blks q) /\ leading_hull blks b
    | _ => forall q, ~ leading_at blks q
    end.
Proof.
  intros E F. destruct (finished_spec _ _ _ _ _ _ _ _ _ _ E F) as (ds & plans & owners & R & Pl & L & O & T & Sh & Ef).
  destruct (bbox_blocks _ _ _ _ _ Pl) as (blks & F2 & ->). exists blks. pose proof (blobs_blocks _ _ _ _ _ R _ F2) as B. split; [exact B|].
  eapply box_core; [eapply blocks_readable; exact B|exact (trace_is_all_actions _ _ _ _ L O T Sh)|exact Ef].
Qed.
(** the schedule does not matter: two runs on one file agree on whether there is a box, and on the box *)
Theorem C60_schedule_independent m c file tasks tasks' tr tr' k k' p p' :
  calc_exec m c file tasks tr k p -> finished p -> calc_exec m c file tasks' tr' k' p' -> finished p' ->
  match calc_result (p_shared p), calc_result (p_shared p') with
  | Ok a, Ok b => box_eq a b
  | Panic, Panic => True
  | _, _ => False
  end.
Proof.
  intros E F E' F'. destruct (C60_exact_bounding_box _ _ _ _ _ _ _ E F) as (blks & B & X).
  destruct (C60_exact_bounding_box _ _ _ _ _ _ _ E' F') as (blks' & B' & X').
  assert (blks' = blks) by (eapply run_det; eauto). subst blks'.
  unfold calc_result in *. destruct (p_shared p) as [a|], (p_shared p') as [b|]; cbn [unwrap] in *; auto.
  - destruct X as (_ & X1 & X2 & X3), X' as (_ & Y1 & Y2 & Y3). split; auto.
  - destruct X as ((q & Q) & _). destruct (X' q Q).
  - destruct X' as ((q & Q) & _). destruct (X q Q).
Qed.
