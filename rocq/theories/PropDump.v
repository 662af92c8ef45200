(** Properties of the dump reader that need no particular dump: shape of the stream, table of contents,
    coordinates; and the joins when the foreign keys hold. *)
From Coq Require Import ZArith List Bool Strings.Byte Strings.String Lia Permutation Reals.
From Verif Require Import Base BaseFacts Types Block FloatFacts ApidbText ApidbSpec ApidbTextFacts DumpSpec ApidbWrite ApidbWriteFacts ApidbRead DumpReadSpec FileFormat
  ApidbReadFacts TocFacts JoinFacts ReaderFacts PropApidbRead.
Import ListNotations.
Local Notation length := List.length.
Local Notation concat := List.concat.
Open Scope Z_scope.

(** ** C39 *)
Section Read.
Variables (unescape : bytes -> option bytes) (sort_file : list (nat * ftype) -> bytes -> res bytes).
Hypothesis SORTS : sorts sort_file.

Lemma no_orphan {R} (key : R -> Z * Z) rs objects own k l : incl (map key rs) objects -> until_orphan key rs objects own k l -> own rs k l.
Proof. intros I (_ & H). apply H. intros (r & A & B & _). apply B, I, in_map; auto. Qed.
Lemma Forall2_weaken {A B} (P Q : A -> B -> Prop) l m : (forall a b, P a b -> Q a b) -> Forall2 P l m -> Forall2 Q l m.
Proof. intros H F. induction F; constructor; auto. Qed.

(** C39: with the keys in order every version comes exactly once, by id and version, with exactly its own
    tags, nodes (by sequence number) and members. *)
Theorem C39_own_rows dir d : dump_in unescape dir d -> primary_keys d -> foreign_keys d -> resolved d ->
  exists rd k s nodes ways relations,
    ApidbRead.reader_new sort_file dir = Ok rd /\ ApidbRead.elements unescape rd = Ok (k, s) /\
    run (element_next k) s (nodes ++ [ESentinel] ++ ways ++ [ESentinel] ++ relations ++ [ESentinel]) Ended /\
    (exists rs, Permutation rs (d_nodes d) /\ ordered (fun a b => key_lt (node_key a) (node_key b)) rs /\
       Forall2 (node_element d (own_tags (d_node_tags d))) rs nodes) /\
    (exists rs, Permutation rs (d_ways d) /\ ordered (fun a b => key_lt (obj_key a) (obj_key b)) rs /\
       Forall2 (way_element d (own_nodes (d_way_nodes d)) (own_tags (d_way_tags d))) rs ways) /\
    (exists rs, Permutation rs (d_relations d) /\ ordered (fun a b => key_lt (obj_key a) (obj_key b)) rs /\
       Forall2 (relation_element d (own_members (d_members d)) (own_tags (d_relation_tags d))) rs relations).
Proof.
  intros D P (F1 & F2 & F3 & F4 & F5) R. destruct (C40_every_object_partial unescape sort_file SORTS dir d D P R) as (rd & k & s & ns & ws & rs & A & B & C & (l1 & P1 & O1 & E1) & (l2 & P2 & O2 & E2) & (l3 & P3 & O3 & E3)).
  exists rd, k, s, ns, ws, rs. sconj; auto.
  - exists l1. sconj; auto. eapply Forall2_weaken; [|exact E1]. intros r e (uid & name & ts & H1 & H2 & H3). exists uid, name, ts. sconj; auto.
    eapply no_orphan; [|exact H2]; auto.
  - exists l2. sconj; auto. eapply Forall2_weaken; [|exact E2]. intros r e (uid & name & xs & ts & H1 & H2 & H3 & H4). exists uid, name, xs, ts. sconj; auto.
    + eapply no_orphan; [|exact H2]; auto.
    + eapply no_orphan; [|exact H3]; auto.
  - exists l3. sconj; auto. eapply Forall2_weaken; [|exact E3]. intros r e (uid & name & xs & ts & H1 & H2 & H3 & H4). exists uid, name, xs, ts. sconj; auto.
    + eapply no_orphan; [|exact H2]; auto.
    + eapply no_orphan; [|exact H3]; auto.
Qed.
End Read.

(** ** C42 *)
Definition is_node (e : element) : Prop := exists n, e = ENode n.
Definition is_way (e : element) : Prop := exists n, e = EWay n.
Definition is_relation (e : element) : Prop := exists n, e = ERelation n.
Definition dump_shape (l : list element) : Prop :=
  exists ns ws rs, Forall is_node ns /\ Forall is_way ws /\ Forall is_relation rs /\
    l = ns ++ [ESentinel] ++ ws ++ [ESentinel] ++ rs ++ [ESentinel].

(** [x] is not [Err] *)
Definition no_err {A} (x : res A) : Prop := x <> Err.
Lemma no_err_bind {A B} (x : res A) (f : A -> res B) : no_err x -> (forall a, no_err (f a)) -> no_err (bind x f).
Proof. unfold no_err. destruct x; cbn; auto; discriminate. Qed.
Lemma no_err_unwrap {A} (x : option A) : no_err (unwrap x).
Proof. destruct x; discriminate. Qed.
Lemma no_err_col fs cols k : no_err (col fs cols k).
Proof. unfold col. destruct (nth_error fs k); [apply no_err_unwrap|discriminate]. Qed.
Ltac noerr := repeat (apply no_err_bind; [solve [apply no_err_col|apply no_err_unwrap]|intros ?]); try discriminate.
Record never_err (k : creators) : Prop := NeverErr {
  ne1 : forall l, no_err (mk_node k l); ne2 : forall l, no_err (mk_node_tag k l); ne3 : forall l, no_err (mk_way k l);
  ne4 : forall l, no_err (mk_way_node k l); ne5 : forall l, no_err (mk_way_tag k l); ne6 : forall l, no_err (mk_relation k l);
  ne7 : forall l, no_err (mk_member k l); ne8 : forall l, no_err (mk_relation_tag k l) }.
Lemma no_err_gather {R} (create : bytes -> res R) same ls : (forall l, no_err (create l)) -> no_err (gather create same ls).
Proof.
  intros H. induction ls as [|l ls IH]; cbn [gather]; [discriminate|]. destruct (data_line l); [|discriminate]. apply no_err_bind; auto.
  intros x. destruct (same x); [|discriminate]. apply no_err_bind; auto. intros ((xs, la), r). discriminate.
Qed.
Lemma no_err_attach {R} (create : bytes -> res R) same la ls : (forall l, no_err (create l)) -> no_err (attach create same la ls).
Proof.
  intros H. destruct la as [x|]; cbn [attach]; [destruct (same x); [|discriminate]|]; [|apply no_err_gather; auto].
  apply no_err_bind; [apply no_err_gather; auto|]. intros ((xs, la'), r). discriminate.
Qed.
Lemma no_err_get {V} k (l : list (Z * V)) : no_err (bt_get k l).
Proof. induction l as [|(a, b) l IH]; cbn; [discriminate|]. destruct (a =? k); [discriminate|auto]. Qed.

Section Shape.
Variable k : creators.
Hypothesis NE : never_err k.
Lemma make_node_shape us cs n ts : no_err (make_node us cs n ts) /\ forall e, make_node us cs n ts = Ok e -> is_node e.
Proof.
  unfold make_node. split.
  - apply no_err_bind; [apply no_err_get|intros]. apply no_err_bind; [apply no_err_get|discriminate].
  - destruct (bt_get _ cs); cbn; try discriminate. destruct (bt_get _ us); cbn; try discriminate. intros e E. injection E as <-. eexists. reflexivity.
Qed.
Lemma make_way_shape us cs n xs ts : no_err (make_way us cs n xs ts) /\ forall e, make_way us cs n xs ts = Ok e -> is_way e.
Proof.
  unfold make_way. split.
  - apply no_err_bind; [apply no_err_get|intros]. apply no_err_bind; [apply no_err_get|discriminate].
  - destruct (bt_get _ cs); cbn; try discriminate. destruct (bt_get _ us); cbn; try discriminate. intros e E. injection E as <-. eexists. reflexivity.
Qed.
Lemma make_relation_shape us cs n xs ts : no_err (make_relation us cs n xs ts) /\ forall e, make_relation us cs n xs ts = Ok e -> is_relation e.
Proof.
  unfold make_relation. split.
  - apply no_err_bind; [apply no_err_get|intros]. apply no_err_bind; [apply no_err_get|discriminate].
  - destruct (bt_get _ cs); cbn; try discriminate. destruct (bt_get _ us); cbn; try discriminate. intros e E. injection E as <-. eexists. reflexivity.
Qed.
(** what one call does in each state *)
Definition step_ok (is_kind : element -> Prop) (st st' : iter_state) (todo : eiter -> list bytes) (s : eiter) : Prop :=
  element_next k s = Panic \/
  (exists s', element_next k s = Ok (Some ESentinel, s') /\ ei_state s' = st' /\ (st = Nodes -> ei_ways s' = ei_ways s /\ ei_rels s' = ei_rels s)) \/
  (exists e s', element_next k s = Ok (Some e, s') /\ is_kind e /\ ei_state s' = st /\ (length (todo s') < length (todo s))%nat).
Lemma table_next_cases {R} (create : bytes -> res R) ls : (forall l, no_err (create l)) ->
  table_next create ls = Panic \/ (exists r, table_next create ls = Ok (None, r)) \/
  exists x r, table_next create ls = Ok (Some x, r) /\ (length r < length ls)%nat.
Proof.
  intros H. destruct ls as [|l r]; cbn [table_next]; [right; left; eauto|]. destruct (data_line l); [|right; left; eauto].
  specialize (H l). destruct (create l) as [x| |]; cbn [bind]; [|destruct H; auto|auto]. right. right. exists x, r. split; auto.
Qed.
Lemma node_step s : ei_state s = Nodes -> step_ok is_node Nodes Ways (fun s => ni_nodes (ei_nodes s)) s.
Proof.
  intros S. unfold step_ok. rewrite started by congruence. unfold next_started. rewrite S. unfold node_next.
  destruct (table_next_cases (mk_node k) (ni_nodes (ei_nodes s)) (ne1 _ NE)) as [->|[(r & ->)|(x & r & -> & L)]]; cbn [bind]; [auto| |].
  - right. left. eexists. split; [reflexivity|]. cbn. auto.
  - pose proof (no_err_attach (mk_node_tag k) (tag_same (nr_id x) (nr_version x)) (fst (ni_tags (ei_nodes s))) (snd (ni_tags (ei_nodes s))) (ne2 _ NE)) as A.
    destruct (attach _ _ _ _) as [((ts, la), tls)| |]; cbn [bind]; [|destruct A; auto|auto].
    destruct (make_node_shape (ei_users s) (ei_changesets s) x ts) as (M1 & M2). destruct (make_node _ _ _ _) as [e| |]; cbn [bind]; [|destruct M1; auto|auto].
    right. right. eexists e, _. split; [reflexivity|]. cbn. auto.
Qed.
Lemma way_step s : ei_state s = Ways -> step_ok is_way Ways Relations (fun s => wi_ways (ei_ways s)) s.
Proof.
  intros S. unfold step_ok. rewrite started by congruence. unfold next_started. rewrite S. unfold way_next.
  destruct (table_next_cases (mk_way k) (wi_ways (ei_ways s)) (ne3 _ NE)) as [->|[(r & ->)|(x & r & -> & L)]]; cbn [bind]; [auto| |].
  - right. left. eexists. split; [reflexivity|]. cbn. split; auto. discriminate.
  - match goal with |- context [attach (mk_way_tag k) ?f ?a ?b] => pose proof (no_err_attach (mk_way_tag k) f a b (ne5 _ NE)) as A; destruct (attach (mk_way_tag k) f a b) as [((ts, la), tls)| |]; cbn [bind]; [|destruct A; auto|auto] end.
    match goal with |- context [attach (mk_way_node k) ?f ?a ?b] => pose proof (no_err_attach (mk_way_node k) f a b (ne4 _ NE)) as A'; destruct (attach (mk_way_node k) f a b) as [((xs, la'), xls)| |]; cbn [bind]; [|destruct A'; auto|auto] end.
    destruct (make_way_shape (ei_users s) (ei_changesets s) x xs ts) as (M1 & M2). destruct (make_way _ _ _ _ _) as [e| |]; cbn [bind]; [|destruct M1; auto|auto].
    right. right. eexists e, _. split; [reflexivity|]. cbn. auto.
Qed.
Lemma rel_step s : ei_state s = Relations -> step_ok is_relation Relations End_ (fun s => ri_rels (ei_rels s)) s.
Proof.
  intros S. unfold step_ok. rewrite started by congruence. unfold next_started. rewrite S. unfold rel_next.
  destruct (table_next_cases (mk_relation k) (ri_rels (ei_rels s)) (ne6 _ NE)) as [->|[(r & ->)|(x & r & -> & L)]]; cbn [bind]; [auto| |].
  - right. left. eexists. split; [reflexivity|]. cbn. split; auto. discriminate.
  - match goal with |- context [attach (mk_relation_tag k) ?f ?a ?b] => pose proof (no_err_attach (mk_relation_tag k) f a b (ne8 _ NE)) as A; destruct (attach (mk_relation_tag k) f a b) as [((ts, la), tls)| |]; cbn [bind]; [|destruct A; auto|auto] end.
    match goal with |- context [attach (mk_member k) ?f ?a ?b] => pose proof (no_err_attach (mk_member k) f a b (ne7 _ NE)) as A'; destruct (attach (mk_member k) f a b) as [((xs, la'), xls)| |]; cbn [bind]; [|destruct A'; auto|auto] end.
    destruct (make_relation_shape (ei_users s) (ei_changesets s) x xs ts) as (M1 & M2). destruct (make_relation _ _ _ _ _) as [e| |]; cbn [bind]; [|destruct M1; auto|auto].
    right. right. eexists e, _. split; [reflexivity|]. cbn. auto.
Qed.
(** a phase: elements of one kind, then either a panic or a Sentinel and the next phase *)
Lemma phase (is_kind : element -> Prop) st st' todo : (forall s, ei_state s = st -> step_ok is_kind st st' todo s) ->
  (forall s, ei_state s = st' -> exists l o, run (element_next k) s l o) ->
  forall n s, (length (todo s) <= n)%nat -> ei_state s = st -> exists l o, run (element_next k) s l o.
Proof.
  intros STEP NEXT. induction n as [|n IH]; intros s L S; destruct (STEP s S) as [E|[(s' & E & S' & _)|(e & s' & E & K & S' & T)]].
  1,4: exists [], Panicked; apply run_panic; auto.
  1,3: destruct (NEXT s' S') as (l & o & R); exists (ESentinel :: l), o; eapply run_step; eauto.
  - lia.
  - destruct (IH s' ltac:(lia) S') as (l & o & R). exists (e :: l), o. eapply run_step; eauto.
Qed.
Lemma end_run s : ei_state s = End_ -> element_next k s = Ok (None, s).
Proof. intros S. rewrite started by congruence. unfold next_started. rewrite S. reflexivity. Qed.
(** [after l o tail]: the stream ends here with [tail], or stops in the middle with a panic *)
Definition phases (is_kind : element -> Prop) (rest : list element -> ending -> Prop) (l : list element) (o : ending) : Prop :=
  (exists xs t, Forall is_kind xs /\ l = xs ++ ESentinel :: t /\ rest t o) \/ (o = Panicked /\ Forall is_kind l).
Lemma phase_shape is_kind st st' todo (rest : list element -> ending -> Prop) : st <> Start -> (forall s, ei_state s = st -> step_ok is_kind st st' todo s) ->
  (forall s l o, ei_state s = st' -> run (element_next k) s l o -> rest l o) ->
  forall s l o, run (element_next k) s l o -> ei_state s = st -> phases is_kind rest l o.
Proof.
  intros NS STEP NEXT s l o R. induction R as [s s' E|s E|s a s' l o E R IH]; intros S.
  - destruct (STEP s S) as [X|[(? & X & _)|(? & ? & X & _)]]; congruence.
  - right. auto.
  - destruct (STEP s S) as [X|[(s1 & X & S1 & _)|(e & s1 & X & K & S1 & _)]]; [congruence| |].
    + rewrite X in E. injection E as <- <-. left. exists [], l. sconj; auto. eapply NEXT; eauto.
    + rewrite X in E. injection E as <- <-. destruct (IH S1) as [(xs & t & F & -> & T)|(-> & F)].
      * left. exists (e :: xs), t. sconj; auto.
      * right. auto.
Qed.
End Shape.

Lemma elements_start unescape rd k s : ApidbRead.elements unescape rd = Ok (k, s) -> never_err k /\ ei_state s = Start.
Proof.
  unfold ApidbRead.elements.
  repeat match goal with
  | |- bind ?x _ = _ -> _ => destruct x as [?a| |]; cbn [bind]; [|intros E; discriminate E..]
  | |- (let '(_, _) := ?p in _) = _ -> _ => destruct p
  end.
  intros E. injection E as <- <-. split; [|reflexivity].
  constructor; intros; cbn; unfold create_node, create_node_tag, create_obj, create_way_node, create_tag, create_relation_member; noerr.
Qed.
Lemma start_step k s : ei_state s = Start -> element_next k s = element_next k (set_state s Nodes).
Proof. intros S. unfold element_next. rewrite S. destruct s; reflexivity. Qed.
Lemma run_same k s s' l o : element_next k s = element_next k s' -> run (element_next k) s l o -> run (element_next k) s' l o.
Proof.
  intros E. inversion 1; subst; [eapply run_end|eapply run_panic|eapply run_step]; rewrite <- ?E; eauto.
Qed.
Lemma run_unique {S A} (next : S -> res (option A * S)) s l o : run next s l o -> forall l' o', run next s l' o' -> l' = l /\ o' = o.
Proof.
  induction 1 as [s s' E|s E|s a s' l o E R IH]; intros l2 o2 R2; inversion R2; subst; try congruence; auto.
  rewrite E in H. injection H as <- <-. apply IH in H0 as (-> & ->). auto.
Qed.

(** C42: iterating any dump reader's elements ends; unless a row cannot be read it yields nodes, a
    Sentinel, ways, a Sentinel, relations and a Sentinel, and None for ever after; if it panics, what came before
    is the beginning of such a stream. *)
Theorem C42_stream_shape unescape rd k s : ApidbRead.elements unescape rd = Ok (k, s) ->
  exists l o, run (element_next k) s l o /\
    (forall l' o', run (element_next k) s l' o' -> l' = l /\ o' = o) /\
    (o = Ended -> dump_shape l) /\ (o = Panicked -> exists rest, dump_shape (l ++ rest)) /\
    (forall s1 s2, element_next k s1 = Ok (None, s2) -> element_next k s2 = Ok (None, s2)).
Proof.
  intros E. apply elements_start in E as (NE & S).
  assert (forall s, ei_state s = End_ -> exists l o, run (element_next k) s l o) as T4.
  { intros s4 S4. exists [], Ended. eapply run_end. apply end_run; auto. }
  assert (forall s, ei_state s = Relations -> exists l o, run (element_next k) s l o) as T3.
  { intros s3 S3. eapply (phase k is_relation Relations End_); [apply rel_step; auto|exact T4|apply Nat.le_refl|exact S3]. }
  assert (forall s, ei_state s = Ways -> exists l o, run (element_next k) s l o) as T2.
  { intros s2 S2. eapply (phase k is_way Ways Relations); [apply way_step; auto|exact T3|apply Nat.le_refl|exact S2]. }
  destruct (phase k is_node Nodes Ways _ (node_step k NE) T2 _ (set_state s Nodes) (Nat.le_refl _) eq_refl) as (l & o & R).
  assert (phases is_node (phases is_way (phases is_relation (fun l o => l = [] /\ o = Ended))) l o) as P.
  { eapply (phase_shape k is_node Nodes Ways); [discriminate|apply node_step; auto| |exact R|reflexivity].
    intros s2 l2 o2 S2 R2. eapply (phase_shape k is_way Ways Relations); [discriminate|apply way_step; auto| |exact R2|exact S2].
    intros s3 l3 o3 S3 R3. eapply (phase_shape k is_relation Relations End_); [discriminate|apply rel_step; auto| |exact R3|exact S3].
    intros s4 l4 o4 S4 R4. inversion R4; subst; auto; rewrite (end_run k) in H; auto; discriminate. }
  assert (run (element_next k) s l o) as R'.
  { eapply run_same; [|exact R]. rewrite (start_step k s S). reflexivity. }
  exists l, o. sconj; auto.
  - intros l' o'. apply run_unique; auto.
  - intros ->. destruct P as [(ns & t & F1 & -> & [(ws & t2 & F2 & -> & [(rs & t3 & F3 & -> & -> & _)|(X & _)])|(X & _)])|(X & _)]; try discriminate.
    exists ns, ws, rs. sconj; auto.
  - intros ->. destruct P as [(ns & t & F1 & -> & [(ws & t2 & F2 & -> & [(rs & t3 & F3 & -> & -> & X)|(_ & F3)])|(_ & F2)])|(_ & F1)]; try discriminate.
    + exists [ESentinel], ns, ws, t2. sconj; auto. repeat (rewrite <- app_assoc; cbn [app]). reflexivity.
    + exists [ESentinel; ESentinel], ns, t, []. sconj; auto. repeat (rewrite <- app_assoc; cbn [app]). reflexivity.
    + exists [ESentinel; ESentinel; ESentinel], l, [], []. sconj; auto.
  - intros s1 s2 H. destruct (ei_state s1) eqn:S1.
    + rewrite start_step in H by auto. destruct (node_step k NE (set_state s1 Nodes) eq_refl) as [X|[(? & X & _)|(? & ? & X & _)]]; congruence.
    + destruct (node_step k NE s1 S1) as [X|[(? & X & _)|(? & ? & X & _)]]; congruence.
    + destruct (way_step k NE s1 S1) as [X|[(? & X & _)|(? & ? & X & _)]]; congruence.
    + destruct (rel_step k NE s1 S1) as [X|[(? & X & _)|(? & ? & X & _)]]; congruence.
    + rewrite end_run in H by auto. injection H as <-. apply end_run; auto.
Qed.

(** ** C45 *)
(** C45: from a table of contents made of COPY statements, each followed by its file name, with any other
    text around, exactly the definitions and the file names are read, in order; a definition
    gives back its table name and columns. *)
Theorem C45_toc entries toc : toc_text entries toc -> get_table_def_strings toc = Ok entries.
Proof. apply toc_strings. Qed.
Theorem C45_header name cols def : table_header name cols def -> parse_def def = Some (name, cols).
Proof. apply parse_header. Qed.

(** ** C46 *)
Lemma arith_100 m k : Z.abs k <= 1800000000 -> arith64 m (100 * k) = Ok (100 * k).
Proof. intros H. apply arith64_ok. red. lia. Qed.
(** C46: for every step [k] of the 1e-7 degree grid the PBF reader and the dump reader yield the same
    coordinate, the binary64 value nearest to k / 10^7; lat7 and lon7 give [k] back, which is also what the PBF
    writer stores. *)
Theorem C46_coordinates m k : Z.abs k <= 1800000000 ->
  exists x, dec_coord m 100 0 k = Ok x /\ dump_degrees k = x /\ f_valid x /\ f_finite x /\
    f2r x = rnd (IZR k / 10000000)%R /\
    (forall y, lat7 (Coordinate x y) = k) /\ (forall y, lon7 (Coordinate y x) = k) /\ enc_coord 100 0 x = k.
Proof.
  intros H. exists (dump_f64 k). pose proof (dump_ok k H) as D. pose proof D as (V & F & R). sconj; auto.
  - unfold dec_coord. rewrite arith_100 by auto. cbn [bind]. change (0 + 100 * k) with (100 * k). rewrite arith_100 by auto. cbn [bind].
    change (Ok (pbf_f64 k) = Ok (dump_f64 k)). f_equal. apply readers_agree; auto.
  - intros y. unfold lat7. cbn [lat]. apply seven_grid; auto.
  - intros y. unfold lon7. cbn [lon]. apply seven_grid; auto.
  - apply step_grid; auto.
Qed.
