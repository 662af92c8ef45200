(** Facts about the joins of the dump reader and its element iterator. *)
From Coq Require Import ZArith List Bool Strings.Byte Strings.String Lia Permutation.
From Verif Require Import Base BaseFacts Types ApidbText ApidbWrite ApidbWriteFacts ApidbRead DumpReadSpec FileFormat ApidbReadFacts.
Import ListNotations.
Local Notation length := List.length.
Local Notation concat := List.concat.
Open Scope Z_scope.

(** ** rows of one object *)
Fixpoint span_take {R} (p : R -> bool) (l : list R) : list R := match l with a :: r => if p a then a :: span_take p r else [] | [] => [] end.
Fixpoint span_drop {R} (p : R -> bool) (l : list R) : list R := match l with a :: r => if p a then span_drop p r else l | [] => [] end.
Lemma span_app {R} (p : R -> bool) l : l = span_take p l ++ span_drop p l.
Proof. induction l as [|a l IH]; cbn; auto. destruct (p a); cbn; congruence. Qed.
Lemma span_take_true {R} (p : R -> bool) l : Forall (fun a => p a = true) (span_take p l).
Proof. induction l as [|a l IH]; cbn; auto. destruct (p a) eqn:E; constructor; auto. Qed.

Definition parses {R} (create : bytes -> res R) (ls : list bytes) (rs : list R) : Prop :=
  Forall2 (fun l r => data_line l = true /\ create l = Ok r) ls rs.
(** what is left of a dependent table *)
Definition left_in {R} (create : bytes -> res R) (s : dep R) (ds : list R) : Prop :=
  match fst s with
  | Some x => exists ds', ds = x :: ds' /\ parses create (snd s) ds'
  | None => parses create (snd s) ds
  end.
Lemma gather_ok {R} (create : bytes -> res R) same ls ds : parses create ls ds ->
  exists la r, gather create same ls = Ok (span_take same ds, la, r) /\ left_in create (la, r) (span_drop same ds).
Proof.
  induction 1 as [|l x ls ds (D & C) P IH]; cbn [gather span_take span_drop].
  - exists None, []. split; auto. constructor.
  - rewrite D, C. cbn [bind]. destruct (same x).
    + destruct IH as (la & r & -> & L). exists la, r. split; auto.
    + exists (Some x), ls. split; auto. cbn. eauto.
Qed.
Lemma attach_ok {R} (create : bytes -> res R) same s ds : left_in create s ds ->
  exists la r, attach create same (fst s) (snd s) = Ok (span_take same ds, la, r) /\ left_in create (la, r) (span_drop same ds).
Proof.
  destruct s as ([x|], ls); cbn [fst snd attach].
  - intros (ds' & -> & P). cbn [span_take span_drop]. destruct (same x).
    + destruct (gather_ok create same ls ds' P) as (la & r & -> & L). exists la, r. split; auto.
    + exists (Some x), ls. split; auto. cbn. eauto.
  - intros P. apply gather_ok; auto.
Qed.
Lemma table_next_ok {R} (create : bytes -> res R) ls rs : parses create ls rs ->
  match rs with
  | [] => table_next create ls = Ok (None, [])
  | r :: rs' => exists ls', table_next create ls = Ok (Some r, ls') /\ parses create ls' rs'
  end.
Proof.
  destruct 1 as [|l x ls ds (D & C) P]; auto. exists ls. split; auto. cbn. rewrite D, C. reflexivity.
Qed.
Lemma table_all_ok {R} (create : bytes -> res R) ls rs : parses create ls rs -> table_all create ls = Ok rs.
Proof. induction 1 as [|l x ls ds (D & C) P IH]; auto. cbn. rewrite D, C. cbn. rewrite IH. reflexivity. Qed.

(** ** the join of sorted tables *)
Lemma key_eqb_eq a b : key_eqb a b = true <-> a = b.
Proof.
  destruct a, b. unfold key_eqb. cbn. rewrite andb_true_iff, !Z.eqb_eq. split; [intros (-> & ->); auto|intros E; injection E; auto].
Qed.
Lemma key_eqb_neq a b : key_eqb a b = false <-> a <> b.
Proof. rewrite <- key_eqb_eq. destruct (key_eqb a b); split; congruence. Qed.
Definition key_ltb (a b : Z * Z) : bool := (fst a <? fst b) || ((fst a =? fst b) && (snd a <? snd b)).
Lemma key_ltb_lt a b : key_ltb a b = true <-> key_lt a b.
Proof. unfold key_ltb, key_lt. rewrite orb_true_iff, andb_true_iff, !Z.ltb_lt, Z.eqb_eq. tauto. Qed.
Lemma key_ltb_nlt a b : key_ltb a b = false <-> ~ key_lt a b.
Proof. rewrite <- key_ltb_lt. destruct (key_ltb a b); split; congruence. Qed.
Lemma key_cases a b : key_lt a b \/ a = b \/ key_lt b a.
Proof.
  destruct a as (a1, a2), b as (b1, b2). unfold key_lt. cbn. destruct (Z.lt_trichotomy a1 b1) as [|[->|]]; [lia| |lia].
  destruct (Z.lt_trichotomy a2 b2) as [|[->|]]; [lia|auto|lia].
Qed.
Lemma key_lt_trans a b c : key_lt a b -> key_lt b c -> key_lt a c. Proof. unfold key_lt. lia. Qed.
Lemma key_lt_irrefl a : ~ key_lt a a. Proof. unfold key_lt. lia. Qed.

Section Join.
Context {O D : Type} (ko : O -> Z * Z) (kd : D -> Z * Z).
Fixpoint join (os : list O) (ds : list D) : list (O * list D) :=
  match os with
  | [] => []
  | o :: r => let same d := key_eqb (kd d) (ko o) in (o, span_take same ds) :: join r (span_drop same ds)
  end.
(** a dependent row without an object that sorts before [o] *)
Definition starved (os : list O) (ds : list D) (o : O) : bool :=
  existsb (fun d => key_ltb (kd d) (ko o) && negb (existsb (fun o' => key_eqb (kd d) (ko o')) os)) ds.
Lemma starved_true os ds o : starved os ds o = true <-> exists d, In d ds /\ key_lt (kd d) (ko o) /\ ~ In (kd d) (map ko os).
Proof.
  unfold starved. rewrite existsb_exists.
  assert (forall d, existsb (fun o' => key_eqb (kd d) (ko o')) os = false <-> ~ In (kd d) (map ko os)) as X.
  { intros d. split; intros H.
    - intros I. apply in_map_iff in I as (o' & E & I). assert (existsb (fun o' => key_eqb (kd d) (ko o')) os = true); [|congruence].
      apply existsb_exists. exists o'. split; auto. apply key_eqb_eq. auto.
    - destruct (existsb _ os) eqn:E; auto. exfalso. apply H. apply existsb_exists in E as (o' & I & E). apply key_eqb_eq in E.
      apply in_map_iff. exists o'. auto. }
  split; intros (d & H); exists d; revert H; rewrite andb_true_iff, key_ltb_lt, negb_true_iff, X; tauto.
Qed.
Lemma starved_ext os ds os' ds' o o' : (starved os ds o = true <-> starved os' ds' o' = true) -> starved os ds o = starved os' ds' o'.
Proof. destruct (starved os ds o), (starved os' ds' o'); intuition congruence. Qed.

Definition dep_sorted (ds : list D) : Prop := ordered (fun a b => ~ key_lt (kd b) (kd a)) ds.
Lemma dep_sorted_app a b : dep_sorted (a ++ b) -> dep_sorted b.
Proof. unfold dep_sorted. induction a as [|x a IH]; auto. cbn. intros (_ & H). auto. Qed.
Lemma span_filter o ds : dep_sorted ds -> (forall d, In d ds -> ~ key_lt (kd d) (ko o)) ->
  span_take (fun d => key_eqb (kd d) (ko o)) ds = of_key kd (ko o) ds /\
  forall d, In d (span_drop (fun d => key_eqb (kd d) (ko o)) ds) -> kd d <> ko o.
Proof.
  induction ds as [|d ds IH]; intros S L; cbn; [split; auto|]. destruct S as (S1 & S2). rewrite Forall_forall in S1.
  destruct (key_eqb (kd d) (ko o)) eqn:E.
  - destruct IH as (-> & I); auto. intros; apply L; right; auto.
  - apply key_eqb_neq in E. assert (key_lt (ko o) (kd d)) as K.
    { destruct (key_cases (kd d) (ko o)) as [K|[K|K]]; auto; [|congruence]. destruct (L d); auto. left; auto. }
    assert (forall x, In x (d :: ds) -> kd x <> ko o) as NE.
    { intros x [<-|I] Q; [auto|]. apply (S1 x I). rewrite Q. exact K. }
    split; [|exact NE]. unfold of_key.
    enough (filter (fun r => key_eqb (kd r) (ko o)) ds = []) as -> by reflexivity.
    destruct (filter _ ds) as [|x xs] eqn:F; auto. exfalso. assert (In x (filter (fun r => key_eqb (kd r) (ko o)) ds)) as I by (rewrite F; left; auto).
    apply filter_In in I as (I & Q). apply key_eqb_eq in Q. apply (NE x); [right|]; auto.
Qed.
(** exactly which rows every object gets *)
Theorem join_spec os : ordered (fun a b => key_lt (ko a) (ko b)) os -> forall ds, dep_sorted ds ->
  join os ds = map (fun o => (o, if starved os ds o then [] else of_key kd (ko o) ds)) os.
Proof.
  induction os as [|o os IH]; intros S ds SD; [reflexivity|]. destruct S as (S1 & S2). rewrite Forall_forall in S1.
  cbn [join map]. set (same := fun d => key_eqb (kd d) (ko o)). pose proof (span_app same ds) as SP.
  assert (dep_sorted (span_drop same ds)) as SD' by (eapply dep_sorted_app; rewrite <- SP; exact SD).
  rewrite (IH S2 _ SD').
  destruct (existsb (fun d => key_ltb (kd d) (ko o)) ds) eqn:LO.
  - (* a row before [o]: nothing matches from here on *)
    apply existsb_exists in LO as (d & I & L). apply key_ltb_lt in L.
    assert (~ In (kd d) (map ko (o :: os))) as NI.
    { cbn. intros [E|E]; [rewrite E in L; eapply key_lt_irrefl; eauto|]. apply in_map_iff in E as (o' & E & I').
      apply S1 in I'. rewrite E in I'. eapply key_lt_irrefl, key_lt_trans; eauto. }
    assert (span_take same ds = [] /\ span_drop same ds = ds) as (-> & ->).
    { destruct ds as [|d0 ds]; auto. cbn. replace (same d0) with false; auto. symmetry. apply key_eqb_neq. intros E.
      destruct I as [->|I]; [rewrite E in L; eapply key_lt_irrefl; eauto|]. destruct SD as (SD1 & _). rewrite Forall_forall in SD1.
      apply (SD1 d I). rewrite E. exact L. }
    f_equal.
    + replace (starved (o :: os) ds o) with true; auto. symmetry. apply starved_true. exists d. auto.
    + apply map_ext_in. intros o' I'. replace (starved os ds o') with true; [replace (starved (o :: os) ds o') with true; auto|].
      all: symmetry; apply starved_true; exists d; split; auto; split; [eapply key_lt_trans; eauto|]; auto. intros X; apply NI; right; auto.
  - assert (forall d, In d ds -> ~ key_lt (kd d) (ko o)) as NL.
    { intros d I L. assert (existsb (fun d => key_ltb (kd d) (ko o)) ds = true); [|congruence]. apply existsb_exists. exists d. split; auto. apply key_ltb_lt; auto. }
    destruct (span_filter o ds SD NL) as (T & NE). fold same in T, NE. f_equal.
    + rewrite T. replace (starved (o :: os) ds o) with false; auto. symmetry. destruct (starved _ _ _) eqn:E; auto.
      apply starved_true in E as (d & I & L & _). destruct (NL d I L).
    + apply map_ext_in. intros o' I'. f_equal.
      assert (starved (o :: os) ds o' = starved os (span_drop same ds) o') as ->.
      { apply starved_ext. rewrite !starved_true. split.
        - intros (d & I & L & N). exists d. rewrite SP in I. apply in_app_iff in I as [I|I].
          + exfalso. apply N. left. pose proof (span_take_true same ds) as TT. rewrite Forall_forall in TT. symmetry. apply key_eqb_eq. apply TT; auto.
          + split; auto. split; auto. intros X. apply N. right; auto.
        - intros (d & I & L & N). exists d. split; [rewrite SP; apply in_app_iff; auto|]. split; auto.
          intros [X|X]; [apply (NE d I); auto|auto]. }
      destruct (starved os (span_drop same ds) o'); auto. unfold of_key. rewrite SP at 2. rewrite filter_app.
      replace (filter _ (span_take same ds)) with (@nil D); auto. symmetry.
      pose proof (span_take_true same ds) as TT. clear - TT S1 I'. induction (span_take same ds) as [|x xs IHx]; auto. inversion TT as [|? ? T1 T2]; subst. cbn.
      apply key_eqb_eq in T1. replace (key_eqb (kd x) (ko o')) with false by (symmetry; apply key_eqb_neq; rewrite T1; intros X;
      apply S1 in I'; rewrite X in I'; eapply key_lt_irrefl; eauto). auto.
Qed.
Lemma not_starved os ds : incl (map kd ds) (map ko os) -> forall o, starved os ds o = false.
Proof.
  intros I o. destruct (starved os ds o) eqn:E; auto. apply starved_true in E as (d & J & _ & N). exfalso. apply N, I, in_map; auto.
Qed.
End Join.

(** ** the three phases of the element iterator *)
Section Phases.
Variable k : creators.
Variables (us : list (Z * bytes)) (cs : list (Z * Z)).
Notation st := (EIter us cs).
Lemma started s : ei_state s <> Start -> element_next k s = next_started k s.
Proof. unfold element_next. destruct (ei_state s); congruence. Qed.
Lemma node_phase ns : forall ls tags ds es wi ri ls' tags',
  parses (mk_node k) ls ns -> left_in (mk_node_tag k) tags ds ->
  Forall2 (fun p e => make_node us cs (fst p) (snd p) = Ok e) (join node_key tag_key ns ds) es ->
  forall rest o, (forall ni, run (element_next k) (st Ways ni wi ri) rest o) ->
  ls' = ls -> tags' = tags -> run (element_next k) (st Nodes (NodeIter ls' tags') wi ri) (es ++ ESentinel :: rest) o.
Proof.
  induction ns as [|n ns IH]; intros ls tags ds es wi ri ls' tags' P L F rest o R -> ->.
  - cbn [join] in F. inversion F; subst. cbn [app]. apply table_next_ok in P. cbn in P.
    eapply run_step; [|apply (R (NodeIter [] tags))]. rewrite started by discriminate. unfold next_started, node_next. cbn [ei_state ei_nodes ni_nodes].
    rewrite P. reflexivity.
  - cbn [join] in F. inversion F as [|? e ? es' M F']; subst. cbn [fst snd] in M. cbn [app].
    apply table_next_ok in P as (ls' & N & P).
    destruct (attach_ok (mk_node_tag k) (fun d => key_eqb (tag_key d) (node_key n)) tags ds L) as (la & r & A & L').
    eapply run_step; [|eapply IH; [exact P|exact L'|exact F'|exact R|reflexivity|reflexivity]].
    rewrite started by discriminate. unfold next_started, node_next. cbn [ei_state ei_nodes ni_nodes ni_tags].
    rewrite N. cbn [bind].
    change (tag_same (nr_id n) (nr_version n)) with (fun d => key_eqb (tag_key d) (node_key n)). rewrite A. cbn [bind].
    cbn [ei_users ei_changesets ei_ways ei_rels]. rewrite M. reflexivity.
Qed.
Lemma way_phase ws : forall ls nodes ds tags ts es ni ri,
  parses (mk_way k) ls ws -> left_in (mk_way_node k) nodes ds -> left_in (mk_way_tag k) tags ts ->
  Forall2 (fun p e => make_way us cs (fst (fst p)) (snd (fst p)) (snd (snd p)) = Ok e)
    (combine (join obj_key way_node_key ws ds) (join obj_key tag_key ws ts)) es ->
  forall rest o, (forall wi, run (element_next k) (st Relations ni wi ri) rest o) ->
  run (element_next k) (st Ways ni (WayIter ls nodes tags) ri) (es ++ ESentinel :: rest) o.
Proof.
  induction ws as [|w ws IH]; intros ls nodes ds tags ts es ni ri P L T F rest o R.
  - cbn [join combine] in F. inversion F; subst. cbn [app]. apply table_next_ok in P. cbn in P.
    eapply run_step; [|apply (R (WayIter [] nodes tags))]. rewrite started by discriminate. unfold next_started, way_next. cbn [ei_state ei_ways wi_ways].
    rewrite P. reflexivity.
  - cbn [join combine] in F. inversion F as [|? e ? es' M F']; subst. cbn [fst snd] in M. cbn [app].
    apply table_next_ok in P as (ls' & N & P).
    destruct (attach_ok (mk_way_node k) (fun d => key_eqb (way_node_key d) (obj_key w)) nodes ds L) as (la & r & A & L').
    destruct (attach_ok (mk_way_tag k) (fun d => key_eqb (tag_key d) (obj_key w)) tags ts T) as (la2 & r2 & A2 & T').
    eapply run_step; [|eapply IH; [exact P|exact L'|exact T'|exact F'|exact R]].
    rewrite started by discriminate. unfold next_started, way_next. cbn [ei_state ei_ways wi_ways wi_tags wi_nodes].
    rewrite N. cbn [bind].
    change (tag_same (or_id w) (or_version w)) with (fun d => key_eqb (tag_key d) (obj_key w)). rewrite A2. cbn [bind].
    change (way_node_same (or_id w) (or_version w)) with (fun d => key_eqb (way_node_key d) (obj_key w)). rewrite A. cbn [bind].
    cbn [ei_users ei_changesets ei_nodes ei_rels]. rewrite M. reflexivity.
Qed.
Lemma rel_phase rs : forall ls members ds tags ts es ni wi,
  parses (mk_relation k) ls rs -> left_in (mk_member k) members ds -> left_in (mk_relation_tag k) tags ts ->
  Forall2 (fun p e => make_relation us cs (fst (fst p)) (snd (fst p)) (snd (snd p)) = Ok e)
    (combine (join obj_key member_key rs ds) (join obj_key tag_key rs ts)) es ->
  run (element_next k) (st Relations ni wi (RelIter ls members tags)) (es ++ [ESentinel]) Ended.
Proof.
  induction rs as [|w rs IH]; intros ls members ds tags ts es ni wi P L T F.
  - cbn [join combine] in F. inversion F; subst. cbn [app]. apply table_next_ok in P. cbn in P.
    eapply run_step with (s' := st End_ ni wi (RelIter [] members tags)); [|eapply run_end; reflexivity].
    rewrite started by discriminate. unfold next_started, rel_next. cbn [ei_state ei_rels ri_rels]. rewrite P. reflexivity.
  - cbn [join combine] in F. inversion F as [|? e ? es' M F']; subst. cbn [fst snd] in M. cbn [app].
    apply table_next_ok in P as (ls' & N & P).
    destruct (attach_ok (mk_member k) (fun d => key_eqb (member_key d) (obj_key w)) members ds L) as (la & r & A & L').
    destruct (attach_ok (mk_relation_tag k) (fun d => key_eqb (tag_key d) (obj_key w)) tags ts T) as (la2 & r2 & A2 & T').
    eapply run_step; [|eapply IH; [exact P|exact L'|exact T'|exact F']].
    rewrite started by discriminate. unfold next_started, rel_next. cbn [ei_state ei_rels ri_rels ri_tags ri_members].
    rewrite N. cbn [bind].
    change (tag_same (or_id w) (or_version w)) with (fun d => key_eqb (tag_key d) (obj_key w)). rewrite A2. cbn [bind].
    change (member_same (or_id w) (or_version w)) with (fun d => key_eqb (member_key d) (obj_key w)). rewrite A. cbn [bind].
    cbn [ei_users ei_changesets ei_nodes ei_ways]. rewrite M. reflexivity.
Qed.
Lemma start_run ni wi ri l o : run (element_next k) (st Nodes ni wi ri) l o -> run (element_next k) (st Start ni wi ri) l o.
Proof.
  assert (element_next k (st Start ni wi ri) = element_next k (st Nodes ni wi ri)) as E by reflexivity.
  inversion 1; subst; [eapply run_end|eapply run_panic|eapply run_step]; rewrite ?E; eauto.
Qed.
End Phases.

(** ** the indexes *)
Lemma bt_get_In {V} (l : list (Z * V)) key v : NoDup (map fst l) -> In (key, v) l -> bt_get key l = Ok v.
Proof.
  induction l as [|(k', v') l IH]; intros N I; [destruct I|]. cbn [map fst] in N. inversion N as [|? ? N1 N2]; subst. cbn [bt_get].
  destruct I as [E|I].
  - injection E as -> ->. rewrite Z.eqb_refl. reflexivity.
  - destruct (Z.eqb_spec k' key) as [->|]; [|auto]. exfalso. apply N1. apply in_map_iff. exists (key, v). auto.
Qed.
Lemma increasing_NoDup l : DumpSpec.increasing l -> NoDup l.
Proof.
  induction l as [|a l IH]; intros H; constructor; destruct H as (H1 & H2); auto. intros I. rewrite Forall_forall in H1. apply H1 in I. lia.
Qed.
Lemma index_get {V} (ps : list (Z * V)) key v : NoDup (map fst ps) -> In (key, v) ps -> bt_get key (bt_insert_all ps []) = Ok v.
Proof.
  intros N I. destruct (bt_insert_all_spec ps N) as (INC & IN). apply bt_get_In; [apply increasing_NoDup; auto|]. apply IN; auto.
Qed.
