(** What survives a dump and what does not: C40, C41, C44; exact round trips (C53); which streams can be dumped (C55). *)
From Coq Require Import ZArith List Bool Strings.Byte Strings.String Lia Permutation.
From Verif Require Import Base BaseFacts Types Model2 ModelFacts ApidbText ApidbSpec CalendarFacts ApidbTextFacts TileFacts DumpSpec ApidbWrite ApidbWriteFacts PropApidbWrite ApidbRead DumpReadSpec
  FileFormat ApidbReadFacts TocFacts JoinFacts ReaderFacts PropApidbRead PropDump RoundSpec RoundFacts PropRound PropRoundTrip.
Import ListNotations.
Local Notation length := List.length.
Local Notation concat := List.concat.
Open Scope Z_scope.

Lemma Forall2_in_r {A B} (P : A -> B -> Prop) l m b : Forall2 P l m -> In b m -> exists a, In a l /\ P a b.
Proof. induction 1 as [|x y l m H F IH]; intros I; [destruct I|]. destruct I as [->|I]; [eexists; split; [left; auto|auto]|]. destruct (IH I) as (a & J & K). exists a. split; [right|]; auto. Qed.
Lemma Forall2_in_l {A B} (P : A -> B -> Prop) l m a : Forall2 P l m -> In a l -> exists b, In b m /\ P a b.
Proof. induction 1 as [|x y l m H F IH]; intros I; [destruct I|]. destruct I as [->|I]; [eexists; split; [left; auto|auto]|]. destruct (IH I) as (b & J & K). exists b. split; [right|]; auto. Qed.
Lemma Forall2_In {A B} (P : A -> B -> Prop) l m : Forall2 P l m -> Forall2 (fun a b => In a l /\ P a b) l m.
Proof.
  intros F. assert (forall l0, incl l l0 -> Forall2 (fun a b => In a l0 /\ P a b) l m) as X; [|apply X; intros x I; auto].
  induction F as [|x y l m H F IH]; intros l0 I; constructor.
  - split; auto. apply I. left; auto.
  - apply IH. intros z J. apply I. right; auto.
Qed.

(** ** C55 *)
(** an instant of the years -262143 to 262142 *)
Definition in_calendar (seconds : Z) : Prop := -8334601228800 <= seconds <= 8210266876799.
Definition dumpable (e : element) : Prop :=
  match e with
  | ENode n => in_calendar (n_timestamp n / 1000) | EWay w => in_calendar (w_timestamp w / 1000)
  | ERelation r => in_calendar (r_timestamp r / 1000) | ESentinel => True
  end.
Lemma calendar_ok t : chrono_seconds t = true <-> in_calendar t.
Proof. unfold chrono_seconds, in_calendar. rewrite andb_true_iff, !Z.leb_le. reflexivity. Qed.
Lemma millis_ok t : in_calendar (t / 1000) <-> exists s, to_sql_time_millis t = Ok s.
Proof.
  rewrite <- calendar_ok. unfold to_sql_time_millis. destruct (chrono_seconds _); split; eauto.
  - intros H. discriminate.
  - intros (s & H). discriminate.
Qed.
Lemma micros_ok t : in_calendar (t / 1000000) -> exists s, to_sql_time_micros t = Ok s.
Proof. rewrite <- calendar_ok. unfold to_sql_time_micros. intros ->. eauto. Qed.
Lemma dumpable_time e : dumpable e <-> time_ok e.
Proof. destruct e; cbn [dumpable time_ok]; [apply millis_ok..|reflexivity]. Qed.
Section Total.
Variables (esc : bytes -> bytes) (hash_order : forall V, list (Z * V) -> list (Z * V)) (clock : nat -> Z) (lib : bytes).
Hypothesis CLOCK : forall i, in_calendar (clock i / 1000000).
Lemma users_total us : forall i w, exists w', write_users clock i us w = Ok w'.
Proof. induction us as [|(a, b) us IH]; intros i w; cbn [write_users]; eauto. destruct (micros_ok (clock i) (CLOCK i)) as (s & ->). cbn [bind]. auto. Qed.
Lemma changesets_total us : forall i w, exists w', write_changesets clock lib i us w = Ok w'.
Proof. induction us as [|(a, b) us IH]; intros i w; cbn [write_changesets]; eauto. destruct (micros_ok (clock i) (CLOCK i)) as (s & ->). cbn [bind]. auto. Qed.
Lemma write_panics es : forall w, ~ Forall time_ok es -> ApidbWrite.write_elements esc es w = Panic.
Proof.
  induction es as [|e es IH]; intros w H; [exfalso; apply H; constructor|]. cbn [ApidbWrite.write_elements].
  destruct (ApidbWrite.write_element esc e w) as [w1| |] eqn:E; cbn [bind].
  - apply IH. intros F. apply H. constructor; auto. eapply write_element_cell; eauto.
  - exfalso. revert E. destruct e as [n|wy|r|]; cbn [ApidbWrite.write_element]; unfold write_node, write_way, write_relation, to_sql_time_millis; cbv zeta;
      try destruct (chrono_seconds _); cbn [bind]; discriminate.
  - reflexivity.
Qed.
(** C55: writing and closing a dump succeeds exactly when every timestamp is an instant chrono can represent
    (while the clock is); it never reports an error otherwise, it panics. *)
Theorem C55_dump_total es :
  (Forall dumpable es -> exists w, ApidbWrite.dump esc hash_order clock lib es = Ok w) /\
  (~ Forall dumpable es -> ApidbWrite.dump esc hash_order clock lib es = Panic).
Proof.
  assert (Forall dumpable es <-> Forall time_ok es) as D by (rewrite !Forall_forall; split; intros H e I; apply dumpable_time; auto).
  split; intros H; unfold ApidbWrite.dump.
  - destruct (write_elements_ok esc es ApidbWrite.writer_new (proj1 D H)) as (w & ->). cbn [bind]. unfold ApidbWrite.close. cbv zeta.
    destruct (users_total (user_index (flush_buffers hash_order (flush_current_object_lines w))) 0%nat (flush_buffers hash_order (flush_current_object_lines w))) as (w1 & ->). cbn [bind].
    match goal with |- context [write_changesets ?c ?l ?i ?cs ?w] => destruct (changesets_total cs i w) as (w2 & ->) end. cbn [bind]. eauto.
  - rewrite write_panics; auto. intros F. apply H, D, F.
Qed.
End Total.

(** ** C40 *)
Section Orphans.
Variables (unescape : bytes -> option bytes) (sort_file : list (nat * ftype) -> bytes -> res bytes).
Hypothesis SORTS : sorts sort_file.
(** False: one tag row of a node that is not there takes the tags of every later node. *)
Theorem C40_refuted dir d r n : dump_in unescape dir d -> primary_keys d -> resolved d ->
  In r (d_node_tags d) -> ~ In (tag_key r) (map node_key (d_nodes d)) -> In n (d_nodes d) -> key_lt (tag_key r) (node_key n) ->
  exists rd k s l, ApidbRead.reader_new sort_file dir = Ok rd /\ ApidbRead.elements unescape rd = Ok (k, s) /\ run (element_next k) s l Ended /\
    (exists x, In (ENode x) l /\ (n_id x, n_version x) = node_key n) /\
    forall x, In (ENode x) l -> (n_id x, n_version x) = node_key n -> n_tags x = [].
Proof.
  intros D P R I NI J LT. destruct (C40_every_object_partial unescape sort_file SORTS dir d D P R) as (rd & k & s & ns & ws & rs & A & B & C & (l1 & P1 & O1 & E1) & (l2 & P2 & O2 & E2) & (l3 & P3 & O3 & E3)).
  assert (orphan_before tag_key (d_node_tags d) (map node_key (d_nodes d)) (node_key n)) as OB by (exists r; auto).
  eexists rd, k, s, _. sconj; [exact A|exact B|exact C| |].
  - assert (In n l1) as I1 by (eapply Permutation_in; [apply Permutation_sym, P1|exact J]).
    destruct (Forall2_in_l _ _ _ _ E1 I1) as (e & I2 & (uid & name & ts & H1 & H2 & ->)). eexists. split; [apply in_app_iff; left; exact I2|reflexivity].
  - intros x IX K. assert (In (ENode x) ns) as I2.
    { rewrite !in_app_iff in IX. destruct IX as [IX|[[IX|[]]|[IX|[[IX|[]]|[IX|[IX|[]]]]]]]; auto; try discriminate.
      - apply (Forall2_in_r _ _ _ _ E2) in IX as (y & _ & (uid & name & xs & ts & _ & _ & _ & X)). discriminate.
      - apply (Forall2_in_r _ _ _ _ E3) in IX as (y & _ & (uid & name & xs & ts & _ & _ & _ & X)). discriminate. }
    destruct (Forall2_in_r _ _ _ _ E1 I2) as (y & I3 & (uid & name & ts & H1 & (H2 & _) & X)). injection X as ->. cbn [n_id n_version n_tags] in *.
    unfold node_key at 1 in K. cbn [n_id n_version] in K. change (node_key y = node_key n) in K. rewrite K in H2. rewrite (H2 OB). reflexivity.
Qed.
End Orphans.

(** ** C44: names *)
Definition user_of (e : element) : option bytes :=
  match e with ENode n => Some (n_user n) | EWay w => Some (w_user w) | ERelation r => Some (r_user r) | ESentinel => None end.
Definition one_column (s : bytes) : Prop := ~ In x09 s /\ ~ In x0a s.
Lemma split_pieces sep s : forall c, In c (split_byte sep s) -> ~ In sep c /\ incl c s.
Proof.
  induction s as [|b s IH]; cbn [split_byte]; intros c I.
  - destruct I as [<-|[]]. split; [auto|intros x []].
  - destruct (Byte.eqb b sep) eqn:E.
    + destruct I as [<-|I]; [split; [auto|intros x []]|]. destruct (IH c I) as (H1 & H2). split; auto. intros x J. right; auto.
    + destruct (split_byte sep s) as [|p ps] eqn:S.
      * destruct I as [<-|[]]. split.
        { intros [->|[]]. rewrite beqb_refl in E. discriminate. }
        intros x [->|[]]. left; auto.
      * destruct I as [<-|I].
        -- destruct (IH p (or_introl eq_refl)) as (H1 & H2). split.
           { intros [->|J]; [rewrite beqb_refl in E; discriminate|auto]. }
           intros x [->|J]; [left; auto|right; auto].
        -- destruct (IH c (or_intror I)) as (H1 & H2). split; auto. intros x J. right; auto.
Qed.
Lemma lines_no_lf s l : In l (lines_of s) -> exists a, (l = a \/ l = a ++ [x0a]) /\ ~ In x0a a.
Proof.
  revert l. induction s as [|b s IH]; cbn [lines_of]; intros l I; [destruct I|]. destruct (Byte.eqb b x0a) eqn:E.
  - destruct I as [<-|I]; auto. exists []. split; auto.
  - assert (b <> x0a) as NB by (intros ->; discriminate). destruct (lines_of s) as [|l0 ls].
    + destruct I as [<-|[]]. exists [b]. split; auto. intros [X|[]]; auto.
    + destruct I as [<-|I].
      * destruct (IH l0 (or_introl eq_refl)) as (a & H & N). exists (b :: a). split; [destruct H as [->|H]; [auto|right; rewrite H; auto]|]. intros [X|X]; auto.
      * apply IH. right; auto.
Qed.
Lemma drop_lf_clean s : ~ In x0a s -> drop_lf s = s.
Proof. destruct s as [|b s]; cbn; auto. intros N. destruct (Byte.eqb b x0a) eqn:E; auto. apply Byte.byte_dec_bl in E. subst. exfalso. auto. Qed.
Lemma columns_clean s l c : In l (lines_of s) -> In c (columns l) -> one_column c.
Proof.
  intros I J. apply split_pieces in J as (H1 & H2). split; auto. intros K. apply H2 in K.
  destruct (lines_no_lf s l I) as (a & [H|H] & N); rewrite H in K.
  - rewrite (drop_lf_clean (rev a)), rev_involutive in K; auto. intros X. apply in_rev in X. auto.
  - rewrite rev_unit in K. cbn [drop_lf] in K. change (Byte.eqb x0a x0a) with true in K. cbv iota in K.
    rewrite (drop_lf_clean (rev a)), rev_involutive in K; auto. intros X. apply in_rev in X. auto.
Qed.
Lemma col_in fs cols k c : col fs cols k = Ok c -> In c cols.
Proof. unfold col. destruct (nth_error fs k) as [i|]; [|discriminate]. destruct (nth_error cols i) eqn:E; [|discriminate]. intros X. injection X as <-. eapply nth_error_In; eauto. Qed.
Lemma res_map_in {A B} (f : A -> res B) l : forall bs, res_map f l = Ok bs -> forall b, In b bs -> exists a, In a l /\ f a = Ok b.
Proof.
  induction l as [|a l IH]; cbn [res_map]; intros bs E b I.
  - injection E as <-. destruct I.
  - destruct (f a) as [x| |] eqn:FA; try discriminate. cbn [bind] in E. destruct (res_map f l) as [xs| |]; try discriminate. cbn [bind] in E. injection E as <-.
    destruct I as [<-|I]; [exists a; split; [left|]; auto|]. destruct (IH xs eq_refl b I) as (a' & J & H). exists a'. split; [right|]; auto.
Qed.
Lemma bind_ok {A B} (x : res A) (f : A -> res B) b : bind x f = Ok b -> exists a, x = Ok a /\ f a = Ok b.
Proof. destruct x; cbn; try discriminate. eauto. Qed.
Lemma unwrap_ok {A} (x : option A) a : unwrap x = Ok a -> x = Some a.
Proof. destruct x; cbn; try discriminate. intros E; injection E; congruence. Qed.
Lemma create_user_name fs l u : create_user fs l = Ok u -> In (ur_name u) (columns l).
Proof.
  unfold create_user. intros E. apply bind_ok in E as (all & A & E). cbv zeta in E.
  apply bind_ok in E as (id & _ & E). apply bind_ok in E as (id' & _ & E). apply bind_ok in E as (? & _ & E). apply bind_ok in E as (? & _ & E).
  apply bind_ok in E as (name & N & E).
  repeat (apply bind_ok in E as (? & _ & E)). injection E as <-. cbn [ur_name]. apply unwrap_ok, nth_error_In in N.
  destruct (res_map_in _ _ _ A _ N) as (k & _ & C). eapply col_in; eauto.
Qed.
Lemma table_all_in {R} (create : bytes -> res R) ls : forall rs, table_all create ls = Ok rs -> forall r, In r rs -> exists l, In l ls /\ create l = Ok r.
Proof.
  induction ls as [|l ls IH]; cbn [table_all]; intros rs E r I; [injection E as <-; destruct I|].
  destruct (data_line l); [|injection E as <-; destruct I]. apply bind_ok in E as (x & X & E). apply bind_ok in E as (xs & XS & E). injection E as <-.
  destruct I as [<-|I]; [exists l; split; [left|]; auto|]. destruct (IH xs XS r I) as (l' & J & H). exists l'. split; [right|]; auto.
Qed.
Lemma bt_insert_values {V} k (v : V) l p : In p (bt_insert k v l) -> p = (k, v) \/ In p l.
Proof.
  induction l as [|(a, b) l IH]; cbn [bt_insert].
  - intros [<-|[]]; auto.
  - destruct (k <? a); [intros [<-|I]; auto|]. destruct (a <? k).
    + intros [<-|I]; [right; left; auto|]. destruct (IH I); auto. right; right; auto.
    + intros [<-|I]; auto. right; right; auto.
Qed.
Lemma bt_insert_all_values {V} ps : forall (l : list (Z * V)) p, In p (bt_insert_all ps l) -> In p ps \/ In p l.
Proof.
  induction ps as [|(a, b) ps IH]; intros l p I; [right; exact I|]. cbn [bt_insert_all fold_left] in I. change (In p (bt_insert_all ps (bt_insert a b l))) in I.
  apply IH in I as [I|I]; [left; right; auto|]. apply bt_insert_values in I as [->|I]; [left; left|]; auto.
Qed.
Lemma bt_get_in {V} k (l : list (Z * V)) v : bt_get k l = Ok v -> In v (map snd l).
Proof.
  induction l as [|(a, b) l IH]; cbn [bt_get]; [discriminate|]. destruct (a =? k); [intros E; injection E as <-; left; auto|]. intros E. right. auto.
Qed.
Lemma next_users k s o s' : element_next k s = Ok (o, s') -> ei_users s' = ei_users s /\
  forall e name, o = Some e -> user_of e = Some name -> In name (map snd (ei_users s)).
Proof.
  assert (forall s o s', next_started k s = Ok (o, s') -> ei_users s' = ei_users s /\ forall e name, o = Some e -> user_of e = Some name -> In name (map snd (ei_users s))) as X.
  { clear. intros s o s'. unfold next_started. destruct (ei_state s); intros E; try discriminate.
    - apply bind_ok in E as ((o1 & ni) & _ & E). destruct o1 as [(n & ts)|]; cbv zeta in E.
      + apply bind_ok in E as (e & M & E). injection E as <- <-. split; [reflexivity|]. intros e' name X U. injection X as <-.
        unfold make_node in M. apply bind_ok in M as (uid & _ & M). apply bind_ok in M as (us & G & M). injection M as <-. cbn in U. injection U as <-. eapply bt_get_in; eauto.
      + injection E as <- <-. split; [reflexivity|]. intros e name X U. injection X as <-. discriminate.
    - apply bind_ok in E as ((o1 & ni) & _ & E). destruct o1 as [((n & xs) & ts)|]; cbv zeta in E.
      + apply bind_ok in E as (e & M & E). injection E as <- <-. split; [reflexivity|]. intros e' name X U. injection X as <-.
        unfold make_way in M. apply bind_ok in M as (uid & _ & M). apply bind_ok in M as (us & G & M). injection M as <-. cbn in U. injection U as <-. eapply bt_get_in; eauto.
      + injection E as <- <-. split; [reflexivity|]. intros e name X U. injection X as <-. discriminate.
    - apply bind_ok in E as ((o1 & ni) & _ & E). destruct o1 as [((n & xs) & ts)|]; cbv zeta in E.
      + apply bind_ok in E as (e & M & E). injection E as <- <-. split; [reflexivity|]. intros e' name X U. injection X as <-.
        unfold make_relation in M. apply bind_ok in M as (uid & _ & M). apply bind_ok in M as (us & G & M). injection M as <-. cbn in U. injection U as <-. eapply bt_get_in; eauto.
      + injection E as <- <-. split; [reflexivity|]. intros e name X U. injection X as <-. discriminate.
    - injection E as <- <-. split; auto. intros e name X. discriminate. }
  unfold element_next. destruct (ei_state s); intros E; apply X in E; auto.
Qed.
Lemma run_users k s l o : run (element_next k) s l o -> forall e name, In e l -> user_of e = Some name -> In name (map snd (ei_users s)).
Proof.
  induction 1 as [s s' E|s E|s a s' l o E R IH]; intros e name I U; [destruct I..|]. apply next_users in E as (EU & EN).
  destruct I as [<-|I]; [eapply EN; eauto|]. rewrite <- EU. eapply IH; eauto.
Qed.
(** whatever the directory holds and however it is sorted, no name with a TAB or a line feed is ever read *)
Theorem C44_names_read unescape rd k s l o e name : ApidbRead.elements unescape rd = Ok (k, s) -> run (element_next k) s l o -> In e l -> user_of e = Some name ->
  ~ In x09 name /\ ~ In x0a name.
Proof.
  intros E R I U. pose proof (run_users k s l o R e name I U) as J. unfold ApidbRead.elements in E.
  apply bind_ok in E as ((fu & lu) & OU & E). apply bind_ok in E as (us & TU & E).
  repeat (apply bind_ok in E as ((? & ?) & _ & E) || apply bind_ok in E as (? & _ & E)). injection E as _ <-. cbn [ei_users] in J.
  apply in_map_iff in J as ((uid & nm) & X & J). cbn [snd] in X. subst nm. apply bt_insert_all_values in J as [J|[]].
  apply in_map_iff in J as (u & X & J). injection X as _ <-. destruct (table_all_in _ _ _ TU u J) as (ln & IL & C). apply create_user_name in C.
  unfold open_table in OU. destruct (get_table T_users rd) as [(dd & data)|]; [|discriminate]. cbn in OU. injection OU as <- <-. eapply columns_clean; eauto.
Qed.
(** False: names are written without escaping. A stream with a TAB or a line feed in a name can be dumped, and its name never comes back. *)
Theorem C44_refuted es name b : In b [x09; x0a] -> In b name -> In (Some name) (map user_of es) -> Forall dumpable es ->
  forall esc hash_order clock lib, (forall i, in_calendar (clock i / 1000000)) ->
  exists w, ApidbWrite.dump esc hash_order clock lib es = Ok w /\
  forall unescape sort_file dir rd k s l o, directory w dir -> ApidbRead.reader_new sort_file dir = Ok rd -> ApidbRead.elements unescape rd = Ok (k, s) ->
    run (element_next k) s l o -> ~ In (Some name) (map user_of l).
Proof.
  intros IB I _ D esc ho clock lib C. destruct (proj1 (C55_dump_total esc ho clock lib C es) D) as (w & W). exists w. split; auto.
  intros unescape sort_file dir rd k s l o _ _ E R J. apply in_map_iff in J as (e & U & J). destruct (C44_names_read unescape rd k s l o e name E R J U) as (N1 & N2).
  destruct IB as [<-|[<-|[]]]; auto.
Qed.

(** ** C41, C44, C53 *)
Section Back.
Variables (esc : bytes -> bytes) (unescape : bytes -> option bytes).
Variables (hash_order : forall V, list (Z * V) -> list (Z * V)) (clock : nat -> Z) (lib : bytes).
Hypothesis HO : any_order hash_order.
Variable sort_file : list (nat * ftype) -> bytes -> res bytes.
Hypothesis SORTS : sorts sort_file.
Variables (es : list element) (w : ApidbWrite.writer) (dir : bytes -> option bytes).
Hypothesis D : ApidbWrite.dump esc hash_order clock lib es = Ok w.
Hypothesis RB : readable esc unescape clock es.
Hypothesis DIR : directory w dir.

(** the relations of the stream that is read *)
Lemma stream_relations (nodes ways rels : list element) ns ws rs : Forall2 (node_back es) ns nodes -> Forall2 (way_back es) ws ways -> Forall2 (relation_back es) rs rels ->
  forall r, In (ERelation r) (nodes ++ [ESentinel] ++ ways ++ [ESentinel] ++ rels ++ [ESentinel]) -> exists r0, In r0 rs /\ relation_back es r0 (ERelation r).
Proof.
  intros F1 F2 F3 r I. rewrite !in_app_iff in I. destruct I as [I|[[I|[]]|[I|[[I|[]]|[I|[I|[]]]]]]]; try discriminate.
  - apply (Forall2_in_r _ _ _ _ F1) in I as (y & _ & (uid & name & ts & _ & _ & _ & X)). discriminate.
  - apply (Forall2_in_r _ _ _ _ F2) in I as (y & _ & (uid & name & ts & _ & _ & _ & X)). discriminate.
  - apply (Forall2_in_r _ _ _ _ F3) in I as (y & I & X). eauto.
Qed.

(** C41, what holds: the nodes of every way keep their order; so do the members of a relation if they are of one
    type and their ids increase. *)
Theorem C41_order_partial : exists rd k s l,
  ApidbRead.reader_new sort_file dir = Ok rd /\ ApidbRead.elements unescape rd = Ok (k, s) /\ run (element_next k) s l Ended /\
  (forall x, In (EWay x) es -> exists y, In (EWay y) l /\ w_id y = w_id x /\ w_version y = w_version x /\ w_refs y = w_refs x) /\
  (forall x t, In (ERelation x) es -> Forall (fun m => m_type m = t) (r_members x) -> ordered (fun a b => m_id a < m_id b) (r_members x) ->
     exists y, In (ERelation y) l /\ r_id y = r_id x /\ r_version y = r_version x /\ r_members y = r_members x).
Proof.
  destruct (C53_dump_round_trip esc unescape hash_order clock lib HO sort_file SORTS es w dir D RB DIR)
    as (rd & k & s & nodes & ways & rels & A & B & C & (ns & P1 & O1 & E1) & (ws & P2 & O2 & E2) & (rs & P3 & O3 & E3)).
  eexists rd, k, s, _. sconj; [exact A|exact B|exact C| |].
  - intros x I. apply in_ways in I. assert (In x ws) as J by (eapply Permutation_in; [apply Permutation_sym, P2|exact I]).
    destruct (Forall2_in_l _ _ _ _ E2 J) as (e & K & (uid & name & ts & _ & _ & _ & ->)). eexists. split; [rewrite !in_app_iff; right; right; left; exact K|]. cbn [w_id w_version w_refs]. auto.
  - intros x t I T O. apply in_relations in I. assert (In x rs) as J by (eapply Permutation_in; [apply Permutation_sym, P3|exact I]).
    destruct (Forall2_in_l _ _ _ _ E3 J) as (e & K & (uid & name & ms & ts & _ & _ & PM & BM & _ & ->)). eexists. split; [rewrite !in_app_iff; do 4 right; left; exact K|]. cbn [r_id r_version r_members].
    split; auto. split; auto. apply (perm_strict (fun a b => m_id a < m_id b)); auto; try (intros; lia).
    apply (ordered_strict m_id).
    + eapply Permutation_NoDup; [apply Permutation_map, Permutation_sym, PM|]. apply ordered_NoDup. exact O.
    + unfold by_member_id in BM. assert (Forall (fun m => m_type m = t) ms) as T' by (eapply Permutation_Forall; [apply Permutation_sym, PM|exact T]).
      eapply ordered_impl; [|exact T'|exact BM]. cbn. intros a b X Y Z. apply Z. congruence.
Qed.
(** C41 is false for relations: members of one type that are not in the order of their ids never keep their order *)
Theorem C41_refuted rd k s l o x y : ApidbRead.reader_new sort_file dir = Ok rd -> ApidbRead.elements unescape rd = Ok (k, s) -> run (element_next k) s l o ->
  In (ERelation x) es -> ~ by_member_id (r_members x) -> In (ERelation y) l -> r_id y = r_id x -> r_version y = r_version x -> r_members y <> r_members x.
Proof.
  intros A B C I N J _ _ Q.
  destruct (C53_dump_round_trip esc unescape hash_order clock lib HO sort_file SORTS es w dir D RB DIR)
    as (rd' & k' & s' & nodes & ways & rels & A' & B' & C' & (ns & P1 & O1 & E1) & (ws & P2 & O2 & E2) & (rs & P3 & O3 & E3)).
  rewrite A in A'. injection A' as <-. rewrite B in B'. injection B' as <- <-. destruct (run_unique _ _ _ _ C' _ _ C) as (-> & ->).
  destruct (stream_relations _ _ _ _ _ _ E1 E2 E3 _ J) as (r0 & _ & (uid & name & ms & ts & _ & _ & _ & BM & _ & X)). injection X as ->. cbn in Q. apply N. rewrite <- Q. exact BM.
Qed.

(** every changeset belongs to one user, every user has one name *)
Definition coherent : Prop :=
  (forall c u u', In (c, u) (changesets_in es) -> In (c, u') (changesets_in es) -> u = u') /\
  (forall u n n', In (u, n) (users_in es) -> In (u, n') (users_in es) -> n = n').
(** positions on the 1e-7 degree grid, times in whole seconds *)
Definition on_grid (c : coordinate) : Prop :=
  exists a b, Z.abs a <= 1800000000 /\ Z.abs b <= 1800000000 /\ c = Coordinate (degrees a) (degrees b).
Definition representable (e : element) : Prop :=
  match e with
  | ENode n => on_grid (n_coord n) /\ n_timestamp n mod 1000 = 0 | EWay x => w_timestamp x mod 1000 = 0
  | ERelation r => r_timestamp r mod 1000 = 0 | ESentinel => True
  end.
(** the same element, up to the order of tags and of members *)
Definition same_element (a b : element) : Prop :=
  match a with
  | ENode n => exists tags, Permutation tags (n_tags n) /\
      b = ENode (Node (n_id n) (n_version n) (n_coord n) (n_timestamp n) (n_changeset n) (n_uid n) (n_user n) (n_visible n) tags)
  | EWay x => exists tags, Permutation tags (w_tags x) /\
      b = EWay (Way (w_id x) (w_version x) (w_timestamp x) (w_changeset x) (w_uid x) (w_user x) (w_visible x) (w_refs x) tags)
  | ERelation r => exists tags members, Permutation tags (r_tags r) /\ Permutation members (r_members r) /\
      b = ERelation (Relation (r_id r) (r_version r) (r_timestamp r) (r_changeset r) (r_uid r) (r_user r) (r_visible r) members tags)
  | ESentinel => b = ESentinel
  end.
Lemma whole t : t mod 1000 = 0 -> whole_seconds t = t.
Proof. unfold whole_seconds. intros H. pose proof (Z.div_mod t 1000). lia. Qed.
Lemma snapped_same c : on_grid c -> snapped c = c.
Proof.
  intros (a & b & A & B & ->). unfold snapped. destruct (C46_coordinates Checked a A) as (x & _ & X & _ & _ & _ & LA & _). destruct (C46_coordinates Checked b B) as (y & _ & Y & _ & _ & _ & _ & LO & _).
  change (dump_degrees a) with (degrees a) in X. change (dump_degrees b) with (degrees b) in Y. rewrite X, Y, LA, LO. rewrite X, Y. reflexivity.
Qed.
Lemma coherent_user (CO : coherent) e c u n u' n' : In e es -> changesets_in [e] = [(c, u)] -> users_in [e] = [(u, n)] ->
  most_recent (changesets_in es) c u' -> most_recent (users_in es) u' n' -> u' = u /\ n' = n.
Proof.
  intros I E1 E2 M1 M2. assert (In (c, u) (changesets_in es) /\ In (u, n) (users_in es)) as (J1 & J2).
  { split; apply in_flat_map; exists e; split; auto.
    - cbn in E1. rewrite app_nil_r in E1. rewrite E1. left; auto.
    - cbn in E2. rewrite app_nil_r in E2. rewrite E2. left; auto. }
  apply recent_in in M1. apply recent_in in M2. destruct CO as (C1 & C2). assert (u' = u) as -> by (eapply C1; eauto). split; auto. eapply C2; eauto.
Qed.
(** C53 for elements the dump format can represent: exactly the elements written come back, nodes, ways, relations, each by id and version *)
Theorem C53_exact : coherent -> Forall representable es -> exists rd k s nodes ways rels ns ws rs,
  ApidbRead.reader_new sort_file dir = Ok rd /\ ApidbRead.elements unescape rd = Ok (k, s) /\
  run (element_next k) s (nodes ++ [ESentinel] ++ ways ++ [ESentinel] ++ rels ++ [ESentinel]) Ended /\
  Permutation ns (nodes_in es) /\ ordered (fun a b => key_lt (n_id a, n_version a) (n_id b, n_version b)) ns /\ Forall2 same_element (map ENode ns) nodes /\
  Permutation ws (ways_in es) /\ ordered (fun a b => key_lt (w_id a, w_version a) (w_id b, w_version b)) ws /\ Forall2 same_element (map EWay ws) ways /\
  Permutation rs (relations_in es) /\ ordered (fun a b => key_lt (r_id a, r_version a) (r_id b, r_version b)) rs /\ Forall2 same_element (map ERelation rs) rels.
Proof.
  intros CO RE. rewrite Forall_forall in RE.
  destruct (C53_dump_round_trip esc unescape hash_order clock lib HO sort_file SORTS es w dir D RB DIR)
    as (rd & k & s & nodes & ways & rels & A & B & C & (ns & P1 & O1 & E1) & (ws & P2 & O2 & E2) & (rs & P3 & O3 & E3)).
  exists rd, k, s, nodes, ways, rels, ns, ws, rs. sconj; auto.
  - apply Forall2_map_l. eapply Forall2_weaken; [|apply Forall2_In, E1]. cbn beta. intros n e (I & (uid & name & ts & M1 & M2 & PT & ->)).
    assert (In (ENode n) es) as J by (apply in_nodes; eapply Permutation_in; eauto). destruct (RE _ J) as (G & T).
    destruct (coherent_user CO (ENode n) (n_changeset n) (n_uid n) (n_user n) uid name J eq_refl eq_refl M1 M2) as (-> & ->).
    exists ts. split; auto. rewrite (whole _ T), (snapped_same _ G). reflexivity.
  - apply Forall2_map_l. eapply Forall2_weaken; [|apply Forall2_In, E2]. cbn beta. intros n e (I & (uid & name & ts & M1 & M2 & PT & ->)).
    assert (In (EWay n) es) as J by (apply in_ways; eapply Permutation_in; eauto). pose proof (RE _ J) as T. cbn in T.
    destruct (coherent_user CO (EWay n) (w_changeset n) (w_uid n) (w_user n) uid name J eq_refl eq_refl M1 M2) as (-> & ->).
    exists ts. split; auto. rewrite (whole _ T). reflexivity.
  - apply Forall2_map_l. eapply Forall2_weaken; [|apply Forall2_In, E3]. cbn beta. intros n e (I & (uid & name & ms & ts & M1 & M2 & PM & BM & PT & ->)).
    assert (In (ERelation n) es) as J by (apply in_relations; eapply Permutation_in; eauto). pose proof (RE _ J) as T. cbn in T.
    destruct (coherent_user CO (ERelation n) (r_changeset n) (r_uid n) (r_user n) uid name J eq_refl eq_refl M1 M2) as (-> & ->).
    exists ts, ms. split; auto. split; auto. rewrite (whole _ T). reflexivity.
Qed.
(** C44, what holds: clean names (no TAB, line feed or carriage return; required by [readable]) come back, when every changeset has one user and every user one name *)
Theorem C44_names_partial : coherent -> exists rd k s l,
  ApidbRead.reader_new sort_file dir = Ok rd /\ ApidbRead.elements unescape rd = Ok (k, s) /\ run (element_next k) s l Ended /\
  forall x, In x es -> exists y, In y l /\ user_of y = user_of x /\ users_in [y] = users_in [x] /\ changesets_in [y] = changesets_in [x].
Proof.
  intros CO.
  destruct (C53_dump_round_trip esc unescape hash_order clock lib HO sort_file SORTS es w dir D RB DIR)
    as (rd & k & s & nodes & ways & rels & A & B & C & (ns & P1 & O1 & E1) & (ws & P2 & O2 & E2) & (rs & P3 & O3 & E3)).
  eexists rd, k, s, _. sconj; [exact A|exact B|exact C|]. intros [n|n|n|] J.
  - assert (In n ns) as I by (eapply Permutation_in; [apply Permutation_sym, P1|apply in_nodes; exact J]). destruct (Forall2_in_l _ _ _ _ E1 I) as (e & K & (uid & name & ts & M1 & M2 & PT & ->)).
    destruct (coherent_user CO (ENode n) (n_changeset n) (n_uid n) (n_user n) uid name J eq_refl eq_refl M1 M2) as (-> & ->).
    eexists. split; [rewrite !in_app_iff; left; exact K|]. auto.
  - assert (In n ws) as I by (eapply Permutation_in; [apply Permutation_sym, P2|apply in_ways; exact J]). destruct (Forall2_in_l _ _ _ _ E2 I) as (e & K & (uid & name & ts & M1 & M2 & PT & ->)).
    destruct (coherent_user CO (EWay n) (w_changeset n) (w_uid n) (w_user n) uid name J eq_refl eq_refl M1 M2) as (-> & ->).
    eexists. split; [rewrite !in_app_iff; do 2 right; left; exact K|]. auto.
  - assert (In n rs) as I by (eapply Permutation_in; [apply Permutation_sym, P3|apply in_relations; exact J]). destruct (Forall2_in_l _ _ _ _ E3 I) as (e & K & (uid & name & ms & ts & M1 & M2 & PM & BM & PT & ->)).
    destruct (coherent_user CO (ERelation n) (r_changeset n) (r_uid n) (r_user n) uid name J eq_refl eq_refl M1 M2) as (-> & ->).
    eexists. split; [rewrite !in_app_iff; do 4 right; left; exact K|]. auto.
  - exists ESentinel. split; auto. rewrite !in_app_iff. right; left; left; auto.
Qed.
End Back.
