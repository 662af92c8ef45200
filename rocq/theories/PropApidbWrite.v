(** Properties of the dump writer: C34 (current tables), C35 (history tables), C43 (users and changesets). *)
From Coq Require Import ZArith List Bool Strings.Byte Strings.String Lia Permutation.
From Verif Require Import Base BaseFacts Types ApidbText ApidbSpec ApidbTextFacts DumpSpec ApidbWrite ApidbWriteFacts.
Import ListNotations.
Local Notation length := List.length.
Local Notation concat := List.concat.
Open Scope Z_scope.

(** the iteration order of a HashMap is some order of its entries *)
Definition any_order (hash_order : forall V, list (Z * V) -> list (Z * V)) : Prop :=
  forall V l, Permutation (hash_order V l) l.

(** ** lists of rows *)
Lemma positions_enumerate {A} (l : list A) : positions l = map (fun p => (fst p + 1, snd p)) (enumerate 0 l).
Proof.
  unfold positions. assert (forall k i, Z.of_nat k = i + 1 ->
    combine (map Z.of_nat (seq k (length l))) l = map (fun p => (fst p + 1, snd p)) (enumerate i l)) as G.
  { induction l as [|a l IH]; intros k i E; [reflexivity|]. cbn [length seq map combine enumerate fst snd]. rewrite E.
    f_equal. apply IH. lia. }
  apply G. reflexivity.
Qed.
Lemma rows_flat esc {A} (rows : A -> list (list value)) (text : A -> bytes) l :
  (forall a, In a l -> exists lines, Forall2 (row_text esc) (rows a) lines /\ text a = concat lines) ->
  exists lines, Forall2 (row_text esc) (flat_map rows l) lines /\ flat_map text l = concat lines.
Proof.
  induction l as [|a l IH]; intros H; cbn [flat_map]; [exists []; auto|].
  destruct (H a (or_introl eq_refl)) as (x & X1 & X2). destruct IH as (y & Y1 & Y2); [intros; apply H; right; auto|].
  exists (x ++ y). split; [apply Forall2_app; auto|]. rewrite concat_app. congruence.
Qed.
Lemma rows_map esc {A B} (rows : B -> list value) (text : A -> bytes) (f : A -> B) l :
  (forall a, In a l -> row_text esc (rows (f a)) (text a)) ->
  Forall2 (row_text esc) (map rows (map f l)) (map text l).
Proof. induction l as [|a l IH]; intros H; cbn [map]; constructor; [apply H; left; auto|apply IH; intros; apply H; right; auto]. Qed.

Section Elements.
Variable esc : bytes -> bytes.

Lemma one_row vals s : row_text esc vals s -> exists lines, Forall2 (row_text esc) [vals] lines /\ s = concat lines.
Proof. intros H. exists [s]. split; [repeat constructor; auto|]. cbn. rewrite app_nil_r. auto. Qed.
Lemma sql_time_shows t : (exists s, to_sql_time_millis t = Ok s) -> to_sql_time_millis t = Ok (sql_time t).
Proof. intros (s & H). unfold sql_time. rewrite H. auto. Qed.

Lemma node_line_ok n : (exists s, to_sql_time_millis (n_timestamp n) = Ok s) ->
  row_text esc (node_row n) (node_line n (sql_time (n_timestamp n))).
Proof. intros T%sql_time_shows. unfold node_row, node_line. rows. Qed.
Lemma current_node_line_ok n : (exists s, to_sql_time_millis (n_timestamp n) = Ok s) ->
  row_text esc (current_node_row n) (current_node_line n (sql_time (n_timestamp n))).
Proof. intros T%sql_time_shows. unfold current_node_row, current_node_line. rows. Qed.
Lemma way_line_ok w : (exists s, to_sql_time_millis (w_timestamp w) = Ok s) ->
  row_text esc (way_row w) (way_line w (sql_time (w_timestamp w))).
Proof. intros T%sql_time_shows. unfold way_row, way_line. rows. Qed.
Lemma current_way_line_ok w : (exists s, to_sql_time_millis (w_timestamp w) = Ok s) ->
  row_text esc (current_way_row w) (current_way_line w (sql_time (w_timestamp w))).
Proof. intros T%sql_time_shows. unfold current_way_row, current_way_line. rows. Qed.
Lemma relation_line_ok r : (exists s, to_sql_time_millis (r_timestamp r) = Ok s) ->
  row_text esc (relation_row r) (relation_line r (sql_time (r_timestamp r))).
Proof. intros T%sql_time_shows. unfold relation_row, relation_line. rows. Qed.
Lemma current_relation_line_ok r : (exists s, to_sql_time_millis (r_timestamp r) = Ok s) ->
  row_text esc (current_relation_row r) (current_relation_line r (sql_time (r_timestamp r))).
Proof. intros T%sql_time_shows. unfold current_relation_row, current_relation_line. rows. Qed.

Lemma map_rows {A} (rows : A -> list value) (text : A -> bytes) l : (forall a, row_text esc (rows a) (text a)) ->
  Forall2 (row_text esc) (map rows l) (map text l).
Proof. intros H. induction l; cbn; constructor; auto. Qed.

Lemma node_tags_ok n : Forall2 (row_text esc) (node_tag_rows n) (map (node_tag_line esc n) (n_tags n)).
Proof. apply map_rows. intros t. unfold node_tag_line. rows. Qed.
Lemma current_tags_ok id tags : Forall2 (row_text esc) (current_tag_rows id tags) (map (current_tag_line esc id) tags).
Proof. apply map_rows. intros t. unfold current_tag_line. rows. Qed.
Lemma way_tags_ok w : Forall2 (row_text esc) (way_tag_rows w) (map (tag_line esc (w_id w) (w_version w)) (w_tags w)).
Proof. apply map_rows. intros t. unfold tag_line. rows. Qed.
Lemma relation_tags_ok r : Forall2 (row_text esc) (relation_tag_rows r) (map (tag_line esc (r_id r) (r_version r)) (r_tags r)).
Proof. apply map_rows. intros t. unfold tag_line. rows. Qed.
Lemma way_nodes_ok w : Forall2 (row_text esc) (way_node_rows w) (map (way_node_line w) (enumerate 0 (w_refs w))).
Proof. unfold way_node_rows. rewrite positions_enumerate, map_map. apply map_rows. intros (i, x). unfold way_node_line. cbn [fst snd]. rows. Qed.
Lemma current_way_nodes_ok w : Forall2 (row_text esc) (current_way_node_rows w) (map (current_way_node_line w) (enumerate 0 (w_refs w))).
Proof. unfold current_way_node_rows. rewrite positions_enumerate, map_map. apply map_rows. intros (i, x). unfold current_way_node_line. cbn [fst snd]. rows. Qed.
Lemma members_ok r : Forall2 (row_text esc) (relation_member_rows r) (map (relation_member_line esc r) (enumerate 0 (r_members r))).
Proof. unfold relation_member_rows. rewrite positions_enumerate, map_map. apply map_rows. intros (i, x). unfold relation_member_line. cbn [fst snd]. rows. Qed.
Lemma current_members_ok r : Forall2 (row_text esc) (current_relation_member_rows r) (map (current_relation_member_line esc r) (enumerate 0 (r_members r))).
Proof. unfold current_relation_member_rows. rewrite positions_enumerate, map_map. apply map_rows. intros (i, x). unfold current_relation_member_line. cbn [fst snd]. rows. Qed.
End Elements.

Section Dump.
Variable esc : bytes -> bytes.
Variable hash_order : forall V, list (Z * V) -> list (Z * V).
Variable clock : nat -> Z.
Variable lib : bytes.
Hypothesis HO : any_order hash_order.

Lemma flat_in {A} (f : node -> list A) es : flat_map f (nodes_in es) = flat_map (fun e => match e with ENode n => f n | _ => [] end) es.
Proof. unfold nodes_in. induction es as [|[n|w|r|] es IH]; cbn; rewrite ?IH; auto. Qed.
Lemma flat_in_w {A} (f : way -> list A) es : flat_map f (ways_in es) = flat_map (fun e => match e with EWay n => f n | _ => [] end) es.
Proof. unfold ways_in. induction es as [|[n|w|r|] es IH]; cbn; rewrite ?IH; auto. Qed.
Lemma flat_in_r {A} (f : relation -> list A) es : flat_map f (relations_in es) = flat_map (fun e => match e with ERelation n => f n | _ => [] end) es.
Proof. unfold relations_in. induction es as [|[n|w|r|] es IH]; cbn; rewrite ?IH; auto. Qed.
Lemma map_flat {A B} (f : A -> B) l : map f l = flat_map (fun a => [f a]) l.
Proof. induction l; cbn; congruence. Qed.

Lemma history_holds t es w (rows : element -> list (list value)) : dump esc hash_order clock lib es = Ok w ->
  existsb (fun x => table_eqb x t) current_tables = false -> t <> T_users -> t <> T_changesets -> t <> T_changeset_tags ->
  (forall e, time_ok e -> exists lines, Forall2 (row_text esc) (rows e) lines /\ adds esc t e = concat lines) ->
  holds esc (files w t) (flat_map rows es).
Proof.
  intros D C N1 N2 N3 R. apply dump_spec in D as (TO & F & _); [|exact HO]. specialize (F t N1 N2 N3). cbv zeta in F. rewrite C in F.
  rewrite history_cell in F by (destruct t; try discriminate C; reflexivity). cbn [fst app] in F.
  destruct (rows_flat esc rows (adds esc t) es) as (lines & L1 & L2).
  { intros e I. apply R. rewrite Forall_forall in TO. auto. }
  exists lines. split; auto. rewrite F, L2. reflexivity.
Qed.
Lemma no_rows e : exists lines, Forall2 (row_text esc) [] lines /\ @nil byte = concat lines /\ time_ok e = time_ok e.
Proof. exists []. auto. Qed.

Lemma holds_app_terminator file rows lines : Forall2 (row_text esc) rows lines -> file = concat lines ++ terminator -> holds esc file rows.
Proof. intros F E. exists lines. auto. Qed.

Lemma current_holds {A} t es w (objs : list A) (id : A -> Z) (vis : A -> bool) (lines : A -> list bytes) (rows : A -> list (list value)) :
  dump esc hash_order clock lib es = Ok w -> In t current_tables ->
  flat_map (puts esc t) es = map (fun a => (lines a, id a, vis a)) objs ->
  (forall a, In a objs -> Forall2 (row_text esc) (rows a) (lines a)) ->
  nondecreasing (map id objs) ->
  holds esc (files w t) (flat_map rows (newest id vis objs)).
Proof.
  intros D C P R N. apply dump_spec in D as (_ & F & _); [|exact HO]. 
  assert (t <> T_users /\ t <> T_changesets /\ t <> T_changeset_tags) as (N1 & N2 & N3).
  { sconj; intros ->; cbn in C; intuition discriminate. }
  specialize (F t N1 N2 N3). cbv zeta in F.
  replace (existsb (fun x => table_eqb x t) current_tables) with true in F.
  2:{ symmetry. apply existsb_exists. exists t. split; auto. apply table_eqb_refl. }
  rewrite current_cell in F by (intros; cbn in C; decompose [or] C; subst; try contradiction; reflexivity).
  rewrite P in F. set (ps := map (fun a => (lines a, id a, vis a)) objs) in *.
  destruct (fold_puts [] ps) as (front & back & NW & E1 & E2 & L & _).
  { unfold ps. rewrite map_map. exact N. }
  assert (newest p_id p_vis ps = map (fun a => (lines a, id a, vis a)) (newest id vis objs)) as NM by (exact (newest_map (fun a => (lines a, id a, vis a)) p_id p_vis objs)).
  unfold bytes in F, E1, E2. rewrite E1, E2 in F.
  assert (flat_map (fun a => concat (lines a)) (newest id vis objs) =
     ([] ++ flat_map (fun p => concat (p_lines p)) front) ++ match (match back with [] => None | p :: _ => Some (p_lines p) end) with Some l => concat l | None => [] end) as TEXT.
  { transitivity (flat_map (fun p => concat (p_lines p)) (newest p_id p_vis ps)).
    - rewrite NM. clear. induction (newest id vis objs); cbn; congruence.
    - rewrite NW, flat_map_app. destruct back as [|p [|? ?]]; cbn in *; [|rewrite app_nil_r|lia]; reflexivity. }
  destruct (rows_flat esc rows (fun a => concat (lines a)) (newest id vis objs)) as (ls & L1 & L2).
  { intros a I. exists (lines a). split; auto. apply R. apply newest_incl in I. tauto. }
  exists ls. split; auto. rewrite F, <- L2, TEXT. reflexivity.
Qed.

(** C35: the history tables hold every version, in input order, and their tags, nodes and members with
    sequence ids from 1; every other table holds no row; every file ends with the terminator line. *)
Theorem C35_history_tables es w : dump esc hash_order clock lib es = Ok w ->
  holds esc (files w T_nodes) (map node_row (nodes_in es)) /\
  holds esc (files w T_node_tags) (flat_map node_tag_rows (nodes_in es)) /\
  holds esc (files w T_ways) (map way_row (ways_in es)) /\
  holds esc (files w T_way_tags) (flat_map way_tag_rows (ways_in es)) /\
  holds esc (files w T_way_nodes) (flat_map way_node_rows (ways_in es)) /\
  holds esc (files w T_relations) (map relation_row (relations_in es)) /\
  holds esc (files w T_relation_tags) (flat_map relation_tag_rows (relations_in es)) /\
  holds esc (files w T_relation_members) (flat_map relation_member_rows (relations_in es)) /\
  (forall t, ~ In t [T_nodes; T_node_tags; T_ways; T_way_tags; T_way_nodes; T_relations; T_relation_tags; T_relation_members;
                     T_current_nodes; T_current_node_tags; T_current_ways; T_current_way_tags; T_current_way_nodes;
                     T_current_relations; T_current_relation_tags; T_current_relation_members;
                     T_users; T_changesets; T_changeset_tags] ->
     holds esc (files w t) []) /\
  (forall t, exists body, files w t = body ++ str "\." ++ [x0a]).
Proof.
  intros D.
  assert (forall t rows, holds esc (files w t) rows -> exists body, files w t = body ++ str "\." ++ [x0a]) as TERM.
  { intros t rows (lines & _ & ->). eauto. }
  assert (forall t rows, existsb (fun x => table_eqb x t) current_tables = false -> t <> T_users -> t <> T_changesets -> t <> T_changeset_tags ->
    (forall e, time_ok e -> exists lines, Forall2 (row_text esc) (rows e) lines /\ adds esc t e = concat lines) ->
    holds esc (files w t) (flat_map rows es)) as H by (intros; eapply history_holds; eauto).
  rewrite !map_flat, !flat_in, !flat_in_w, !flat_in_r.
  sconj.
  - apply H; try reflexivity; try discriminate. intros [n| | |] T; cbn [adds time_ok] in *; [apply one_row, node_line_ok; auto|exists []; auto..].
  - apply H; try reflexivity; try discriminate. intros [n| | |] T; cbn [adds time_ok] in *; [eexists; split; [apply node_tags_ok|reflexivity]|exists []; auto..].
  - apply H; try reflexivity; try discriminate. intros [|wy| |] T; cbn [adds time_ok] in *; [exists []; auto|apply one_row, way_line_ok; auto|exists []; auto..].
  - apply H; try reflexivity; try discriminate. intros [|wy| |] T; cbn [adds time_ok] in *; [exists []; auto|eexists; split; [apply way_tags_ok|reflexivity]|exists []; auto..].
  - apply H; try reflexivity; try discriminate. intros [|wy| |] T; cbn [adds time_ok] in *; [exists []; auto|eexists; split; [apply way_nodes_ok|reflexivity]|exists []; auto..].
  - apply H; try reflexivity; try discriminate. intros [| |r|] T; cbn [adds time_ok] in *; [exists []; auto..|apply one_row, relation_line_ok; auto|exists []; auto].
  - apply H; try reflexivity; try discriminate. intros [| |r|] T; cbn [adds time_ok] in *; [exists []; auto..|eexists; split; [apply relation_tags_ok|reflexivity]|exists []; auto].
  - apply H; try reflexivity; try discriminate. intros [| |r|] T; cbn [adds time_ok] in *; [exists []; auto..|eexists; split; [apply members_ok|reflexivity]|exists []; auto].
  - intros t NI. replace (@nil (list value)) with (flat_map (fun _ : element => @nil (list value)) es) by (clear; induction es; auto).
    apply H; try (destruct t; try reflexivity; cbn in NI; tauto); try (intros ->; apply NI; cbn; tauto).
    intros e _. exists []. split; auto. cbn in NI. destruct t; try reflexivity; tauto.
  - intros t. pose proof D as D0. apply dump_spec in D as (_ & F & us & cs & n & _ & _ & _ & _ & U & C & CT); [|exact HO].
    assert (t = T_users \/ t = T_changesets \/ t = T_changeset_tags \/ (t <> T_users /\ t <> T_changesets /\ t <> T_changeset_tags)) as K
      by (destruct t; try (right; right; right; sconj; discriminate); auto).
    destruct K as [K|[K|[K|(K1 & K2 & K3)]]]; try (subst; eapply TERM; eassumption).
    specialize (F t K1 K2 K3). cbv zeta in F. rewrite F. eexists. reflexivity.
Qed.

(** C34: with ids in order, the current tables hold exactly the rows of the last version of every id
    whose last version is visible. *)
Theorem C34_current_tables es w : dump esc hash_order clock lib es = Ok w ->
  nondecreasing (map n_id (nodes_in es)) -> nondecreasing (map w_id (ways_in es)) -> nondecreasing (map r_id (relations_in es)) ->
  let nodes := newest n_id n_visible (nodes_in es) in
  let ways := newest w_id w_visible (ways_in es) in
  let relations := newest r_id r_visible (relations_in es) in
  holds esc (files w T_current_nodes) (map current_node_row nodes) /\
  holds esc (files w T_current_node_tags) (flat_map (fun n => current_tag_rows (n_id n) (n_tags n)) nodes) /\
  holds esc (files w T_current_ways) (map current_way_row ways) /\
  holds esc (files w T_current_way_tags) (flat_map (fun w => current_tag_rows (w_id w) (w_tags w)) ways) /\
  holds esc (files w T_current_way_nodes) (flat_map current_way_node_rows ways) /\
  holds esc (files w T_current_relations) (map current_relation_row relations) /\
  holds esc (files w T_current_relation_tags) (flat_map (fun r => current_tag_rows (r_id r) (r_tags r)) relations) /\
  holds esc (files w T_current_relation_members) (flat_map current_relation_member_rows relations).
Proof.
  intros D N1 N2 N3. cbv zeta. pose proof D as D0. apply dump_spec in D0 as (TO & _); [|exact HO]. rewrite Forall_forall in TO.
  assert (forall n, In n (nodes_in es) -> time_ok (ENode n)) as TN.
  { intros n I. apply TO. unfold nodes_in in I. apply in_flat_map in I as ([x| | |] & I & J); cbn in J; intuition; subst; auto. }
  assert (forall n, In n (ways_in es) -> time_ok (EWay n)) as TW.
  { intros n I. apply TO. unfold ways_in in I. apply in_flat_map in I as ([|x| |] & I & J); cbn in J; intuition; subst; auto. }
  assert (forall n, In n (relations_in es) -> time_ok (ERelation n)) as TR.
  { intros n I. apply TO. unfold relations_in in I. apply in_flat_map in I as ([| |x|] & I & J); cbn in J; intuition; subst; auto. }
  assert (forall t (f : node -> list bytes * Z * bool), (forall e, puts esc t e = match e with ENode n => [f n] | _ => [] end) ->
    flat_map (puts esc t) es = map f (nodes_in es)) as PN.
  { intros t f E. rewrite map_flat, flat_in. apply flat_map_ext. intros a. rewrite E. destruct a; auto. }
  assert (forall t (f : way -> list bytes * Z * bool), (forall e, puts esc t e = match e with EWay n => [f n] | _ => [] end) ->
    flat_map (puts esc t) es = map f (ways_in es)) as PW.
  { intros t f E. rewrite map_flat, flat_in_w. apply flat_map_ext. intros a. rewrite E. destruct a; auto. }
  assert (forall t (f : relation -> list bytes * Z * bool), (forall e, puts esc t e = match e with ERelation n => [f n] | _ => [] end) ->
    flat_map (puts esc t) es = map f (relations_in es)) as PR.
  { intros t f E. rewrite map_flat, flat_in_r. apply flat_map_ext. intros a. rewrite E. destruct a; auto. }
  rewrite !map_flat. sconj.
  - eapply current_holds with (lines := fun n => [_]); [exact D|cbn; tauto|apply PN; intros []; reflexivity| |auto].
    intros n I. repeat constructor. apply current_node_line_ok. apply TN in I. exact I.
  - eapply current_holds; [exact D|cbn; tauto|apply PN; intros []; reflexivity| |auto]. intros n I. apply current_tags_ok.
  - eapply current_holds with (lines := fun n => [_]); [exact D|cbn; tauto|apply PW; intros []; reflexivity| |auto].
    intros n I. repeat constructor. apply current_way_line_ok. apply TW in I. exact I.
  - eapply current_holds; [exact D|cbn; tauto|apply PW; intros []; reflexivity| |auto]. intros n I. apply current_tags_ok.
  - eapply current_holds; [exact D|cbn; tauto|apply PW; intros []; reflexivity| |auto]. intros n I. apply current_way_nodes_ok.
  - eapply current_holds with (lines := fun n => [_]); [exact D|cbn; tauto|apply PR; intros []; reflexivity| |auto].
    intros n I. repeat constructor. apply current_relation_line_ok. apply TR in I. exact I.
  - eapply current_holds; [exact D|cbn; tauto|apply PR; intros []; reflexivity| |auto]. intros n I. apply current_tags_ok.
  - eapply current_holds; [exact D|cbn; tauto|apply PR; intros []; reflexivity| |auto]. intros n I. apply current_members_ok.
Qed.

(** C43: one row per user id and per changeset id, in order, with the value most recently seen. The time
    columns hold the clock readings; the email column is made from the uid. Every element's changeset, the user
    recorded for that changeset and the element's own user have rows. *)
Theorem C43_users_and_changesets es w : dump esc hash_order clock lib es = Ok w ->
  exists (users : list (Z * bytes)) (changesets : list (Z * Z)) (n : nat),
    increasing (map fst users) /\ (forall uid name, In (uid, name) users <-> most_recent (users_in es) uid name) /\
    increasing (map fst changesets) /\ (forall id uid, In (id, uid) changesets <-> most_recent (changesets_in es) id uid) /\
    (exists emails, Forall2 (fun e u => exists d, plain d (fst u) /\ e = str "osm-admin-user-" ++ d ++ str "@example.com") emails users /\
       holds esc (files w T_users)
         (map (fun p => let '(i, (email, (uid, name))) := p in user_row email (clock i) uid name)
              (combine (seq 0 (length users)) (combine emails users)))) /\
    holds esc (files w T_changesets)
      (map (fun p => let '(i, (id, uid)) := p in changeset_row (clock i) id uid) (combine (seq n (length changesets)) changesets)) /\
    holds esc (files w T_changeset_tags) (flat_map (fun p => changeset_tag_rows lib (fst p)) changesets) /\
    (forall e, In e es -> e <> ESentinel -> exists cid uid uid' name name',
        changesets_in [e] = [(cid, uid)] /\ In (cid, uid') changesets /\ In (uid, name) users /\ In (uid', name') users).
Proof.
  intros D. apply dump_spec in D as (_ & _ & us & cs & n & I1 & M1 & I2 & M2 & U & C & T); [|exact HO].
  exists us, cs, n. sconj; auto.
  - exists (map (fun p => email_of (fst p)) us). split.
    { clear. induction us as [|u us IH]; cbn [map]; constructor; auto. exists (show_int (fst u)). split; [apply show_int_plain|reflexivity]. }
    replace (map _ (combine (seq 0 (length us)) (combine _ us))) with
      (map (fun p => user_row (email_of (fst (snd p))) (clock (fst p)) (fst (snd p)) (snd (snd p))) (combine (seq 0 (length us)) us)); [exact U|].
    clear. generalize 0%nat. induction us as [|(a, b) us IH]; intros k; cbn [length seq combine map]; [reflexivity|].
    cbn [fst snd]. f_equal. apply IH.
  - replace (map _ (combine _ cs)) with (map (fun p => changeset_row (clock (fst p)) (fst (snd p)) (snd (snd p))) (combine (seq n (length cs)) cs)); [exact C|].
    apply map_ext. intros (i, (a, b)). reflexivity.
  - intros e I NS.
    assert (forall V (l : list (Z * V)) k, In k (map fst l) -> exists v, most_recent l k v) as EX.
    { clear. intros V l k. induction l as [|(a, b) l IH] using rev_ind; [contradiction|]. rewrite map_app, in_app_iff. cbn.
      destruct (Z.eq_dec k a) as [->|N].
      - intros _. exists b. apply most_recent_snoc. auto.
      - intros [K|[K|[]]]; [|congruence]. destruct (IH K) as (v & H). exists v. apply most_recent_snoc. auto. }
    assert (exists cid uid name, changesets_in [e] = [(cid, uid)] /\ users_in [e] = [(uid, name)]) as (cid & uid & name & E1 & E2)
      by (destruct e; try congruence; cbn; eauto).
    assert (In cid (map fst (changesets_in es)) /\ In uid (map fst (users_in es))) as (J1 & J2).
    { split; apply in_map_iff; [exists (cid, uid)|exists (uid, name)]; split; auto; apply in_flat_map; exists e; split; auto.
      - cbn in E1. rewrite app_nil_r in E1. rewrite E1. left; auto.
      - cbn in E2. rewrite app_nil_r in E2. rewrite E2. left; auto. }
    destruct (EX _ _ _ J1) as (u & H1). destruct (EX _ _ _ J2) as (nm & H2).
    assert (In u (map fst (users_in es))) as J3.
    { destruct H1 as (l1 & l2 & E3 & _). assert (In (cid, u) (changesets_in es)) as I3 by (rewrite E3; apply in_app_iff; right; left; auto).
      apply in_flat_map in I3 as (e' & I4 & I5). apply in_map_iff. destruct e' as [x|x|x|]; cbn in I5; intuition;
      (match goal with H : (_, _) = (_, _) |- _ => injection H as <- <- end);
      [exists (n_uid x, n_user x)|exists (w_uid x, w_user x)|exists (r_uid x, r_user x)]; split; auto; apply in_flat_map; eexists; split; eauto; left; auto. }
    destruct (EX _ _ _ J3) as (nm' & H3). exists cid, uid, u, nm, nm'.
    sconj; auto; [apply M2; auto|apply M1; auto|apply M1; auto].
Qed.
End Dump.
