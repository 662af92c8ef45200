(** Facts about the dump writer. *)
From Coq Require Import ZArith List Bool Strings.Byte Strings.String Lia Permutation.
From Verif Require Import Base BaseFacts Types ApidbText ApidbSpec ApidbTextFacts DumpSpec ApidbWrite.
Import ListNotations.
Local Notation length := List.length.
Local Notation concat := List.concat.
Open Scope Z_scope.

Lemma table_eqb_eq a b : table_eqb a b = true <-> a = b.
Proof. split; [destruct a; destruct b; cbn; congruence|intros ->; destruct b; reflexivity]. Qed.
Lemma table_eqb_refl a : table_eqb a a = true. Proof. destruct a; reflexivity. Qed.

(** ** rows *)
Lemma row_copy_line cols : cols <> [] -> copy_line cols (row cols).
Proof.
  unfold row. induction cols as [|c cols IH]; [congruence|]. intros _. destruct cols as [|d r].
  - constructor.
  - change (join_cols (c :: d :: r)) with (c ++ x09 :: join_cols (d :: r)). rewrite <- app_assoc. cbn [app].
    constructor. apply IH. discriminate.
Qed.
Lemma copy_line_row cols s : copy_line cols s -> s = row cols.
Proof.
  induction 1 as [|c cols s H IH]; [reflexivity|]. subst. unfold row. destruct cols as [|d r]; [inversion H|].
  change (join_cols (c :: d :: r)) with (c ++ x09 :: join_cols (d :: r)). rewrite <- app_assoc. reflexivity.
Qed.

Lemma bool_shows esc b : shows esc (VBool b) (to_sql_bool b). Proof. destruct b; reflexivity. Qed.
Lemma int_shows esc z : shows esc (VInt z) (show_int z). Proof. apply show_int_plain. Qed.
Lemma time_shows esc t s : to_sql_time_millis t = Ok s -> shows esc (VTime t) s.
Proof.
  unfold to_sql_time_millis. destruct (chrono_seconds (t / 1000)); [|discriminate]. intros E; injection E as <-. cbn. intros F.
  apply show_seconds_sql; auto.
Qed.
Lemma micros_shows esc t s : to_sql_time_micros t = Ok s -> shows esc (VMicros t) s.
Proof.
  unfold to_sql_time_micros. destruct (chrono_seconds _); [|discriminate]. intros E; injection E as <-. cbn [shows]. intros F.
  exists (show_seconds (t / 1000000)), (show6 (t mod 1000000)). split; [reflexivity|]. split; [apply show_seconds_sql; auto|].
  apply show6_spec. pose proof (Z.mod_pos_bound t 1000000). lia.
Qed.

Lemma row_ok esc vals cols : Forall2 (shows esc) vals cols -> cols <> [] -> row_text esc vals (row cols).
Proof. intros F N. exists cols. split; auto. apply row_copy_line; auto. Qed.

Ltac rows := apply row_ok; [|discriminate];
  repeat (apply Forall2_cons; [first [apply int_shows|apply bool_shows|eapply time_shows; eassumption|eapply micros_shows; eassumption|reflexivity]|]);
  apply Forall2_nil.

(** ** cells: the file and the pending lines of a table *)
Definition cell (t : table) (w : writer) : bytes * current := (files w t, currents w t).
Definition put1 (p : list bytes * Z * bool) (s : bytes * current) : bytes * current :=
  let '(ls, id, v) := p in
  let '(out, c) := set_last_lines ls id v (snd s) in
  (match out with None => fst s | Some l => fst s ++ concat l end, set_last_id id c).
Definition step_cell (h : bytes) (ps : list (list bytes * Z * bool)) (s : bytes * current) : bytes * current :=
  fold_left (fun s p => put1 p s) ps (fst s ++ h, snd s).

Lemma append_cell t b w t' : cell t' (append t b w) = if table_eqb t t' then (files w t ++ b, currents w t) else cell t' w.
Proof.
  unfold cell, append, upd. cbn. destruct (table_eqb t t') eqn:E; auto. apply table_eqb_eq in E. subst. reflexivity.
Qed.
Lemma put_current_cell t ls id v w t' :
  cell t' (put_current t ls id v w) = if table_eqb t t' then put1 (ls, id, v) (cell t w) else cell t' w.
Proof.
  unfold put_current, put1. cbn [snd fst]. destruct (set_last_lines ls id v (currents w t)) as (out, c) eqn:E.
  unfold cell at 2. cbn [snd]. rewrite E.
  destruct out; unfold cell, set_current, append, upd; cbn; rewrite ?table_eqb_refl;
    destruct (table_eqb t t') eqn:T; auto; apply table_eqb_eq in T; subst; reflexivity.
Qed.
Lemma remember_cell a b c w t : cell t (remember a b c w) = cell t w.
Proof. reflexivity. Qed.

Definition sql_time (t : Z) : bytes := match to_sql_time_millis t with Ok s => s | _ => [] end.

Lemma list_eq_nil_or_last {A} (l : list A) : l = [] \/ exists l' x, l = l' ++ [x].
Proof. destruct l as [|a l]; [auto|]. right. destruct (exists_last (l := a :: l)) as (l' & x & E); [discriminate|eauto]. Qed.

Section Facts.
Variable escape : bytes -> bytes.

(** what an element adds to a history table *)
Definition adds (t : table) (e : element) : bytes :=
  match t, e with
  | T_nodes, ENode n => node_line n (sql_time (n_timestamp n))
  | T_node_tags, ENode n => concat (map (node_tag_line escape n) (n_tags n))
  | T_ways, EWay w => way_line w (sql_time (w_timestamp w))
  | T_way_tags, EWay w => concat (map (tag_line escape (w_id w) (w_version w)) (w_tags w))
  | T_way_nodes, EWay w => concat (map (way_node_line w) (enumerate 0 (w_refs w)))
  | T_relations, ERelation r => relation_line r (sql_time (r_timestamp r))
  | T_relation_tags, ERelation r => concat (map (tag_line escape (r_id r) (r_version r)) (r_tags r))
  | T_relation_members, ERelation r => concat (map (relation_member_line escape r) (enumerate 0 (r_members r)))
  | _, _ => []
  end.
(** what an element puts into a current table *)
Definition puts (t : table) (e : element) : list (list bytes * Z * bool) :=
  match t, e with
  | T_current_nodes, ENode n => [([current_node_line n (sql_time (n_timestamp n))], n_id n, n_visible n)]
  | T_current_node_tags, ENode n => [(map (current_tag_line escape (n_id n)) (n_tags n), n_id n, n_visible n)]
  | T_current_ways, EWay w => [([current_way_line w (sql_time (w_timestamp w))], w_id w, w_visible w)]
  | T_current_way_tags, EWay w => [(map (current_tag_line escape (w_id w)) (w_tags w), w_id w, w_visible w)]
  | T_current_way_nodes, EWay w => [(map (current_way_node_line w) (enumerate 0 (w_refs w)), w_id w, w_visible w)]
  | T_current_relations, ERelation r => [([current_relation_line r (sql_time (r_timestamp r))], r_id r, r_visible r)]
  | T_current_relation_tags, ERelation r => [(map (current_tag_line escape (r_id r)) (r_tags r), r_id r, r_visible r)]
  | T_current_relation_members, ERelation r =>
      [(map (current_relation_member_line escape r) (enumerate 0 (r_members r)), r_id r, r_visible r)]
  | _, _ => []
  end.
Definition time_ok (e : element) : Prop :=
  match e with
  | ENode n => exists s, to_sql_time_millis (n_timestamp n) = Ok s
  | EWay w => exists s, to_sql_time_millis (w_timestamp w) = Ok s
  | ERelation r => exists s, to_sql_time_millis (r_timestamp r) = Ok s
  | ESentinel => True
  end.

Lemma cell_pair t w : cell t w = (fst (cell t w) ++ [], snd (cell t w)).
Proof. rewrite app_nil_r. reflexivity. Qed.

Lemma write_element_cell e w w' : write_element escape e w = Ok w' ->
  time_ok e /\ forall t, cell t w' = step_cell (adds t e) (puts t e) (cell t w).
Proof.
  destruct e as [n|wy|r|]; cbn [write_element time_ok].
  - unfold write_node. cbv zeta. destruct (to_sql_time_millis (n_timestamp n)) as [s| |] eqn:T; cbn [bind]; try discriminate.
    intros E. assert (sql_time (n_timestamp n) = s) as S by (unfold sql_time; rewrite T; auto).
    apply (f_equal (fun x => match x with Ok a => a | _ => w' end)) in E. cbv beta iota in E. subst w'. split; [eauto|]. intros t.
    unfold step_cell. destruct t; cbn [adds puts fold_left]; rewrite !put_current_cell, !append_cell; cbn [table_eqb];
      rewrite ?append_cell, ?put_current_cell, ?append_cell, ?put_current_cell; cbn [table_eqb]; rewrite ?remember_cell, ?S;
      rewrite ?app_nil_r; try reflexivity.
    all: match goal with |- (files ?w ?t ++ _, currents ?w ?t) = _ =>
        change (files w t) with (fst (cell t w)); change (currents w t) with (snd (cell t w)) end;
      rewrite ?append_cell, ?put_current_cell; cbn [table_eqb]; rewrite ?remember_cell; reflexivity.
  - unfold write_way. cbv zeta. destruct (to_sql_time_millis (w_timestamp wy)) as [s| |] eqn:T; cbn [bind]; try discriminate.
    intros E. assert (sql_time (w_timestamp wy) = s) as S by (unfold sql_time; rewrite T; auto).
    apply (f_equal (fun x => match x with Ok a => a | _ => w' end)) in E. cbv beta iota in E. subst w'. split; [eauto|]. intros t.
    unfold step_cell. destruct t; cbn [adds puts fold_left]; rewrite !append_cell; cbn [table_eqb];
      repeat (first [rewrite append_cell|rewrite put_current_cell]; cbn [table_eqb]); rewrite ?remember_cell, ?S;
      rewrite ?app_nil_r; try reflexivity.
    all: match goal with |- (files ?w ?t ++ _, currents ?w ?t) = _ =>
        change (files w t) with (fst (cell t w)); change (currents w t) with (snd (cell t w)) end;
      repeat (first [rewrite append_cell|rewrite put_current_cell]; cbn [table_eqb]); rewrite ?remember_cell; reflexivity.
  - unfold write_relation. cbv zeta. destruct (to_sql_time_millis (r_timestamp r)) as [s| |] eqn:T; cbn [bind]; try discriminate.
    intros E. assert (sql_time (r_timestamp r) = s) as S by (unfold sql_time; rewrite T; auto).
    apply (f_equal (fun x => match x with Ok a => a | _ => w' end)) in E. cbv beta iota in E. subst w'. split; [eauto|]. intros t.
    unfold step_cell. destruct t; cbn [adds puts fold_left]; rewrite !append_cell; cbn [table_eqb];
      repeat (first [rewrite append_cell|rewrite put_current_cell]; cbn [table_eqb]); rewrite ?remember_cell, ?S;
      rewrite ?app_nil_r; try reflexivity.
    all: match goal with |- (files ?w ?t ++ _, currents ?w ?t) = _ =>
        change (files w t) with (fst (cell t w)); change (currents w t) with (snd (cell t w)) end;
      repeat (first [rewrite append_cell|rewrite put_current_cell]; cbn [table_eqb]); rewrite ?remember_cell; reflexivity.
  - intros E. injection E as <-. split; auto. intros t. unfold step_cell. destruct t; cbn [adds puts fold_left]; apply cell_pair.
Qed.

Lemma write_element_ok e w : time_ok e -> exists w', write_element escape e w = Ok w'.
Proof.
  destruct e as [n|wy|r|]; cbn [write_element time_ok]; intros H; [destruct H as (s & H)..|eauto];
    unfold write_node, write_way, write_relation; cbv zeta; rewrite H; cbn [bind]; eauto.
Qed.
Lemma write_elements_ok es : forall w, Forall time_ok es -> exists w', write_elements escape es w = Ok w'.
Proof.
  induction es as [|e es IH]; intros w F; cbn [write_elements]; [eauto|]. inversion F; subst.
  destruct (write_element_ok e w) as (w' & ->); auto. cbn [bind]. auto.
Qed.

Lemma write_elements_cell es : forall w w', write_elements escape es w = Ok w' ->
  Forall time_ok es /\ forall t, cell t w' = fold_left (fun s e => step_cell (adds t e) (puts t e) s) es (cell t w).
Proof.
  induction es as [|e es IH]; intros w w'; cbn [write_elements].
  - intros E. injection E as <-. split; auto.
  - destruct (write_element escape e w) as [w1| |] eqn:E1; cbn [bind]; try discriminate. intros E.
    apply write_element_cell in E1 as (T & C). apply IH in E as (Ts & Cs). split; [auto|]. intros t. cbn [fold_left].
    rewrite Cs, C. reflexivity.
Qed.

Lemma history_cell t : (forall e, puts t e = []) -> forall es s,
  fold_left (fun s e => step_cell (adds t e) (puts t e) s) es s = (fst s ++ flat_map (adds t) es, snd s).
Proof.
  intros P. induction es as [|e es IH]; intros s; cbn [fold_left flat_map].
  - rewrite app_nil_r. apply surjective_pairing.
  - rewrite IH, P. unfold step_cell. cbn [fold_left fst snd]. rewrite app_assoc. reflexivity.
Qed.
Lemma current_cell t : (forall e, adds t e = []) -> forall es s,
  fold_left (fun s e => step_cell (adds t e) (puts t e) s) es s = fold_left (fun s p => put1 p s) (flat_map (puts t) es) s.
Proof.
  intros P. induction es as [|e es IH]; intros s; cbn [fold_left flat_map]; [reflexivity|].
  rewrite IH, P, fold_left_app. unfold step_cell. rewrite app_nil_r, <- surjective_pairing. reflexivity.
Qed.

(** ** the newest visible versions *)
Lemma newest_app {A} (id : A -> Z) vis (l : list A) a : newest id vis (l ++ [a]) =
  filter (fun b => negb (id b =? id a)) (newest id vis l) ++ (if vis a then [a] else []).
Proof.
  induction l as [|b l IH]; cbn [app newest].
  - cbn. destruct (vis a); reflexivity.
  - rewrite existsb_app. cbn [existsb]. rewrite orb_false_r. rewrite IH.
    destruct (existsb (fun b0 => id b0 =? id b) l) eqn:X; cbn [orb].
    + reflexivity.
    + rewrite (Z.eqb_sym (id a)). destruct (vis b); cbn [negb orb].
      * rewrite orb_false_r. cbn [filter]. destruct (id b =? id a); cbn [negb]; reflexivity.
      * rewrite orb_true_r. reflexivity.
Qed.
Lemma newest_incl {A} (id : A -> Z) vis (l : list A) a : In a (newest id vis l) -> In a l /\ vis a = true.
Proof.
  induction l as [|b l IH]; cbn [newest]; [contradiction|]. destruct (existsb _ l || negb (vis b)) eqn:X.
  - intros I. apply IH in I as (I & V). split; auto. right; auto.
  - apply orb_false_elim in X as (_ & X). apply negb_false_iff in X. intros [<-|I]; [split; auto; left; auto|].
    apply IH in I as (I & V). split; auto. right; auto.
Qed.
Lemma newest_map {A B} (f : A -> B) (id : B -> Z) vis (l : list A) :
  newest id vis (map f l) = map f (newest (fun a => id (f a)) (fun a => vis (f a)) l).
Proof.
  induction l as [|a l IH]; cbn [map newest]; [reflexivity|]. rewrite IH.
  replace (existsb (fun b => id b =? id (f a)) (map f l)) with (existsb (fun b => id (f b) =? id (f a)) l)
    by (clear; induction l; cbn; congruence). destruct (_ || _); reflexivity.
Qed.

Definition p_id (p : list bytes * Z * bool) : Z := snd (fst p).
Definition p_vis (p : list bytes * Z * bool) : bool := snd p.
Definition p_lines (p : list bytes * Z * bool) : list bytes := fst (fst p).

Lemma nondecreasing_snoc l a : nondecreasing (l ++ [a]) <-> nondecreasing l /\ Forall (fun b => b <= a) l.
Proof.
  induction l as [|b l IH]; cbn [app nondecreasing]; [intuition|]. rewrite IH, Forall_app. split.
  - intros ((H1 & H2) & H3 & H4). inversion H2; subst. auto.
  - intros ((H1 & H3) & H4). inversion H4; subst. auto.
Qed.
Lemma filter_all {A} (f : A -> bool) l : Forall (fun a => f a = true) l -> filter f l = l.
Proof. induction 1; cbn; auto. rewrite H, IHForall. auto. Qed.

Lemma fold_puts f0 ps : nondecreasing (map p_id ps) ->
  let s := fold_left (fun s p => put1 p s) ps (f0, current_new) in
  exists front back, newest p_id p_vis ps = front ++ back /\ fst s = f0 ++ flat_map (fun p => concat (p_lines p)) front /\
    last_lines (snd s) = match back with [] => None | p :: _ => Some (p_lines p) end /\ (length back <= 1)%nat /\
    (ps <> [] -> Forall (fun p => p_id p < last_id (snd s)) front /\ Forall (fun p => p_id p = last_id (snd s)) back /\
      Forall (fun p => p_id p <= last_id (snd s)) ps).
Proof.
  induction ps as [|p ps IH] using rev_ind; intros N.
  - exists [], []. cbn. rewrite app_nil_r. repeat split; auto; congruence.
  - rewrite map_app in N. cbn [map] in N. apply nondecreasing_snoc in N as (N & LE). specialize (IH N).
    rewrite fold_left_app. cbn [fold_left]. cbv zeta. destruct (fold_left _ ps (f0, current_new)) as (f, c) eqn:S.
    cbn [fst snd] in IH. destruct IH as (front & back & Nw & F & LL & B1 & I). rewrite newest_app, Nw, filter_app.
    destruct p as ((ls, id), v). change (p_id (ls, id, v)) with id. change (p_vis (ls, id, v)) with v. unfold put1, set_last_lines. cbn [fst snd].
    assert (forall back', Forall (fun p => p_id p = id) back' ->
      filter (fun b => negb (p_id b =? id)) back' = []) as DROP.
    { intros back'. induction 1 as [|q q' Q Q' IHq]; cbn; auto. rewrite Q, Z.eqb_refl. exact IHq. }
    assert (forall front' : list (list bytes * Z * bool), Forall (fun p => p_id p < id) front' ->
      filter (fun b => negb (p_id b =? id)) front' = front') as KEEP.
    { intros front' H. apply filter_all. eapply Forall_impl; [|exact H]. cbv beta. intros q Q.
      destruct (Z.eqb_spec (p_id q) id); [lia|reflexivity]. }
    destruct ps as [|p0 ps0].
    + cbn in S. injection S as <- <-. cbn in Nw. destruct front; [|discriminate]. destruct back; [|discriminate]. cbn.
      exists [], (if v then [(ls, id, v)] else []). replace (if 0 <? id then None else None) with (@None (list bytes)) by (destruct (0 <? id); auto).
      cbn. rewrite app_nil_r. destruct v; cbn; repeat split; auto; repeat constructor; unfold p_id; cbn; lia.
    + destruct I as (I1 & I2 & I3); [discriminate|]. set (ps := p0 :: ps0) in *. cbn [set_last_id last_id last_lines].
      assert (last_id c <= id) as LI.
      { (* the last put had the last id *)
        destruct (exists_last (l := ps) ltac:(discriminate)) as (ps' & q & Q). rewrite Q in S, LE. rewrite fold_left_app in S.
        cbn [fold_left] in S. rewrite map_app in LE. apply Forall_app in LE as (_ & LE). inversion LE; subst.
        destruct q as ((qa, qb), qc). unfold put1 in S. destruct (set_last_lines qa qb qc _). injection S as _ <-. cbn. auto. }
      destruct (Z.ltb_spec (last_id c) id) as [LT|GE].
      * rewrite (KEEP front), (KEEP back).
        2:{ eapply Forall_impl; [|exact I2]. cbv beta. intros. lia. }
        2:{ eapply Forall_impl; [|exact I1]. cbv beta. intros. lia. }
        exists (front ++ back), (if v then [(ls, id, v)] else []).
        split; [reflexivity|]. split.
        { rewrite LL, F. rewrite flat_map_app. destruct back as [|q [|? ?]]; cbn in *; [rewrite !app_nil_r; auto|rewrite app_nil_r, app_assoc; auto|lia]. }
        split; [destruct v; reflexivity|]. split; [destruct v; cbn; lia|]. intros _. split; [|split].
        -- apply Forall_app. split; eapply Forall_impl; [|exact I1| |exact I2]; cbv beta; intros; lia.
        -- destruct v; repeat constructor.
        -- apply Forall_app. split; [eapply Forall_impl; [|exact I3]; cbv beta; intros; lia|repeat constructor]. unfold p_id; cbn; lia.
      * assert (last_id c = id) as E by lia. rewrite E in *. rewrite (KEEP front) by auto. rewrite (DROP back) by auto. rewrite app_nil_r.
        exists front, (if v then [(ls, id, v)] else []).
        split; [reflexivity|]. split; [exact F|]. split; [destruct v; reflexivity|]. split; [destruct v; cbn; lia|].
        intros _. split; [auto|]. split; [destruct v; repeat constructor|].
        apply Forall_app. split; [auto|repeat constructor]. unfold p_id; cbn; lia.
Qed.

(** ** closing *)
Lemma flush_current_cell t w t' : cell t' (flush_current t w) = if table_eqb t t' then
  (files w t ++ match last_lines (currents w t) with Some l => concat l | None => [] end, Current (last_id (currents w t)) None) else cell t' w.
Proof.
  unfold flush_current. destruct (last_lines (currents w t)); unfold cell, set_current, append, upd; cbn;
    destruct (table_eqb t t') eqn:T; auto; apply table_eqb_eq in T; subst; rewrite ?app_nil_r; reflexivity.
Qed.
Lemma flush_files w t : files (flush_current_object_lines w) t =
  if existsb (fun x => table_eqb x t) current_tables then
    files w t ++ match last_lines (currents w t) with Some l => concat l | None => [] end
  else files w t.
Proof.
  unfold flush_current_object_lines, current_tables. cbn [fold_left].
  change (files ?x t) with (fst (cell t x)). rewrite flush_current_cell.
  repeat match goal with |- context [flush_current ?a ?b] => 
     let x := fresh "x" in remember (flush_current a b) as x eqn:X end.
  subst. destruct t; cbn [existsb table_eqb orb];
  repeat (rewrite flush_current_cell; cbn [table_eqb]); cbn [fst]; try reflexivity.
  all: change (currents ?x ?t) with (snd (cell t x)); change (files ?x ?t) with (fst (cell t x));
    repeat (rewrite flush_current_cell; cbn [table_eqb]); reflexivity.
Qed.

Lemma close_tables_files w t : files (close_tables w) t = files w t ++ terminator.
Proof.
  unfold close_tables. assert (forall ts w, NoDup ts -> files (fold_left (fun w t => append t terminator w) ts w) t =
     if existsb (fun x => table_eqb x t) ts then files w t ++ terminator else files w t) as G.
  { induction ts as [|a ts IH]; intros w0 ND; cbn [fold_left existsb]; [reflexivity|]. inversion ND as [|? ? N1 N2]; subst.
    rewrite IH by auto. change (files (append a terminator w0) t) with (fst (cell t (append a terminator w0))).
    rewrite append_cell. destruct (table_eqb a t) eqn:T; cbn [orb fst cell].
    - apply table_eqb_eq in T. subst. replace (existsb (fun x => table_eqb x t) ts) with false; [reflexivity|].
      symmetry. apply not_true_is_false. intros X. apply existsb_exists in X as (x & X1 & X2). apply table_eqb_eq in X2. subst. auto.
    - reflexivity. }
  rewrite G.
  - replace (existsb (fun x => table_eqb x t) all_tables) with true; [reflexivity|]. destruct t; reflexivity.
  - unfold all_tables. repeat (constructor; [cbn; intuition discriminate|]). constructor.
Qed.

(** ** users and changesets *)
Lemma write_element_buffers e w w' : write_element escape e w = Ok w' ->
  user_buffer w' = fold_left (fun l p => map_put (fst p) (snd p) l) (users_in [e]) (user_buffer w) /\
  changeset_buffer w' = fold_left (fun l p => map_put (fst p) (snd p) l) (changesets_in [e]) (changeset_buffer w) /\
  user_index w' = user_index w /\ changeset_index w' = changeset_index w.
Proof.
  assert (forall t ls id v w, user_buffer (put_current t ls id v w) = user_buffer w /\
     changeset_buffer (put_current t ls id v w) = changeset_buffer w /\ user_index (put_current t ls id v w) = user_index w /\
     changeset_index (put_current t ls id v w) = changeset_index w) as P.
  { intros. unfold put_current. destruct (set_last_lines ls id v (currents w0 t)) as ([o|], c); auto. }
  destruct e as [n|wy|r|]; cbn [write_element].
  - unfold write_node. cbv zeta. destruct (to_sql_time_millis (n_timestamp n)) as [s| |]; cbn [bind]; try discriminate. intros E.
    apply (f_equal (fun x => match x with Ok a => a | _ => w' end)) in E. cbv beta iota in E. subst w'.
    destruct (P T_current_node_tags (map (current_tag_line escape (n_id n)) (n_tags n)) (n_id n) (n_visible n)
      (append T_node_tags (concat (map (node_tag_line escape n) (n_tags n))) (append T_nodes (node_line n s)
        (put_current T_current_nodes [current_node_line n s] (n_id n) (n_visible n) (remember (n_uid n) (n_user n) (n_changeset n) w))))) as (A1 & A2 & A3 & A4).
    destruct (P T_current_nodes [current_node_line n s] (n_id n) (n_visible n) (remember (n_uid n) (n_user n) (n_changeset n) w)) as (B1 & B2 & B3 & B4).
    rewrite A1, A2, A3, A4. cbn [append user_buffer changeset_buffer user_index changeset_index]. rewrite B1, B2, B3, B4. auto.
  - unfold write_way. cbv zeta. destruct (to_sql_time_millis (w_timestamp wy)) as [s| |]; cbn [bind]; try discriminate. intros E.
    apply (f_equal (fun x => match x with Ok a => a | _ => w' end)) in E. cbv beta iota in E. subst w'.
    repeat match goal with |- context [put_current ?t ?ls ?id ?v ?x] =>
      lazymatch x with context [put_current] => fail | _ =>
        let y := fresh "y" in let Y := fresh "Y" in pose proof (P t ls id v x) as Y; set (y := put_current t ls id v x) in *; clearbody y end end.
    cbn [append user_buffer changeset_buffer user_index changeset_index remember] in *.
    decompose [and] Y. decompose [and] Y0. decompose [and] Y1. repeat split; cbn; congruence.
  - unfold write_relation. cbv zeta. destruct (to_sql_time_millis (r_timestamp r)) as [s| |]; cbn [bind]; try discriminate. intros E.
    apply (f_equal (fun x => match x with Ok a => a | _ => w' end)) in E. cbv beta iota in E. subst w'.
    repeat match goal with |- context [put_current ?t ?ls ?id ?v ?x] =>
      lazymatch x with context [put_current] => fail | _ =>
        let y := fresh "y" in let Y := fresh "Y" in pose proof (P t ls id v x) as Y; set (y := put_current t ls id v x) in *; clearbody y end end.
    cbn [append user_buffer changeset_buffer user_index changeset_index remember] in *.
    decompose [and] Y. decompose [and] Y0. decompose [and] Y1. repeat split; cbn; congruence.
  - intros E. injection E as <-. auto.
Qed.
Lemma write_elements_buffers es : forall w w', write_elements escape es w = Ok w' ->
  user_buffer w' = fold_left (fun l p => map_put (fst p) (snd p) l) (users_in es) (user_buffer w) /\
  changeset_buffer w' = fold_left (fun l p => map_put (fst p) (snd p) l) (changesets_in es) (changeset_buffer w) /\
  user_index w' = user_index w /\ changeset_index w' = changeset_index w.
Proof.
  induction es as [|e es IH]; intros w w'; cbn [write_elements].
  - intros E. injection E as <-. auto.
  - destruct (write_element escape e w) as [w1| |] eqn:E1; cbn [bind]; try discriminate. intros E.
    apply write_element_buffers in E1 as (A1 & A2 & A3 & A4). apply IH in E as (B1 & B2 & B3 & B4).
    change (e :: es) with ([e] ++ es). unfold users_in, changesets_in in *. rewrite !flat_map_app, !fold_left_app.
    rewrite B1, B2, B3, B4, A1, A2. auto.
Qed.

Lemma most_recent_snoc {V} (l : list (Z * V)) k v k' v' :
  most_recent (l ++ [(k', v')]) k v <-> (k = k' /\ v = v') \/ (k <> k' /\ most_recent l k v).
Proof.
  split.
  - intros (l1 & l2 & E & N). destruct (list_eq_nil_or_last l2) as [->|(l2' & x & ->)].
    + apply app_inj_tail in E as (_ & E). injection E as -> ->. auto.
    + change (l1 ++ (k, v) :: l2' ++ [x]) with (l1 ++ ((k, v) :: l2') ++ [x]) in E. rewrite app_assoc in E.
      apply app_inj_tail in E as (-> & <-). rewrite map_app, in_app_iff in N. cbn in N. right. split; [intuition congruence|].
      exists l1, l2'. intuition.
  - intros [(-> & ->)|(N & l1 & l2 & -> & NI)].
    + exists l, []. auto.
    + exists l1, (l2 ++ [(k', v')]). split; [rewrite <- app_assoc; reflexivity|]. rewrite map_app, in_app_iff. cbn. intuition.
Qed.
Lemma map_put_fold {V} (l : list (Z * V)) : let m := fold_left (fun l p => map_put (fst p) (snd p) l) l [] in
  NoDup (map fst m) /\ forall k v, In (k, v) m <-> most_recent l k v.
Proof.
  induction l as [|(k', v') l IH] using rev_ind; cbv zeta.
  - cbn. split; [constructor|]. intros k v. split; [contradiction|]. intros (l1 & l2 & E & _). destruct l1; discriminate.
  - rewrite fold_left_app. cbn [fold_left fst snd]. destruct IH as (ND & IH). set (m := fold_left _ l []) in *.
    unfold map_put. split.
    + cbn [map fst]. constructor.
      * intros I. apply in_map_iff in I as ((a, b) & E & I). apply filter_In in I as (_ & I). cbn in E, I. subst.
        rewrite Z.eqb_refl in I. discriminate.
      * clear -ND. induction m as [|(a, b) m IH]; cbn in *; [constructor|]. inversion ND; subst. destruct (a =? k'); cbn; auto.
        constructor; auto. intros I. apply in_map_iff in I as (x & E & I). apply filter_In in I as (I & _). apply H1, in_map_iff. eauto.
    + intros k v. rewrite most_recent_snoc. cbn [In]. rewrite filter_In, IH. cbn [fst]. split.
      * intros [E|(I & E)]; [injection E as -> ->; auto|]. apply negb_true_iff, Z.eqb_neq in E. auto.
      * intros [(-> & ->)|(N & I)]; [auto|]. right. split; auto. apply negb_true_iff, Z.eqb_neq. auto.
Qed.

Lemma bt_insert_In {V} k (v : V) l : increasing (map fst l) -> forall p, In p (bt_insert k v l) <-> p = (k, v) \/ (In p l /\ fst p <> k).
Proof.
  induction l as [|(k', v') l IH]; cbn [bt_insert map increasing]; intros I p.
  - cbn. intuition.
  - destruct I as (I1 & I2). cbn [fst] in *. assert (forall q, In q l -> k' < fst q) as LT.
    { intros q Q. rewrite Forall_forall in I1. apply I1, in_map; auto. }
    destruct (Z.ltb_spec k k').
    + cbn [In]. split.
      * intros [<-|[<-|Q]]; auto; right; cbn; [split; [auto|lia]|]. specialize (LT p Q). split; [auto|lia].
      * intuition.
    + destruct (Z.ltb_spec k' k).
      * cbn [In]. rewrite IH by auto. split.
        -- intros [<-|[->|(Q & N)]]; auto. right. cbn. split; [auto|lia].
        -- intuition.
      * assert (k' = k) as -> by lia. cbn [In]. split.
        -- intros [<-|Q]; auto. right. specialize (LT p Q). split; [auto|lia].
        -- intros [->|([<-|Q] & N)]; auto. cbn in N. congruence.
Qed.
Lemma bt_insert_increasing {V} k (v : V) l : increasing (map fst l) -> increasing (map fst (bt_insert k v l)).
Proof.
  induction l as [|(k', v') l IH]; intros I.
  - cbn. auto.
  - pose proof (bt_insert_In k v _ (proj2 I)) as IN. destruct I as (I1 & I2). cbn [bt_insert fst] in *.
    destruct (Z.ltb_spec k k').
    + cbn [map fst increasing]. split; [|split; auto]. constructor; [auto|]. eapply Forall_impl; [|exact I1]. cbn. lia.
    + destruct (Z.ltb_spec k' k).
      * cbn [map fst increasing]. split; [|auto]. apply Forall_forall. intros a A. apply in_map_iff in A as (p & <- & P).
        apply IN in P as [->|(P & _)]; [cbn; lia|]. rewrite Forall_forall in I1. apply I1, in_map; auto.
      * assert (k' = k) as -> by lia. cbn. auto.
Qed.
Lemma bt_insert_all_spec {V} (ps : list (Z * V)) : NoDup (map fst ps) ->
  increasing (map fst (bt_insert_all ps [])) /\ forall p, In p (bt_insert_all ps []) <-> In p ps.
Proof.
  unfold bt_insert_all. induction ps as [|(k, v) ps IH] using rev_ind; intros ND.
  - cbn. intuition.
  - rewrite map_app in ND. cbn [map fst] in ND. apply NoDup_remove in ND as (ND & N). rewrite app_nil_r in *.
    destruct (IH ND) as (I & IN). rewrite fold_left_app. cbn [fold_left fst snd]. split; [apply bt_insert_increasing; auto|].
    intros p. rewrite bt_insert_In by auto. rewrite IN, in_app_iff. cbn. split.
    + intros [->|(P & _)]; auto.
    + intros [P|[<-|[]]]; auto. right. split; auto. intros <-. apply N, in_map; auto.
Qed.

Variable hash_order : forall V, list (Z * V) -> list (Z * V).
Variable clock : nat -> Z.
Variable lib : bytes.

Definition email_of (uid : Z) : bytes := str "osm-admin-user-" ++ show_int uid ++ str "@example.com".
Lemma user_line_ok id name t s : to_sql_time_micros t = Ok s -> row_text escape (user_row (email_of id) t id name) (user_line id name s).
Proof. intros T. unfold user_line, user_row. rows. Qed.
Lemma changeset_line_ok id uid t s : to_sql_time_micros t = Ok s -> row_text escape (changeset_row t id uid) (changeset_line id uid s).
Proof. intros T. unfold changeset_line, changeset_row. rows. Qed.

Lemma write_users_spec us : forall i w w', write_users clock i us w = Ok w' ->
  (forall t, t <> T_users -> files w' t = files w t) /\ user_index w' = user_index w /\ changeset_index w' = changeset_index w /\
  exists lines, Forall2 (row_text escape) (map (fun p => user_row (email_of (fst (snd p))) (clock (fst p)) (fst (snd p)) (snd (snd p)))
                                               (combine (seq i (length us)) us)) lines /\
    files w' T_users = files w T_users ++ concat lines.
Proof.
  induction us as [|(id, name) us IH]; intros i w w'; cbn [write_users].
  - intros E. injection E as <-. sconj; auto. exists []. cbn. rewrite app_nil_r. auto.
  - destruct (to_sql_time_micros (clock i)) as [s| |] eqn:T; cbn [bind]; try discriminate. intros E.
    apply IH in E as (A & B & C & lines & F & L). sconj.
    + intros t N. rewrite A by auto. unfold append, upd; cbn [files]. destruct (table_eqb T_users t) eqn:X; auto.
      apply table_eqb_eq in X. congruence.
    + rewrite B. reflexivity.
    + rewrite C. reflexivity.
    + exists (user_line id name s :: lines). split.
      * cbn [length seq combine map fst snd]. constructor; auto. apply user_line_ok; auto.
      * rewrite L. unfold append, upd; cbn [files table_eqb concat]. rewrite app_assoc. reflexivity.
Qed.
Lemma write_changesets_spec cs : forall i w w', write_changesets clock lib i cs w = Ok w' ->
  (forall t, t <> T_changesets -> t <> T_changeset_tags -> files w' t = files w t) /\
  (exists lines, Forall2 (row_text escape) (map (fun p => changeset_row (clock (fst p)) (fst (snd p)) (snd (snd p)))
                                               (combine (seq i (length cs)) cs)) lines /\
    files w' T_changesets = files w T_changesets ++ concat lines) /\
  (exists lines, Forall2 (row_text escape) (flat_map (fun p => changeset_tag_rows lib (fst p)) cs) lines /\
    files w' T_changeset_tags = files w T_changeset_tags ++ concat lines).
Proof.
  induction cs as [|(id, uid) cs IH]; intros i w w'; cbn [write_changesets].
  - intros E. injection E as <-. sconj; auto; exists []; cbn; rewrite app_nil_r; auto.
  - destruct (to_sql_time_micros (clock i)) as [s| |] eqn:T; cbn [bind]; try discriminate. intros E.
    apply IH in E as (A & (l1 & F1 & L1) & l2 & F2 & L2). sconj.
    + intros t N N'. rewrite A by auto. unfold append, upd; cbn [files]. destruct (table_eqb T_changesets t) eqn:X.
      { apply table_eqb_eq in X. congruence. } destruct (table_eqb T_changeset_tags t) eqn:X'; auto. apply table_eqb_eq in X'. congruence.
    + exists (changeset_line id uid s :: l1). split.
      * cbn [length seq combine map fst snd]. constructor; auto. apply changeset_line_ok; auto.
      * rewrite L1. unfold append, upd; cbn [files table_eqb concat]. rewrite app_assoc. reflexivity.
    + exists (row [show_int id; str "created_by"; lib] :: row [show_int id; str "replication"; str "true"] :: l2). split.
      * cbn [flat_map changeset_tag_rows fst app]. constructor; [rows|]. constructor; [rows|]. auto.
      * rewrite L2. unfold append, upd, changeset_tag_lines; cbn [files table_eqb concat]. rewrite <- !app_assoc. reflexivity.
Qed.

(** ** a whole dump *)
Lemma dump_spec es w : (forall V l, Permutation (hash_order V l) l) -> dump escape hash_order clock lib es = Ok w ->
  Forall time_ok es /\
  (forall t, t <> T_users -> t <> T_changesets -> t <> T_changeset_tags ->
     let s := fold_left (fun s e => step_cell (adds t e) (puts t e) s) es ([], current_new) in
     files w t = (if existsb (fun x => table_eqb x t) current_tables then
        fst s ++ match last_lines (snd s) with Some l => concat l | None => [] end else fst s) ++ terminator) /\
  exists us cs n,
    increasing (map fst us) /\ (forall k v, In (k, v) us <-> most_recent (users_in es) k v) /\
    increasing (map fst cs) /\ (forall k v, In (k, v) cs <-> most_recent (changesets_in es) k v) /\
    holds escape (files w T_users) (map (fun p => user_row (email_of (fst (snd p))) (clock (fst p)) (fst (snd p)) (snd (snd p)))
      (combine (seq 0 (length us)) us)) /\
    holds escape (files w T_changesets) (map (fun p => changeset_row (clock (fst p)) (fst (snd p)) (snd (snd p)))
      (combine (seq n (length cs)) cs)) /\
    holds escape (files w T_changeset_tags) (flat_map (fun p => changeset_tag_rows lib (fst p)) cs).
Proof.
  intros HO. unfold dump, close. destruct (write_elements escape es writer_new) as [w1| |] eqn:E1; cbn [bind]; try discriminate.
  cbv zeta. set (w2 := flush_current_object_lines w1). set (w3 := flush_buffers hash_order w2).
  destruct (write_users clock 0 (user_index w3) w3) as [w4| |] eqn:E4; cbn [bind]; try discriminate.
  destruct (write_changesets clock lib (length (user_index w4)) (changeset_index w4) w4) as [w5| |] eqn:E5; cbn [bind]; try discriminate.
  intros E. apply (f_equal (fun x => match x with Ok a => a | _ => w end)) in E. cbv beta iota in E. subst w.
  pose proof (write_elements_cell _ _ _ E1) as (TO & CELL). pose proof (write_elements_buffers _ _ _ E1) as (UB & CB & UI & CI).
  pose proof (write_users_spec _ _ _ _ E4) as (U1 & U2 & U3 & ul & U4 & U5).
  pose proof (write_changesets_spec _ _ _ _ E5) as (C1 & (cl & C2 & C3) & tl & C4 & C5).
  assert (user_index w3 = bt_insert_all (hash_order _ (user_buffer w1)) [] /\
          changeset_index w3 = bt_insert_all (hash_order _ (changeset_buffer w1)) []) as (X1 & X2).
  { unfold w3, flush_buffers. cbn [user_index changeset_index]. 
    assert (forall w t, user_index (flush_current t w) = user_index w /\ changeset_index (flush_current t w) = changeset_index w /\
      user_buffer (flush_current t w) = user_buffer w /\ changeset_buffer (flush_current t w) = changeset_buffer w) as FC.
    { intros. unfold flush_current. destruct (last_lines _); auto. }
    assert (forall ts w, user_index (fold_left (fun w t => flush_current t w) ts w) = user_index w /\
       changeset_index (fold_left (fun w t => flush_current t w) ts w) = changeset_index w /\
       user_buffer (fold_left (fun w t => flush_current t w) ts w) = user_buffer w /\
       changeset_buffer (fold_left (fun w t => flush_current t w) ts w) = changeset_buffer w) as FF.
    { induction ts as [|t ts IH]; intros ww; cbn [fold_left]; auto. destruct (IH (flush_current t ww)) as (-> & -> & -> & ->). apply FC. }
    destruct (FF current_tables w1) as (F1 & F2 & F3 & F4). unfold w2, flush_current_object_lines. rewrite F1, F2, F3, F4, UI, CI. auto. }
  assert (forall t, files w3 t = files w2 t) as F32 by reflexivity.
  assert (forall t, currents w1 t = snd (cell t w1)) as SC by reflexivity.
  assert (forall t, files w1 t = fst (cell t w1)) as FC by reflexivity.
  assert (forall t, existsb (fun x => table_eqb x t) current_tables = false -> files w2 t = fst (cell t w1)) as F21.
  { intros t X. unfold w2. rewrite flush_files, X. reflexivity. }
  split; [exact TO|]. split.
  - intros t N1 N2 N3. cbv zeta. rewrite close_tables_files, C1, U1, F32 by auto. unfold w2. rewrite flush_files, FC, SC, CELL. reflexivity.
  - set (us := user_index w3) in *. set (cs := changeset_index w3) in *. rewrite U3 in *. fold cs in C2, C4, E5.
    exists us, cs, (length (user_index w4)).
    assert (NoDup (map fst (hash_order _ (user_buffer w1))) /\ forall k v, In (k, v) (hash_order _ (user_buffer w1)) <-> most_recent (users_in es) k v) as (N1 & M1).
    { rewrite UB. destruct (map_put_fold (users_in es)) as (A & B). split.
      - eapply Permutation_NoDup; [|exact A]. apply Permutation_map. symmetry. apply HO.
      - intros k v. rewrite <- B. split; apply Permutation_in; [|symmetry]; apply HO. }
    assert (NoDup (map fst (hash_order _ (changeset_buffer w1))) /\ forall k v, In (k, v) (hash_order _ (changeset_buffer w1)) <-> most_recent (changesets_in es) k v) as (N2 & M2).
    { rewrite CB. destruct (map_put_fold (changesets_in es)) as (A & B). split.
      - eapply Permutation_NoDup; [|exact A]. apply Permutation_map. symmetry. apply HO.
      - intros k v. rewrite <- B. split; apply Permutation_in; [|symmetry]; apply HO. }
    destruct (bt_insert_all_spec _ N1) as (I1 & J1). destruct (bt_insert_all_spec _ N2) as (I2 & J2). rewrite <- X1 in I1, J1. rewrite <- X2 in I2, J2.
    assert (forall t, existsb (fun x => table_eqb x t) current_tables = false -> files w2 t = flat_map (adds t) es) as EMPTY.
    { intros t X. rewrite F21, CELL by auto. rewrite history_cell; [reflexivity|]. destruct t; try discriminate X; reflexivity. }
    assert (forall t, (forall e, adds t e = []) -> flat_map (adds t) es = []) as NIL.
    { intros t X. clear -X. induction es; cbn; auto. rewrite X. auto. }
    sconj; auto.
    + intros k v. rewrite J1. apply M1.
    + intros k v. rewrite J2. apply M2.
    + exists ul. split; auto. rewrite close_tables_files, C1, U5, F32, EMPTY, NIL by (auto; discriminate). reflexivity.
    + exists cl. split; auto. rewrite close_tables_files, C3, U1, F32, EMPTY, NIL by (auto; discriminate). reflexivity.
    + exists tl. split; auto. rewrite close_tables_files, C5, U1, F32, EMPTY, NIL by (auto; discriminate). reflexivity.
Qed.
End Facts.
