(** Property C92: iterating a dump on a failing disk. *)
From Coq Require Import ZArith List Bool Strings.Byte Strings.String Lia.
From Verif Require Import Base BaseFacts Types ApidbText ApidbWrite ApidbRead FileFormat DumpReadFails DumpReadFailsSpec.
From Verif Require PropDump JoinFacts.
Import ListNotations.
Local Notation length := List.length.
Local Notation concat := List.concat.
Open Scope Z_scope.

(** ** Lines *)
Lemma lines_line a s : ~ In x0a a -> lines_of (a ++ x0a :: s) = (a ++ [x0a]) :: lines_of s.
Proof.
  induction a as [|b a IH]; intros N; [reflexivity|]. cbn [app lines_of]. destruct (Byte.eqb b x0a) eqn:E; [destruct N; left; apply byte_dec_bl; auto|].
  rewrite IH by (intros I; apply N; right; auto). reflexivity.
Qed.
Lemma lines_last a : ~ In x0a a -> a <> [] -> lines_of a = [a].
Proof.
  induction a as [|b a IH]; intros N X; [congruence|]. cbn [lines_of]. destruct (Byte.eqb b x0a) eqn:E; [destruct N; left; apply byte_dec_bl; auto|].
  destruct a as [|c a]; [reflexivity|]. rewrite IH; [reflexivity| |discriminate]. intros I; apply N; right; auto.
Qed.
Lemma first_line s : s = [] \/ (exists a r, ~ In x0a a /\ s = a ++ x0a :: r) \/ (~ In x0a s /\ s <> []).
Proof.
  induction s as [|b s IH]; [auto|]. right. destruct (Byte.eqb b x0a) eqn:E.
  - left. exists [], s. apply byte_dec_bl in E. subst. auto.
  - assert (b <> x0a) by (intros ->; discriminate E). destruct IH as [-> |[(a & r & N & ->)|(N & X)]].
    + right. split; [|discriminate]. intros [I|[]]. congruence.
    + left. exists (b :: a), r. split; [|reflexivity]. intros [I|I]; [congruence|auto].
    + right. split; [|discriminate]. intros [I|I]; [congruence|auto].
Qed.
Lemma line_ind (P : bytes -> Prop) : P [] -> (forall a r, ~ In x0a a -> P r -> P (a ++ x0a :: r)) -> (forall a, ~ In x0a a -> a <> [] -> P a) -> forall s, P s.
Proof.
  intros P0 P1 P2 s. remember (length s) as n eqn:L. revert s L. induction n as [n IH] using lt_wf_ind. intros s ->. destruct (first_line s) as [-> |[(a & r & N & ->)|(N & X)]]; auto.
  apply P1; auto. apply (IH (length r)); auto. rewrite app_length. cbn. lia.
Qed.
Lemma lines_dies s : dies s (lines_of s).
Proof. induction s as [|a r N IH|a N X] using line_ind; [apply di_stop|rewrite lines_line by auto; apply di_line; auto|rewrite lines_last by auto; apply di_last; auto]. Qed.
Lemma dies_reads s ls : dies s ls -> read_lines s ls.
Proof. induction 1; [apply rl_stop|apply rl_line; auto|apply rl_last; auto; apply rl_stop]. Qed.
(** a disk that fails for good in the middle of a table cannot be told from a table that is cut between two rows *)
Lemma dies_cut data ls : dies data ls <-> exists data', cut_rows data data' /\ ls = lines_of data'.
Proof.
  split.
  - induction 1 as [s|a s ls N D (data' & ((c & E) & H) & ->)|a N X].
    + exists []. split; [|reflexivity]. split; [exists s; reflexivity|auto].
    + exists (a ++ x0a :: data'). rewrite lines_line by auto. split; [|reflexivity]. split; [exists c; rewrite E, <- app_assoc; reflexivity|].
      destruct H as [-> |[-> |(u & ->)]]; [left; reflexivity|right; right; exists a; reflexivity|right; right; exists (a ++ x0a :: u); rewrite <- app_assoc; reflexivity].
    + exists a. rewrite lines_last by auto. split; [|reflexivity]. split; [exists []; rewrite app_nil_r; reflexivity|auto].
  - intros (data' & ((c & E) & H) & ->). revert data c E H. induction data' as [|a r N IH|a N X] using line_ind; intros data c E H; subst data.
    + apply di_stop.
    + rewrite lines_line by auto. rewrite <- app_assoc. cbn [app]. apply di_line; auto. apply (IH _ c); auto. destruct H as [H|[H|(u & H)]].
      * left. rewrite <- app_assoc in H. cbn [app] in H. apply app_inv_head in H. injection H as H. exact H.
      * destruct a; discriminate H.
      * right. clear - H. destruct r as [|b r] using rev_ind; [auto|]. right. exists r. change (a ++ x0a :: r ++ [b]) with (a ++ (x0a :: r) ++ [b]) in H. rewrite app_assoc in H. apply app_inj_tail in H. destruct H as (_ & ->). reflexivity.
    + destruct H as [H|[H|(u & H)]]; [|congruence|].
      * rewrite <- H, lines_last by auto. apply di_last; auto.
      * destruct N. rewrite H. apply in_or_app. right. left. reflexivity.
Qed.

(** ** Opening *)
Lemma get_with_data f rd t : get_table t (with_data f rd) = match get_table t rd with Some (d, _) => Some (d, f t) | None => None end.
Proof.
  induction rd as [|(t', (d, x)) rd IH]; [reflexivity|]. cbn [with_data map get_table fst snd]. destruct (table_eqb t' t) eqn:E; [|exact IH].
  replace t with t' by (destruct t', t; first [reflexivity|discriminate E]). reflexivity.
Qed.
Lemma elements_sound unescape rd : elements_on unescape rd (fun _ => true) (fun t => lines_of (data_of rd t)) = ApidbRead.elements unescape rd.
Proof.
  unfold ApidbRead.elements, elements_on, open_table, got, opened, data_of.
  destruct (get_table T_users rd) as [(?, ?)|]; cbn [unwrap_res bind]; auto. destruct (table_all (create_user _) _); cbn [bind]; auto.
  destruct (get_table T_changesets rd) as [(?, ?)|]; cbn [unwrap_res bind]; auto. destruct (table_all (create_changeset _) _); cbn [bind]; auto.
  repeat match goal with |- context [get_table ?t rd] => destruct (get_table t rd) as [(?, ?)|]; cbn [bind]; auto end.
Qed.
Lemma concat_lines s : concat (lines_of s) = s.
Proof. induction s as [|a r N IH|a N X] using line_ind; [reflexivity|rewrite lines_line by auto; cbn [List.concat]; rewrite IH, <- app_assoc; reflexivity|rewrite lines_last by auto; apply app_nil_r]. Qed.
Lemma elements_on_ext unescape rd opens l l' : (forall t, l t = l' t) -> elements_on unescape rd opens l = elements_on unescape rd opens l'.
Proof. intros H. unfold elements_on, opened. rewrite !H. reflexivity. Qed.
Lemma elements_cut unescape rd f : elements_on unescape rd (fun _ => true) (fun t => lines_of (f t)) = ApidbRead.elements unescape (with_data f rd).
Proof.
  unfold ApidbRead.elements, elements_on, open_table, got, opened. rewrite !get_with_data.
  destruct (get_table T_users rd) as [(?, ?)|]; cbn [unwrap_res bind]; auto. destruct (table_all (create_user _) _); cbn [bind]; auto.
  destruct (get_table T_changesets rd) as [(?, ?)|]; cbn [unwrap_res bind]; auto. destruct (table_all (create_changeset _) _); cbn [bind]; auto.
  repeat match goal with |- context [get_table ?t rd] => destruct (get_table t rd) as [(?, ?)|]; cbn [bind]; auto end.
Qed.
(** C92: when reads of a table fail for good at any point, the iteration is that of a dump whose tables are cut between two rows; and every
    such cut can be the effect of a failing disk. *)
Theorem C92_cut_between_rows unescape rd r :
  (exists lines, (forall t, dies (data_of rd t) (lines t)) /\ r = elements_on unescape rd (fun _ => true) lines) <->
  (exists data', (forall t, cut_rows (data_of rd t) (data' t)) /\ r = ApidbRead.elements unescape (with_data data' rd)).
Proof.
  split.
  - intros (lines & D & ->). exists (fun t => concat (lines t)). assert (G : forall t, cut_rows (data_of rd t) (concat (lines t)) /\ lines t = lines_of (concat (lines t))).
    { intros t. destruct (proj1 (dies_cut _ _) (D t)) as (x & C & ->). rewrite concat_lines. auto. }
    split; [intros t; apply G|]. rewrite <- elements_cut. apply elements_on_ext. intros t. apply G.
  - intros (f & C & ->). exists (fun t => lines_of (f t)). split; [|symmetry; apply elements_cut]. intros t. apply dies_cut. eauto.
Qed.

(** ** Groups: the objects of one kind *)
Section Group.
Context {I O : Type} (next : I -> res (option O * I)) (make : O -> res element).
Inductive group : I -> list element -> I -> Prop :=
| gr_end i j : next i = Ok (None, j) -> group i [] j
| gr_step i x j e es j' : next i = Ok (Some x, j) -> make x = Ok e -> group j es j' -> group i (e :: es) j'.
(** stopped by a panic *)
Inductive stuck : I -> list element -> Prop :=
| st_next i : next i = Panic -> stuck i []
| st_make i x j : next i = Ok (Some x, j) -> make x = Panic -> stuck i []
| st_step i x j e es : next i = Ok (Some x, j) -> make x = Ok e -> stuck j es -> stuck i (e :: es).

Lemma group_cut (Rel : I -> I -> Prop) :
  (forall i i' o j, Rel i i' -> next i = Ok (o, j) -> (exists j', next i' = Ok (None, j')) \/
     (exists x x' j', o = Some x /\ next i' = Ok (Some x', j') /\ Rel j j' /\ forall e, make x = Ok e -> exists e', make x' = Ok e' /\ cut_object e e')) ->
  forall i xs j, group i xs j -> forall i', Rel i i' -> exists xs' j', group i' xs' j' /\ first_of cut_object xs xs'.
Proof.
  intros STEP i xs j G. induction G as [i j E|i x j e es j' E M G IH]; intros i' R.
  - destruct (STEP _ _ _ _ R E) as [(j' & E')|(x & x' & j' & X & _)]; [|discriminate X]. exists [], j'. split; [apply gr_end; auto|]. exists []. split; [exists []; reflexivity|constructor].
  - destruct (STEP _ _ _ _ R E) as [(j1 & E')|(x1 & x' & j1 & X & E' & R' & MK)].
    + exists [], j1. split; [apply gr_end; auto|]. exists []. split; [exists (e :: es); reflexivity|constructor].
    + injection X as <-. destruct (MK _ M) as (e' & M' & CO). destruct (IH _ R') as (xs' & j2 & G' & ys & (c & ->) & F).
      exists (e' :: xs'), j2. split; [eapply gr_step; eauto|]. exists (e :: ys). split; [exists c; reflexivity|constructor; auto].
Qed.
Lemma group_any (Rel : I -> I -> Prop) :
  (forall i i' o j x' j', Rel i i' -> next i = Ok (o, j) -> next i' = Ok (Some x', j') -> exists x, o = Some x /\ Rel j j' /\ forall e e', make x = Ok e -> make x' = Ok e' -> same_object e e') ->
  forall i' xs', (stuck i' xs' \/ exists j', group i' xs' j') -> forall i xs j, Rel i i' -> group i xs j -> first_of same_object xs xs'.
Proof.
  intros STEP. assert (G0 : forall xs, first_of same_object xs []) by (intros xs; exists []; split; [exists xs; reflexivity|constructor]).
  assert (ONE : forall i' x' j' e' xs' i xs j, next i' = Ok (Some x', j') -> make x' = Ok e' -> (forall i xs j, Rel i j' -> group i xs j -> first_of same_object xs xs') -> Rel i i' -> group i xs j -> first_of same_object xs (e' :: xs')).
  { intros i' x' j' e' xs' i xs j E' M' IH R G. destruct G as [i j E|i x j e es j1 E M G].
    - destruct (STEP _ _ _ _ _ _ R E E') as (x & X & _). discriminate X.
    - destruct (STEP _ _ _ _ _ _ R E E') as (x1 & X & R' & SO). injection X as <-. destruct (IH _ _ _ R' G) as (ys & (c & ->) & F). exists (e :: ys). split; [exists c; reflexivity|constructor; auto]. }
  intros i' xs' [S|(j' & G)].
  - induction S as [i E|i x j E M|i x j e es E M S IH]; intros i0 xs j0 R G; auto. eapply ONE; eauto.
  - induction G as [i j E|i x j e es j' E M G IH]; intros i0 xs j0 R G'; auto. eapply ONE; eauto.
Qed.
End Group.

(** ** The stream of elements is made of groups *)
Section Stream.
Variable k : creators.
Section Made.
Variables (us : list (Z * bytes)) (cs : list (Z * Z)).
Definition node_made (x : node_rec * list tag_rec) : res element := make_node us cs (fst x) (snd x).
Definition way_made (x : obj_rec * list way_node_rec * list tag_rec) : res element := make_way us cs (fst (fst x)) (snd (fst x)) (snd x).
Definition rel_made (x : obj_rec * list member_rec * list tag_rec) : res element := make_relation us cs (fst (fst x)) (snd (fst x)) (snd x).
Definition node_group := group (node_next k) node_made.
Definition way_group := group (way_next k) way_made.
Definition rel_group := group (rel_next k) rel_made.

Lemma nodes_step ni wi ri : element_next k (EIter us cs Nodes ni wi ri) = ('(o, ni') <- node_next k ni ;;
  match o with None => Ok (Some ESentinel, EIter us cs Ways ni' wi ri) | Some x => e <- node_made x ;; Ok (Some e, EIter us cs Nodes ni' wi ri) end).
Proof. cbn. destruct (node_next k ni) as [([(n, ts)|], ni')| |]; reflexivity. Qed.
Lemma ways_step ni wi ri : element_next k (EIter us cs Ways ni wi ri) = ('(o, wi') <- way_next k wi ;;
  match o with None => Ok (Some ESentinel, EIter us cs Relations ni wi' ri) | Some x => e <- way_made x ;; Ok (Some e, EIter us cs Ways ni wi' ri) end).
Proof. cbn. destruct (way_next k wi) as [([((n, xs), ts)|], wi')| |]; reflexivity. Qed.
Lemma rels_step ni wi ri : element_next k (EIter us cs Relations ni wi ri) = ('(o, ri') <- rel_next k ri ;;
  match o with None => Ok (Some ESentinel, EIter us cs End_ ni wi ri') | Some x => e <- rel_made x ;; Ok (Some e, EIter us cs Relations ni wi ri') end).
Proof. cbn. destruct (rel_next k ri) as [([((n, xs), ts)|], ri')| |]; reflexivity. Qed.
End Made.

(** one group of a run, whatever the kind *)
Section OneGroup.
Context {I O : Type} (next : I -> res (option O * I)) (make : O -> res element) (at_ next_at : I -> eiter).
Hypothesis STEP : forall i, element_next k (at_ i) = ('(o, i') <- next i ;;
  match o with None => Ok (Some ESentinel, next_at i') | Some x => e <- make x ;; Ok (Some e, at_ i') end).
Lemma group_run i xs j : group next make i xs j -> forall t o, run (element_next k) (next_at j) t o -> run (element_next k) (at_ i) (xs ++ ESentinel :: t) o.
Proof.
  induction 1 as [i j E|i x j e es j' E M G IH]; intros t o R.
  - eapply run_step; [|exact R]. rewrite STEP, E. reflexivity.
  - eapply run_step; [|apply IH; exact R]. rewrite STEP, E. cbn [bind]. rewrite M. reflexivity.
Qed.
Lemma run_group l o s : run (element_next k) s l o -> forall i, s = at_ i ->
  (exists xs j t, group next make i xs j /\ l = xs ++ ESentinel :: t /\ run (element_next k) (next_at j) t o) \/ (o = Panicked /\ stuck next make i l).
Proof.
  induction 1 as [s s' E|s E|s a s' l o E R IH]; intros i ->; rewrite STEP in E; destruct (next i) as [([x|], j)| |] eqn:N; cbn [bind] in E; try discriminate E.
  - destruct (make x) eqn:M; discriminate E.
  - destruct (make x) eqn:M; try discriminate E. right. split; auto. eapply st_make; eauto.
  - right. split; auto. apply st_next. auto.
  - destruct (make x) as [e| |] eqn:M; try discriminate E. injection E as <- <-. destruct (IH j eq_refl) as [(xs & j' & t & G & -> & R')|(-> & S)].
    + left. exists (e :: xs), j', t. split; [eapply gr_step; eauto|]. auto.
    + right. split; auto. eapply st_step; eauto.
  - injection E as <- <-. left. exists [], j, l. split; [apply gr_end; auto|]. auto.
Qed.
End OneGroup.

Variables (us : list (Z * bytes)) (cs : list (Z * Z)).
Lemma run_end_state ni wi ri : run (element_next k) (EIter us cs End_ ni wi ri) [] Ended.
Proof. eapply run_end. reflexivity. Qed.
Lemma stream_run ni wi ri ns ws rs ni' wi' ri' : node_group us cs ni ns ni' -> way_group us cs wi ws wi' -> rel_group us cs ri rs ri' ->
  run (element_next k) (EIter us cs Start ni wi ri) (stream ns ws rs) Ended.
Proof.
  intros G1 G2 G3. apply (PropDump.run_same k (EIter us cs Nodes ni wi ri)); [reflexivity|]. unfold stream. cbn [app].
  apply (group_run (node_next k) (node_made us cs) (fun i => EIter us cs Nodes i wi ri) (fun i => EIter us cs Ways i wi ri) (fun i => nodes_step us cs i wi ri) _ _ _ G1).
  apply (group_run (way_next k) (way_made us cs) (fun i => EIter us cs Ways ni' i ri) (fun i => EIter us cs Relations ni' i ri) (fun i => ways_step us cs ni' i ri) _ _ _ G2).
  apply (group_run (rel_next k) (rel_made us cs) (fun i => EIter us cs Relations ni' wi' i) (fun i => EIter us cs End_ ni' wi' i) (fun i => rels_step us cs ni' wi' i) _ _ _ G3).
  apply run_end_state.
Qed.
Lemma run_stream ni wi ri l o : run (element_next k) (EIter us cs Start ni wi ri) l o ->
  (o = Ended /\ exists ns ws rs ni' wi' ri', l = stream ns ws rs /\ node_group us cs ni ns ni' /\ way_group us cs wi ws wi' /\ rel_group us cs ri rs ri') \/
  (o = Panicked /\
    (stuck (node_next k) (node_made us cs) ni l \/
     (exists ns ni' ws, node_group us cs ni ns ni' /\ stuck (way_next k) (way_made us cs) wi ws /\ l = ns ++ ESentinel :: ws) \/
     (exists ns ni' ws wi' rs, node_group us cs ni ns ni' /\ way_group us cs wi ws wi' /\ stuck (rel_next k) (rel_made us cs) ri rs /\ l = ns ++ ESentinel :: ws ++ ESentinel :: rs))).
Proof.
  intros R. apply (PropDump.run_same k _ (EIter us cs Nodes ni wi ri)) in R; [|reflexivity].
  destruct (run_group (node_next k) (node_made us cs) (fun i => EIter us cs Nodes i wi ri) (fun i => EIter us cs Ways i wi ri) (fun i => nodes_step us cs i wi ri) _ _ _ R ni eq_refl) as [(ns & ni' & t & G1 & -> & R1)|(-> & S)]; [|right; auto].
  destruct (run_group (way_next k) (way_made us cs) (fun i => EIter us cs Ways ni' i ri) (fun i => EIter us cs Relations ni' i ri) (fun i => ways_step us cs ni' i ri) _ _ _ R1 wi eq_refl) as [(ws & wi' & t2 & G2 & -> & R2)|(-> & S)]; [|right; split; auto; right; left; exists ns, ni', t; auto].
  destruct (run_group (rel_next k) (rel_made us cs) (fun i => EIter us cs Relations ni' wi' i) (fun i => EIter us cs End_ ni' wi' i) (fun i => rels_step us cs ni' wi' i) _ _ _ R2 ri eq_refl) as [(rs & ri' & t3 & G3 & -> & R3)|(-> & S)].
  - left. destruct (PropDump.run_unique _ _ _ _ (run_end_state ni' wi' ri') _ _ R3) as (-> & ->). split; auto. exists ns, ws, rs, ni', wi', ri'. auto.
  - right. split; auto. right. right. exists ns, ni', ws, wi', t2. auto.
Qed.
End Stream.

(** ** Tables that are cut *)
Definition dep_cut {R} (d d' : dep R) : Prop := (fst d' = fst d /\ begins (snd d') (snd d)) \/ d' = (None, []).
Lemma gather_cut {R} (create : bytes -> res R) same ls c : forall xs la r, gather create same (ls ++ c) = Ok (xs, la, r) ->
  (exists r', gather create same ls = Ok (xs, la, r') /\ r = r' ++ c) \/ (exists xs', gather create same ls = Ok (xs', None, []) /\ begins xs' xs).
Proof.
  induction ls as [|l ls IH]; intros xs la r H; cbn [app gather] in *; [right; exists []; split; auto; exists xs; reflexivity|].
  destruct (data_line l).
  - destruct (create l) as [x| |]; cbn [bind] in *; try discriminate H. destruct (same x).
    + destruct (gather create same (ls ++ c)) as [((xs1, la1), r1)| |] eqn:G; cbn [bind] in H; try discriminate H. injection H as <- <- <-.
      destruct (IH _ _ _ eq_refl) as [(r' & -> & ->)|(xs' & -> & (d & ->))]; cbn [bind]; [left; eauto|]. right. exists (x :: xs'). split; auto. exists d. reflexivity.
    + injection H as <- <- <-. left. eauto.
  - injection H as <- <- <-. left. eauto.
Qed.
Lemma attach_cut {R} (create : bytes -> res R) same d d' xs la r : dep_cut d d' -> attach create same (fst d) (snd d) = Ok (xs, la, r) ->
  exists xs' la' r', attach create same (fst d') (snd d') = Ok (xs', la', r') /\ begins xs' xs /\ dep_cut (la, r) (la', r').
Proof.
  intros [(E & (c & B))| ->] H.
  - destruct d as (o, ls), d' as (o', ls'). cbn [fst snd] in *. subst o' ls. destruct o as [x|]; cbn [attach] in *.
    + destruct (same x).
      * destruct (gather create same (ls' ++ c)) as [((xs1, la1), r1)| |] eqn:G; cbn [bind] in H; try discriminate H. injection H as <- <- <-.
        destruct (gather_cut _ _ _ _ _ _ _ G) as [(r' & -> & ->)|(xs' & -> & (e & ->))]; cbn [bind].
        -- exists (x :: xs1), la1, r'. split; auto. split; [exists []; rewrite app_nil_r; auto|]. left. split; auto. exists c. reflexivity.
        -- exists (x :: xs'), None, []. split; auto. split; [exists e; reflexivity|]. right. reflexivity.
      * injection H as <- <- <-. exists [], (Some x), ls'. split; auto. split; [exists []; auto|]. left. split; auto. exists c. reflexivity.
    + destruct (gather_cut _ _ _ _ _ _ _ H) as [(r' & -> & ->)|(xs' & -> & B)].
      * exists xs, la, r'. split; auto. split; [exists []; rewrite app_nil_r; auto|]. left. split; auto. exists c. reflexivity.
      * exists xs', None, []. split; auto. split; auto. right. reflexivity.
  - cbn [fst snd attach gather]. exists [], None, []. split; auto. split; [exists xs; reflexivity|]. right. reflexivity.
Qed.
Lemma table_next_cut {R} (create : bytes -> res R) ls ls' o r : begins ls' ls -> table_next create ls = Ok (o, r) ->
  (exists r', table_next create ls' = Ok (None, r')) \/ (exists x r', o = Some x /\ table_next create ls' = Ok (Some x, r') /\ begins r' r).
Proof.
  intros (c & ->) H. destruct ls' as [|l ls']; cbn [table_next app] in *; [left; eauto|]. destruct (data_line l); [|left; eauto].
  destruct (create l) as [x| |]; cbn [bind] in *; try discriminate H. injection H as <- <-. right. exists x, ls'. split; auto. split; auto. exists c. reflexivity.
Qed.
Lemma begins_map {A B} (f : A -> B) a b : begins a b -> begins (map f a) (map f b).
Proof. intros (c & ->). exists (map f c). apply map_app. Qed.
Section Makes.
Variables (us : list (Z * bytes)) (cs : list (Z * Z)).
Lemma node_made_cut n ts ts' e : begins ts' ts -> node_made us cs (n, ts) = Ok e -> exists e', node_made us cs (n, ts') = Ok e' /\ cut_object e e'.
Proof.
  unfold node_made, make_node. cbn [fst snd]. intros B. destruct (bt_get _ cs) as [uid| |]; cbn [bind]; try discriminate. destruct (bt_get uid us) as [user| |]; cbn [bind]; try discriminate.
  intros H. injection H as <-. eexists. split; [reflexivity|]. split; [reflexivity|]. apply begins_map. exact B.
Qed.
Lemma way_made_cut n xs ts xs' ts' e : begins xs' xs -> begins ts' ts -> way_made us cs (n, xs, ts) = Ok e -> exists e', way_made us cs (n, xs', ts') = Ok e' /\ cut_object e e'.
Proof.
  unfold way_made, make_way. cbn [fst snd]. intros B1 B2. destruct (bt_get _ cs) as [uid| |]; cbn [bind]; try discriminate. destruct (bt_get uid us) as [user| |]; cbn [bind]; try discriminate.
  intros H. injection H as <-. eexists. split; [reflexivity|]. split; [reflexivity|]. split; apply begins_map; auto.
Qed.
Lemma rel_made_cut n xs ts xs' ts' e : begins xs' xs -> begins ts' ts -> rel_made us cs (n, xs, ts) = Ok e -> exists e', rel_made us cs (n, xs', ts') = Ok e' /\ cut_object e e'.
Proof.
  unfold rel_made, make_relation. cbn [fst snd]. intros B1 B2. destruct (bt_get _ cs) as [uid| |]; cbn [bind]; try discriminate. destruct (bt_get uid us) as [user| |]; cbn [bind]; try discriminate.
  intros H. injection H as <-. eexists. split; [reflexivity|]. split; [reflexivity|]. split; apply begins_map; auto.
Qed.
Lemma node_made_same n ts ts' e e' : node_made us cs (n, ts) = Ok e -> node_made us cs (n, ts') = Ok e' -> same_object e e'.
Proof.
  unfold node_made, make_node. cbn [fst snd]. destruct (bt_get _ cs) as [uid| |]; cbn [bind]; try discriminate. destruct (bt_get uid us) as [user| |]; cbn [bind]; try discriminate.
  intros H H'. injection H as <-. injection H' as <-. reflexivity.
Qed.
Lemma way_made_same n xs ts xs' ts' e e' : way_made us cs (n, xs, ts) = Ok e -> way_made us cs (n, xs', ts') = Ok e' -> same_object e e'.
Proof.
  unfold way_made, make_way. cbn [fst snd]. destruct (bt_get _ cs) as [uid| |]; cbn [bind]; try discriminate. destruct (bt_get uid us) as [user| |]; cbn [bind]; try discriminate.
  intros H H'. injection H as <-. injection H' as <-. reflexivity.
Qed.
Lemma rel_made_same n xs ts xs' ts' e e' : rel_made us cs (n, xs, ts) = Ok e -> rel_made us cs (n, xs', ts') = Ok e' -> same_object e e'.
Proof.
  unfold rel_made, make_relation. cbn [fst snd]. destruct (bt_get _ cs) as [uid| |]; cbn [bind]; try discriminate. destruct (bt_get uid us) as [user| |]; cbn [bind]; try discriminate.
  intros H H'. injection H as <-. injection H' as <-. reflexivity.
Qed.
Variable k : creators.
Lemma nodes_cut ni ns j ni' : node_group k us cs ni ns j -> begins (ni_nodes ni') (ni_nodes ni) -> dep_cut (ni_tags ni) (ni_tags ni') ->
  exists ns' j', node_group k us cs ni' ns' j' /\ first_of cut_object ns ns'.
Proof.
  intros G B D. eapply (group_cut _ _ (fun i i' => begins (ni_nodes i') (ni_nodes i) /\ dep_cut (ni_tags i) (ni_tags i'))); [|exact G|auto]. clear. intros i i' o j (B & D) H.
  unfold node_next in H. destruct (table_next (mk_node k) (ni_nodes i)) as [(o1, r)| |] eqn:T; cbn [bind] in H; try discriminate H.
  unfold node_next at 1 2. destruct (table_next_cut _ _ _ _ _ B T) as [(r' & T')|(x & r' & -> & T' & B')]; rewrite T'; cbn [bind]; [left; eauto|].
  destruct (attach (mk_node_tag k) _ (fst (ni_tags i)) _) as [((ts, la), tls)| |] eqn:A; cbn [bind] in H; try discriminate H. injection H as <- <-.
  destruct (attach_cut _ _ _ _ _ _ _ D A) as (ts' & la' & tls' & -> & B2 & D2). cbn [bind]. right. exists (x, ts), (x, ts'), (NodeIter r' (la', tls')). split; auto. split; auto. split; [split; auto|].
  intros e. apply node_made_cut. exact B2.
Qed.
Lemma ways_cut wi ws j wi' : way_group k us cs wi ws j -> begins (wi_ways wi') (wi_ways wi) -> dep_cut (wi_nodes wi) (wi_nodes wi') -> dep_cut (wi_tags wi) (wi_tags wi') ->
  exists ws' j', way_group k us cs wi' ws' j' /\ first_of cut_object ws ws'.
Proof.
  intros G B D1 D2. eapply (group_cut _ _ (fun i i' => begins (wi_ways i') (wi_ways i) /\ dep_cut (wi_nodes i) (wi_nodes i') /\ dep_cut (wi_tags i) (wi_tags i'))); [|exact G|auto]. clear. intros i i' o j (B & D1 & D2) H.
  unfold way_next in H. destruct (table_next (mk_way k) (wi_ways i)) as [(o1, r)| |] eqn:T; cbn [bind] in H; try discriminate H.
  unfold way_next at 1 2. destruct (table_next_cut _ _ _ _ _ B T) as [(r' & T')|(x & r' & -> & T' & B')]; rewrite T'; cbn [bind]; [left; eauto|].
  destruct (attach (mk_way_tag k) _ (fst (wi_tags i)) _) as [((ts, la), tls)| |] eqn:A; cbn [bind] in H; try discriminate H.
  destruct (attach (mk_way_node k) _ (fst (wi_nodes i)) _) as [((xs, la2), xls)| |] eqn:A2; cbn [bind] in H; try discriminate H. injection H as <- <-.
  destruct (attach_cut _ _ _ _ _ _ _ D2 A) as (ts' & la' & tls' & -> & B2 & D3). destruct (attach_cut _ _ _ _ _ _ _ D1 A2) as (xs' & la2' & xls' & E2 & B3 & D4). cbn [bind]. rewrite E2. cbn [bind].
  right. exists (x, xs, ts), (x, xs', ts'), (WayIter r' (la2', xls') (la', tls')). split; auto. split; auto. split; [split; auto|].
  intros e. apply way_made_cut; auto.
Qed.
Lemma rels_cut ri rs j ri' : rel_group k us cs ri rs j -> begins (ri_rels ri') (ri_rels ri) -> dep_cut (ri_members ri) (ri_members ri') -> dep_cut (ri_tags ri) (ri_tags ri') ->
  exists rs' j', rel_group k us cs ri' rs' j' /\ first_of cut_object rs rs'.
Proof.
  intros G B D1 D2. eapply (group_cut _ _ (fun i i' => begins (ri_rels i') (ri_rels i) /\ dep_cut (ri_members i) (ri_members i') /\ dep_cut (ri_tags i) (ri_tags i'))); [|exact G|auto]. clear. intros i i' o j (B & D1 & D2) H.
  unfold rel_next in H. destruct (table_next (mk_relation k) (ri_rels i)) as [(o1, r)| |] eqn:T; cbn [bind] in H; try discriminate H.
  unfold rel_next at 1 2. destruct (table_next_cut _ _ _ _ _ B T) as [(r' & T')|(x & r' & -> & T' & B')]; rewrite T'; cbn [bind]; [left; eauto|].
  destruct (attach (mk_relation_tag k) _ (fst (ri_tags i)) _) as [((ts, la), tls)| |] eqn:A; cbn [bind] in H; try discriminate H.
  destruct (attach (mk_member k) _ (fst (ri_members i)) _) as [((xs, la2), xls)| |] eqn:A2; cbn [bind] in H; try discriminate H. injection H as <- <-.
  destruct (attach_cut _ _ _ _ _ _ _ D2 A) as (ts' & la' & tls' & -> & B2 & D3). destruct (attach_cut _ _ _ _ _ _ _ D1 A2) as (xs' & la2' & xls' & E2 & B3 & D4). cbn [bind]. rewrite E2. cbn [bind].
  right. exists (x, xs, ts), (x, xs', ts'), (RelIter r' (la2', xls') (la', tls')). split; auto. split; auto. split; [split; auto|].
  intros e. apply rel_made_cut; auto.
Qed.

(** ** Any failures *)
(** the lines agree up to the first failure *)
Inductive agree : list bytes -> list bytes -> Prop :=
| ag_stop ls : agree ls []
| ag_fail ls r : agree ls (failed :: r)
| ag_line l ls ls' : agree ls ls' -> agree (l :: ls) (l :: ls').
Lemma table_next_agree {R} (create : bytes -> res R) ls ls' o r x r' : agree ls ls' -> table_next create ls = Ok (o, r) -> table_next create ls' = Ok (Some x, r') -> o = Some x /\ agree r r'.
Proof.
  intros A H H'. destruct A as [ls|ls q|l ls ls' A]; cbn [table_next] in *; [discriminate H'|change (data_line failed) with false in H'; discriminate H'|].
  destruct (data_line l); [|discriminate H']. destruct (create l) as [y| |]; cbn [bind] in *; try discriminate H'. injection H as <- <-. injection H' as <- <-. auto.
Qed.
Lemma nodes_any ni ns j ni' ns' : (stuck (node_next k) (node_made us cs) ni' ns' \/ exists j', node_group k us cs ni' ns' j') -> node_group k us cs ni ns j -> agree (ni_nodes ni) (ni_nodes ni') ->
  first_of same_object ns ns'.
Proof.
  intros F G A. eapply (group_any _ _ (fun i i' => agree (ni_nodes i) (ni_nodes i'))); [|exact F|exact A|exact G]. clear. intros i i' o j (n', ts') j' A H H'.
  unfold node_next in H, H'. destruct (table_next (mk_node k) (ni_nodes i)) as [(o1, r)| |] eqn:T; cbn [bind] in H; try discriminate H.
  destruct (table_next (mk_node k) (ni_nodes i')) as [([x|], r')| |] eqn:T'; cbn [bind] in H'; try discriminate H'.
  destruct (table_next_agree _ _ _ _ _ _ _ A T T') as (-> & A'). cbn [bind] in H. destruct (attach _ _ _ _) as [((ts, la), tls)| |] in H; cbn [bind] in H; try discriminate H. injection H as <- <-.
  destruct (attach _ _ _ _) as [((ts2, la2), tls2)| |] in H'; cbn [bind] in H'; try discriminate H'. injection H' as <- <- <-. exists (x, ts). split; auto. split; auto. intros e e'. apply node_made_same.
Qed.
Lemma ways_any wi ws j wi' ws' : (stuck (way_next k) (way_made us cs) wi' ws' \/ exists j', way_group k us cs wi' ws' j') -> way_group k us cs wi ws j -> agree (wi_ways wi) (wi_ways wi') ->
  first_of same_object ws ws'.
Proof.
  intros F G A. eapply (group_any _ _ (fun i i' => agree (wi_ways i) (wi_ways i'))); [|exact F|exact A|exact G]. clear. intros i i' o j ((n', xs'), ts') j' A H H'.
  unfold way_next in H, H'. destruct (table_next (mk_way k) (wi_ways i)) as [(o1, r)| |] eqn:T; cbn [bind] in H; try discriminate H.
  destruct (table_next (mk_way k) (wi_ways i')) as [([x|], r')| |] eqn:T'; cbn [bind] in H'; try discriminate H'.
  destruct (table_next_agree _ _ _ _ _ _ _ A T T') as (-> & A'). cbn [bind] in H. destruct (attach (mk_way_tag k) _ _ _) as [((ts, la), tls)| |] in H; cbn [bind] in H; try discriminate H.
  destruct (attach (mk_way_node k) _ _ _) as [((xs, la1), xls)| |] in H; cbn [bind] in H; try discriminate H. injection H as <- <-.
  destruct (attach (mk_way_tag k) _ _ _) as [((ts2, la2), tls2)| |] in H'; cbn [bind] in H'; try discriminate H'.
  destruct (attach (mk_way_node k) _ _ _) as [((xs2, la3), xls2)| |] in H'; cbn [bind] in H'; try discriminate H'. injection H' as <- <- <- <-. exists (x, xs, ts). split; auto. split; auto. intros e e'. apply way_made_same.
Qed.
Lemma rels_any ri rs j ri' rs' : (stuck (rel_next k) (rel_made us cs) ri' rs' \/ exists j', rel_group k us cs ri' rs' j') -> rel_group k us cs ri rs j -> agree (ri_rels ri) (ri_rels ri') ->
  first_of same_object rs rs'.
Proof.
  intros F G A. eapply (group_any _ _ (fun i i' => agree (ri_rels i) (ri_rels i'))); [|exact F|exact A|exact G]. clear. intros i i' o j ((n', xs'), ts') j' A H H'.
  unfold rel_next in H, H'. destruct (table_next (mk_relation k) (ri_rels i)) as [(o1, r)| |] eqn:T; cbn [bind] in H; try discriminate H.
  destruct (table_next (mk_relation k) (ri_rels i')) as [([x|], r')| |] eqn:T'; cbn [bind] in H'; try discriminate H'.
  destruct (table_next_agree _ _ _ _ _ _ _ A T T') as (-> & A'). cbn [bind] in H. destruct (attach (mk_relation_tag k) _ _ _) as [((ts, la), tls)| |] in H; cbn [bind] in H; try discriminate H.
  destruct (attach (mk_member k) _ _ _) as [((xs, la1), xls)| |] in H; cbn [bind] in H; try discriminate H. injection H as <- <-.
  destruct (attach (mk_relation_tag k) _ _ _) as [((ts2, la2), tls2)| |] in H'; cbn [bind] in H'; try discriminate H'.
  destruct (attach (mk_member k) _ _ _) as [((xs2, la3), xls2)| |] in H'; cbn [bind] in H'; try discriminate H'. injection H' as <- <- <- <-. exists (x, xs, ts). split; auto. split; auto. intros e e'. apply rel_made_same.
Qed.
End Makes.
Lemma reads_agree s ls : read_lines s ls -> agree (lines_of s) ls.
Proof.
  induction 1 as [s|a s ls N R IH|a ls N X R IH|a s ls N R IH]; [apply ag_stop|rewrite lines_line by auto; apply ag_line; auto| |apply ag_fail].
  rewrite lines_last by auto. apply ag_line. exact IH.
Qed.
Lemma dies_begins s ls : dies s ls -> begins ls (lines_of s).
Proof.
  induction 1 as [s|a s ls N D (c & IH)|a N X]; [exists (lines_of s); reflexivity|rewrite lines_line by auto; exists c; rewrite IH; reflexivity|].
  rewrite lines_last by auto. exists []. reflexivity.
Qed.
Definition started (us : list (Z * bytes)) (cs : list (Z * Z)) (lines : table -> list bytes) : eiter :=
  EIter us cs Start (NodeIter (lines T_nodes) (None, lines T_node_tags)) (WayIter (lines T_ways) (None, lines T_way_nodes) (None, lines T_way_tags))
    (RelIter (lines T_relations) (None, lines T_relation_members) (None, lines T_relation_tags)).
Lemma opening unescape rd k s : ApidbRead.elements unescape rd = Ok (k, s) -> exists us cs, s = started us cs (fun t => lines_of (data_of rd t)) /\
  forall opens lines, lines T_users = lines_of (data_of rd T_users) -> lines T_changesets = lines_of (data_of rd T_changesets) ->
    elements_on unescape rd opens lines = if forallb opens ten_tables then Ok (k, started us cs lines) else Panic.
Proof.
  rewrite <- elements_sound. unfold elements_on, got, opened. cbn [bind].
  destruct (get_table T_users rd) as [(?, ?)|]; cbn [unwrap_res bind]; [|discriminate]. destruct (table_all (create_user _) _) as [us| |] eqn:E1; cbn [bind]; try discriminate.
  destruct (get_table T_changesets rd) as [(?, ?)|]; cbn [unwrap_res bind]; [|discriminate]. destruct (table_all (create_changeset _) _) as [cs| |] eqn:E2; cbn [bind]; try discriminate.
  destruct (get_table T_nodes rd) as [(?, ?)|]; cbn [bind]; [|discriminate]. destruct (get_table T_node_tags rd) as [(?, ?)|]; cbn [bind]; [|discriminate].
  destruct (get_table T_ways rd) as [(?, ?)|]; cbn [bind]; [|discriminate]. destruct (get_table T_way_nodes rd) as [(?, ?)|]; cbn [bind]; [|discriminate]. destruct (get_table T_way_tags rd) as [(?, ?)|]; cbn [bind]; [|discriminate].
  destruct (get_table T_relations rd) as [(?, ?)|]; cbn [bind]; [|discriminate]. destruct (get_table T_relation_members rd) as [(?, ?)|]; cbn [bind]; [|discriminate]. destruct (get_table T_relation_tags rd) as [(?, ?)|]; cbn [bind]; [|discriminate].
  intros H. injection H as <- <-. eexists _, _. split; [reflexivity|]. intros opens lines -> ->. unfold ten_tables. cbn [forallb].
  destruct (opens T_users); cbn [bind andb]; [|reflexivity]. rewrite E1. cbn [bind]. destruct (opens T_changesets); cbn [bind andb]; [|reflexivity]. rewrite E2. cbn [bind].
  repeat match goal with |- context [opens ?t] => destruct (opens t); cbn [bind andb]; [|rewrite ?andb_false_r; reflexivity] end. reflexivity.
Qed.
(** C92: elements() opens all ten tables, or panics *)
Theorem C92_opening unescape rd k s opens lines : ApidbRead.elements unescape rd = Ok (k, s) ->
  lines T_users = lines_of (data_of rd T_users) -> lines T_changesets = lines_of (data_of rd T_changesets) ->
  match elements_on unescape rd opens lines with
  | Ok (k', _) => k' = k /\ forall t, In t ten_tables -> opens t = true
  | Panic => exists t, In t ten_tables /\ opens t = false
  | Err => False
  end.
Proof.
  intros E LU LC. destruct (opening _ _ _ _ E) as (us & cs & _ & H). rewrite (H opens lines LU LC). destruct (forallb opens ten_tables) eqn:F.
  - split; auto. rewrite forallb_forall in F. exact F.
  - clear - F. induction ten_tables as [|t l IH]; [discriminate F|]. cbn [forallb] in F. destruct (opens t) eqn:O; [|exists t; split; auto; left; auto]. destruct (IH F) as (t' & I & O'). exists t'. split; auto. right. auto.
Qed.
(** C92: when the reads of some tables of objects fail for good, the iteration ends without an error: with the first nodes, ways and
    relations of the dump, each with the first of its tags, nodes and members. *)
Theorem C92_silent_loss unescape rd k s es lines : ApidbRead.elements unescape rd = Ok (k, s) -> run (element_next k) s es Ended ->
  (forall t, dies (data_of rd t) (lines t)) -> lines T_users = lines_of (data_of rd T_users) -> lines T_changesets = lines_of (data_of rd T_changesets) ->
  exists s' ns ws rs ns' ws' rs', elements_on unescape rd (fun _ => true) lines = Ok (k, s') /\ es = stream ns ws rs /\
    run (element_next k) s' (stream ns' ws' rs') Ended /\ first_of cut_object ns ns' /\ first_of cut_object ws ws' /\ first_of cut_object rs rs'.
Proof.
  intros E R D LU LC. destruct (opening _ _ _ _ E) as (us & cs & -> & H). exists (started us cs lines). unfold started in R.
  apply run_stream in R. destruct R as [(_ & ns & ws & rs & ni' & wi' & ri' & -> & G1 & G2 & G3)|(X & _)]; [|discriminate X].
  destruct (nodes_cut us cs k _ _ _ (NodeIter (lines T_nodes) (None, lines T_node_tags)) G1) as (ns' & j1 & G1' & F1); cbn [ni_nodes ni_tags]; [exact (dies_begins _ _ (D _))|left; split; [reflexivity|exact (dies_begins _ _ (D _))]|].
  destruct (ways_cut us cs k _ _ _ (WayIter (lines T_ways) (None, lines T_way_nodes) (None, lines T_way_tags)) G2) as (ws' & j2 & G2' & F2); cbn [wi_ways wi_nodes wi_tags]; [exact (dies_begins _ _ (D _))|left; split; [reflexivity|exact (dies_begins _ _ (D _))]..|].
  destruct (rels_cut us cs k _ _ _ (RelIter (lines T_relations) (None, lines T_relation_members) (None, lines T_relation_tags)) G3) as (rs' & j3 & G3' & F3); cbn [ri_rels ri_members ri_tags]; [exact (dies_begins _ _ (D _))|left; split; [reflexivity|exact (dies_begins _ _ (D _))]..|].
  exists ns, ws, rs, ns', ws', rs'. split; [rewrite (H (fun _ => true) lines LU LC); reflexivity|]. split; [reflexivity|]. split; [|auto]. unfold started. eapply stream_run; eauto.
Qed.
(** C92: whatever reads of the tables of objects fail, and if others succeed afterwards: the nodes, ways and relations yielded are the first
    of the dump, apart from their tags, nodes and members; if the iteration panics, what came before is a beginning of such a stream. *)
Theorem C92_any_failures unescape rd k s es opens lines k' s' es' o' : ApidbRead.elements unescape rd = Ok (k, s) -> run (element_next k) s es Ended ->
  (forall t, read_lines (data_of rd t) (lines t)) -> lines T_users = lines_of (data_of rd T_users) -> lines T_changesets = lines_of (data_of rd T_changesets) ->
  elements_on unescape rd opens lines = Ok (k', s') -> run (element_next k') s' es' o' ->
  exists ns ws rs ns' ws' rs', es = stream ns ws rs /\ first_of same_object ns ns' /\ first_of same_object ws ws' /\ first_of same_object rs rs' /\
    begins es' (stream ns' ws' rs') /\ (o' = Ended -> es' = stream ns' ws' rs').
Proof.
  intros E R D LU LC E' R'. destruct (opening _ _ _ _ E) as (us & cs & -> & H). rewrite (H opens lines LU LC) in E'. destruct (forallb opens ten_tables); [|discriminate E']. injection E' as <- <-.
  unfold started in R, R'. apply run_stream in R. destruct R as [(_ & ns & ws & rs & ni' & wi' & ri' & -> & G1 & G2 & G3)|(X & _)]; [|discriminate X].
  assert (N0 : forall xs, first_of same_object xs []) by (intros xs; exists []; split; [exists xs; reflexivity|constructor]).
  assert (A : forall t, agree (lines_of (data_of rd t)) (lines t)) by (intros t; apply reads_agree; auto).
  exists ns, ws, rs. apply run_stream in R'. destruct R' as [(-> & ns' & ws' & rs' & j1 & j2 & j3 & -> & F1 & F2 & F3)|(-> & [S|[(ns' & j1 & ws' & F1 & S & ->)|(ns' & j1 & ws' & j2 & rs' & F1 & F2 & S & ->)]])].
  - exists ns', ws', rs'. split; auto. split; [eapply nodes_any; eauto; apply A|]. split; [eapply ways_any; eauto; apply A|]. split; [eapply rels_any; eauto; apply A|]. split; auto. exists []. rewrite app_nil_r. reflexivity.
  - exists es', [], []. split; auto. split; [eapply nodes_any; eauto; apply A|]. split; auto. split; auto. split; [|discriminate]. eexists. reflexivity.
  - exists ns', ws', []. split; auto. split; [eapply nodes_any; eauto; apply A|]. split; [eapply ways_any; eauto; apply A|]. split; auto. split; [|discriminate].
    exists ([ESentinel] ++ [] ++ [ESentinel]). unfold stream. cbn [app]. rewrite <- app_assoc. reflexivity.
  - exists ns', ws', rs'. split; auto. split; [eapply nodes_any; eauto; apply A|]. split; [eapply ways_any; eauto; apply A|]. split; [eapply rels_any; eauto; apply A|]. split; [|discriminate].
    exists [ESentinel]. unfold stream. cbn [app]. rewrite <- !app_assoc. cbn [app]. rewrite <- !app_assoc. reflexivity.
Qed.
