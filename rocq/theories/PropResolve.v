(** Property C76: what reading a dump gives, complete or not. *)
From Coq Require Import ZArith List Bool Strings.Byte Strings.String Lia Permutation.
From Verif Require Import Base BaseFacts Types ApidbText ApidbSpec ApidbTextFacts DumpSpec ApidbWrite ApidbWriteFacts ApidbRead DumpReadSpec FileFormat
  ApidbReadFacts TocFacts JoinFacts ReaderFacts PropApidbRead ResolveSpec.
Import ListNotations.
Local Notation length := List.length.
Local Notation concat := List.concat.
Open Scope Z_scope.

(** ** the indexes *)
Lemma bt_get_none {V} (l : list (Z * V)) key : ~ In key (map fst l) -> bt_get key l = Panic.
Proof.
  induction l as [|(k', v') l IH]; intros N; [reflexivity|]. cbn [bt_get]. destruct (Z.eqb_spec k' key) as [->|]; [destruct N; left; reflexivity|].
  apply IH. intros I. apply N. right; auto.
Qed.
Lemma index_none {V} (ps : list (Z * V)) key : NoDup (map fst ps) -> ~ In key (map fst ps) -> bt_get key (bt_insert_all ps []) = Panic.
Proof.
  intros N NI. destruct (bt_insert_all_spec ps N) as (_ & IN). apply bt_get_none. intros I. apply NI.
  apply in_map_iff in I as ((k, v) & E & I). cbn [fst] in E. subst k. apply IN in I. apply in_map_iff. exists (key, v). auto.
Qed.
Lemma as_i32_wrap z : as_i32 z (wrap32 z).
Proof.
  split; [apply wrap32_range|]. unfold wrap32, two31, two32. exists ((z + 2147483648) / 4294967296). pose proof (Z.div_mod (z + 2147483648) 4294967296 ltac:(lia)). change (2 ^ 32) with 4294967296. lia.
Qed.

(** ** phases that may end in a panic *)
Inductive drained : list (res element) -> list element -> bool -> Prop :=
| d_nil : drained [] [] true
| d_ok e os l b : drained os l b -> drained (Ok e :: os) (e :: l) b
| d_panic os : drained (Panic :: os) [] false.
Definition stopped (b : bool) (l rest : list element) : list element := l ++ if b then ESentinel :: rest else [].
Section Phases.
Variable k : creators.
Variables (us : list (Z * bytes)) (cs : list (Z * Z)).
Notation st := (EIter us cs).
Lemma node_phase' ns : forall ls tags ds l b wi ri,
  parses (mk_node k) ls ns -> left_in (mk_node_tag k) tags ds ->
  drained (map (fun p => make_node us cs (fst p) (snd p)) (join node_key tag_key ns ds)) l b ->
  forall rest o, (forall ni, run (element_next k) (st Ways ni wi ri) rest o) ->
  run (element_next k) (st Nodes (NodeIter ls tags) wi ri) (stopped b l rest) (if b then o else Panicked).
Proof.
  induction ns as [|n ns IH]; intros ls tags ds l b wi ri P L F rest o R.
  - cbn [join map] in F. inversion F; subst. unfold stopped. cbn [app]. apply table_next_ok in P. cbn in P.
    eapply run_step; [|apply (R (NodeIter [] tags))]. rewrite started by discriminate. unfold next_started, node_next. cbn [ei_state ei_nodes ni_nodes].
    rewrite P. reflexivity.
  - cbn [join map] in F. apply table_next_ok in P as (ls' & N & P).
    destruct (attach_ok (mk_node_tag k) (fun d => key_eqb (tag_key d) (node_key n)) tags ds L) as (la & r & A & L').
    cbn [fst snd] in F.
    assert (E : element_next k (st Nodes (NodeIter ls tags) wi ri) =
      bind (make_node us cs n (span_take (fun d => key_eqb (tag_key d) (node_key n)) ds)) (fun e => Ok (Some e, st Nodes (NodeIter ls' (la, r)) wi ri))).
    { rewrite started by discriminate. unfold next_started, node_next. cbn [ei_state ei_nodes ni_nodes ni_tags]. rewrite N. cbn [bind].
      change (tag_same (nr_id n) (nr_version n)) with (fun d => key_eqb (tag_key d) (node_key n)). rewrite A. reflexivity. }
    inversion F as [|e os l' b' F' E1|os E1]; subst.
    + rewrite <- E1 in E. cbn [bind] in E. unfold stopped. cbn [app]. eapply run_step; [exact E|]. eapply IH; eauto.
    + rewrite <- E1 in E. cbn [bind] in E. apply run_panic. exact E.
Qed.
Lemma way_phase' ws : forall ls nodes ds tags ts l b ni ri,
  parses (mk_way k) ls ws -> left_in (mk_way_node k) nodes ds -> left_in (mk_way_tag k) tags ts ->
  drained (map (fun p => make_way us cs (fst (fst p)) (snd (fst p)) (snd (snd p))) (combine (join obj_key way_node_key ws ds) (join obj_key tag_key ws ts))) l b ->
  forall rest o, (forall wi, run (element_next k) (st Relations ni wi ri) rest o) ->
  run (element_next k) (st Ways ni (WayIter ls nodes tags) ri) (stopped b l rest) (if b then o else Panicked).
Proof.
  induction ws as [|w ws IH]; intros ls nodes ds tags ts l b ni ri P L T F rest o R.
  - cbn [join combine map] in F. inversion F; subst. unfold stopped. cbn [app]. apply table_next_ok in P. cbn in P.
    eapply run_step; [|apply (R (WayIter [] nodes tags))]. rewrite started by discriminate. unfold next_started, way_next. cbn [ei_state ei_ways wi_ways].
    rewrite P. reflexivity.
  - cbn [join combine map fst snd] in F. apply table_next_ok in P as (ls' & N & P).
    destruct (attach_ok (mk_way_node k) (fun d => key_eqb (way_node_key d) (obj_key w)) nodes ds L) as (la & r & A & L').
    destruct (attach_ok (mk_way_tag k) (fun d => key_eqb (tag_key d) (obj_key w)) tags ts T) as (la2 & r2 & A2 & T').
    assert (E : element_next k (st Ways ni (WayIter ls nodes tags) ri) =
      bind (make_way us cs w (span_take (fun d => key_eqb (way_node_key d) (obj_key w)) ds) (span_take (fun d => key_eqb (tag_key d) (obj_key w)) ts))
        (fun e => Ok (Some e, st Ways ni (WayIter ls' (la, r) (la2, r2)) ri))).
    { rewrite started by discriminate. unfold next_started, way_next. cbn [ei_state ei_ways wi_ways wi_tags wi_nodes]. rewrite N. cbn [bind].
      change (tag_same (or_id w) (or_version w)) with (fun d => key_eqb (tag_key d) (obj_key w)). rewrite A2. cbn [bind].
      change (way_node_same (or_id w) (or_version w)) with (fun d => key_eqb (way_node_key d) (obj_key w)). rewrite A. reflexivity. }
    inversion F as [|e os l' b' F' E1|os E1]; subst.
    + rewrite <- E1 in E. cbn [bind] in E. unfold stopped. cbn [app]. eapply run_step; [exact E|]. eapply IH; eauto.
    + rewrite <- E1 in E. cbn [bind] in E. apply run_panic. exact E.
Qed.
Lemma rel_phase' rs : forall ls members ds tags ts l b ni wi,
  parses (mk_relation k) ls rs -> left_in (mk_member k) members ds -> left_in (mk_relation_tag k) tags ts ->
  drained (map (fun p => make_relation us cs (fst (fst p)) (snd (fst p)) (snd (snd p))) (combine (join obj_key member_key rs ds) (join obj_key tag_key rs ts))) l b ->
  run (element_next k) (st Relations ni wi (RelIter ls members tags)) (stopped b l []) (if b then Ended else Panicked).
Proof.
  induction rs as [|w rs IH]; intros ls members ds tags ts l b ni wi P L T F.
  - cbn [join combine map] in F. inversion F; subst. unfold stopped. cbn [app]. apply table_next_ok in P. cbn in P.
    eapply run_step with (s' := st End_ ni wi (RelIter [] members tags)); [|eapply run_end; reflexivity].
    rewrite started by discriminate. unfold next_started, rel_next. cbn [ei_state ei_rels ri_rels]. rewrite P. reflexivity.
  - cbn [join combine map fst snd] in F. apply table_next_ok in P as (ls' & N & P).
    destruct (attach_ok (mk_member k) (fun d => key_eqb (member_key d) (obj_key w)) members ds L) as (la & r & A & L').
    destruct (attach_ok (mk_relation_tag k) (fun d => key_eqb (tag_key d) (obj_key w)) tags ts T) as (la2 & r2 & A2 & T').
    assert (E : element_next k (st Relations ni wi (RelIter ls members tags)) =
      bind (make_relation us cs w (span_take (fun d => key_eqb (member_key d) (obj_key w)) ds) (span_take (fun d => key_eqb (tag_key d) (obj_key w)) ts))
        (fun e => Ok (Some e, st Relations ni wi (RelIter ls' (la, r) (la2, r2))))).
    { rewrite started by discriminate. unfold next_started, rel_next. cbn [ei_state ei_rels ri_rels ri_tags ri_members]. rewrite N. cbn [bind].
      change (tag_same (or_id w) (or_version w)) with (fun d => key_eqb (tag_key d) (obj_key w)). rewrite A2. cbn [bind].
      change (member_same (or_id w) (or_version w)) with (fun d => key_eqb (member_key d) (obj_key w)). rewrite A. reflexivity. }
    inversion F as [|e os l' b' F' E1|os E1]; subst.
    + rewrite <- E1 in E. cbn [bind] in E. unfold stopped. cbn [app]. eapply run_step; [exact E|]. eapply IH; eauto.
    + rewrite <- E1 in E. cbn [bind] in E. apply run_panic. exact E.
Qed.
End Phases.

(** ** one object; [tn] .. [mr] say what an object has in the dependent tables *)
Section Elements.
Variable d : dump.
Variables (tn tw tr : Z * Z -> list tag_rec -> Prop) (nw : Z * Z -> list way_node_rec -> Prop) (mr : Z * Z -> list member_rec -> Prop).
Definition item_with (i : item) (e : element) : Prop :=
  match i with
  | ANode r => exists uid name ts v u, author d (nr_changeset r) uid name /\ tn (node_key r) ts /\
      as_i32 (nr_version r) v /\ as_i32 uid u /\
      e = ENode (Node (nr_id r) v (Coordinate (degrees (nr_lat r)) (degrees (nr_lon r))) (millis (nr_time r))
                      (nr_changeset r) u name (nr_visible r) (map as_tag ts))
  | AWay r => exists uid name ns ts v u, author d (or_changeset r) uid name /\ nw (obj_key r) ns /\ tw (obj_key r) ts /\
      as_i32 (or_version r) v /\ as_i32 uid u /\
      e = EWay (Way (or_id r) v (millis (or_time r)) (or_changeset r) u name (or_visible r) (map wn_node ns) (map as_tag ts))
  | ARelation r => exists uid name ms ts v u, author d (or_changeset r) uid name /\ mr (obj_key r) ms /\ tr (obj_key r) ts /\
      as_i32 (or_version r) v /\ as_i32 uid u /\
      e = ERelation (Relation (or_id r) v (millis (or_time r)) (or_changeset r) u name (or_visible r) (map as_member ms) (map as_tag ts))
  | AMark => e = ESentinel
  end.
Definition until_with (items : list item) (l : list element) (o : ending) : Prop :=
  (o = Ended /\ Forall2 item_with items l) \/
  (o = Panicked /\ exists before i after, items = before ++ i :: after /\ Forall2 item_with before l /\ unknown_author d i).
Variables (users : list user_rec) (changesets : list changeset_rec).
Hypothesis PU : Permutation (d_users d) users.
Hypothesis PC : Permutation (d_changesets d) changesets.
Hypothesis KU : NoDup (map ur_id (d_users d)).
Hypothesis KC : NoDup (map cr_id (d_changesets d)).
Let us := bt_insert_all (map (fun u => (ur_id u, ur_name u)) users) [].
Let cs := bt_insert_all (map (fun c => (cr_id c, cr_user c)) changesets) [].
Lemma nd_users : NoDup (map fst (map (fun u => (ur_id u, ur_name u)) users)).
Proof. rewrite map_map. cbn [fst]. eapply Permutation_NoDup; [apply Permutation_map; exact PU|auto]. Qed.
Lemma nd_changesets : NoDup (map fst (map (fun c => (cr_id c, cr_user c)) changesets)).
Proof. rewrite map_map. cbn [fst]. eapply Permutation_NoDup; [apply Permutation_map; exact PC|auto]. Qed.
Lemma author_cases c : (exists uid name, author d c uid name /\ bt_get c cs = Ok uid /\ bt_get uid us = Ok name) \/
  ((forall uid name, ~ author d c uid name) /\ forall (A : Type) (f : Z -> bytes -> res A), (uid <- bt_get c cs ;; user <- bt_get uid us ;; f uid user) = Panic).
Proof.
  destruct (in_dec Z.eq_dec c (map cr_id (d_changesets d))) as [I|N].
  - apply in_map_iff in I as (r & <- & I).
    assert (B : bt_get (cr_id r) cs = Ok (cr_user r)).
    { apply index_get; [apply nd_changesets|]. apply in_map_iff. exists r. split; auto. eapply Permutation_in; eauto. }
    destruct (in_dec Z.eq_dec (cr_user r) (map ur_id (d_users d))) as [J|N].
    + apply in_map_iff in J as (u & E & J). left. exists (cr_user r), (ur_name u). split; [exists r, u; sconj; auto|]. split; [exact B|].
      rewrite <- E. apply index_get; [apply nd_users|]. apply in_map_iff. exists u. split; auto. eapply Permutation_in; eauto.
    + right. split.
      * intros uid name (c' & u & H1 & H2 & H3 & H4 & H5 & H6). assert (c' = r).
        { clear - KC H1 H3 I. induction (d_changesets d) as [|x l IH]; [destruct I|]. cbn in KC. inversion KC as [|? ? K1 K2]; subst.
          destruct H1 as [<-|H1], I as [<-|I]; auto; exfalso; apply K1; [rewrite H3|rewrite <- H3]; apply in_map; auto. }
        subst c'. apply N. rewrite H4, <- H5. apply in_map; auto.
      * intros A f. rewrite B. cbn [bind]. unfold us. rewrite index_none; auto; [apply nd_users|]. rewrite map_map. cbn [fst]. intros X. apply N.
        eapply Permutation_in; [apply Permutation_sym, Permutation_map|exact X]; exact PU.
  - right. split.
    + intros uid name (c' & u & H1 & H2 & H3 & _). apply N. rewrite <- H3. apply in_map; auto.
    + intros A f. unfold cs. rewrite index_none; auto; [apply nd_changesets|]. rewrite map_map. cbn [fst]. intros X. apply N.
      eapply Permutation_in; [apply Permutation_sym, Permutation_map|exact X]; exact PC.
Qed.
(** the outcomes of a list of objects *)
Definition outcome (items : list item) (l : list element) (b : bool) : Prop :=
  if b then Forall2 (item_with) items l
  else exists before i after, items = before ++ i :: after /\ Forall2 (item_with) before l /\ unknown_author d i.
Lemma outcome_cons i items e l b : item_with i e -> outcome items l b -> outcome (i :: items) (e :: l) b.
Proof.
  intros H. destruct b; cbn [outcome]; [constructor; auto|]. intros (before & j & after & -> & F & U). exists (i :: before), j, after. auto.
Qed.
Lemma node_outcome ts_of (ns : list node_rec) : (forall n, tn (node_key n) (ts_of n)) ->
  exists l b, drained (map (fun p => make_node us cs (fst p) (snd p)) (map (fun n => (n, ts_of n)) ns)) l b /\ outcome (map ANode ns) l b.
Proof.
  intros H. induction ns as [|n ns (l & b & D & OC)]; [exists [], true; split; constructor|]. cbn [map fst snd].
  destruct (author_cases (nr_changeset n)) as [(uid & name & A & B1 & B2)|(N & P)].
  - eexists (_ :: l), b. split.
    + unfold make_node at 1. rewrite B1. cbn [bind]. rewrite B2. cbn [bind]. apply d_ok. exact D.
    + apply outcome_cons; auto. exists uid, name, (ts_of n), (wrap32 (nr_version n)), (wrap32 uid). sconj; auto using as_i32_wrap.
  - exists [], false. split; [unfold make_node at 1; rewrite P; apply d_panic|]. exists [], (ANode n), (map ANode ns). sconj; auto. exists (nr_changeset n). auto.
Qed.
Lemma way_outcome ns_of ts_of (ws : list obj_rec) : (forall n, nw (obj_key n) (ns_of n)) -> (forall n, tw (obj_key n) (ts_of n)) ->
  exists l b, drained (map (fun p => make_way us cs (fst (fst p)) (snd (fst p)) (snd (snd p))) (combine (map (fun n => (n, ns_of n)) ws) (map (fun n => (n, ts_of n)) ws))) l b /\ outcome (map AWay ws) l b.
Proof.
  intros H1 H2. induction ws as [|n ws (l & b & D & OC)]; [exists [], true; split; constructor|]. cbn [map combine fst snd].
  destruct (author_cases (or_changeset n)) as [(uid & name & A & B1 & B2)|(N & P)].
  - eexists (_ :: l), b. split.
    + unfold make_way at 1. rewrite B1. cbn [bind]. rewrite B2. cbn [bind]. apply d_ok. exact D.
    + apply outcome_cons; auto. exists uid, name, (ns_of n), (ts_of n), (wrap32 (or_version n)), (wrap32 uid). sconj; auto using as_i32_wrap.
  - exists [], false. split; [unfold make_way at 1; rewrite P; apply d_panic|]. exists [], (AWay n), (map AWay ws). sconj; auto. exists (or_changeset n). auto.
Qed.
Lemma relation_outcome ms_of ts_of (ws : list obj_rec) : (forall n, mr (obj_key n) (ms_of n)) -> (forall n, tr (obj_key n) (ts_of n)) ->
  exists l b, drained (map (fun p => make_relation us cs (fst (fst p)) (snd (fst p)) (snd (snd p))) (combine (map (fun n => (n, ms_of n)) ws) (map (fun n => (n, ts_of n)) ws))) l b /\ outcome (map ARelation ws) l b.
Proof.
  intros H1 H2. induction ws as [|n ws (l & b & D & OC)]; [exists [], true; split; constructor|]. cbn [map combine fst snd].
  destruct (author_cases (or_changeset n)) as [(uid & name & A & B1 & B2)|(N & P)].
  - eexists (_ :: l), b. split.
    + unfold make_relation at 1. rewrite B1. cbn [bind]. rewrite B2. cbn [bind]. apply d_ok. exact D.
    + apply outcome_cons; auto. exists uid, name, (ms_of n), (ts_of n), (wrap32 (or_version n)), (wrap32 uid). sconj; auto using as_i32_wrap.
  - exists [], false. split; [unfold make_relation at 1; rewrite P; apply d_panic|]. exists [], (ARelation n), (map ARelation ws). sconj; auto. exists (or_changeset n). auto.
Qed.
(** one type after another *)
Lemma outcome_then items l b rest l' o' : outcome items l b -> until_with rest l' o' ->
  until_with (items ++ AMark :: rest) (stopped b l l') (if b then o' else Panicked).
Proof.
  unfold stopped. destruct b; cbn [outcome]; intros H R.
  - destruct R as [(-> & F)|(-> & before & i & after & -> & F & U)].
    + left. split; auto. apply Forall2_app; auto. constructor; auto. reflexivity.
    + right. split; auto. exists (items ++ AMark :: before), i, after. split; [rewrite <- app_assoc; reflexivity|]. split; auto.
      apply Forall2_app; auto. constructor; auto. reflexivity.
  - destruct H as (before & i & after & -> & F & U). right. split; auto. rewrite app_nil_r. exists before, i, (after ++ AMark :: rest).
    split; [rewrite <- app_assoc; reflexivity|]. auto.
Qed.
End Elements.

(** ** the whole dump *)
Section Read.
Variables (unescape : bytes -> option bytes) (sort_file : list (nat * ftype) -> bytes -> res bytes).

(** the whole reading, given the sorted rows of every table *)
Lemma reading_core dir d toc entries cat (tn tw tr : Z * Z -> list tag_rec -> Prop) (nw : Z * Z -> list way_node_rec -> Prop) (mr : Z * Z -> list member_rec -> Prop)
  d1 s1 d2 s2 d3 s3 d4 s4 d5 s5 d6 s6 d7 s7 d8 s8 d9 s9 d10 s10 ns nts ws wns wts rs ms rts cs us :
  dir (str "toc.dat") = Some toc -> toc_text entries toc -> NoDup (map (fun e => fst (fst e)) cat) ->
  Forall2 (fun e p => table_header (fst (fst e)) (snd (fst e)) (fst p) /\ snd e = snd p) cat entries -> primary_keys d ->
  sorted_table sort_file dir cat T_nodes d1 s1 -> sorted_table sort_file dir cat T_node_tags d2 s2 -> sorted_table sort_file dir cat T_ways d3 s3 ->
  sorted_table sort_file dir cat T_way_nodes d4 s4 -> sorted_table sort_file dir cat T_way_tags d5 s5 -> sorted_table sort_file dir cat T_relations d6 s6 ->
  sorted_table sort_file dir cat T_relation_members d7 s7 -> sorted_table sort_file dir cat T_relation_tags d8 s8 -> sorted_table sort_file dir cat T_changesets d9 s9 ->
  sorted_table sort_file dir cat T_users d10 s10 ->
  parses (create_node (td_fields d1)) (lines_of s1) ns -> parses (create_node_tag unescape (td_fields d2)) (lines_of s2) nts ->
  parses (create_obj (td_fields d3)) (lines_of s3) ws -> parses (create_way_node (td_fields d4)) (lines_of s4) wns ->
  parses (create_tag unescape (td_fields d5)) (lines_of s5) wts -> parses (create_obj (td_fields d6)) (lines_of s6) rs ->
  parses (create_relation_member unescape (td_fields d7)) (lines_of s7) ms -> parses (create_tag unescape (td_fields d8)) (lines_of s8) rts ->
  parses (create_changeset (td_fields d9)) (lines_of s9) cs -> parses (create_user (td_fields d10)) (lines_of s10) us ->
  Permutation (d_nodes d) ns -> Permutation (d_ways d) ws -> Permutation (d_relations d) rs -> Permutation (d_changesets d) cs -> Permutation (d_users d) us ->
  ordered (fun a b => key_lt (node_key a) (node_key b)) ns -> ordered (fun a b => key_lt (obj_key a) (obj_key b)) ws -> ordered (fun a b => key_lt (obj_key a) (obj_key b)) rs ->
  dep_sorted tag_key nts -> dep_sorted way_node_key wns -> dep_sorted tag_key wts -> dep_sorted member_key ms -> dep_sorted tag_key rts ->
  (forall o, tn (node_key o) (if starved node_key tag_key ns nts o then [] else of_key tag_key (node_key o) nts)) ->
  (forall o, nw (obj_key o) (if starved obj_key way_node_key ws wns o then [] else of_key way_node_key (obj_key o) wns)) ->
  (forall o, tw (obj_key o) (if starved obj_key tag_key ws wts o then [] else of_key tag_key (obj_key o) wts)) ->
  (forall o, mr (obj_key o) (if starved obj_key member_key rs ms o then [] else of_key member_key (obj_key o) ms)) ->
  (forall o, tr (obj_key o) (if starved obj_key tag_key rs rts o then [] else of_key tag_key (obj_key o) rts)) ->
  exists rd k s l o, ApidbRead.reader_new sort_file dir = Ok rd /\ ApidbRead.elements unescape rd = Ok (k, s) /\ run (element_next k) s l o /\
    until_with d tn tw tr nw mr (map ANode ns ++ [AMark] ++ map AWay ws ++ [AMark] ++ map ARelation rs ++ [AMark]) l o.
Proof.
  intros DT TT ND F2 (K1 & K2 & K3 & K4 & K5) S1 S2 S3 S4 S5 S6 S7 S8 S9 S10 Q1 Q2 Q3 Q4 Q5 Q6 Q7 Q8 Q9 Q10 P1 P3 P6 P9 P10 N1 N3 N6 D2 D4 D5 D7 D8 T2 T4 T5 T7 T8.
  destruct (reader_opens sort_file dir toc entries cat DT TT ND F2) as (rd & RD & OP).
  { intros t I. cbn in I. repeat (destruct I as [<-|I]; [eauto|]). destruct I. }
  pose proof (OP T_nodes d1 s1 ltac:(cbn; tauto) S1) as O1. pose proof (OP T_node_tags d2 s2 ltac:(cbn; tauto) S2) as O2. pose proof (OP T_ways d3 s3 ltac:(cbn; tauto) S3) as O3.
  pose proof (OP T_way_nodes d4 s4 ltac:(cbn; tauto) S4) as O4. pose proof (OP T_way_tags d5 s5 ltac:(cbn; tauto) S5) as O5. pose proof (OP T_relations d6 s6 ltac:(cbn; tauto) S6) as O6.
  pose proof (OP T_relation_members d7 s7 ltac:(cbn; tauto) S7) as O7. pose proof (OP T_relation_tags d8 s8 ltac:(cbn; tauto) S8) as O8. pose proof (OP T_changesets d9 s9 ltac:(cbn; tauto) S9) as O9.
  pose proof (OP T_users d10 s10 ltac:(cbn; tauto) S10) as O10.
  destruct (node_outcome d tn tw tr nw mr us cs P10 P9 K5 K4 _ ns T2) as (l1 & b1 & M1 & E1).
  destruct (way_outcome d tn tw tr nw mr us cs P10 P9 K5 K4 _ _ ws T4 T5) as (l2 & b2 & M2 & E2).
  destruct (relation_outcome d tn tw tr nw mr us cs P10 P9 K5 K4 _ _ rs T7 T8) as (l3 & b3 & M3 & E3).
  rewrite <- join_spec in M1 by auto. rewrite <- !join_spec in M2 by auto. rewrite <- !join_spec in M3 by auto.
  eexists rd, _, _, _, _. split; [exact RD|]. split; [|split].
  - unfold ApidbRead.elements. rewrite O10. cbn [unwrap_res bind]. rewrite (table_all_ok _ _ _ Q10). cbn [bind]. rewrite O9. cbn [unwrap_res bind].
    rewrite (table_all_ok _ _ _ Q9). cbn [bind]. rewrite O1, O2, O3, O4, O5, O6, O7, O8. cbn [bind]. reflexivity.
  - apply start_run. eapply node_phase'; [exact Q1|exact Q2|exact M1|].
    intros ni. eapply way_phase'; [exact Q3|exact Q4|exact Q5|exact M2|].
    intros wi. eapply rel_phase'; [exact Q6|exact Q7|exact Q8|exact M3].
  - cbn [app]. apply outcome_then; [exact E1|]. apply outcome_then; [exact E2|].
    replace (stopped b3 l3 []) with (stopped b3 l3 []) by reflexivity. apply outcome_then; [exact E3|]. left. split; [reflexivity|constructor].
Qed.
Hypothesis SORTS : sorts sort_file.


(** C76 *)
Theorem C76_reading dir d : dump_in unescape dir d -> primary_keys d ->
  exists rd k s items l o,
    ApidbRead.reader_new sort_file dir = Ok rd /\ ApidbRead.elements unescape rd = Ok (k, s) /\
    run (element_next k) s l o /\ items_of d items /\ read_until d items l o.
Proof.
  intros (toc & entries & cat & DT & TT & ND & F2 & H1 & H2 & H3 & H4 & H5 & H6 & H7 & H8 & H9 & H10) (K1 & K2 & K3 & K4 & K5).
  assert (forall t, In t [T_nodes; T_node_tags; T_ways; T_way_nodes; T_way_tags; T_relations; T_relation_members; T_relation_tags; T_changesets; T_users] -> In t read_tables) as RT by auto.
  apply (table_opens sort_file SORTS dir) in H1 as (d1 & s1 & S1 & R1); [|apply RT; cbn; tauto|apply node_keyed].
  apply (table_opens sort_file SORTS dir) in H2 as (d2 & s2 & S2 & R2); [|apply RT; cbn; tauto|intros; eapply tag_keyed; eauto; reflexivity].
  apply (table_opens sort_file SORTS dir) in H3 as (d3 & s3 & S3 & R3); [|apply RT; cbn; tauto|intros; eapply obj_keyed; eauto; reflexivity].
  apply (table_opens sort_file SORTS dir) in H4 as (d4 & s4 & S4 & R4); [|apply RT; cbn; tauto|apply way_node_keyed].
  apply (table_opens sort_file SORTS dir) in H5 as (d5 & s5 & S5 & R5); [|apply RT; cbn; tauto|intros; eapply tag_keyed; eauto; reflexivity].
  apply (table_opens sort_file SORTS dir) in H6 as (d6 & s6 & S6 & R6); [|apply RT; cbn; tauto|intros; eapply obj_keyed; eauto; reflexivity].
  apply (table_opens sort_file SORTS dir) in H7 as (d7 & s7 & S7 & R7); [|apply RT; cbn; tauto|intros; eapply member_keyed; eauto].
  apply (table_opens sort_file SORTS dir) in H8 as (d8 & s8 & S8 & R8); [|apply RT; cbn; tauto|intros; eapply tag_keyed; eauto; reflexivity].
  apply (table_opens sort_file SORTS dir) in H9 as (d9 & s9 & S9 & R9); [|apply RT; cbn; tauto|intros; eapply changeset_keyed; eauto].
  apply (table_opens sort_file SORTS dir) in H10 as (d10 & s10 & S10 & R10); [|apply RT; cbn; tauto|intros; eapply user_keyed; eauto].
  apply rows_parse with (create := create_node (td_fields d1)) (le := fun a b => ~ key_lt (node_key b) (node_key a)) in R1 as (ns & P1 & Q1 & L1);
    [|intros; eapply create_node_ok; eauto|apply node_le].
  apply rows_parse with (create := create_node_tag unescape (td_fields d2)) (le := fun a b => ~ key_lt (tag_key b) (tag_key a)) in R2 as (nts & P2 & Q2 & L2);
    [|intros; eapply create_node_tag_ok; eauto|intros; eapply tag_le; eauto; reflexivity].
  apply rows_parse with (create := create_obj (td_fields d3)) (le := fun a b => ~ key_lt (obj_key b) (obj_key a)) in R3 as (ws & P3 & Q3 & L3);
    [|intros; eapply create_way_ok; eauto|intros; eapply obj_le; eauto; reflexivity].
  apply rows_parse with (create := create_way_node (td_fields d4)) (le := way_node_order) in R4 as (wns & P4 & Q4 & L4);
    [|intros; eapply create_way_node_ok; eauto|intros; eapply way_node_le; eauto].
  apply rows_parse with (create := create_tag unescape (td_fields d5)) (le := fun a b => ~ key_lt (tag_key b) (tag_key a)) in R5 as (wts & P5 & Q5 & L5);
    [|intros; eapply create_way_tag_ok; eauto|intros; eapply tag_le; eauto; reflexivity].
  apply rows_parse with (create := create_obj (td_fields d6)) (le := fun a b => ~ key_lt (obj_key b) (obj_key a)) in R6 as (rs & P6 & Q6 & L6);
    [|intros; eapply create_relation_ok; eauto|intros; eapply obj_le; eauto; reflexivity].
  apply rows_parse with (create := create_relation_member unescape (td_fields d7)) (le := member_order) in R7 as (ms & P7 & Q7 & L7);
    [|intros; eapply create_member_ok; eauto|intros; eapply member_le; eauto].
  apply rows_parse with (create := create_tag unescape (td_fields d8)) (le := fun a b => ~ key_lt (tag_key b) (tag_key a)) in R8 as (rts & P8 & Q8 & L8);
    [|intros; eapply create_relation_tag_ok; eauto|intros; eapply tag_le; eauto; reflexivity].
  apply rows_parse with (create := create_changeset (td_fields d9)) (le := fun _ _ => True) in R9 as (cs & P9 & Q9 & _);
    [|intros; eapply create_changeset_ok; eauto|auto].
  apply rows_parse with (create := create_user (td_fields d10)) (le := fun _ _ => True) in R10 as (us & P10 & Q10 & _);
    [|intros; eapply create_user_ok; eauto|auto].
  assert (ordered (fun a b => key_lt (node_key a) (node_key b)) ns) as N1.
  { apply strict_order; auto. eapply Permutation_NoDup; [apply Permutation_map; exact P1|auto]. }
  assert (ordered (fun a b => key_lt (obj_key a) (obj_key b)) ws) as N3.
  { apply strict_order; auto. eapply Permutation_NoDup; [apply Permutation_map; exact P3|auto]. }
  assert (ordered (fun a b => key_lt (obj_key a) (obj_key b)) rs) as N6.
  { apply strict_order; auto. eapply Permutation_NoDup; [apply Permutation_map; exact P6|auto]. }
  destruct (reading_core dir d toc entries cat (tags_of_node d) (tags_of_way d) (tags_of_relation d) (nodes_of_way d) (members_of_relation d)
    d1 s1 d2 s2 d3 s3 d4 s4 d5 s5 d6 s6 d7 s7 d8 s8 d9 s9 d10 s10 ns nts ws wns wts rs ms rts cs us) as (rd & k & s & l & o & A & B & C & E); auto.
  - unfold primary_keys. tauto.
  - eapply ordered_weaken; [|exact L4]; intros a b (X & _); exact X.
  - eapply ordered_weaken; [|exact L7]; intros a b (X & _); exact X.
  - intros o. apply join_until; auto. apply own_tags_ok; auto.
  - intros o. apply join_until; auto. apply own_nodes_ok; auto.
  - intros o. apply join_until; auto. apply own_tags_ok; auto.
  - intros o. apply join_until; auto. apply own_members_ok; auto.
  - intros o. apply join_until; auto. apply own_tags_ok; auto.
  - eexists rd, k, s, _, l, o. split; [exact A|]. split; [exact B|]. split; [exact C|]. split; [|exact E].
    exists ns, ws, rs. split; [apply Permutation_sym; exact P1|]. split; [exact N1|]. split; [apply Permutation_sym; exact P3|]. split; [exact N3|].
    split; [apply Permutation_sym; exact P6|]. split; [exact N6|]. reflexivity.
Qed.
End Read.
