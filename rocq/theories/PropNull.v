(** Property C93: dumps with rows that cannot be read (NULL in a column that is needed), and dumps without. *)
From Coq Require Import ZArith List Bool Strings.Byte Strings.String Lia Permutation.
From Verif Require Import Base BaseFacts Types ApidbText ApidbSpec ApidbTextFacts DumpSpec ApidbWrite ApidbWriteFacts ApidbRead DumpReadSpec FileFormat
  ApidbReadFacts TocFacts JoinFacts ReaderFacts PropApidbRead MissSpec PropMiss FieldSpec PropFields DumpReadFails DumpReadFailsSpec PropDumpReadFails NullSpec.
From Verif Require PropDump.
Import ListNotations.
Local Notation length := List.length.
Local Notation concat := List.concat.
Open Scope Z_scope.

(** ** One row *)
Definition outcome {R} (x : res R) (Q : Prop) (I : R -> Prop) : Prop := match x with Ok r => Q /\ I r | Panic => ~ Q | Err => False end.
Lemma one_of_status w c : one_of ["pending"; "active"; "confirmed"; "suspended"; "deleted"]%string w c <-> parse_status (w (str c)) = Some tt.
Proof. symmetry. apply status_iff. Qed.
Lemma one_of_format w c : one_of ["html"; "markdown"; "text"]%string w c <-> parse_format (w (str c)) = Some tt.
Proof. symmetry. apply format_iff. Qed.
Ltac cols_of F := repeat (match goal with |- context [col ?fs (map ?w ?cols) ?k] => erewrite (F k _ eq_refl w) end; cbn [bind]).
Ltac opens_ := repeat match goal with
  | H : _ /\ _ |- _ => destruct H
  | F : Forall _ (_ :: _) |- _ => inversion F; clear F; subst
  | F : Forall _ [] |- _ => clear F
  end.
Ltac gives_ := match goal with
  | E : parse_i64 (?w ?s) = Some ?v |- fits reads_i64 ?w _ => exists v; apply reads_i64_iff; exact E
  | E : parse_i32 (?w ?s) = Some ?v |- fits reads_i32 ?w _ => exists v; apply reads_i32_iff; exact E
  | E : parse_i16 (?w ?s) = Some ?v |- fits reads_i16 ?w _ => exists v; apply reads_i16_iff; exact E
  | E : parse_sql_bool (?w ?s) = Some ?v |- fits reads_bool ?w _ => exists v; apply C75_booleans; exact E
  | E : parse_sql_time (?w ?s) = Some ?v |- fits reads_time ?w _ => exists v; apply C75_times; exact E
  | E : parse_member_type (?w ?s) = Some ?v |- fits reads_kind ?w _ => exists v; apply C75_member_kinds; exact E
  | E : parse_status (?w ?s) = Some ?v |- one_of _ ?w _ => apply one_of_status; destruct v; exact E
  | E : parse_format (?w ?s) = Some ?v |- one_of _ ?w _ => apply one_of_format; destruct v; exact E
  end.
Ltac none_ := match goal with
  | H : fits reads_i64 ?w ?c, E : parse_i64 (?w (str ?c)) = None |- _ => destruct H as (? & H); apply reads_i64_iff in H; rewrite E in H; discriminate H
  | H : fits reads_i32 ?w ?c, E : parse_i32 (?w (str ?c)) = None |- _ => destruct H as (? & H); apply reads_i32_iff in H; rewrite E in H; discriminate H
  | H : fits reads_i16 ?w ?c, E : parse_i16 (?w (str ?c)) = None |- _ => destruct H as (? & H); apply reads_i16_iff in H; rewrite E in H; discriminate H
  | H : fits reads_bool ?w ?c, E : parse_sql_bool (?w (str ?c)) = None |- _ => destruct H as (? & H); apply C75_booleans in H; rewrite E in H; discriminate H
  | H : fits reads_time ?w ?c, E : parse_sql_time (?w (str ?c)) = None |- _ => destruct H as (? & H); apply C75_times in H; rewrite E in H; discriminate H
  | H : fits reads_kind ?w ?c, E : parse_member_type (?w (str ?c)) = None |- _ => destruct H as (? & H); apply C75_member_kinds in H; rewrite E in H; discriminate H
  | H : one_of _ ?w ?c, E : parse_status (?w (str ?c)) = None |- _ => apply one_of_status in H; rewrite E in H; discriminate H
  | H : one_of _ ?w ?c, E : parse_format (?w (str ?c)) = None |- _ => apply one_of_format in H; rewrite E in H; discriminate H
  end.
Ltac steps_ := repeat match goal with |- context [unwrap ?o] => let E := fresh "E" in destruct o eqn:E; cbn [unwrap bind outcome]; [|intros R; cbn [readable_row] in R; opens_; none_] end.
Ltac done_ := cbn [outcome]; split; [cbn [readable_row]; sconj; repeat first [gives_|apply Forall_cons|apply Forall_nil]|sconj; auto; first [apply reads_i64_iff; assumption|idtac]].

Section One.
Variables (unescape : bytes -> option bytes) (cols : list bytes) (w : row_of) (line : bytes) (fs : list nat).
Hypothesis CL : columns line = map w cols.
Lemma node_outcome : fields_of T_nodes cols fs -> outcome (create_node fs line) (readable_row T_nodes w) (fun r => reads_i64 (w (str "changeset_id")) (nr_changeset r)).
Proof. intros F. unfold create_node. rewrite CL. cols_of F. steps_. done_. Qed.
Lemma node_tag_outcome : fields_of T_node_tags cols fs -> outcome (create_node_tag unescape fs line) (readable_row T_node_tags w) (fun r => True).
Proof. intros F. unfold create_node_tag. rewrite CL. cols_of F. steps_. done_. Qed.
Lemma way_outcome : fields_of T_ways cols fs -> outcome (create_obj fs line) (readable_row T_ways w) (fun r => reads_i64 (w (str "changeset_id")) (or_changeset r)).
Proof. intros F. unfold create_obj. rewrite CL. cols_of F. steps_. done_. Qed.
Lemma rel_outcome : fields_of T_relations cols fs -> outcome (create_obj fs line) (readable_row T_relations w) (fun r => reads_i64 (w (str "changeset_id")) (or_changeset r)).
Proof. intros F. unfold create_obj. rewrite CL. cols_of F. steps_. done_. Qed.
Lemma way_tag_outcome : fields_of T_way_tags cols fs -> outcome (create_tag unescape fs line) (readable_row T_way_tags w) (fun r => True).
Proof. intros F. unfold create_tag. rewrite CL. cols_of F. steps_. done_. Qed.
Lemma rel_tag_outcome : fields_of T_relation_tags cols fs -> outcome (create_tag unescape fs line) (readable_row T_relation_tags w) (fun r => True).
Proof. intros F. unfold create_tag. rewrite CL. cols_of F. steps_. done_. Qed.
Lemma way_node_outcome : fields_of T_way_nodes cols fs -> outcome (create_way_node fs line) (readable_row T_way_nodes w) (fun r => True).
Proof. intros F. unfold create_way_node. rewrite CL. cols_of F. steps_. done_. Qed.
Lemma member_outcome : fields_of T_relation_members cols fs -> outcome (create_relation_member unescape fs line) (readable_row T_relation_members w) (fun r => True).
Proof. intros F. unfold create_relation_member. rewrite CL. cols_of F. steps_. done_. Qed.
Lemma changeset_outcome : fields_of T_changesets cols fs -> outcome (create_changeset fs line) (readable_row T_changesets w)
  (fun r => reads_i64 (w (str "id")) (cr_id r) /\ reads_i64 (w (str "user_id")) (cr_user r)).
Proof. intros F. unfold create_changeset. rewrite CL. cols_of F. steps_. done_. Qed.
Lemma user_outcome : fields_of T_users cols fs -> outcome (create_user fs line) (readable_row T_users w) (fun r => reads_i64 (w (str "id")) (ur_id r)).
Proof.
  intros F. unfold create_user. rewrite CL. assert (res_map (col fs (map w cols)) (seq 0 29) = Ok (map w (field_names T_users))) as ->.
  { cbn [seq res_map]. cols_of F. reflexivity. }
  cbn [bind]. cbn [field_names map]. cbn [nth_error unwrap bind]. steps_. done_.
Qed.
End One.

(** ** A table *)
(** the rows as the reader finds them, line by line *)
Definition lined (t : table) (rows : list row_of) (fs : list nat) (lines : list bytes) : Prop :=
  exists cols rows', fields_of t cols fs /\ Permutation rows rows' /\ Forall2 (fun w l => columns l = map w cols /\ data_line l = true) rows' lines.
(** the same with the results of the creation *)
Definition made {R} (create : bytes -> res R) (Q : row_of -> Prop) (I : row_of -> R -> Prop) (rows : list row_of) (lines : list bytes) : Prop :=
  exists rows', Permutation rows rows' /\ Forall2 (fun w l => data_line l = true /\ outcome (create l) (Q w) (I w)) rows' lines.
Lemma lined_made {R} t (create : list nat -> bytes -> res R) (I : row_of -> R -> Prop) rows fs lines :
  (forall cols w l fs, columns l = map w cols -> fields_of t cols fs -> outcome (create fs l) (readable_row t w) (I w)) ->
  lined t rows fs lines -> made (create fs) (readable_row t) I rows lines.
Proof.
  intros H (cols & rows' & F & P & L). exists rows'. split; auto. eapply Forall2_impl2; [|exact L]. intros w l (C & D). split; auto. eapply H; eauto.
Qed.
Lemma table_all_made {R} (create : bytes -> res R) Q I rows lines : made create Q I rows lines ->
  match table_all create lines with
  | Ok rs => Forall Q rows /\ exists rows', Permutation rows rows' /\ Forall2 I rows' rs
  | Panic => Exists (fun w => ~ Q w) rows
  | Err => False
  end.
Proof.
  intros (rows' & P & F).
  assert (G : match table_all create lines with Ok rs => Forall Q rows' /\ Forall2 I rows' rs | Panic => Exists (fun w => ~ Q w) rows' | Err => False end).
  { clear P. induction F as [|w l ws ls (D & O) F IH]; cbn [table_all]; [split; constructor|]. rewrite D. unfold outcome in O. destruct (create l) as [r| |]; cbn [bind]; [|exact O|apply Exists_cons_hd; exact O].
    destruct O as (O1 & O2). destruct (table_all create ls) as [rs| |]; cbn [bind]; [|exact IH|apply Exists_cons_tl; exact IH]. destruct IH as (IH1 & IH2). split; constructor; auto. }
  destruct (table_all create lines) as [rs| |]; auto.
  - destruct G as (G1 & G2). split; [eapply Permutation_Forall; [symmetry; exact P|exact G1]|eauto].
  - apply Exists_exists in G as (w & J & N). apply Exists_exists. exists w. split; auto. eapply Permutation_in; [symmetry; exact P|exact J].
Qed.

(** ** The indexes *)
Lemma bt_get_insert {V} k k' (v : V) l : bt_get k (bt_insert k' v l) = if k' =? k then Ok v else bt_get k l.
Proof.
  induction l as [|(a, b) l IH]; cbn [bt_insert bt_get]; [reflexivity|]. destruct (Z.ltb_spec k' a); [reflexivity|]. destruct (Z.ltb_spec a k').
  - cbn [bt_get]. rewrite IH. destruct (Z.eqb_spec a k), (Z.eqb_spec k' k); auto; lia.
  - assert (a = k') as -> by lia. cbn [bt_get]. destruct (k' =? k); reflexivity.
Qed.
Lemma bt_get_all {V} k (ps : list (Z * V)) : match bt_get k (bt_insert_all ps []) with Ok v => In (k, v) ps | Panic => ~ In k (map fst ps) | Err => False end.
Proof.
  unfold bt_insert_all. induction ps as [|(a, b) ps IH] using rev_ind; [cbn; tauto|]. rewrite fold_left_app. cbn [fold_left fst snd]. rewrite bt_get_insert. rewrite map_app.
  destruct (Z.eqb_spec a k) as [->|N]; [apply in_or_app; right; left; auto|].
  destruct (bt_get k _) as [v| |]; [apply in_or_app; left; auto|exact IH|]. intros J. apply in_app_or in J as [J|[J|[]]]; auto.
Qed.

(** ** The iteration *)
Section Attributed.
Variables (us : list (Z * bytes)) (cs : list (Z * Z)).
Definition authored (c : Z) : Prop := exists uid name, bt_get c cs = Ok uid /\ bt_get uid us = Ok name.
(** a group whose leading table is [front] *)
Section Front.
Context {I O R : Type} (next : I -> res (option O * I)) (make : O -> res element) (create : bytes -> res R) (front : I -> list bytes) (good : I -> Prop) (lead : O -> R) (changeset : R -> Z).
Hypothesis NEXT : forall i o j, next i = Ok (o, j) -> exists o' ls, table_next create (front i) = Ok (o', ls) /\ front j = ls /\ o' = option_map lead o.
Hypothesis MAKE : forall x e, make x = Ok e -> authored (changeset (lead x)).
Hypothesis GOOD : forall i o ls, good i -> table_next create (front i) = Ok (o, ls) -> exists o' j, next i = Ok (o', j) /\ good j.
Hypothesis MADE : forall x, authored (changeset (lead x)) -> make x <> Panic.
Variables (Q : row_of -> Prop) (J : row_of -> R -> Prop).
Lemma group_all i xs j : group next make i xs j -> forall ws, Forall2 (fun w l => data_line l = true /\ outcome (create l) (Q w) (J w)) ws (front i) ->
  Forall (fun w => Q w /\ exists r, J w r /\ authored (changeset r)) ws.
Proof.
  induction 1 as [i j E|i x j e es j' E M G IH]; intros ws F; destruct (NEXT _ _ _ E) as (o' & ls & T & FJ & ->); cbn [option_map] in T.
  - destruct F as [|w l ws ls' (D & O1) F]; [constructor|]. cbn [table_next] in T. rewrite D in T. destruct (create l); cbn [bind] in T; discriminate T.
  - destruct F as [|w l ws ls' (D & O1) F]; cbn [table_next] in T; [discriminate T|]. rewrite D in T. destruct (create l) as [r| |]; cbn [bind] in T; try discriminate T. injection T as -> <-.
    destruct O1 as (O1 & O2). constructor; [|apply IH; rewrite FJ; exact F]. split; auto. exists (lead x). split; auto. eapply MAKE; eauto.
Qed.
Lemma no_stuck i xs : stuck next make i xs -> good i -> forall ws, Forall2 (fun w l => data_line l = true /\ outcome (create l) (Q w) (J w)) ws (front i) ->
  Forall (fun w => Q w /\ forall r, J w r -> authored (changeset r)) ws -> False.
Proof.
  assert (STEP : forall i ws, good i -> Forall2 (fun w l => data_line l = true /\ outcome (create l) (Q w) (J w)) ws (front i) -> Forall (fun w => Q w /\ forall r, J w r -> authored (changeset r)) ws ->
    exists o j, next i = Ok (o, j) /\ good j /\ (forall x, o = Some x -> authored (changeset (lead x)) /\ exists ws', Forall2 (fun w l => data_line l = true /\ outcome (create l) (Q w) (J w)) ws' (front j) /\
      Forall (fun w => Q w /\ forall r, J w r -> authored (changeset r)) ws')).
  { intros i0 ws G F A. assert (exists o ls, table_next create (front i0) = Ok (o, ls) /\ forall r, o = Some r -> authored (changeset r) /\ exists ws', Forall2 (fun w l => data_line l = true /\ outcome (create l) (Q w) (J w)) ws' ls /\
      Forall (fun w => Q w /\ forall r, J w r -> authored (changeset r)) ws') as (o & ls & T & H).
    { destruct F as [|w l ws ls' (D & O1) F]; cbn [table_next]; [exists None, []; split; [reflexivity|intros r X; discriminate X]|]. rewrite D. inversion A as [|? ? (A1 & A2) A3]; subst.
      unfold outcome in O1. destruct (create l) as [r| |]; [|destruct O1|destruct (O1 A1)]. destruct O1 as (_ & O2). cbn [bind]. exists (Some r), ls'. split; [reflexivity|].
      intros r' X. injection X as <-. split; [auto|]. exists ws. auto. }
    destruct (GOOD _ _ _ G T) as (o' & j & E & G'). exists o', j. split; auto. split; auto. intros x ->. destruct (NEXT _ _ _ E) as (o2 & ls2 & T2 & <- & ->). rewrite T in T2. injection T2 as -> ->.
    cbn [option_map] in H. exact (H _ eq_refl). }
  induction 1 as [i E|i x j E M|i x j e es E M S IH]; intros G ws F A; destruct (STEP i ws G F A) as (o & j0 & E' & G' & H); rewrite E in E'; try discriminate E'.
  - injection E' as <- <-. destruct (H x eq_refl) as (AU & _). exact (MADE _ AU M).
  - injection E' as <- <-. destruct (H x eq_refl) as (_ & ws' & F' & A'). eapply IH; eauto.
Qed.
End Front.
Lemma node_makes x e : node_made us cs x = Ok e -> authored (nr_changeset (fst x)).
Proof. unfold node_made, make_node, authored. destruct (bt_get _ cs) as [uid| |]; cbn [bind]; try discriminate. destruct (bt_get uid us) as [n| |] eqn:E; cbn [bind]; try discriminate. eauto. Qed.
Lemma way_makes x e : way_made us cs x = Ok e -> authored (or_changeset (fst (fst x))).
Proof. unfold way_made, make_way, authored. destruct (bt_get _ cs) as [uid| |]; cbn [bind]; try discriminate. destruct (bt_get uid us) as [n| |] eqn:E; cbn [bind]; try discriminate. eauto. Qed.
Lemma rel_makes x e : rel_made us cs x = Ok e -> authored (or_changeset (fst (fst x))).
Proof. unfold rel_made, make_relation, authored. destruct (bt_get _ cs) as [uid| |]; cbn [bind]; try discriminate. destruct (bt_get uid us) as [n| |] eqn:E; cbn [bind]; try discriminate. eauto. Qed.
Lemma node_mades x : authored (nr_changeset (fst x)) -> node_made us cs x <> Panic.
Proof. intros (uid & n & A & B). unfold node_made, make_node. rewrite A. cbn [bind]. rewrite B. discriminate. Qed.
Lemma way_mades x : authored (or_changeset (fst (fst x))) -> way_made us cs x <> Panic.
Proof. intros (uid & n & A & B). unfold way_made, make_way. rewrite A. cbn [bind]. rewrite B. discriminate. Qed.
Lemma rel_mades x : authored (or_changeset (fst (fst x))) -> rel_made us cs x <> Panic.
Proof. intros (uid & n & A & B). unfold rel_made, make_relation. rewrite A. cbn [bind]. rewrite B. discriminate. Qed.
End Attributed.

(** rows of a dependent table that can all be read *)
Definition all_made {R} (create : bytes -> res R) (ls : list bytes) : Prop := Forall (fun l => exists r, create l = Ok r) ls.
Lemma gather_made {R} (create : bytes -> res R) same ls : all_made create ls -> exists xs la r, gather create same ls = Ok (xs, la, r) /\ all_made create r.
Proof.
  induction 1 as [|l ls (x & E) F IH]; cbn [gather]; [exists [], None, []; split; [reflexivity|constructor]|]. destruct (data_line l); [|exists [], None, ls; auto].
  rewrite E. cbn [bind]. destruct (same x); [|exists [], (Some x), ls; auto]. destruct IH as (xs & la & r & -> & H). cbn [bind]. eauto.
Qed.
Lemma attach_made {R} (create : bytes -> res R) same la ls : all_made create ls -> exists xs la' r, attach create same la ls = Ok (xs, la', r) /\ all_made create r.
Proof.
  intros H. destruct la as [x|]; cbn [attach]; [|apply gather_made; auto]. destruct (same x); [|eauto]. destruct (gather_made create same ls H) as (xs & la & r & -> & H'). cbn [bind]. eauto.
Qed.
Section Nexts.
Variable k : creators.
Lemma node_front i o j : node_next k i = Ok (o, j) -> exists o' ls, table_next (mk_node k) (ni_nodes i) = Ok (o', ls) /\ ni_nodes j = ls /\ o' = option_map fst o.
Proof.
  unfold node_next. destruct (table_next (mk_node k) (ni_nodes i)) as [(o', ls)| |]; cbn [bind]; try discriminate. intros H. exists o', ls. split; auto. destruct o' as [n|].
  - destruct (attach _ _ _ _) as [((ts, la), tls)| |]; cbn [bind] in H; try discriminate H. injection H as <- <-. auto.
  - injection H as <- <-. auto.
Qed.
Lemma way_front i o j : way_next k i = Ok (o, j) -> exists o' ls, table_next (mk_way k) (wi_ways i) = Ok (o', ls) /\ wi_ways j = ls /\ o' = option_map (fun x => fst (fst x)) o.
Proof.
  unfold way_next. destruct (table_next (mk_way k) (wi_ways i)) as [(o', ls)| |]; cbn [bind]; try discriminate. intros H. exists o', ls. split; auto. destruct o' as [n|].
  - destruct (attach (mk_way_tag k) _ _ _) as [((ts, la), tls)| |]; cbn [bind] in H; try discriminate H. destruct (attach (mk_way_node k) _ _ _) as [((xs, la'), xls)| |]; cbn [bind] in H; try discriminate H. injection H as <- <-. auto.
  - injection H as <- <-. auto.
Qed.
Lemma rel_front i o j : rel_next k i = Ok (o, j) -> exists o' ls, table_next (mk_relation k) (ri_rels i) = Ok (o', ls) /\ ri_rels j = ls /\ o' = option_map (fun x => fst (fst x)) o.
Proof.
  unfold rel_next. destruct (table_next (mk_relation k) (ri_rels i)) as [(o', ls)| |]; cbn [bind]; try discriminate. intros H. exists o', ls. split; auto. destruct o' as [n|].
  - destruct (attach (mk_relation_tag k) _ _ _) as [((ts, la), tls)| |]; cbn [bind] in H; try discriminate H. destruct (attach (mk_member k) _ _ _) as [((xs, la'), xls)| |]; cbn [bind] in H; try discriminate H. injection H as <- <-. auto.
  - injection H as <- <-. auto.
Qed.
Lemma node_good i o ls : all_made (mk_node_tag k) (snd (ni_tags i)) -> table_next (mk_node k) (ni_nodes i) = Ok (o, ls) -> exists o' j, node_next k i = Ok (o', j) /\ all_made (mk_node_tag k) (snd (ni_tags j)).
Proof.
  intros G T. unfold node_next. rewrite T. cbn [bind]. destruct o as [n|]; [|eauto]. destruct (attach_made (mk_node_tag k) (tag_same (nr_id n) (nr_version n)) (fst (ni_tags i)) _ G) as (ts & la & r & -> & H). cbn [bind]. eauto.
Qed.
Lemma way_good i o ls : all_made (mk_way_node k) (snd (wi_nodes i)) /\ all_made (mk_way_tag k) (snd (wi_tags i)) -> table_next (mk_way k) (wi_ways i) = Ok (o, ls) ->
  exists o' j, way_next k i = Ok (o', j) /\ all_made (mk_way_node k) (snd (wi_nodes j)) /\ all_made (mk_way_tag k) (snd (wi_tags j)).
Proof.
  intros (G & G') T. unfold way_next. rewrite T. cbn [bind]. destruct o as [n|]; [|eauto]. destruct (attach_made (mk_way_tag k) (tag_same (or_id n) (or_version n)) (fst (wi_tags i)) _ G') as (ts & la & r & -> & H). cbn [bind].
  destruct (attach_made (mk_way_node k) (way_node_same (or_id n) (or_version n)) (fst (wi_nodes i)) _ G) as (xs & la' & r' & -> & H'). cbn [bind]. eexists _, _. split; [reflexivity|]. auto.
Qed.
Lemma rel_good i o ls : all_made (mk_member k) (snd (ri_members i)) /\ all_made (mk_relation_tag k) (snd (ri_tags i)) -> table_next (mk_relation k) (ri_rels i) = Ok (o, ls) ->
  exists o' j, rel_next k i = Ok (o', j) /\ all_made (mk_member k) (snd (ri_members j)) /\ all_made (mk_relation_tag k) (snd (ri_tags j)).
Proof.
  intros (G & G') T. unfold rel_next. rewrite T. cbn [bind]. destruct o as [n|]; [|eauto]. destruct (attach_made (mk_relation_tag k) (tag_same (or_id n) (or_version n)) (fst (ri_tags i)) _ G') as (ts & la & r & -> & H). cbn [bind].
  destruct (attach_made (mk_member k) (member_same (or_id n) (or_version n)) (fst (ri_members i)) _ G) as (xs & la' & r' & -> & H'). cbn [bind]. eexists _, _. split; [reflexivity|]. auto.
Qed.
End Nexts.

(** ** Opening *)
Section Dump.
Variables (unescape : bytes -> option bytes) (sort_file : list (nat * ftype) -> bytes -> res bytes).
Hypothesis SORTS : sorts sort_file.
Variables (dir : bytes -> option bytes) (cat : catalogue) (rows : table -> list row_of).
Lemma text_lined t : In t ten -> text_table dir cat t (rows t) -> exists df sorted, sorted_table sort_file dir cat t df sorted /\ lined t (rows t) (td_fields df) (lines_of sorted).
Proof.
  intros T H. apply (table_opens sort_file SORTS dir) in H as (df & sorted & S & cols & prs & F & P & L & _).
  - exists df, sorted. split; auto. exists cols, (map fst prs). split; auto. split; auto. clear - L. induction L as [|(r, w) l ps ls ((E & _) & C & D) L IH]; [constructor|]. cbn [map fst snd] in *. subst r. constructor; auto.
  - apply ten_read. exact T.
  - intros r w (_ & N). clear - T N. unfold name_keyed. cbn in T. repeat (destruct T as [<- |T]; [cbn [key_names number_columns] in *; opens_; repeat (apply Forall_cons; [cbn [fst snd]; intros K; first [discriminate K|
      match goal with H : exists z, int64 z _ |- _ => destruct H as (? & ? & ?); eauto; fail end]|]); try apply Forall_nil; fail|]). destruct T.
Qed.
Definition loaded (rd : reader) : Prop := forall t, In t ten -> exists fs ls, open_table rd t = Ok (fs, ls) /\ lined t (rows t) fs ls.
Lemma loads : catalogued dir cat -> (forall t, In t ten -> text_table dir cat t (rows t)) -> exists rd, ApidbRead.reader_new sort_file dir = Ok rd /\ loaded rd.
Proof.
  intros C T. destruct (reader_gaps sort_file dir cat C) as (rd & RD & OP & _).
  { intros t I _. destruct (text_lined t I (T t I)) as (df & s & S & _). eauto. }
  exists rd. split; auto. intros t I. destruct (text_lined t I (T t I)) as (df & s & S & L). eexists _, _. split; [apply OP; eauto|exact L].
Qed.
(** the changeset with this id has a user *)
Definition attributed (c : Z) : Prop := exists wc wu y, In wc (rows T_changesets) /\ In wu (rows T_users) /\ reads_i64 (wc (str "id")) c /\ reads_i64 (wc (str "user_id")) y /\ reads_i64 (wu (str "id")) y.
Definition names_changeset (r : row_of) (c : Z) : Prop := reads_i64 (r (str "changeset_id")) c.
Definition ready (k : creators) (s : eiter) : Prop := exists us cs ln lnt lw lwn lwt lr lrm lrt,
  s = EIter us cs Start (NodeIter ln (None, lnt)) (WayIter lw (None, lwn) (None, lwt)) (RelIter lr (None, lrm) (None, lrt)) /\
  made (mk_node k) (readable_row T_nodes) (fun w r => names_changeset w (nr_changeset r)) (rows T_nodes) ln /\ made (mk_node_tag k) (readable_row T_node_tags) (fun _ _ => True) (rows T_node_tags) lnt /\
  made (mk_way k) (readable_row T_ways) (fun w r => names_changeset w (or_changeset r)) (rows T_ways) lw /\ made (mk_way_node k) (readable_row T_way_nodes) (fun _ _ => True) (rows T_way_nodes) lwn /\
  made (mk_way_tag k) (readable_row T_way_tags) (fun _ _ => True) (rows T_way_tags) lwt /\
  made (mk_relation k) (readable_row T_relations) (fun w r => names_changeset w (or_changeset r)) (rows T_relations) lr /\ made (mk_member k) (readable_row T_relation_members) (fun _ _ => True) (rows T_relation_members) lrm /\
  made (mk_relation_tag k) (readable_row T_relation_tags) (fun _ _ => True) (rows T_relation_tags) lrt /\
  (forall c, authored us cs c -> attributed c) /\
  ((forall wc, In wc (rows T_changesets) -> refers wc "user_id" (rows T_users) "id") -> forall c wc, In wc (rows T_changesets) -> reads_i64 (wc (str "id")) c -> authored us cs c).
Lemma reads_one s x y : reads_i64 s x -> reads_i64 s y -> x = y.
Proof. intros A B. apply reads_i64_iff in A, B. congruence. Qed.
Lemma F2_in_l {A B} (P : A -> B -> Prop) l l' a : Forall2 P l l' -> In a l -> exists b, In b l' /\ P a b.
Proof. induction 1 as [|x y l l' H F IH]; intros I; [destruct I|]. destruct I as [<- |I]; [exists y; split; auto; left; auto|]. destruct (IH I) as (b & J & K). exists b. split; auto. right; auto. Qed.
Lemma F2_in_r {A B} (P : A -> B -> Prop) l l' b : Forall2 P l l' -> In b l' -> exists a, In a l /\ P a b.
Proof. induction 1 as [|x y l l' H F IH]; intros I; [destruct I|]. destruct I as [<- |I]; [exists x; split; auto; left; auto|]. destruct (IH I) as (a & J & K). exists a. split; auto. right; auto. Qed.
Lemma opened_text rd : loaded rd -> match ApidbRead.elements unescape rd with
  | Ok (k, s) => Forall (readable_row T_users) (rows T_users) /\ Forall (readable_row T_changesets) (rows T_changesets) /\ ready k s
  | Panic => Exists (fun w => ~ readable_row T_users w) (rows T_users) \/ Exists (fun w => ~ readable_row T_changesets w) (rows T_changesets)
  | Err => False
  end.
Proof.
  intros L. unfold ApidbRead.elements.
  destruct (L T_users ltac:(cbn; tauto)) as (fu & lu & -> & LU). destruct (L T_changesets ltac:(cbn; tauto)) as (fc & lc & -> & LC).
  destruct (L T_nodes ltac:(cbn; tauto)) as (fn & ln & -> & LN). destruct (L T_node_tags ltac:(cbn; tauto)) as (fnt & lnt & -> & LNT).
  destruct (L T_ways ltac:(cbn; tauto)) as (fw & lw & -> & LW). destruct (L T_way_nodes ltac:(cbn; tauto)) as (fwn & lwn & -> & LWN). destruct (L T_way_tags ltac:(cbn; tauto)) as (fwt & lwt & -> & LWT).
  destruct (L T_relations ltac:(cbn; tauto)) as (fr & lr & -> & LR). destruct (L T_relation_members ltac:(cbn; tauto)) as (frm & lrm & -> & LRM). destruct (L T_relation_tags ltac:(cbn; tauto)) as (frt & lrt & -> & LRT).
  cbn [unwrap_res bind].
  apply (lined_made T_users create_user (fun w r => reads_i64 (w (str "id")) (ur_id r))) in LU; [|intros; eapply user_outcome; eauto]. apply table_all_made in LU.
  apply (lined_made T_changesets create_changeset (fun w r => reads_i64 (w (str "id")) (cr_id r) /\ reads_i64 (w (str "user_id")) (cr_user r))) in LC; [|intros; eapply changeset_outcome; eauto]. apply table_all_made in LC.
  destruct (table_all (create_user fu) lu) as [us| |]; cbn [bind]; [|exact LU|left; exact LU].
  destruct (table_all (create_changeset fc) lc) as [cs| |]; cbn [bind]; [|exact LC|right; exact LC].
  destruct LU as (U1 & ur & UP & U2). destruct LC as (C1 & cr & CP & C2). split; auto. split; auto.
  eexists _, _, ln, lnt, lw, lwn, lwt, lr, lrm, lrt. split; [reflexivity|].
  split; [apply (lined_made T_nodes create_node (fun w r => names_changeset w (nr_changeset r))); [intros; eapply node_outcome; eauto|exact LN]|].
  split; [apply (lined_made T_node_tags (create_node_tag unescape) (fun _ _ => True)); [intros; eapply node_tag_outcome; eauto|exact LNT]|].
  split; [apply (lined_made T_ways create_obj (fun w r => names_changeset w (or_changeset r))); [intros; eapply way_outcome; eauto|exact LW]|].
  split; [apply (lined_made T_way_nodes create_way_node (fun _ _ => True)); [intros; eapply way_node_outcome; eauto|exact LWN]|].
  split; [apply (lined_made T_way_tags (create_tag unescape) (fun _ _ => True)); [intros; eapply way_tag_outcome; eauto|exact LWT]|].
  split; [apply (lined_made T_relations create_obj (fun w r => names_changeset w (or_changeset r))); [intros; eapply rel_outcome; eauto|exact LR]|].
  split; [apply (lined_made T_relation_members (create_relation_member unescape) (fun _ _ => True)); [intros; eapply member_outcome; eauto|exact LRM]|].
  split; [apply (lined_made T_relation_tags (create_tag unescape) (fun _ _ => True)); [intros; eapply rel_tag_outcome; eauto|exact LRT]|].
  split.
  - intros c (uid & name & A & B). pose proof (bt_get_all c (map (fun c => (cr_id c, cr_user c)) cs)) as X. rewrite A in X. pose proof (bt_get_all uid (map (fun u => (ur_id u, ur_name u)) us)) as Y. rewrite B in Y.
    apply in_map_iff in X as (rc & Xe & Xi). injection Xe as <- <-. apply in_map_iff in Y as (ru & Ye & Yi). injection Ye as Ye _.
    destruct (F2_in_r _ _ _ _ C2 Xi) as (wc & WI & W1 & W2). destruct (F2_in_r _ _ _ _ U2 Yi) as (wu & VI & V1). rewrite Ye in V1.
    exists wc, wu, (cr_user rc). split; [eapply Permutation_in; [symmetry; exact CP|exact WI]|]. split; [eapply Permutation_in; [symmetry; exact UP|exact VI]|]. auto.
  - intros REF c wc WI WC. unfold authored. pose proof (bt_get_all c (map (fun c => (cr_id c, cr_user c)) cs)) as X.
    assert (CK : forall w, In w (rows T_changesets) -> exists r, In r cs /\ reads_i64 (w (str "id")) (cr_id r) /\ reads_i64 (w (str "user_id")) (cr_user r)).
    { intros w I. exact (F2_in_l _ _ _ w C2 (Permutation_in w CP I)). }
    destruct (bt_get c _) as [uid| |]; [|destruct X|].
    + exists uid. pose proof (bt_get_all uid (map (fun u => (ur_id u, ur_name u)) us)) as Y. destruct (bt_get uid _) as [n| |]; [eauto|destruct Y|]. exfalso. apply Y. clear Y. rewrite map_map. cbn [fst].
      apply in_map_iff in X as (rc & Xe & Xi). injection Xe as <- <-. destruct (F2_in_r _ _ _ _ C2 Xi) as (w & WI' & W1 & W2).
      destruct (REF w ltac:(eapply Permutation_in; [symmetry; exact CP|exact WI'])) as (x & wu & VI & R1 & R2). rewrite (reads_one _ _ _ W2 R1).
      destruct (F2_in_l _ _ _ wu U2 ltac:(eapply Permutation_in; [exact UP|exact VI])) as (ru & RI & R3). rewrite (reads_one _ _ _ R2 R3). apply in_map. exact RI.
    + exfalso. apply X. rewrite map_map. cbn [fst]. destruct (CK wc WI) as (r & RI & R1 & _). rewrite (reads_one _ _ _ WC R1). apply in_map_iff. exists r. auto.
Qed.

(** C93: opening succeeds whatever the rows; elements() panics if one row of users or of changesets cannot be read, and only then *)
Theorem C93_opening : catalogued dir cat -> (forall t, In t ten -> text_table dir cat t (rows t)) ->
  exists rd, ApidbRead.reader_new sort_file dir = Ok rd /\
    match ApidbRead.elements unescape rd with
    | Ok _ => forall t w, In t [T_users; T_changesets] -> In w (rows t) -> readable_row t w
    | Panic => exists t w, In t [T_users; T_changesets] /\ In w (rows t) /\ ~ readable_row t w
    | Err => False
    end.
Proof.
  intros C T. destruct (loads C T) as (rd & RD & L). exists rd. split; auto. pose proof (opened_text rd L) as H. destruct (ApidbRead.elements unescape rd) as [(k, s)| |]; auto.
  - destruct H as (H1 & H2 & _). rewrite Forall_forall in H1, H2. intros t w [<- |[<- |[]]]; auto.
  - destruct H as [H|H]; apply Exists_exists in H as (w & I & N); eexists _, w; (split; [|split; [exact I|exact N]]); cbn; auto.
Qed.
(** C93: a row of a table of objects that cannot be read, or whose changeset or user is not there, makes the iteration panic before the
    Sentinel behind the objects of that table *)
Theorem C93_objects t n w rd k s es o : catalogued dir cat -> (forall t, In t ten -> text_table dir cat t (rows t)) ->
  ApidbRead.reader_new sort_file dir = Ok rd -> ApidbRead.elements unescape rd = Ok (k, s) -> run (element_next k) s es o ->
  before_objects t = Some n -> In w (rows t) ->
  ~ (readable_row t w /\ exists wc, In wc (rows T_changesets) /\ refers w "changeset_id" [wc] "id" /\ refers wc "user_id" (rows T_users) "id") ->
  o = Panicked /\ (sentinels es <= n)%nat.
Proof.
  intros C T RD EL RUN BO IW BAD. destruct (loads C T) as (rd' & RD' & L). rewrite RD in RD'. injection RD' as <-. pose proof (opened_text rd L) as H. rewrite EL in H. destruct H as (_ & _ & H).
  destruct H as (us & cs & ln & lnt & lw & lwn & lwt & lr & lrm & lrt & -> & MN & _ & MW & _ & _ & MR & _ & _ & AT & _).
  assert (WHO : forall w c, reads_i64 (w (str "changeset_id")) c -> authored us cs c -> exists wc, In wc (rows T_changesets) /\ refers w "changeset_id" [wc] "id" /\ refers wc "user_id" (rows T_users) "id").
  { intros w0 c R A. destruct (AT c A) as (wc & wu & y & I1 & I2 & R1 & R2 & R3). exists wc. split; auto. split; [exists c, wc; split; [left; auto|auto]|exists y, wu; auto]. }
  assert (NODES : forall ns j, node_group k us cs (NodeIter ln (None, lnt)) ns j -> t <> T_nodes).
  { intros ns j G ->. destruct MN as (ws & P & F). eapply (group_all us cs (node_next k) (node_made us cs) (mk_node k) ni_nodes fst nr_changeset (node_front k) (node_makes us cs)) in G; [|exact F].
    rewrite Forall_forall in G. destruct (G w ltac:(eapply Permutation_in; eauto)) as (Q & r & J & A). apply BAD. split; auto. eapply WHO; eauto. }
  assert (WAYS : forall ns j, way_group k us cs (WayIter lw (None, lwn) (None, lwt)) ns j -> t <> T_ways).
  { intros ns j G ->. destruct MW as (ws & P & F). eapply (group_all us cs (way_next k) (way_made us cs) (mk_way k) wi_ways (fun x => fst (fst x)) or_changeset (way_front k) (way_makes us cs)) in G; [|exact F].
    rewrite Forall_forall in G. destruct (G w ltac:(eapply Permutation_in; eauto)) as (Q & r & J & A). apply BAD. split; auto. eapply WHO; eauto. }
  assert (RELS : forall ns j, rel_group k us cs (RelIter lr (None, lrm) (None, lrt)) ns j -> t <> T_relations).
  { intros ns j G ->. destruct MR as (ws & P & F). eapply (group_all us cs (rel_next k) (rel_made us cs) (mk_relation k) ri_rels (fun x => fst (fst x)) or_changeset (rel_front k) (rel_makes us cs)) in G; [|exact F].
    rewrite Forall_forall in G. destruct (G w ltac:(eapply Permutation_in; eauto)) as (Q & r & J & A). apply BAD. split; auto. eapply WHO; eauto. }
  assert (SA : forall a b, sentinels (a ++ b) = (sentinels a + sentinels b)%nat) by (intros; unfold sentinels; rewrite filter_app, app_length; reflexivity).
  assert (S0 : forall (I O : Type) (next : I -> res (option O * I)) make i xs, (forall x e, make x = Ok e -> e <> ESentinel) -> (stuck next make i xs \/ exists j, group next make i xs j) -> sentinels xs = 0%nat).
  { intros I O next make i xs NS [S|(j & G)].
    - induction S as [i E|i x j E M|i x j e ys E M S IH]; auto. change (e :: ys) with ([e] ++ ys). rewrite SA, IH. specialize (NS _ _ M). destruct e; cbn; congruence.
    - induction G as [i j E|i x j e ys j' E M G IH]; auto. change (e :: ys) with ([e] ++ ys). rewrite SA, IH. specialize (NS _ _ M). destruct e; cbn; congruence. }
  assert (N1 : forall x e, node_made us cs x = Ok e -> e <> ESentinel) by (intros x e; unfold node_made, make_node; destruct (bt_get _ cs); cbn [bind]; try discriminate; destruct (bt_get _ us); cbn [bind]; try discriminate; intros X; injection X as <-; discriminate).
  assert (N2 : forall x e, way_made us cs x = Ok e -> e <> ESentinel) by (intros x e; unfold way_made, make_way; destruct (bt_get _ cs); cbn [bind]; try discriminate; destruct (bt_get _ us); cbn [bind]; try discriminate; intros X; injection X as <-; discriminate).
  assert (N3 : forall x e, rel_made us cs x = Ok e -> e <> ESentinel) by (intros x e; unfold rel_made, make_relation; destruct (bt_get _ cs); cbn [bind]; try discriminate; destruct (bt_get _ us); cbn [bind]; try discriminate; intros X; injection X as <-; discriminate).
  apply run_stream in RUN. destruct RUN as [(-> & ns & ws & rs & j1 & j2 & j3 & -> & G1 & G2 & G3)|(-> & [S|[(ns & j1 & ws & G1 & S & ->)|(ns & j1 & ws & j2 & rs & G1 & G2 & S & ->)]])].
  - exfalso. pose proof (NODES _ _ G1). pose proof (WAYS _ _ G2). pose proof (RELS _ _ G3). destruct t; try discriminate BO; congruence.
  - split; auto. rewrite (S0 _ _ _ _ _ _ N1 (or_introl S)). lia.
  - split; auto. pose proof (NODES _ _ G1). change (ns ++ ESentinel :: ws) with (ns ++ [ESentinel] ++ ws). rewrite !SA, (S0 _ _ _ _ _ _ N1 (or_intror (ex_intro _ _ G1))), (S0 _ _ _ _ _ _ N2 (or_introl S)).
    destruct t; try discriminate BO; injection BO as <-; cbn; try lia. congruence.
  - split; auto. pose proof (NODES _ _ G1). pose proof (WAYS _ _ G2). change (ns ++ ESentinel :: ws ++ ESentinel :: rs) with (ns ++ [ESentinel] ++ ws ++ [ESentinel] ++ rs).
    rewrite !SA, (S0 _ _ _ _ _ _ N1 (or_intror (ex_intro _ _ G1))), (S0 _ _ _ _ _ _ N2 (or_intror (ex_intro _ _ G2))), (S0 _ _ _ _ _ _ N3 (or_introl S)).
    destruct t; try discriminate BO; injection BO as <-; cbn; try lia; congruence.
Qed.
Lemma made_all {R} (create : bytes -> res R) Q I rs ls : made create Q I rs ls -> Forall Q rs -> all_made create ls.
Proof.
  intros (rs' & P & F) A. assert (A' : Forall Q rs') by (eapply Permutation_Forall; eauto). clear P A. induction F as [|w l ws ls (D & O) F IH]; [constructor|]. inversion A' as [|? ? A1 A2]; subst.
  constructor; [|apply IH; auto]. unfold outcome in O. destruct (create l) as [r| |]; [eauto|destruct O|destruct (O A1)].
Qed.
(** C93: if every row of every table can be read, every object has its changeset and every changeset its user, the iteration ends
    without a panic, whatever else the rows say (also with NULL in the other columns) *)
Theorem C93_no_panic : catalogued dir cat -> (forall t, In t ten -> text_table dir cat t (rows t)) ->
  (forall t w, In t ten -> In w (rows t) -> readable_row t w) ->
  (forall t n w, before_objects t = Some n -> In w (rows t) -> refers w "changeset_id" (rows T_changesets) "id") ->
  (forall w, In w (rows T_changesets) -> refers w "user_id" (rows T_users) "id") ->
  exists rd k s es, ApidbRead.reader_new sort_file dir = Ok rd /\ ApidbRead.elements unescape rd = Ok (k, s) /\ run (element_next k) s es Ended.
Proof.
  intros C T RR OC CU. destruct (loads C T) as (rd & RD & L). exists rd. pose proof (opened_text rd L) as H. destruct (ApidbRead.elements unescape rd) as [(k, s)| |] eqn:EL; [|destruct H|].
  2:{ exfalso. destruct H as [H|H]; apply Exists_exists in H as (w & I & N); apply N; apply RR; auto; cbn; tauto. }
  destruct (PropDump.C42_stream_shape unescape rd k s EL) as (es & o & R & _). exists k, s, es. split; auto. split; auto. destruct o; auto. exfalso.
  destruct H as (_ & _ & us & cs & ln & lnt & lw & lwn & lwt & lr & lrm & lrt & -> & MN & MNT & MW & MWN & MWT & MR & MRM & MRT & _ & AU). specialize (AU CU).
  assert (RA : forall t, In t ten -> Forall (readable_row t) (rows t)) by (intros t I; apply Forall_forall; intros w J; apply RR; auto).
  assert (OK : forall t n, In t ten -> before_objects t = Some n -> Forall (fun w => readable_row t w /\ forall c, names_changeset w c -> authored us cs c) (rows t)).
  { intros t n I B. apply Forall_forall. intros w J. split; [apply RR; auto|]. intros c NC. destruct (OC t n w B J) as (x & wc & I1 & R1 & R2). rewrite (reads_one _ _ _ NC R1). eapply AU; eauto. }
  apply run_stream in R. destruct R as [(X & _)|(_ & [S|[(ns & j1 & ws & G1 & S & ->)|(ns & j1 & ws & j2 & rs & G1 & G2 & S & ->)]])]; [discriminate X| | |].
  - destruct MN as (ws & P & F). eapply (no_stuck us cs (node_next k) (node_made us cs) (mk_node k) ni_nodes (fun i => all_made (mk_node_tag k) (snd (ni_tags i))) fst nr_changeset (node_front k) (fun i o ls => node_good k i o ls) (node_mades us cs)); [exact S|cbn; eapply made_all; eauto; apply RA; cbn; tauto|exact F|].
    eapply Permutation_Forall; [exact P|]. eapply Forall_impl; [|exact (OK T_nodes 0%nat ltac:(cbn; tauto) eq_refl)]. intros w (Q & A). split; auto.
  - destruct MW as (wws & P & F). eapply (no_stuck us cs (way_next k) (way_made us cs) (mk_way k) wi_ways (fun i => all_made (mk_way_node k) (snd (wi_nodes i)) /\ all_made (mk_way_tag k) (snd (wi_tags i))) (fun x => fst (fst x)) or_changeset (way_front k) (fun i o ls => way_good k i o ls) (way_mades us cs));
      [exact S|cbn; split; eapply made_all; eauto; apply RA; cbn; tauto|exact F|].
    eapply Permutation_Forall; [exact P|]. eapply Forall_impl; [|exact (OK T_ways 1%nat ltac:(cbn; tauto) eq_refl)]. intros w (Q & A). split; auto.
  - destruct MR as (wws & P & F). eapply (no_stuck us cs (rel_next k) (rel_made us cs) (mk_relation k) ri_rels (fun i => all_made (mk_member k) (snd (ri_members i)) /\ all_made (mk_relation_tag k) (snd (ri_tags i))) (fun x => fst (fst x)) or_changeset (rel_front k) (fun i o ls => rel_good k i o ls) (rel_mades us cs));
      [exact S|cbn; split; eapply made_all; eauto; apply RA; cbn; tauto|exact F|].
    eapply Permutation_Forall; [exact P|]. eapply Forall_impl; [|exact (OK T_relations 2%nat ltac:(cbn; tauto) eq_refl)]. intros w (Q & A). split; auto.
Qed.
End Dump.
(** C93: a row with NULL in a column that is needed cannot be read *)
Theorem C93_null t c w : In c (not_null t) -> w (str c) = str "\N" -> ~ readable_row t w.
Proof.
  intros I N R.
  assert (X : (parse_i64 (w (str c)) = None /\ parse_i32 (w (str c)) = None /\ parse_i16 (w (str c)) = None /\ parse_sql_bool (w (str c)) = None /\ parse_sql_time (w (str c)) = None) /\
    (parse_member_type (w (str c)) = None /\ parse_status (w (str c)) = None /\ parse_format (w (str c)) = None)) by (rewrite N; vm_compute; repeat split).
  destruct X as ((X1 & X2 & X3 & X4 & X5) & X6 & X7 & X8). clear N.
  destruct t; cbn [not_null In] in I; try contradiction; cbn [readable_row] in R; opens_; repeat (destruct I as [<- |I]; [none_|]); contradiction.
Qed.
