(** Property C89: the dump writer on a disk that fails. *)
From Coq Require Import ZArith List Bool Strings.Byte Strings.String Permutation Lia.
From Verif Require Import Base BaseFacts Types ApidbText ApidbSpec DumpSpec ApidbWrite ApidbWriteFacts PropApidbWrite PropLimits DumpStop StopSpec PropStop DumpCalls DumpCallsSpec PropDumpCalls DumpFails DumpFailsSpec.
Import ListNotations.
Local Notation length := List.length.
Local Notation concat := List.concat.
Open Scope Z_scope.

(** what a step does when nothing fails *)
Definition pure (a : op) (w : writer) : writer :=
  match a with
  | Note f => f w | Timed _ => w | Rows t rows => append t (concat rows) w | Lines t lines id v => put_current t lines id v w
  | Take t => flush_current t w | Flush _ => w
  end.
Definition pures (l : list op) (w : writer) : writer := fold_left (fun w a => pure a w) l w.
Lemma did_fine a s m : did a s Fine m -> fw_w m = pure a (fw_w s) /\ (forall r, a = Timed r -> exists x, r = Ok x).
Proof.
  intros H. inversion H as [f s0|x s0|r s0 N|t rows s0 o s' W|t lines id v s0 c E|t lines id v s0 ls c s' E W|t lines id v s0 ls c s' E W|t s0 E|t ls s0 o s' E W|t s0 s' E S F|t s0 s' E S]; subst;
    cbn [pure fw_w]; (split; [|intros r Q; try discriminate Q; injection Q as <-; eauto]); auto.
  - inversion W; auto.
  - unfold put_current. rewrite E. reflexivity.
  - unfold put_current. rewrite E. inversion W as [s1 Q S|]; subst. rewrite Q. reflexivity.
  - unfold flush_current. rewrite E. reflexivity.
  - unfold flush_current. rewrite E. inversion W as [s1 Q S|]; subst. exact Q.
Qed.
Lemma steps_fine l : forall s s', steps l s Fine s' -> fw_w s' = pures l (fw_w s) /\ (forall r, In (Timed r) l -> exists x, r = Ok x).
Proof.
  induction l as [|a l IH]; intros s s' H; inversion H as [|? ? ? m ? ? D S|? ? ? ? ? N D]; subst; [split; [reflexivity|intros r []]| |congruence].
  apply IH in S as (A & B). apply did_fine in D as (C & D). unfold pures in *. cbn [fold_left]. rewrite <- C. split; auto. intros r [->|I]; eauto.
Qed.
Lemma pures_app a b w : pures (a ++ b) w = pures b (pures a w).
Proof. apply fold_left_app. Qed.

Section Pure.
Variables (esc : bytes -> bytes) (hash_order : forall V, list (Z * V) -> list (Z * V)) (lib : bytes).
Lemma pure_element e w : (forall r, In (Timed r) (element_steps esc e) -> exists x, r = Ok x) -> write_element esc e w = Ok (pures (element_steps esc e) w).
Proof.
  intros T. destruct e as [n|wy|r|]; cbn [write_element]; auto; unfold write_node, write_way, write_relation; cbv zeta.
  - destruct (T (to_sql_time_millis (n_timestamp n))) as (x & X); [cbn; tauto|]. unfold element_steps, pures. rewrite X. cbn [bind fold_left pure List.concat]. rewrite app_nil_r. reflexivity.
  - destruct (T (to_sql_time_millis (w_timestamp wy))) as (x & X); [cbn; tauto|]. unfold element_steps, pures. rewrite X. cbn [bind fold_left pure List.concat]. rewrite app_nil_r. reflexivity.
  - destruct (T (to_sql_time_millis (r_timestamp r))) as (x & X); [cbn; tauto|]. unfold element_steps, pures. rewrite X. cbn [bind fold_left pure List.concat]. rewrite app_nil_r. reflexivity.
Qed.
Lemma pure_users clock us : forall i w, (forall r, In (Timed r) (user_steps clock i us) -> exists x, r = Ok x) -> write_users clock i us w = Ok (pures (user_steps clock i us) w).
Proof.
  induction us as [|(id, name) us IH]; intros i w T; cbn [write_users user_steps]; auto. cbn [user_steps] in T. destruct (T (to_sql_time_micros (clock i)) (or_introl eq_refl)) as (x & X). rewrite X. cbn [bind].
  rewrite IH by (intros r I; apply T; right; right; auto). unfold pures. cbn [fold_left pure List.concat]. rewrite app_nil_r. reflexivity.
Qed.
Lemma users_keep clock us : forall i w, user_index (pures (user_steps clock i us) w) = user_index w /\ changeset_index (pures (user_steps clock i us) w) = changeset_index w.
Proof. induction us as [|(id, name) us IH]; intros i w; [auto|]. cbn [user_steps]. unfold pures in *. cbn [fold_left pure]. destruct (IH (S i) (append T_users (concat [user_line id name (match to_sql_time_micros (clock i) with Ok s => s | _ => [] end)]) w)) as (-> & ->). auto. Qed.
Lemma pure_changesets clock cs : forall i w, (forall r, In (Timed r) (changeset_steps lib clock i cs) -> exists x, r = Ok x) -> write_changesets clock lib i cs w = Ok (pures (changeset_steps lib clock i cs) w).
Proof.
  induction cs as [|(id, uid) cs IH]; intros i w T; cbn [write_changesets changeset_steps]; auto. cbn [changeset_steps] in T. destruct (T (to_sql_time_micros (clock i)) (or_intror (or_introl eq_refl))) as (x & X).
  cbv zeta. rewrite X. cbn [bind]. rewrite IH by (intros r I; apply T; right; right; right; auto). unfold pures. cbn [fold_left pure List.concat]. rewrite !app_nil_r. reflexivity.
Qed.
Lemma pure_tables ts : forall w, pures (flat_map (fun t => [Rows t [terminator]; Flush t]) ts) w = fold_left (fun w t => append t terminator w) ts w.
Proof. induction ts as [|t ts IH]; intros w; [reflexivity|]. cbn [flat_map app]. unfold pures in *. cbn [fold_left pure List.concat]. rewrite app_nil_r. apply IH. Qed.
Lemma pure_first w : pures (first_steps hash_order) w = flush_buffers hash_order (flush_current_object_lines w).
Proof. reflexivity. Qed.
Lemma pure_close clock s s' : close_run hash_order lib clock s Fine s' -> close hash_order clock lib (fw_w s) = Ok (fw_w s').
Proof.
  intros H. inversion H as [o ? N S|m o ? S1 S2]; subst; [congruence|]. apply steps_fine in S1 as (A & _). apply steps_fine in S2 as (B & T). rewrite pure_first in A. unfold close. cbv zeta. rewrite <- A. unfold last_steps in T, B.
  rewrite pure_users by (intros r I; apply T; apply in_or_app; auto). cbn [bind]. destruct (users_keep clock (user_index (fw_w m)) 0%nat (fw_w m)) as (K1 & K2).
  rewrite K1, K2. rewrite pure_changesets by (intros r I; apply T; apply in_or_app; right; apply in_or_app; auto). cbn [bind]. unfold close_tables. rewrite B, !pures_app. unfold table_close_steps. rewrite pure_tables. reflexivity.
Qed.

(** ** Nothing fails *)
(** a table file holds more than has reached the disk *)
Definition within (s : fw) : Prop := forall t, exists x, files (fw_w s) t = fw_disk s t ++ x.
Lemma settles_within t s s' : (forall t', t' <> t -> files (fw_w s') t' = files (fw_w s) t') -> within s -> settles t s s' -> within s'.
Proof.
  intros F W (_ & A & B) t'. destruct (table_eqb t' t) eqn:E; [apply table_eqb_eq in E; subst; exact A|]. assert (t' <> t) as N by (intros ->; rewrite table_eqb_refl in E; discriminate).
  rewrite F, B by auto. apply W.
Qed.
Lemma append_other t b w t' : t' <> t -> files (append t b w) t' = files w t'.
Proof. intros N. unfold append, upd. cbn [files]. destruct (table_eqb t t') eqn:E; auto. apply table_eqb_eq in E. congruence. Qed.
Lemma append_same t b w : files (append t b w) t = files w t ++ b.
Proof. unfold append, upd. cbn [files]. rewrite table_eqb_refl. reflexivity. Qed.
Lemma wrote_within t rows w s o s' : files w = files (fw_w s) -> within s -> wrote t rows w s o s' -> within s'.
Proof. intros E W H. inversion H as [? Q S|? ? ? ? ? ? ? ? ? ? Q S]; subst; (eapply settles_within; [|exact W|exact S]); intros t' N; rewrite Q, append_other, E by auto; reflexivity. Qed.
(** steps that are made of known parts *)
Definition sane (a : op) : Prop :=
  match a with
  | Note f => forall w, files (f w) = files w
  | Lines t _ _ _ | Take t => existsb (fun x => table_eqb x t) current_tables = true
  | _ => True
  end.
Lemma did_within a s o s' : sane a -> did a s o s' -> within s -> within s'.
Proof.
  intros N H W. inversion H as [f s0|x s0|r s0 N0|t rows s0 o0 s1 WR|t lines id v s0 c E|t lines id v s0 ls c s1 E WR|t lines id v s0 ls c s1 E WR|t s0 E|t ls s0 o0 s1 E WR|t s0 s1 E S F|t s0 s1 E S]; subst; auto.
  - intros t. cbn [fw_w fw_disk]. cbn [sane] in N. rewrite N. apply W.
  - eapply wrote_within; [|exact W|exact WR]. reflexivity.
  - assert (within s1) as W1 by (eapply wrote_within; [|exact W|exact WR]; reflexivity). exact W1.
  - eapply wrote_within; [|exact W|exact WR]. reflexivity.
  - eapply wrote_within; [|exact W|exact WR]. reflexivity.
  - eapply settles_within; [|exact W|exact S]. intros; rewrite E; reflexivity.
  - eapply settles_within; [|exact W|exact S]. intros; rewrite E; reflexivity.
Qed.
Lemma steps_within l : forall s o s', Forall sane l -> steps l s o s' -> within s -> within s'.
Proof.
  induction l as [|a l IH]; intros s o s' F H W; inversion H as [|? ? ? m ? ? D S|? ? ? ? ? N D]; subst; auto; inversion F; subst; [eapply IH; eauto; eapply did_within; eauto|eapply did_within; eauto].
Qed.
Lemma element_sane e : Forall sane (element_steps esc e).
Proof. destruct e; unfold element_steps; cbv zeta; repeat (apply Forall_cons; [cbn [sane]; auto|]); apply Forall_nil. Qed.
Lemma first_sane : Forall sane (first_steps hash_order).
Proof. unfold first_steps, current_tables. cbn [map app]. repeat (apply Forall_cons; [cbn [sane]; auto|]). apply Forall_nil. Qed.
Lemma users_sane clock us : forall i, Forall sane (user_steps clock i us).
Proof. induction us as [|(a, b) us IH]; intros i; [constructor|]. cbn [user_steps]. apply Forall_cons; [exact I|]. apply Forall_cons; [exact I|]. apply IH. Qed.
Lemma changesets_sane clock us : forall i, Forall sane (changeset_steps lib clock i us).
Proof. induction us as [|(a, b) us IH]; intros i; [constructor|]. cbn [changeset_steps]. apply Forall_cons; [exact I|]. apply Forall_cons; [exact I|]. apply Forall_cons; [exact I|]. apply IH. Qed.
Lemma tables_sane ts : Forall sane (flat_map (fun t => [Rows t [terminator]; Flush t]) ts).
Proof. induction ts as [|t ts IH]; [constructor|]. cbn [flat_map app]. apply Forall_cons; [exact I|]. apply Forall_cons; [exact I|]. exact IH. Qed.
Lemma last_sane clock w : Forall sane (last_steps lib clock w).
Proof. unfold last_steps. apply Forall_app. split; [apply users_sane|]. apply Forall_app. split; [apply changesets_sane|apply tables_sane]. Qed.
Lemma call_within clocks j c s o s' : call_run esc hash_order lib clocks j c s o s' -> within s -> within s'.
Proof.
  destruct c as [e|]; cbn [call_run]; intros H W; [eapply steps_within; eauto using element_sane|]. inversion H as [? ? N S|m ? ? S1 S2]; subst; [eapply steps_within; eauto using first_sane|].
  eapply steps_within; [|exact S2|]; [apply last_sane|]. eapply steps_within; eauto using first_sane.
Qed.
Lemma steps_app a : forall b s o s', steps (a ++ b) s o s' -> (o <> Fine /\ steps a s o s') \/ exists m, steps a s Fine m /\ steps b m o s'.
Proof.
  induction a as [|x a IH]; intros b s o s' H; cbn [app] in H; [right; exists s; split; [constructor|exact H]|].
  inversion H as [|? ? ? m ? ? D S|? ? ? ? ? N D]; subst; [|left; split; auto; apply ss_stop; auto]. apply IH in S as [(N & S)|(m' & S & S')]; [left; split; auto; eapply ss_next; eauto|right; exists m'; split; auto; eapply ss_next; eauto].
Qed.
(** after the last flush everything is on disk *)
Lemma flushes ts : NoDup ts -> forall s s', steps (flat_map (fun t => [Rows t [terminator]; Flush t]) ts) s Fine s' ->
  (forall t, In t ts -> fw_disk s' t = files (fw_w s') t) /\ (forall t, ~ In t ts -> fw_disk s' t = fw_disk s t /\ files (fw_w s') t = files (fw_w s) t).
Proof.
  induction ts as [|t ts IH]; intros ND s s' H; cbn [flat_map app] in H; [inversion H; subst; split; [intros ? []|auto]|]. inversion ND as [|? ? N1 N2]; subst.
  inversion H as [|? ? ? m1 ? ? D1 H1|? ? ? ? ? X _]; subst; [|congruence]. inversion H1 as [|? ? ? m2 ? ? D2 H2|? ? ? ? ? X _]; subst; [|congruence].
  inversion D1 as [| | |? ? ? ? ? WR| | | | | | |]; subst. inversion WR as [? Q1 S1|]; subst. inversion D2 as [| | | | | | | | |? ? ? Q2 S2 F2|]; subst.
  destruct (IH N2 m2 s' H2) as (A & B). destruct S1 as (_ & _ & S1), S2 as (_ & _ & S2). split.
  - intros t' [<-|I]; [|auto]. destruct (B t N1) as (-> & ->). exact F2.
  - intros t' N. destruct (B t') as (-> & ->); [intros I; apply N; right; auto|]. assert (t' <> t) as NT by (intros ->; apply N; left; auto). rewrite S2, S1, Q2, Q1, append_other by auto. auto.
Qed.
Lemma every_table t : In t all_tables. Proof. destruct t; cbn; tauto. Qed.
Lemma tables_once : NoDup all_tables.
Proof. unfold all_tables. repeat constructor; cbn; intuition discriminate. Qed.
Lemma close_disk clock s s' : close_run hash_order lib clock s Fine s' -> forall t, fw_disk s' t = files (fw_w s') t.
Proof.
  intros H t. inversion H as [? ? N S|m ? ? S1 S2]; subst; [congruence|]. unfold last_steps in S2. rewrite app_assoc in S2. apply steps_app in S2 as [(N & _)|(m' & _ & S2)]; [congruence|].
  apply (flushes _ tables_once) in S2 as (A & _). apply A, every_table.
Qed.
(** C89: if every call returns Ok, the writer did exactly what it does on a disk that never fails; and once close has returned Ok all of
    it is in the files. *)
Theorem C89_all_fine clocks calls s : history esc hash_order lib clocks 0 (map (fun c => (c, Fine)) calls) fw_new s ->
  dcalls esc hash_order clocks lib 0 calls writer_new = Ok (fw_w s) /\ (forall before, calls = before ++ [DClose] -> forall t, fw_disk s t = files (fw_w s) t).
Proof.
  assert (G : forall calls j s0 s, history esc hash_order lib clocks j (map (fun c => (c, Fine)) calls) s0 s ->
    dcalls esc hash_order clocks lib j calls (fw_w s0) = Ok (fw_w s) /\ (forall before, calls = before ++ [DClose] -> forall t, fw_disk s t = files (fw_w s) t)).
  { clear. induction calls as [|c calls IH]; intros j s0 s H; cbn [map] in H; inversion H as [|? ? ? ? ? m ? R P H']; subst.
    - split; [reflexivity|]. intros [|? ?] E; discriminate E.
    - destruct (IH _ _ _ H') as (A & B). split.
      + cbn [dcalls]. destruct c as [e|]; cbn [call_run] in R.
        * apply steps_fine in R as (R & T). rewrite pure_element by exact T. cbn [bind]. rewrite <- R. exact A.
        * apply pure_close in R. rewrite R. cbn [bind]. exact A.
      + intros [|c' before] E; cbn [app] in E; injection E as -> E; [|eauto]. subst calls. inversion H'; subst. cbn [call_run] in R. eapply close_disk; eauto. }
  apply (G calls 0%nat fw_new s).
Qed.

(** ** History tables *)
Definition gives (t : table) (a : op) : bytes := match a with Rows t' rows => if table_eqb t' t then concat rows else [] | _ => [] end.
Lemma wrote_gives t rows w s o s' : files w = files (fw_w s) -> wrote t rows w s o s' -> exists x y, files (fw_w s') t = files (fw_w s) t ++ x /\ concat rows = x ++ y /\ (o = Fine -> y = []).
Proof.
  intros E H. inversion H as [? Q S|done r rest torn cut ? R1 R2 R3 R4 Q S]; subst; rewrite Q, append_same, E.
  - exists (concat rows), []. rewrite app_nil_r. auto.
  - exists (concat done ++ torn), (cut ++ concat rest). split; auto. split; [|discriminate]. rewrite concat_app. cbn [List.concat]. rewrite <- !app_assoc. reflexivity.
Qed.
Lemma wrote_other t rows w s o s' t' : files w = files (fw_w s) -> wrote t rows w s o s' -> t' <> t -> files (fw_w s') t' = files (fw_w s) t'.
Proof. intros E H N. inversion H as [? Q S|? ? ? ? ? ? ? ? ? ? Q S]; subst; rewrite Q, append_other, E by auto; reflexivity. Qed.
Lemma did_gives t a s o s' : existsb (fun x => table_eqb x t) current_tables = false -> sane a -> did a s o s' ->
  exists x y, files (fw_w s') t = files (fw_w s) t ++ x /\ gives t a = x ++ y /\ (o = Fine -> y = []).
Proof.
  intros C N H. assert (Z0 : forall s', files (fw_w s') t = files (fw_w s) t -> exists x y, files (fw_w s') t = files (fw_w s) t ++ x /\ @nil byte = x ++ y /\ (o = Fine -> y = [])).
  { intros s1 ->. exists [], []. rewrite app_nil_r. auto. }
  assert (NE : forall t0, existsb (fun x => table_eqb x t0) current_tables = true -> t <> t0) by (intros t0 X ->; congruence).
  inversion H as [f s0|x s0|r s0 N0|t0 rows s0 o0 s1 WR|t0 lines id v s0 c E|t0 lines id v s0 ls c s1 E WR|t0 lines id v s0 ls c s1 E WR|t0 s0 E|t0 ls s0 o0 s1 E WR|t0 s0 s1 E S F|t0 s0 s1 E S]; subst; cbn [gives sane] in *; try (apply Z0; cbn [fw_w]).
  - rewrite N. reflexivity.
  - reflexivity.
  - reflexivity.
  - destruct (table_eqb t0 t) eqn:T; [apply table_eqb_eq in T; subst t0; eapply wrote_gives; [|exact WR]; reflexivity|]. apply Z0. eapply wrote_other; [|exact WR|]; [reflexivity|]. intros ->. rewrite table_eqb_refl in T. discriminate.
  - reflexivity.
  - change (files (fw_w s1) t = files (fw_w s) t). eapply wrote_other; [|exact WR|]; [reflexivity|auto].
  - eapply wrote_other; [|exact WR|]; [reflexivity|auto].
  - reflexivity.
  - eapply wrote_other; [|exact WR|]; [reflexivity|auto].
  - rewrite E. reflexivity.
  - rewrite E. reflexivity.
Qed.
Lemma steps_gives t l : existsb (fun x => table_eqb x t) current_tables = false -> forall s o s', Forall sane l -> steps l s o s' ->
  exists x y, files (fw_w s') t = files (fw_w s) t ++ x /\ flat_map (gives t) l = x ++ y /\ (o = Fine -> y = []).
Proof.
  intros C. induction l as [|a l IH]; intros s o s' F H; inversion H as [|? ? ? m ? ? D S|? ? ? ? ? N D]; subst; [exists [], []; rewrite app_nil_r; auto|..]; inversion F as [|? ? F1 F2]; subst; cbn [flat_map].
  - destruct (did_gives t a _ _ _ C F1 D) as (x & y & A1 & A2 & A3). rewrite (A3 eq_refl), app_nil_r in A2. destruct (IH _ _ _ F2 S) as (x' & y' & B1 & B2 & B3).
    exists (x ++ x'), y'. rewrite B1, A1, A2, B2, !app_assoc. auto.
  - destruct (did_gives t a _ _ _ C F1 D) as (x & y & A1 & A2 & A3). exists x, (y ++ flat_map (gives t) l). rewrite A2, app_assoc. split; auto. split; auto. intros E. destruct (N E).
Qed.
Lemma not_current t : In t history_tables -> existsb (fun x => table_eqb x t) current_tables = false /\ existsb (table_eqb t) [T_users; T_changesets; T_changeset_tags] = false.
Proof. cbn. intuition subst; auto. Qed.
Lemma element_gives t e : In t history_tables -> time_ok e -> call_text esc t (DElement e) (flat_map (gives t) (element_steps esc e)).
Proof.
  intros I T. assert (A : forall n, sql_time n = match to_sql_time_millis n with Ok s => s | _ => [] end) by reflexivity. cbn [call_text].
  cbn in I. destruct e as [n|wy|r|]; decompose [or] I; subst; try contradiction; unfold element_steps; cbv zeta; cbn [flat_map gives table_eqb app List.concat history_rows]; rewrite ?app_nil_r;
    try (exists []; split; [constructor|reflexivity]).
  - exists [node_line n (sql_time (n_timestamp n))]. split; [constructor; [apply node_line_ok; exact T|constructor]|cbn; rewrite app_nil_r; reflexivity].
  - eexists. split; [apply node_tags_ok|reflexivity].
  - exists [way_line wy (sql_time (w_timestamp wy))]. split; [constructor; [apply way_line_ok; exact T|constructor]|cbn; rewrite app_nil_r; reflexivity].
  - eexists. split; [apply way_tags_ok|reflexivity].
  - eexists. split; [apply way_nodes_ok|reflexivity].
  - exists [relation_line r (sql_time (r_timestamp r))]. split; [constructor; [apply relation_line_ok; exact T|constructor]|cbn; rewrite app_nil_r; reflexivity].
  - eexists. split; [apply relation_tags_ok|reflexivity].
  - eexists. split; [apply members_ok|reflexivity].
Qed.
Lemma last_gives clock t w : In t history_tables -> flat_map (gives t) (last_steps lib clock w) = str "\." ++ [x0a].
Proof.
  intros I. unfold last_steps. rewrite !flat_map_app.
  assert (U : forall us i, flat_map (gives t) (user_steps clock i us) = []).
  { induction us as [|(a, b) us IH]; intros i; [reflexivity|]. cbn [user_steps flat_map gives app]. rewrite IH. cbn in I. decompose [or] I; subst; try contradiction; reflexivity. }
  assert (C : forall us i, flat_map (gives t) (changeset_steps lib clock i us) = []).
  { induction us as [|(a, b) us IH]; intros i; [reflexivity|]. cbn [changeset_steps flat_map gives app]. rewrite IH. cbn in I. decompose [or] I; subst; try contradiction; reflexivity. }
  rewrite U, C. cbn in I. decompose [or] I; subst; try contradiction; reflexivity.
Qed.
Lemma first_gives t : flat_map (gives t) (first_steps hash_order) = []. Proof. reflexivity. Qed.
Lemma call_gives clocks j c s o s' t : In t history_tables -> (forall e, c = DElement e -> time_ok e) -> call_run esc hash_order lib clocks j c s o s' ->
  exists part rest, files (fw_w s') t = files (fw_w s) t ++ part /\ call_text esc t c (part ++ rest) /\ (o = Fine -> rest = []).
Proof.
  intros I T H. destruct (not_current t I) as (C & _). destruct c as [e|]; cbn [call_run] in H.
  - destruct (steps_gives t _ C _ _ _ (element_sane e) H) as (x & y & A & B & D). exists x, y. rewrite <- B. split; auto. split; auto. apply element_gives; auto.
  - cbn [call_text]. inversion H as [? ? N S|m ? ? S1 S2]; subst.
    + destruct (steps_gives t _ C _ _ _ first_sane S) as (x & y & A & B & _). rewrite first_gives in B. symmetry in B. apply app_eq_nil in B as (-> & ->). exists [], (str "\." ++ [x0a]). split; auto. split; auto. intros E. destruct (N E).
    + destruct (steps_gives t _ C _ _ _ first_sane S1) as (x & y & A & B & _). rewrite first_gives in B. symmetry in B. apply app_eq_nil in B as (-> & ->). rewrite app_nil_r in A.
      destruct (steps_gives t _ C _ _ _ (last_sane _ _) S2) as (x & y & A' & B & D). rewrite last_gives in B by auto. exists x, y. rewrite A', A. auto.
Qed.
(** C89: whatever calls fail, a history table gets from every call that returns Ok all its rows (from close the end marker), and from a call
    that fails the beginning of them; nothing is taken back, so writing an element again after an error repeats rows. *)
Theorem C89_history_tables clocks calls s : history esc hash_order lib clocks 0 calls fw_new s -> Forall (fun c => match fst c with DElement e => dumpable e | DClose => True end) calls ->
  forall t, In t history_tables -> exists parts,
    Forall2 (fun c part => exists rest, call_text esc t (fst c) (part ++ rest) /\ (snd c = Fine -> rest = [])) calls parts /\
    (exists buffered, concat parts = fw_disk s t ++ buffered) /\
    (forall before, calls = before ++ [(DClose, Fine)] -> concat parts = fw_disk s t).
Proof.
  intros H F t I.
  assert (G : forall j s0 s, history esc hash_order lib clocks j calls s0 s -> within s0 -> within s /\ exists parts,
    Forall2 (fun c part => exists rest, call_text esc t (fst c) (part ++ rest) /\ (snd c = Fine -> rest = [])) calls parts /\ files (fw_w s) t = files (fw_w s0) t ++ concat parts /\
    (forall before, calls = before ++ [(DClose, Fine)] -> fw_disk s t = files (fw_w s) t)).
  { clear H. induction calls as [|(c, o) r IH]; intros j s0 s1 H W; inversion H as [|? ? ? ? ? m ? R P H']; subst.
    - split; auto. exists []. cbn [List.concat]. rewrite app_nil_r. split; [constructor|]. split; auto. intros [|? ?] E; discriminate E.
    - inversion F as [|? ? F1 F2]; subst. cbn [fst] in F1. destruct (call_gives _ _ _ _ _ _ t I ltac:(intros e Q; rewrite Q in F1; apply dumpable_time; exact F1) R) as (part & rest & A & B & D).
      destruct (IH F2 _ _ _ H' (call_within _ _ _ _ _ _ R W)) as (W1 & parts & P1 & P2 & P3). split; auto. exists (part :: parts). sconj.
      + constructor; auto. exists rest. auto.
      + rewrite P2, A. cbn [List.concat]. rewrite app_assoc. reflexivity.
      + intros [|x before] E; cbn [app] in E; [injection E as E0 E1 E2; subst|injection E as E0 E1; eauto]. inversion H'; subst. cbn [call_run] in R. eapply close_disk; eauto. }
  destruct (G 0%nat fw_new s H) as (W & parts & P1 & P2 & P3); [intros x; exists []; reflexivity|]. cbn in P2. exists parts. sconj; auto.
  - destruct (W t) as (x & X). exists x. rewrite <- P2. exact X.
  - intros before E. rewrite <- P2. symmetry. eauto.
Qed.

(** ** The first failure *)
Lemma pure_grows a w : sane a -> grows w (pure a w).
Proof.
  destruct a as [f|r|t rows|t ls id v|t|t]; cbn [sane pure]; intros N.
  - intros t. exists []. rewrite app_nil_r, N. reflexivity.
  - apply grows_refl.
  - apply append_grows.
  - apply put_grows.
  - unfold flush_current. destruct (last_lines (currents w t)) as [l|].
    + intros t'. destruct (append_grows t (concat l) (set_current t (Current (last_id (currents w t)) None) w) t') as (x & E). exists x. exact E.
    + intros t'. exists []. rewrite app_nil_r. reflexivity.
  - apply grows_refl.
Qed.
Lemma pures_grow l : forall w, Forall sane l -> grows w (pures l w).
Proof. induction l as [|a l IH]; intros w F; [apply grows_refl|]. inversion F as [|? ? F1 F2]; subst. unfold pures. cbn [fold_left]. eapply grows_trans; [apply pure_grows; exact F1|apply IH; exact F2]. Qed.
Lemma wrote_grows t rows w s o s' : files w = files (fw_w s) -> wrote t rows w s o s' -> grows (fw_w s') (append t (concat rows) w).
Proof.
  intros E H t'. destruct (table_eqb t' t) eqn:T.
  - apply table_eqb_eq in T. subst t'. destruct (wrote_gives _ _ _ _ _ _ E H) as (x & y & A & B & _). rewrite append_same, E, B, app_assoc, <- A. eauto.
  - assert (t' <> t) as N by (intros ->; rewrite table_eqb_refl in T; discriminate). rewrite append_other, E, (wrote_other _ _ _ _ _ _ t' E H N) by auto. exists []. rewrite app_nil_r. reflexivity.
Qed.
Lemma did_grows a s o s' : did a s o s' -> grows (fw_w s') (pure a (fw_w s)).
Proof.
  intros H. destruct o; [apply did_fine in H as (-> & _); apply grows_refl|..].
  - inversion H as [f s0|x s0|r s0 N0|t0 rows s0 o0 s1 WR|t0 lines id v s0 c E|t0 lines id v s0 ls c s1 E WR|t0 lines id v s0 ls c s1 E WR|t0 s0 E|t0 ls s0 o0 s1 E WR|t0 s0 s1 E S F|t0 s0 s1 E S]; subst; cbn [pure].
    + eapply wrote_grows; [|exact WR]. reflexivity.
    + unfold put_current. rewrite E. intros t. destruct (wrote_grows _ _ _ _ _ _ (eq_refl : files (set_current t0 c (fw_w s)) = files (fw_w s)) WR t) as (x & X). exists x. exact X.
    + unfold flush_current. rewrite E. eapply wrote_grows; [|exact WR]. reflexivity.
    + rewrite E. apply grows_refl.
  - inversion H as [f s0|x s0|r s0 N0|t0 rows s0 o0 s1 WR|t0 lines id v s0 c E|t0 lines id v s0 ls c s1 E WR|t0 lines id v s0 ls c s1 E WR|t0 s0 E|t0 ls s0 o0 s1 E WR|t0 s0 s1 E S F|t0 s0 s1 E S]; subst; cbn [pure]; [apply grows_refl| |]; inversion WR.
Qed.
Lemma steps_grow l : forall s o s', Forall sane l -> steps l s o s' -> grows (fw_w s') (pures l (fw_w s)).
Proof.
  induction l as [|a l IH]; intros s o s' F H; inversion H as [|? ? ? m ? ? D S|? ? ? ? ? N D]; subst; [apply grows_refl|..]; inversion F as [|? ? F1 F2]; subst; unfold pures in *; cbn [fold_left].
  - apply did_fine in D as (D & _). rewrite <- D. eapply IH; eauto.
  - eapply grows_trans; [eapply did_grows; eauto|]. apply (pures_grow l); auto.
Qed.
Lemma fine_times clock us w w' : forall i, write_users clock i us w = Ok w' -> forall r, In (Timed r) (user_steps clock i us) -> exists x, r = Ok x.
Proof.
  revert w. induction us as [|(a, b) us IH]; intros w i E r; cbn [user_steps write_users] in *; [intros []|]. destruct (to_sql_time_micros (clock i)) as [x| |] eqn:X; cbn [bind] in E; try discriminate.
  intros [Q|[Q|Q]]; [injection Q as <-; eauto|discriminate|eauto].
Qed.
Lemma fine_times_changesets clock us w w' : forall i, write_changesets clock lib i us w = Ok w' -> forall r, In (Timed r) (changeset_steps lib clock i us) -> exists x, r = Ok x.
Proof.
  revert w. induction us as [|(a, b) us IH]; intros w i E r; cbn [changeset_steps write_changesets] in *; cbv zeta in E; [intros []|]. destruct (to_sql_time_micros (clock i)) as [x| |] eqn:X; cbn [bind] in E; try discriminate.
  intros [Q|[Q|[Q|Q]]]; [discriminate|injection Q as <-; eauto|discriminate|eauto].
Qed.
Lemma closing_fails ts : NoDup ts -> forall s s', within s -> steps (flat_map (fun t => [Rows t [terminator]; Flush t]) ts) s Failed s' ->
  exists closed t after, ts = closed ++ t :: after /\ on_disk (fold_left (fun w t => append t terminator w) (closed ++ [t]) (fw_w s)) closed (fw_disk s').
Proof.
  induction ts as [|t ts IH]; intros ND s s' W H; cbn [flat_map app] in H; [inversion H|]. inversion ND as [|? ? N1 N2]; subst.
  assert (W' : within s') by (eapply steps_within; [|exact H|exact W]; exact (tables_sane (t :: ts))).
  assert (HERE : grows (fw_w s') (append t terminator (fw_w s)) -> exists closed t0 after, t :: ts = closed ++ t0 :: after /\ on_disk (fold_left (fun w t => append t terminator w) (closed ++ [t0]) (fw_w s)) closed (fw_disk s')).
  { intros G. exists [], t, ts. split; auto. cbn [app fold_left]. split; [|intros ? []]. intros t'. destruct (W' t') as (x & X), (G t') as (y & Y). exists (x ++ y). rewrite Y, X, app_assoc. reflexivity. }
  inversion H as [|? ? ? m1 ? ? D1 H1|? ? ? ? ? X D1]; subst.
  2:{ apply HERE. apply did_grows in D1. cbn [pure List.concat] in D1. rewrite app_nil_r in D1. exact D1. }
  pose proof (did_fine _ _ _ D1) as (P1 & _). cbn [pure List.concat] in P1. rewrite app_nil_r in P1.
  inversion H1 as [|? ? ? m2 ? ? D2 H2|? ? ? ? ? X D2]; subst.
  2:{ apply HERE. apply did_grows in D2. cbn [pure] in D2. rewrite <- P1. exact D2. }
  pose proof (did_fine _ _ _ D2) as (P2 & _). cbn [pure] in P2.
  assert (W2 : within m2) by (eapply did_within; [|exact D2|eapply did_within; [|exact D1|exact W]]; exact I).
  destruct (IH N2 m2 s' W2 H2) as (closed & t0 & after & -> & O1 & O2). exists (t :: closed), t0, after. split; auto. cbn [app fold_left]. rewrite <- P1, <- P2. split; auto. intros t' [<-|J]; [|auto].
  assert (D3 : fw_disk m2 t = files (fw_w m2) t) by (inversion D2; auto). rewrite close_same.
  2:{ intros J. apply N1. apply in_app_or in J as [J|[->|[]]]; apply in_or_app; [auto|right; left; auto]. }
  rewrite <- D3. enough (G : forall l a o b, ~ In t l -> steps (flat_map (fun t => [Rows t [terminator]; Flush t]) l) a o b -> fw_disk b t = fw_disk a t) by (eapply G; [exact N1|exact H2]).
  clear. induction l as [|x l IH]; intros a o b N H; cbn [flat_map app] in H; [inversion H; auto|].
  assert (Q : forall y a o b, sane y -> (y = Rows x [terminator] \/ y = Flush x) -> did y a o b -> fw_disk b t = fw_disk a t).
  { intros y a0 o0 b0 _ Y D. assert (t <> x) as NX by (intros ->; apply N; left; auto).
    destruct Y as [-> | ->]; inversion D as [| | |? ? ? ? ? WR| | | | | |? ? ? E S F|? ? ? E S]; subst; [inversion WR as [? Q S|? ? ? ? ? ? ? ? ? ? Q S]; subst| |]; destruct S as (_ & _ & S); apply S; auto. }
  inversion H as [|? ? ? m1 ? ? D1 H1|? ? ? ? ? X D1]; subst; [|eapply Q; [|left; reflexivity|exact D1]; exact I]. apply Q in D1; [|exact I|auto]. rewrite <- D1.
  inversion H1 as [|? ? ? m2 ? ? D2 H2|? ? ? ? ? X D2]; subst; [|eapply Q; [|right; reflexivity|exact D2]; exact I]. apply Q in D2; [|exact I|auto]. rewrite <- D2. eapply IH; [|exact H2]. intros J. apply N. right; auto.
Qed.
(** C89: when the first call to fail is write_element or the closing one, what is on disk is what a process leaves that was stopped there
    (see C80): every table file is the beginning of the file of a finished dump. *)
Theorem C89_first_failure clocks before c s es w : history esc hash_order lib clocks 0 (map (fun e => (DElement e, Fine)) before ++ [(c, Failed)]) fw_new s ->
  match c with DElement e => exists after, es = before ++ e :: after | DClose => es = before end -> ApidbWrite.dump esc hash_order (clocks 0%nat) lib es = Ok w ->
  (exists m w' closed, stage esc hash_order (clocks 0%nat) lib es m w' closed /\ on_disk w' closed (fw_disk s)) /\ forall t, exists rest, files w t = fw_disk s t ++ rest.
Proof.
  intros H ES D.
  assert (exists m, call_run esc hash_order lib clocks 0 c m Failed s /\ ApidbWrite.write_elements esc before writer_new = Ok (fw_w m) /\ within m) as (m & R & WE & W).
  { clear - H. change writer_new with (fw_w fw_new). assert (within fw_new) as W by (intros x; exists []; reflexivity). revert W H. generalize fw_new as s0. induction before as [|e before IH]; intros s0 W H; cbn [map app] in H.
    - inversion H as [|? ? ? ? ? m ? R P H']; subst. inversion H'; subst. exists s0. auto.
    - inversion H as [|? ? ? ? ? m ? R P H']; subst. cbn [ApidbWrite.write_elements]. pose proof R as R0. cbn [call_run] in R. apply steps_fine in R as (R & T). rewrite pure_element by exact T. cbn [bind]. rewrite <- R.
      apply IH; auto. eapply call_within; eauto. }
  assert (W' : within s) by (eapply call_within; eauto).
  assert (ON : forall w', grows (fw_w s) w' -> on_disk w' [] (fw_disk s)).
  { intros w' G. split; [|intros ? []]. intros t. destruct (W' t) as (x & X), (G t) as (y & Y). exists (x ++ y). rewrite Y, X, app_assoc. reflexivity. }
  destruct (dump_parts _ _ _ _ _ _ D) as (w0 & w1 & w2 & E0 & E1 & E2 & EW).
  assert (exists m w' closed, stage esc hash_order (clocks 0%nat) lib es m w' closed /\ on_disk w' closed (fw_disk s)) as (mo & w' & closed & ST & OD).
  { destruct c as [e|]; cbn [call_run] in R.
    - destruct ES as (after & ->). apply (elements_app) in E0 as (w9 & A & B). rewrite WE in A. injection A as <-. cbn [ApidbWrite.write_elements] in B. destruct (ApidbWrite.write_element esc e (fw_w m)) as [w8| |] eqn:E8; cbn [bind] in B; try discriminate.
      assert (T : time_ok e) by (eapply write_element_cell; eauto). exists Writing, w8, []. split.
      + apply (st_writing _ _ _ _ _ (before ++ [e]) after); [rewrite <- app_assoc; reflexivity|]. eapply elements_then; eauto.
      + apply ON. assert (w8 = pures (element_steps esc e) (fw_w m)) as ->; [|eapply steps_grow; eauto using element_sane].
        rewrite pure_element in E8; [injection E8; auto|]. intros r I. clear - T I. destruct e as [n|x|r0|]; cbn [time_ok element_steps In] in *; decompose [or] I; try discriminate; try contradiction; match goal with Q : Timed _ = Timed _ |- _ => injection Q as <- end; exact T.
    - subst es. rewrite WE in E0. injection E0 as E0. inversion R as [? ? N S|m1 ? ? S1 S2]; subst.
      + exists Writing_users, (flushed hash_order (fw_w m)), []. split.
        * eapply (st_users _ _ _ _ _ (fw_w m) []); [exact WE|reflexivity|reflexivity].
        * apply ON. apply (steps_grow _ _ _ _ first_sane S).
      + pose proof (steps_fine _ _ _ S1) as (P1 & _). rewrite pure_first in P1. fold (flushed hash_order (fw_w m)) in P1. unfold last_steps in S2. rewrite <- P1 in E1.
        assert (WI1 : within m1) by (eapply steps_within; [apply first_sane|exact S1|exact W]).
        assert (PU : pures (user_steps (clocks 0%nat) 0 (user_index (fw_w m1))) (fw_w m1) = w1).
        { pose proof E1 as E1'. rewrite pure_users in E1'; [injection E1'; auto|]. eapply fine_times; eauto. }
        apply steps_app in S2 as [(_ & S2)|(m2 & S2 & S3)].
        { exists Writing_users, w1, []. split.
          - eapply (st_users _ _ _ _ _ (fw_w m) (user_index (fw_w m1)) []); [exact WE|rewrite app_nil_r, P1; reflexivity|rewrite <- P1; exact E1].
          - apply ON. apply (steps_grow _ _ _ _ (users_sane _ _ _)) in S2. rewrite PU in S2. exact S2. }
        pose proof (steps_fine _ _ _ S2) as (P2 & _). rewrite PU in P2. destruct (users_keep (clocks 0%nat) (user_index (fw_w m1)) 0%nat (fw_w m1)) as (K1 & K2). rewrite PU in K1, K2.
        assert (WI2 : within m2) by (eapply steps_within; [apply users_sane|exact S2|exact WI1]).
        assert (PC : pures (changeset_steps lib (clocks 0%nat) (length (user_index (fw_w m1))) (changeset_index (fw_w m1))) w1 = w2).
        { pose proof E2 as E2'. rewrite K1, K2 in E2'. rewrite pure_changesets in E2'; [injection E2'; auto|]. rewrite K1, K2 in E2. eapply fine_times_changesets; eauto. }
        rewrite P1 in E1. apply steps_app in S3 as [(_ & S3)|(m3 & S3 & S4)].
        { exists Writing_changesets, w2, []. split.
          - eapply (st_changesets _ _ _ _ _ (fw_w m) w1 (changeset_index w1) []); [exact WE|exact E1|rewrite app_nil_r; reflexivity|exact E2].
          - apply ON. apply (steps_grow _ _ _ _ (changesets_sane _ _ _)) in S3. rewrite P2, PC in S3. exact S3. }
        pose proof (steps_fine _ _ _ S3) as (P3 & _). rewrite P2, PC in P3. assert (WI3 : within m3) by (eapply steps_within; [apply changesets_sane|exact S3|exact WI2]).
        destruct (closing_fails _ tables_once _ _ WI3 S4) as (closed & t & after & AT & O). rewrite P3 in O.
        exists Closing, (fold_left (fun w t => append t terminator w) (closed ++ [t]) w2), closed. split; [|exact O].
        eapply (st_closing _ _ _ _ _ (fw_w m) w1 w2 closed [t] after); auto. }
  split; [eauto|]. intros t. destruct OD as (O1 & _). destruct (stage_grows _ _ _ _ _ _ _ _ _ ST D) as (G & _). destruct (O1 t) as (x & X), (G t) as (y & Y). exists (x ++ y). rewrite Y, X, app_assoc. reflexivity.
Qed.
(** ** Writing an element again *)
Definition goes_to (t : table) (w : writer) (s : fw) : fw := FW w (upd (fw_disk s) t (files w t)).
Lemma goes_settles t w s : (exists x, files w t = fw_disk s t ++ x) -> settles t s (goes_to t w s).
Proof.
  intros (x & X). unfold settles, goes_to, upd. cbn [fw_w fw_disk]. rewrite table_eqb_refl. split; [exists x; exact X|]. split; [exists []; rewrite app_nil_r; reflexivity|].
  intros t' N. destruct (table_eqb t t') eqn:E; auto. apply table_eqb_eq in E. congruence.
Qed.
Lemma can_write t rows w s : within s -> files w = files (fw_w s) -> wrote t rows w s Fine (goes_to t (append t (concat rows) w) s).
Proof.
  intros W E. apply wr_fine; [reflexivity|]. apply goes_settles. rewrite append_same, E. destruct (W t) as (x & ->). rewrite <- app_assoc. eauto.
Qed.
Lemma can_do a s : within s -> (forall r, a = Timed r -> exists x, r = Ok x) -> exists m, did a s Fine m.
Proof.
  intros W T. destruct a as [f|r|t rows|t lines id v|t|t].
  - eexists. apply d_note.
  - destruct (T r eq_refl) as (x & ->). eexists. apply d_time.
  - eexists. apply d_rows. apply can_write; auto.
  - destruct (set_last_lines lines id v (currents (fw_w s) t)) as ([ls|], c) eqn:E; eexists; [eapply d_given; [exact E|apply can_write; auto]|eapply d_kept; exact E].
  - destruct (last_lines (currents (fw_w s) t)) as [ls|] eqn:E; eexists; [eapply d_taken; [exact E|apply can_write; auto]|apply d_nothing; exact E].
  - exists (goes_to t (fw_w s) s). apply d_flushed; [reflexivity|apply goes_settles; apply W|]. unfold goes_to, upd. cbn [fw_disk fw_w]. rewrite table_eqb_refl. reflexivity.
Qed.
Lemma can_step l : forall s, within s -> Forall sane l -> (forall r, In (Timed r) l -> exists x, r = Ok x) -> exists m, steps l s Fine m.
Proof.
  induction l as [|a l IH]; intros s W F T; [eexists; constructor|]. inversion F as [|? ? F1 F2]; subst. destruct (can_do a s W) as (m & D); [intros r ->; apply T; left; auto|].
  destruct (IH m) as (m' & S); auto; [eapply did_within; eauto|intros r I; apply T; right; auto|]. exists m'. eapply ss_next; eauto.
Qed.
Lemma node_time n : dumpable (ENode n) -> forall r, In (Timed r) (element_steps esc (ENode n)) -> exists x, r = Ok x.
Proof. intros D%dumpable_time r I. cbn [time_ok] in D. unfold element_steps in I. cbv zeta in I. cbn [In] in I. decompose [or] I; try discriminate; try contradiction. match goal with Q : Timed _ = Timed _ |- _ => injection Q as <- end. exact D. Qed.
Lemma can_element n s : dumpable (ENode n) -> within s -> exists m, steps (element_steps esc (ENode n)) s Fine m.
Proof. intros D W. apply can_step; auto using element_sane. apply node_time. exact D. Qed.
Lemma can_close clock s : (forall i, in_calendar (clock i / 1000000)) -> within s -> exists m, close_run hash_order lib clock s Fine m.
Proof.
  intros C W. destruct (can_step (first_steps hash_order) s W first_sane) as (m & S1).
  { unfold first_steps, current_tables. cbn [map app In]. intros r I. decompose [or] I; try discriminate; contradiction. }
  destruct (can_step (last_steps lib clock (fw_w m)) m) as (m' & S2); [eapply steps_within; eauto using first_sane|apply last_sane| |exists m'; eapply cl_next; eauto].
  assert (M : forall i, exists x, to_sql_time_micros (clock i) = Ok x) by (intros i; apply micros_ok; auto).
  unfold last_steps. intros r I. apply in_app_or in I as [I|I]; [|apply in_app_or in I as [I|I]].
  - revert I. generalize 0%nat. induction (user_index (fw_w m)) as [|(a, b) us IH]; intros i; cbn [user_steps]; [intros []|]. intros [Q|[Q|Q]]; [injection Q as <-; auto|discriminate|eauto].
  - revert I. generalize (length (user_index (fw_w m))). induction (changeset_index (fw_w m)) as [|(a, b) us IH]; intros i; cbn [changeset_steps]; cbv zeta; [intros []|].
    intros [Q|[Q|[Q|Q]]]; [discriminate|injection Q as <-; auto|discriminate|eauto].
  - unfold table_close_steps in I. apply in_flat_map in I as (t & _ & [Q|[Q|[]]]); discriminate.
Qed.
Lemma node_cell n w : n_visible n = true -> exists line, line = current_node_line n (sql_time (n_timestamp n)) /\
  currents (pures (element_steps esc (ENode n)) w) T_current_nodes = Current (n_id n) (Some [line]) /\
  files (pures (element_steps esc (ENode n)) w) T_current_nodes = files w T_current_nodes ++ (if last_id (currents w T_current_nodes) <? n_id n then match last_lines (currents w T_current_nodes) with Some l => concat l | None => [] end else []).
Proof.
  intros V. eexists. split; [reflexivity|]. unfold element_steps, pures. cbv zeta. cbn [fold_left pure]. change (match to_sql_time_millis (n_timestamp n) with Ok s => s | _ => [] end) with (sql_time (n_timestamp n)).
  match goal with |- currents ?x _ = _ /\ _ => set (v := x); assert (C : cell T_current_nodes v = put1 ([current_node_line n (sql_time (n_timestamp n))], n_id n, n_visible n) (cell T_current_nodes w)) end.
  { unfold v. rewrite put_current_cell. cbn [table_eqb]. rewrite append_cell. cbn [table_eqb]. rewrite append_cell. cbn [table_eqb]. rewrite put_current_cell. cbn [table_eqb]. rewrite remember_cell. reflexivity. }
  change (currents v T_current_nodes) with (snd (cell T_current_nodes v)). change (files v T_current_nodes) with (fst (cell T_current_nodes v)). rewrite C.
  unfold put1, set_last_lines, cell. cbn [fst snd]. rewrite V. destruct (last_id (currents w T_current_nodes) <? n_id n); [destruct (last_lines (currents w T_current_nodes))|];
    cbn [fst snd set_last_id last_lines]; rewrite ?app_nil_r; auto.
Qed.
Lemma close_nodes clock w w' : close hash_order clock lib w = Ok w' -> files w' T_current_nodes = files w T_current_nodes ++ match last_lines (currents w T_current_nodes) with Some l => concat l | None => [] end ++ terminator.
Proof.
  unfold close. cbv zeta. intros E. apply bind_ok in E as (w1 & E1 & E). apply bind_ok in E as (w2 & E2 & E). injection E as <-.
  destruct (users_alike _ _ _ _ _ w E1) as (_ & x & _ & X1 & _ & X3 & _). destruct (changesets_alike _ _ _ _ _ _ w E2) as (_ & y & _ & Y1 & _ & Y3 & _).
  rewrite close_tables_files, Y1, X1, X3, Y3, !app_nil_r by discriminate. change (files (flush_buffers hash_order (flush_current_object_lines w)) T_current_nodes) with (files (flush_current_object_lines w) T_current_nodes).
  rewrite flush_files. cbn [existsb current_tables table_eqb orb]. rewrite <- app_assoc. reflexivity.
Qed.
(** C89: writing a node again after an error can leave another node out of the current nodes, and put itself there twice, although the
    second attempt and close return Ok. *)
Theorem C89_retry clocks a b : (forall j i, in_calendar (clocks j i / 1000000)) -> dumpable (ENode a) -> dumpable (ENode b) -> n_visible a = true -> n_visible b = true -> n_id a < n_id b ->
  exists s, history esc hash_order lib clocks 0 [(DElement (ENode a), Fine); (DElement (ENode b), Failed); (DElement (ENode b), Fine); (DClose, Fine)] fw_new s /\
    holds esc (fw_disk s T_current_nodes) [current_node_row b; current_node_row b].
Proof.
  intros CK DA DB VA VB LT. assert (W0 : within fw_new) by (intros x; exists []; reflexivity). set (T := T_current_nodes) in *.
  destruct (can_element a fw_new DA W0) as (s1 & S1). assert (W1 : within s1) by (eapply steps_within; eauto using element_sane).
  destruct (steps_fine _ _ _ S1) as (P1 & _). destruct (node_cell a writer_new VA) as (la & _ & C1 & F1). change (fw_w fw_new) with writer_new in P1. rewrite <- P1 in C1, F1. fold T in C1, F1.
  assert (F1' : files (fw_w s1) T = []) by (rewrite F1; cbn [files writer_new currents current_new last_lines last_id app]; destruct (0 <? n_id a); reflexivity). clear F1. rename F1' into F1.
  set (lb := current_node_line b (sql_time (n_timestamp b))).
  set (w1 := remember (n_uid b) (n_user b) (n_changeset b) (fw_w s1)). set (c2 := Current (n_id a) (Some [lb])).
  set (s2 := FW (append T (concat [] ++ []) (set_current T c2 w1)) (fw_disk s1)).
  assert (LB : row_text esc (current_node_row b) lb) by (apply current_node_line_ok; apply dumpable_time in DB; exact DB).
  assert (SL : set_last_lines [lb] (n_id b) (n_visible b) (currents w1 T) = (Some [la], c2)).
  { unfold set_last_lines. change (currents w1 T) with (currents (fw_w s1) T). rewrite C1, VB. cbn [last_id last_lines]. replace (n_id a <? n_id b) with true by (symmetry; apply Z.ltb_lt; exact LT). reflexivity. }
  assert (LA : la <> []).
  { destruct (node_cell a writer_new VA) as (la' & Q & C1' & _). rewrite <- P1 in C1'. fold T in C1'. rewrite C1 in C1'. injection C1' as <-. rewrite Q. unfold current_node_line, row. intros X. apply app_eq_nil in X as (_ & X). discriminate X. }
  assert (S2 : steps (element_steps esc (ENode b)) s1 Failed s2).
  { unfold element_steps. cbv zeta. eapply ss_next; [apply d_note|]. apply dumpable_time in DB. cbn [time_ok] in DB. destruct DB as (x & X). change (match to_sql_time_millis (n_timestamp b) with Ok s => s | _ => [] end) with (sql_time (n_timestamp b)). rewrite X at 1.
    eapply ss_next; [apply d_time|]. apply ss_stop; [discriminate|]. cbn [fw_w fw_disk]. fold w1 lb T. eapply d_lost; cbn [fw_w]; [exact SL|].
    apply (wr_failed _ _ _ _ [] la [] [] la); auto. { intros X0. destruct (X0 eq_refl). }
    destruct (W1 T) as (y & Y). split; [exists []; rewrite app_nil_r; reflexivity|]. split; [|auto]. exists y. cbn [fw_w fw_disk s2]. rewrite append_same. cbn [List.concat app]. rewrite app_nil_r. exact Y. }
  assert (W2 : within s2) by (eapply steps_within; [apply element_sane|exact S2|exact W1]).
  destruct (can_element b s2 DB W2) as (s3 & S3). assert (W3 : within s3) by (eapply steps_within; eauto using element_sane). destruct (steps_fine _ _ _ S3) as (P3 & _).
  destruct (node_cell b (fw_w s2) VB) as (lb' & -> & C3 & F3). fold lb in C3. rewrite <- P3 in C3, F3. fold T in C3, F3.
  assert (Q1 : currents (fw_w s2) T = c2) by (unfold s2, append, set_current, upd; cbn [fw_w currents]; reflexivity).
  assert (Q2 : files (fw_w s2) T = []) by (cbn [fw_w s2]; rewrite append_same; cbn [List.concat app]; rewrite app_nil_r; exact F1).
  rewrite Q1, Q2 in F3. cbn [c2 last_id last_lines] in F3. replace (n_id a <? n_id b) with true in F3 by (symmetry; apply Z.ltb_lt; exact LT). cbn [List.concat app] in F3. rewrite app_nil_r in F3.
  destruct (can_close (clocks 0%nat) s3 (CK 0%nat) W3) as (s4 & S4). pose proof (close_nodes _ _ _ (pure_close _ _ _ S4)) as F4. fold T in F4. rewrite F3, C3 in F4. cbn [last_lines List.concat] in F4. rewrite app_nil_r in F4.
  exists s4. split.
  - eapply h_next; [exact S1|discriminate|]. eapply h_next; [exact S2|discriminate|]. eapply h_next; [exact S3|discriminate|]. eapply h_next; [exact S4|discriminate|]. constructor.
  - exists [lb; lb]. split; [repeat (apply Forall2_cons; [exact LB|]); apply Forall2_nil|]. rewrite (close_disk _ _ _ S4), F4. cbn [List.concat]. rewrite app_nil_r, <- !app_assoc. reflexivity.
Qed.
End Pure.
