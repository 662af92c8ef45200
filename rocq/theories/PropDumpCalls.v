(** Property C88: any sequence of write_element and close calls of the dump writer. *)
From Coq Require Import ZArith List Bool Strings.Byte Strings.String Permutation Lia.
From Verif Require Import Base BaseFacts Types ApidbText ApidbSpec DumpSpec ApidbWrite ApidbWriteFacts PropLimits DumpCalls DumpCallsSpec.
Import ListNotations.
Local Notation length := List.length.
Local Notation concat := List.concat.
Open Scope Z_scope.

Lemma calls_app a : forall b, fst (sections (a ++ DClose :: b)) = (match sections a with (ss, tail) => ss ++ [tail] end) ++ fst (sections b) /\ snd (sections (a ++ DClose :: b)) = snd (sections b).
Proof.
  induction a as [|[e|] a IH]; intros b; cbn [app sections].
  - destruct (sections b). auto.
  - destruct (IH b) as (A & B). destruct (sections (a ++ DClose :: b)) as (ss, tl). destruct (sections a) as ([|s ss'], tl'); cbn [fst snd app] in *; subst; auto.
  - destruct (IH b) as (A & B). destruct (sections (a ++ DClose :: b)) as (ss, tl). destruct (sections a) as (ss', tl'); cbn [fst snd app] in *; subst; auto.
Qed.
Lemma sorted_same {V} (a : list (Z * V)) : forall b, increasing (map fst a) -> increasing (map fst b) -> (forall p, In p a <-> In p b) -> a = b.
Proof.
  induction a as [|(k, v) a IH]; intros b IA IB E.
  - destruct b as [|p b]; auto. exfalso. apply (proj2 (E p)). left; auto.
  - destruct b as [|(k', v') b]; [exfalso; apply (proj1 (E (k, v))); left; auto|]. cbn [map fst increasing] in IA, IB. destruct IA as (A1 & A2), IB as (B1 & B2). rewrite Forall_forall in A1, B1.
    assert (forall q, In q a -> k < fst q) as A3 by (intros q I; apply A1, in_map; auto). assert (forall q, In q b -> k' < fst q) as B3 by (intros q I; apply B1, in_map; auto).
    assert ((k, v) = (k', v')) as X.
    { destruct (proj1 (E (k, v)) (or_introl eq_refl)) as [H|H]; [auto|]. destruct (proj2 (E (k', v')) (or_introl eq_refl)) as [H'|H']; [auto|]. apply A3 in H'. apply B3 in H. cbn [fst] in *. lia. }
    injection X as <- <-. f_equal. apply IH; auto. intros p. split; intros I.
    + destruct (proj1 (E p) (or_intror I)) as [<-|J]; auto. apply A3 in I. cbn [fst] in I. lia.
    + destruct (proj2 (E p) (or_intror I)) as [<-|J]; auto. apply B3 in I. cbn [fst] in I. lia.
Qed.
Lemma most_recent_app {V} (a b : list (Z * V)) k v : most_recent (a ++ b) k v <-> most_recent b k v \/ (most_recent a k v /\ ~ In k (map fst b)).
Proof.
  induction b as [|(k', v') b IH] using rev_ind; [rewrite app_nil_r; split; [intros; right; split; auto|intros [(l1 & l2 & E & _)|(H & _)]; auto; destruct l1; discriminate]|].
  rewrite app_assoc, !most_recent_snoc, IH, map_app, in_app_iff. cbn [map fst In]. intuition.
Qed.
Lemma users_app a b : users_in (a ++ b) = users_in a ++ users_in b. Proof. unfold users_in. apply flat_map_app. Qed.
Lemma changesets_app a b : changesets_in (a ++ b) = changesets_in a ++ changesets_in b. Proof. unfold changesets_in. apply flat_map_app. Qed.
(** an index holds the last value of every key *)
Definition indexed {V} (idx : list (Z * V)) (l : list (Z * V)) : Prop := increasing (map fst idx) /\ forall k v, In (k, v) idx <-> most_recent l k v.
Lemma most_recent_key {V} (l : list (Z * V)) k : In k (map fst l) -> exists v, most_recent l k v.
Proof.
  induction l as [|(a, b) l IH] using rev_ind; [intros []|]. rewrite map_app, in_app_iff. cbn [map fst In]. intros I.
  destruct (Z.eq_dec k a) as [->|N]; [exists b; apply most_recent_snoc; auto|]. destruct IH as (v & H); [destruct I as [I|[I|[]]]; congruence|]. exists v. apply most_recent_snoc. auto.
Qed.
Lemma insert_indexed {V} (ps : list (Z * V)) : NoDup (map fst ps) -> forall idx, increasing (map fst idx) ->
  increasing (map fst (bt_insert_all ps idx)) /\ forall p, In p (bt_insert_all ps idx) <-> In p ps \/ (In p idx /\ ~ In (fst p) (map fst ps)).
Proof.
  unfold bt_insert_all. induction ps as [|(k, v) ps IH] using rev_ind; intros ND idx I; [cbn; split; auto; intros p; tauto|].
  rewrite map_app in ND. cbn [map fst] in ND. apply NoDup_remove in ND as (ND & N). rewrite app_nil_r in *. destruct (IH ND idx I) as (A & B).
  rewrite fold_left_app. cbn [fold_left fst snd]. split; [apply bt_insert_increasing; auto|]. intros p. rewrite bt_insert_In by auto. rewrite B, map_app, !in_app_iff. cbn [map fst In].
  split.
  - intros [->|([P|(P & Q)] & R)]; [tauto| |]; [left; left; exact P|]. right. split; auto. intros [X|[X|[]]]; [tauto|congruence].
  - intros [[P|[P|[]]]|(P & Q)]; [right; split; auto; intros <-; apply N, in_map; auto|left; auto|]. right. split; [right; split; auto|]. intros X. apply Q. right; left; auto.
Qed.
Lemma index_next {V} (order : list (Z * V) -> list (Z * V)) idx before now : Permutation (order (fold_left (fun l p => map_put (fst p) (snd p) l) now [])) (fold_left (fun l p => map_put (fst p) (snd p) l) now []) ->
  indexed idx before -> indexed (bt_insert_all (order (fold_left (fun l p => map_put (fst p) (snd p) l) now [])) idx) (before ++ now).
Proof.
  intros HO (I & E). destruct (map_put_fold now) as (A & B).
  assert (ND : NoDup (map fst (order (fold_left (fun l p => map_put (fst p) (snd p) l) now [])))) by (eapply Permutation_NoDup; [|exact A]; apply Permutation_map; symmetry; exact HO).
  destruct (insert_indexed _ ND idx I) as (X & Y). split; auto. intros k v. rewrite Y, most_recent_app, E. cbn [fst].
  assert (forall k, In k (map fst (order (fold_left (fun l p => map_put (fst p) (snd p) l) now []))) <-> In k (map fst now)) as K.
  { intros k0. assert (In k0 (map fst (order (fold_left (fun l p => map_put (fst p) (snd p) l) now []))) <-> In k0 (map fst (fold_left (fun l p => map_put (fst p) (snd p) l) now []))) as ->.
    { split; apply Permutation_in; apply Permutation_map; [exact HO|symmetry; exact HO]. }
    split.
    - intros J. apply in_map_iff in J as ((a, b) & <- & J). apply B in J as (l1 & l2 & -> & _). apply in_map_iff. exists (a, b). split; auto. apply in_or_app. right; left; auto.
    - intros J. apply most_recent_key in J as (b & J). apply B in J. apply in_map_iff. exists (k0, b). auto. }
  rewrite K. rewrite <- (B k v). split; intros [P|P]; [left|right; exact P|left|right; exact P]; revert P; apply Permutation_in; [exact HO|symmetry; exact HO].
Qed.

(** the second of two states whose table differs only in what was there before *)
Definition alike (f0 : bytes) (s s' : bytes * current) : Prop := fst s = f0 ++ fst s' /\ last_lines (snd s) = last_lines (snd s') /\ (last_lines (snd s') = None \/ last_id (snd s) = last_id (snd s')).
Lemma put_alike f0 p s s' : alike f0 s s' -> alike f0 (put1 p s) (put1 p s').
Proof.
  destruct p as ((ls, id), v). intros (A & B & C). unfold put1, set_last_lines, alike. cbn [fst snd last_lines last_id set_last_id]. rewrite B. destruct C as [C|C].
  - rewrite C. destruct (last_id (snd s) <? id), (last_id (snd s') <? id); auto.
  - rewrite C. destruct (last_id (snd s') <? id); auto. destruct (last_lines (snd s')); auto. rewrite A, app_assoc. auto.
Qed.
Lemma step_alike f0 h ps s s' : alike f0 s s' -> alike f0 (step_cell h ps s) (step_cell h ps s').
Proof.
  unfold step_cell. intros H. assert (alike f0 (fst s ++ h, snd s) (fst s' ++ h, snd s')) as H0. { destruct H as (A & B & C). unfold alike. cbn [fst snd]. rewrite A, app_assoc. auto. }
  revert H0. generalize (fst s ++ h, snd s) (fst s' ++ h, snd s'). clear. induction ps as [|p ps IH]; intros a b H; cbn [fold_left]; auto. apply IH, put_alike, H.
Qed.

Section Calls.
Variables (esc : bytes -> bytes) (hash_order : forall V, list (Z * V) -> list (Z * V)) (lib : bytes).
Hypothesis HO : forall V (l : list (Z * V)), Permutation (hash_order V l) l.
Definition three (t : table) : Prop := t = T_users \/ t = T_changesets \/ t = T_changeset_tags.
Lemma three_dec t : three t \/ ~ three t.
Proof. unfold three. destruct t; (left; tauto) || (right; intuition discriminate). Qed.

Lemma users_alike clock us : forall i w w' v, write_users clock i us w = Ok w' -> exists v' x, write_users clock i us v = Ok v' /\
  (forall t, files w' t = files w t ++ x t) /\ (forall t, files v' t = files v t ++ x t) /\ (forall t, t <> T_users -> x t = []) /\
  (currents w' = currents w /\ user_buffer w' = user_buffer w /\ changeset_buffer w' = changeset_buffer w /\ user_index w' = user_index w /\ changeset_index w' = changeset_index w) /\
  (user_index v' = user_index v /\ changeset_index v' = changeset_index v).
Proof.
  induction us as [|(id, name) us IH]; intros i w w' v; cbn [write_users].
  - intros E. injection E as <-. exists v, (fun _ => []). sconj; auto; intros; rewrite app_nil_r; auto.
  - destruct (to_sql_time_micros (clock i)) as [s| |]; cbn [bind]; try discriminate. intros E.
    apply (IH _ _ _ (append T_users (user_line id name s) v)) in E as (v' & x & A & B & C & D & (F1 & F2 & F3 & F4 & F5) & G1 & G2).
    exists v', (fun t => (if table_eqb T_users t then user_line id name s else []) ++ x t). split; [exact A|]. sconj; auto.
    + intros t. rewrite B. unfold append, upd; cbn [files]. destruct (table_eqb T_users t) eqn:X; [apply table_eqb_eq in X; subst; rewrite app_assoc; auto|auto].
    + intros t. rewrite C. unfold append, upd; cbn [files]. destruct (table_eqb T_users t) eqn:X; [apply table_eqb_eq in X; subst; rewrite app_assoc; auto|auto].
    + intros t N. rewrite D by auto. destruct (table_eqb T_users t) eqn:X; auto. apply table_eqb_eq in X. congruence.
Qed.
Lemma changesets_alike clock cs : forall i w w' v, write_changesets clock lib i cs w = Ok w' -> exists v' x, write_changesets clock lib i cs v = Ok v' /\
  (forall t, files w' t = files w t ++ x t) /\ (forall t, files v' t = files v t ++ x t) /\ (forall t, t <> T_changesets -> t <> T_changeset_tags -> x t = []) /\
  (currents w' = currents w /\ user_buffer w' = user_buffer w /\ changeset_buffer w' = changeset_buffer w /\ user_index w' = user_index w /\ changeset_index w' = changeset_index w).
Proof.
  induction cs as [|(id, uid) cs IH]; intros i w w' v; cbn [write_changesets]; cbv zeta.
  - intros E. injection E as <-. exists v, (fun _ => []). sconj; auto; intros; rewrite app_nil_r; auto.
  - destruct (to_sql_time_micros (clock i)) as [s| |]; cbn [bind]; try discriminate. intros E.
    apply (IH _ _ _ (append T_changesets (changeset_line id uid s) (append T_changeset_tags (changeset_tag_lines lib id) v))) in E as (v' & x & A & B & C & D & (F1 & F2 & F3 & F4 & F5)).
    exists v', (fun t => (if table_eqb T_changesets t then changeset_line id uid s else if table_eqb T_changeset_tags t then changeset_tag_lines lib id else []) ++ x t). split; [exact A|]. sconj; auto.
    + intros t. rewrite B. unfold append, upd; cbn [files]. destruct (table_eqb T_changesets t) eqn:X; [apply table_eqb_eq in X; subst; cbn [table_eqb]; rewrite app_assoc; auto|].
      destruct (table_eqb T_changeset_tags t) eqn:Y; [apply table_eqb_eq in Y; subst; rewrite app_assoc; auto|auto].
    + intros t. rewrite C. unfold append, upd; cbn [files]. destruct (table_eqb T_changesets t) eqn:X; [apply table_eqb_eq in X; subst; cbn [table_eqb]; rewrite app_assoc; auto|].
      destruct (table_eqb T_changeset_tags t) eqn:Y; [apply table_eqb_eq in Y; subst; rewrite app_assoc; auto|auto].
    + intros t N M. rewrite D by auto. destruct (table_eqb T_changesets t) eqn:X; [apply table_eqb_eq in X; congruence|]. destruct (table_eqb T_changeset_tags t) eqn:Y; [apply table_eqb_eq in Y; congruence|auto].
Qed.
Lemma flush_keeps w : user_index (flush_current_object_lines w) = user_index w /\ changeset_index (flush_current_object_lines w) = changeset_index w /\
  user_buffer (flush_current_object_lines w) = user_buffer w /\ changeset_buffer (flush_current_object_lines w) = changeset_buffer w.
Proof.
  unfold flush_current_object_lines. generalize current_tables as ts. intros ts. revert w. induction ts as [|t ts IH]; intros w; cbn [fold_left]; auto.
  destruct (IH (flush_current t w)) as (-> & -> & -> & ->). unfold flush_current. destruct (last_lines _); auto.
Qed.
Lemma flush_currents w t : existsb (fun x => table_eqb x t) current_tables = true -> last_lines (currents (flush_current_object_lines w) t) = None.
Proof.
  intros E. unfold flush_current_object_lines, current_tables. cbn [fold_left]. change (currents ?x t) with (snd (cell t x)).
  destruct t; try discriminate E; repeat (rewrite flush_current_cell; cbn [table_eqb]); reflexivity.
Qed.
Lemma close_keeps w : currents (close_tables w) = currents w /\ user_index (close_tables w) = user_index w /\ changeset_index (close_tables w) = changeset_index w /\
  user_buffer (close_tables w) = user_buffer w /\ changeset_buffer (close_tables w) = changeset_buffer w.
Proof.
  unfold close_tables. generalize all_tables as ts. intros ts. revert w. induction ts as [|t ts IH]; intros w; cbn [fold_left]; auto.
  destruct (IH (append t terminator w)) as (-> & -> & -> & -> & ->). auto.
Qed.

(** a writer after a close, [before] written so far *)
Definition closed (w : writer) (before : list element) : Prop :=
  (forall t, existsb (fun x => table_eqb x t) current_tables = true -> last_lines (currents w t) = None) /\
  user_buffer w = [] /\ changeset_buffer w = [] /\ indexed (user_index w) (users_in before) /\ indexed (changeset_index w) (changesets_in before) /\ Forall time_ok before.
Lemma new_closed : closed writer_new [].
Proof.
  assert (N : forall V, @indexed V [] []) by (intros V; split; [exact I|]; intros k v; split; [intros []|intros (l1 & l2 & E & _); destruct l1; discriminate]).
  unfold closed. sconj; auto; apply N.
Qed.
(** writing on after a close *)
Lemma write_alike es w before w1 : closed w before -> write_elements esc es w = Ok w1 -> Forall time_ok es /\
  exists v, write_elements esc es writer_new = Ok v /\ (forall t, (~ three t -> files w1 t = files w t ++ files v t) /\ (three t -> files w1 t = files w t /\ files v t = [])) /\
    (forall t, existsb (fun x => table_eqb x t) current_tables = true -> last_lines (currents w1 t) = last_lines (currents v t)).
Proof.
  intros (L & _) E. destruct (write_elements_cell _ _ _ _ E) as (T & C). split; auto. destruct (write_elements_ok esc es writer_new T) as (v & V). exists v. split; auto.
  destruct (write_elements_cell _ _ _ _ V) as (_ & D).
  assert (forall t, existsb (fun x => table_eqb x t) current_tables = true -> alike (files w t) (cell t w1) (cell t v)) as CUR.
  { intros t X. rewrite C, D. specialize (L t X). clear - L. assert (alike (files w t) (cell t w) (cell t writer_new)) as H.
    { unfold alike, cell. cbn. rewrite app_nil_r. auto. }
    revert H. generalize (cell t w) (cell t writer_new). induction es as [|e es IH]; intros a b H; cbn [fold_left]; auto. apply IH, step_alike, H. }
  assert (forall t, existsb (fun x => table_eqb x t) current_tables = false -> files w1 t = files w t ++ flat_map (adds esc t) es /\ files v t = flat_map (adds esc t) es) as HIS.
  { intros t X. change (files ?w t) with (fst (cell t w)). rewrite C, D. assert (P : forall e, puts esc t e = []) by (destruct t; try discriminate X; reflexivity). rewrite !(history_cell esc t P). auto. }
  split.
  - intros t. destruct (existsb (fun x => table_eqb x t) current_tables) eqn:X.
    + destruct (CUR t X) as (A & _). unfold cell in A. cbn [fst] in A. split; auto. intros [->|[->| ->]]; discriminate X.
    + destruct (HIS t X) as (A & B). rewrite A, B. split; auto. intros TH. assert (flat_map (adds esc t) es = []) as ->; [|rewrite app_nil_r; auto].
      assert (forall e, adds esc t e = []) as N by (destruct TH as [->|[->| ->]]; reflexivity). clear - N. induction es; cbn; auto. rewrite N. auto.
  - intros t X. destruct (CUR t X) as (_ & B & _). exact B.
Qed.
Lemma close_next clock es w before w1 w2 : (forall i, in_calendar (clock i / 1000000)) -> closed w before -> write_elements esc es w = Ok w1 -> close hash_order clock lib w1 = Ok w2 ->
  closed w2 (before ++ es) /\
  exists own all, ApidbWrite.dump esc hash_order clock lib es = Ok own /\ ApidbWrite.dump esc hash_order clock lib (before ++ es) = Ok all /\
    forall t, files w2 t = files w t ++ (if existsb (table_eqb t) [T_users; T_changesets; T_changeset_tags] then files all t else files own t).
Proof.
  intros CLOCK CL E F. destruct (write_alike _ _ _ _ CL E) as (T & v & V & FV & LV). destruct CL as (CL & UB & CB & UI & CI & TB).
  destruct (write_elements_buffers _ _ _ _ E) as (B1 & B2 & B3 & B4). rewrite UB in B1. rewrite CB in B2.
  assert (TA : Forall time_ok (before ++ es)) by (apply Forall_app; auto). destruct (write_elements_ok esc (before ++ es) writer_new TA) as (a & A).
  destruct (write_elements_buffers _ _ _ _ A) as (A1 & A2 & A3 & A4). cbn [user_buffer changeset_buffer user_index changeset_index writer_new] in A1, A2, A3, A4.
  unfold close in F. cbv zeta in F. set (w3 := flush_buffers hash_order (flush_current_object_lines w1)) in *. set (a3 := flush_buffers hash_order (flush_current_object_lines a)).
  assert (IU : indexed (user_index w3) (users_in (before ++ es)) /\ indexed (changeset_index w3) (changesets_in (before ++ es))).
  { unfold w3, flush_buffers. cbn [user_index changeset_index]. destruct (flush_keeps w1) as (-> & -> & -> & ->). rewrite B1, B2, B3, B4, users_app, changesets_app.
    split; apply index_next; auto. }
  assert (IA : indexed (user_index a3) (users_in (before ++ es)) /\ indexed (changeset_index a3) (changesets_in (before ++ es))).
  { unfold a3, flush_buffers. cbn [user_index changeset_index]. destruct (flush_keeps a) as (-> & -> & -> & ->). rewrite A1, A2, A3, A4.
    split; [change (users_in (before ++ es)) with ([] ++ users_in (before ++ es)) at 2|change (changesets_in (before ++ es)) with ([] ++ changesets_in (before ++ es)) at 2];
      apply index_next; auto; (split; [exact Logic.I|]; intros k x; split; [intros []|intros (l1 & l2 & Q & _); destruct l1; discriminate]). }
  destruct IU as ((IU1 & IU2) & (IC1 & IC2)), IA as ((IA1 & IA2) & (IB1 & IB2)).
  assert (EU : user_index a3 = user_index w3) by (apply sorted_same; auto; intros (k, x); rewrite IU2, IA2; reflexivity).
  assert (EC : changeset_index a3 = changeset_index w3) by (apply sorted_same; auto; intros (k, x); rewrite IC2, IB2; reflexivity).
  destruct (write_users clock 0 (user_index w3) w3) as [w4| |] eqn:E4; cbn [bind] in F; try discriminate.
  destruct (users_alike _ _ _ _ _ a3 E4) as (a4 & x & A5 & X1 & X2 & X3 & (K1 & K2 & K3 & K4 & K5) & K6 & K7).
  destruct (write_changesets clock lib (length (user_index w4)) (changeset_index w4) w4) as [w5| |] eqn:E5; cbn [bind] in F; try discriminate. injection F as <-.
  destruct (changesets_alike _ _ _ _ _ a4 E5) as (a5 & y & A6 & Y1 & Y2 & Y3 & (L1 & L2 & L3 & L4 & L5)).
  destruct (close_keeps w5) as (M1 & M2 & M3 & M4 & M5). split.
  - unfold closed. rewrite M1, M2, M3, M4, M5, L1, L2, L3, L4, L5, K1, K2, K3, K4, K5. sconj; auto.
    + intros t X. unfold w3, flush_buffers. cbn [currents]. apply flush_currents; auto.
    + split; auto.
    + split; auto.
  - destruct (proj1 (C55_dump_total esc hash_order clock lib CLOCK es)) as (own & OWN).
    { eapply Forall_impl; [|exact T]. intros e. apply dumpable_time. }
    exists own. exists (close_tables a5). split; [exact OWN|]. split.
    { unfold ApidbWrite.dump. rewrite A. cbn [bind]. unfold close. cbv zeta. fold a3. rewrite EU, A5. cbn [bind]. rewrite K6, K7, EU, EC. rewrite <- K4, <- K5, A6. reflexivity. }
    intros t. destruct (dump_spec esc hash_order clock lib es own HO OWN) as (_ & FO & _).
    assert (G : forall w, files (flush_buffers hash_order (flush_current_object_lines w)) t = files (flush_current_object_lines w) t) by reflexivity.
    rewrite !close_tables_files, Y1, Y2, X1, X2. unfold w3, a3. rewrite !G, !flush_files. destruct (existsb (table_eqb t) [T_users; T_changesets; T_changeset_tags]) eqn:TH.
    + assert (three t) as TT by (unfold three; cbn [existsb] in TH; rewrite orb_false_r in TH; apply orb_prop in TH as [H|H]; [apply table_eqb_eq in H; auto|apply orb_prop in H as [H|H]; apply table_eqb_eq in H; auto]).
      assert (existsb (fun x => table_eqb x t) current_tables = false) as -> by (destruct TT as [->|[->| ->]]; reflexivity).
      destruct (proj2 (FV t) TT) as (-> & _). destruct (write_alike _ _ _ _ new_closed A) as (_ & a' & A' & FA & _). assert (a' = a) as -> by congruence. destruct (proj2 (FA t) TT) as (_ & ->). rewrite <- !app_assoc. reflexivity.
    + assert (NT : ~ three t) by (intros [->|[->| ->]]; discriminate TH). rewrite X3, Y3 by (intros ->; apply NT; unfold three; tauto). rewrite !app_nil_r.
      rewrite FO by (intros ->; apply NT; unfold three; tauto). cbv zeta. destruct (write_elements_cell _ _ _ _ V) as (_ & D). specialize (D t). change (cell t writer_new) with (@nil byte, current_new) in D.
      rewrite <- D. unfold cell. cbn [fst snd]. rewrite (proj1 (FV t) NT). destruct (existsb (fun x => table_eqb x t) current_tables) eqn:X; [|rewrite <- !app_assoc; reflexivity].
      rewrite (LV t X), <- !app_assoc. reflexivity.
Qed.

Lemma elements_then es : forall e w w1 w2, write_elements esc es w = Ok w1 -> write_element esc e w1 = Ok w2 -> write_elements esc (es ++ [e]) w = Ok w2.
Proof.
  induction es as [|e' es IH]; intros e w w1 w2 E F; cbn [app write_elements] in *.
  - injection E as ->. rewrite F. reflexivity.
  - destruct (write_element esc e' w) as [w0| |]; cbn [bind] in *; try discriminate. eauto.
Qed.
Lemma sections_open es : sections (map DElement es) = ([], es).
Proof. induction es as [|e es IH]; [reflexivity|]. cbn [map sections]. rewrite IH. reflexivity. Qed.
Variable clocks : nat -> nat -> Z.
Hypothesis CLOCKS : forall j i, in_calendar (clocks j i / 1000000).
Local Notation dcalls := (dcalls esc hash_order clocks lib).
Local Notation dump j := (ApidbWrite.dump esc hash_order (clocks j) lib).
Definition numbered {A} (j : nat) (l : list A) : list (nat * A) := combine (seq j (length l)) l.
Lemma histories cs : forall j w0 before es w1 w, closed w0 before -> write_elements esc es w0 = Ok w1 -> dcalls j cs w1 = Ok w ->
  exists own all rest,
    Forall2 (fun p v => dump (fst p) (snd p) = Ok v) (numbered j (fst (sections (map DElement es ++ cs)))) own /\
    Forall2 (fun p v => dump (fst p) (snd p) = Ok v) (numbered j (so_far before (fst (sections (map DElement es ++ cs))))) all /\
    write_elements esc (snd (sections (map DElement es ++ cs))) writer_new = Ok rest /\
    forall t, files w t = files w0 t ++ (if existsb (table_eqb t) [T_users; T_changesets; T_changeset_tags] then concat (map (fun v => files v t) all) else concat (map (fun v => files v t) own) ++ files rest t).
Proof.
  induction cs as [|[e|] cs IH]; intros j w0 before es w1 w C E D; cbn [DumpCalls.dcalls] in D.
  - injection D as <-. rewrite app_nil_r, sections_open. cbn [fst snd so_far]. destruct (write_alike _ _ _ _ C E) as (_ & v & V & FV & _).
    exists [], [], v. cbn [map List.concat app]. sconj; auto; [constructor|constructor|]. intros t. destruct (existsb _ _) eqn:TH.
    + assert (three t) as TT by (unfold three; cbn [existsb] in TH; rewrite orb_false_r in TH; apply orb_prop in TH as [H|H]; [apply table_eqb_eq in H; auto|apply orb_prop in H as [H|H]; apply table_eqb_eq in H; auto]).
      destruct (proj2 (FV t) TT) as (-> & _). rewrite app_nil_r. reflexivity.
    + apply (proj1 (FV t)). intros [->|[->| ->]]; discriminate TH.
  - destruct (write_element esc e w1) as [w2| |] eqn:W; cbn [bind] in D; try discriminate. pose proof (elements_then _ _ _ _ _ E W) as E'.
    specialize (IH j w0 before (es ++ [e]) w2 w C E' D). rewrite map_app, <- app_assoc in IH. exact IH.
  - destruct (close hash_order (clocks j) lib w1) as [w2| |] eqn:W; cbn [bind] in D; try discriminate.
    destruct (close_next _ _ _ _ _ _ (CLOCKS j) C E W) as (C2 & o & a & DO & DA & F). destruct (IH (S j) w2 (before ++ es) [] w2 w C2 eq_refl D) as (own & all & rest & H1 & H2 & H3 & H4).
    cbn [map app] in H1, H2, H3. destruct (calls_app (map DElement es) cs) as (S1 & S2). rewrite sections_open in S1. rewrite S1, S2. cbn [app].
    exists (o :: own), (a :: all), rest. unfold numbered in *. cbn [length seq combine so_far]. sconj; auto.
    intros t. rewrite H4, F. cbn [map List.concat]. destruct (existsb _ _); rewrite <- !app_assoc; reflexivity.
Qed.

(** C88: whatever the sequence of write_element and close calls, the elements written between two closes are dumped as a dump of their
    own: every table holds the text of those dumps one after another (each with its end marker), and what followed the last close; only
    the users, the changesets and their tags are written anew at every close for everything written so far. (C34, C35 and C36 say what
    the tables of one dump hold, C80 what an unfinished one does.) *)
Theorem C88_histories cs w : dcalls 0 cs writer_new = Ok w ->
  exists own all rest,
    Forall2 (fun p v => dump (fst p) (snd p) = Ok v) (numbered 0 (fst (sections cs))) own /\
    Forall2 (fun p v => dump (fst p) (snd p) = Ok v) (numbered 0 (so_far [] (fst (sections cs)))) all /\
    write_elements esc (snd (sections cs)) writer_new = Ok rest /\
    (forall t, ~ In t [T_users; T_changesets; T_changeset_tags] -> files w t = concat (map (fun v => files v t) own) ++ files rest t) /\
    (forall t, In t [T_users; T_changesets; T_changeset_tags] -> files w t = concat (map (fun v => files v t) all)).
Proof.
  intros D. destruct (histories cs 0 writer_new [] [] writer_new w new_closed eq_refl D) as (own & all & rest & H1 & H2 & H3 & H4). exists own, all, rest. sconj; auto.
  - intros t N. rewrite H4. destruct (existsb _ _) eqn:TH; auto. exfalso. apply N. apply existsb_exists in TH as (x & I & X). apply table_eqb_eq in X. subst. exact I.
  - intros t N. rewrite H4. assert (existsb (table_eqb t) [T_users; T_changesets; T_changeset_tags] = true) as ->; auto. apply existsb_exists. exists t. split; auto. apply table_eqb_refl.
Qed.
(** C88: the calls succeed exactly when every timestamp written is an instant chrono can represent; otherwise one of them panics. *)
Theorem C88_total cs :
  (Forall dumpable (List.concat (fst (sections cs)) ++ snd (sections cs)) -> exists w, dcalls 0 cs writer_new = Ok w) /\
  (~ Forall dumpable (List.concat (fst (sections cs)) ++ snd (sections cs)) -> dcalls 0 cs writer_new = Panic).
Proof.
  assert (G : forall cs, List.concat (fst (sections cs)) ++ snd (sections cs) = flat_map (fun c => match c with DElement e => [e] | DClose => [] end) cs).
  { clear. induction cs as [|[e|] cs IH]; [reflexivity|..]; cbn [sections flat_map app]; rewrite <- IH; destruct (sections cs) as ([|s ss], tl); reflexivity. }
  rewrite G. clear G. generalize 0%nat. generalize writer_new as w. induction cs as [|[e|] cs IH]; intros w j; cbn [flat_map app DumpCalls.dcalls].
  - split; [eauto|]. intros H. exfalso. apply H. constructor.
  - destruct (write_element esc e w) as [w1| |] eqn:E; cbn [bind].
    + assert (DE : dumpable e) by (apply dumpable_time; eapply write_element_cell; eauto). destruct (IH w1 j) as (A & B). split; [intros H; inversion H; auto|]. intros H. apply B. intros X. apply H. constructor; auto.
    + exfalso. revert E. destruct e as [n|wy|r|]; cbn [ApidbWrite.write_element]; unfold write_node, write_way, write_relation, to_sql_time_millis; cbv zeta;
      try destruct (chrono_seconds _); cbn [bind]; discriminate.
    + split; auto. intros H. exfalso. inversion H as [|? ? X Y]; subst. apply dumpable_time in X. destruct (write_element_ok esc e w X) as (w' & W). congruence.
  - unfold close. cbv zeta.
    destruct (users_total (clocks j) (CLOCKS j) (user_index (flush_buffers hash_order (flush_current_object_lines w))) 0%nat (flush_buffers hash_order (flush_current_object_lines w))) as (w1 & ->). cbn [bind].
    match goal with |- context [write_changesets ?c ?l ?i ?cs ?w] => destruct (changesets_total c lib (CLOCKS j) cs i w) as (w2 & ->) end. cbn [bind]. apply IH.
Qed.
End Calls.
