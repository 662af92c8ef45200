(** Non-vacuity of C87: two dumps, one with a changeset, the other without. *)
From Coq Require Import ZArith List Bool Strings.Byte Strings.String Lia Permutation.
From Verif Require Import Base BaseFacts Types ApidbText ApidbWrite ApidbRead DumpReadSpec ExTools ExApidb MissSpec ExMiss TmpDir PropTmp.
Import ListNotations.
Local Notation length := List.length.
Open Scope Z_scope.

Definition tabs (l : list bytes) : bytes := List.concat (map (fun f => f ++ [x09]) (removelast l)) ++ last l [].
Definition a_changeset : bytes := tabs [str "10"; str "7"; str "2020-09-13 12:26:40"; str "1"; str "2"; str "3"; str "4"; str "2020-09-13 12:26:40"; str "1"] ++ [x0a].
Definition dir_a : bytes -> option bytes := small_dir (with_needs ten).
Definition dir_b (name : bytes) : option bytes := if bytes_eqb name (table_file T_changesets) then Some (a_changeset ++ no_rows) else dir_a name.
Definition found (r : res (creators * eiter)) : option nat := match r with Ok (_, s) => Some (length (ei_changesets s)) | _ => None end.
Lemma reads_a : exists rd, reader_new ex_sort dir_a = Ok rd /\ found (elements ex_unescape rd) = Some 0%nat.
Proof.
  assert (match reader_new ex_sort dir_a with Ok rd => match found (elements ex_unescape rd) with Some 0%nat => true | _ => false end | _ => false end = true) as H by (vm_compute; reflexivity).
  destruct (reader_new ex_sort dir_a) as [rd| |]; try discriminate H. exists rd. split; auto. destruct (found (elements ex_unescape rd)) as [[|n]|]; try discriminate H. reflexivity.
Qed.
Lemma reads_b : exists rd, reader_new ex_sort dir_b = Ok rd /\ found (elements ex_unescape rd) = Some 1%nat.
Proof.
  assert (match reader_new ex_sort dir_b with Ok rd => match found (elements ex_unescape rd) with Some 1%nat => true | _ => false end | _ => false end = true) as H by (vm_compute; reflexivity).
  destruct (reader_new ex_sort dir_b) as [rd| |]; try discriminate H. exists rd. split; auto. destruct (found (elements ex_unescape rd)) as [[|[|n]]|]; try discriminate H. reflexivity.
Qed.
Lemma same_toc : dir_a (str "toc.dat") = dir_b (str "toc.dat").
Proof. unfold dir_b. replace (bytes_eqb (str "toc.dat") (table_file T_changesets)) with false; [reflexivity|vm_compute; reflexivity]. Qed.

(** two Readers with the same temporary directory: the first one now yields what is in the second dump *)
Example ex_mixed_up fs tmp : exists h1 h2 fs', session ex_sort [(tmp, dir_a, Ok h1); (tmp, dir_b, Ok h2)] fs fs' /\ found (elements_now ex_unescape fs' h1) = Some 1%nat.
Proof.
  destruct reads_a as (ra & A & _), reads_b as (rb & B & FB). destruct (C87_opens ex_sort tmp dir_a ra A fs) as (m & h1 & O1). destruct (C87_opens ex_sort tmp dir_b rb B m) as (fs' & h2 & O2).
  exists h1, h2, fs'. assert (S : session ex_sort [(tmp, dir_a, Ok h1); (tmp, dir_b, Ok h2)] fs fs') by (econstructor; [exact O1|econstructor; [exact O2|constructor]]). split; auto.
  destruct (C87_other_dump ex_unescape ex_sort [] [] [] tmp dir_a dir_b h1 h2 fs fs' S same_toc (Forall_nil _)) as (rd & R & E). rewrite E. assert (rd = rb) as -> by congruence. exact FB.
Qed.
(** with two temporary directories both Readers yield what is in their dumps *)
Example ex_two_directories fs : exists h1 h2 fs', session ex_sort [(str "t1", dir_a, Ok h1); (str "t2", dir_b, Ok h2)] fs fs' /\
  found (elements_now ex_unescape fs' h1) = Some 0%nat /\ found (elements_now ex_unescape fs' h2) = Some 1%nat.
Proof.
  destruct reads_a as (ra & A & FA), reads_b as (rb & B & FB). destruct (C87_opens ex_sort (str "t1") dir_a ra A fs) as (m & h1 & O1). destruct (C87_opens ex_sort (str "t2") dir_b rb B m) as (fs' & h2 & O2).
  exists h1, h2, fs'. assert (S : session ex_sort [(str "t1", dir_a, Ok h1); (str "t2", dir_b, Ok h2)] fs fs') by (econstructor; [exact O1|econstructor; [exact O2|constructor]]). split; auto. split.
  - destruct (C87_own_dump ex_unescape ex_sort [] [(str "t2", dir_b, Ok h2)] (str "t1") dir_a h1 fs fs' S) as (rd & R & E).
    + constructor; [|constructor]. left. cbn. discriminate.
    + rewrite E. assert (rd = ra) as -> by congruence. exact FA.
  - destruct (C87_own_dump ex_unescape ex_sort [(str "t1", dir_a, Ok h1)] [] (str "t2") dir_b h2 fs fs' S (Forall_nil _)) as (rd & R & E). rewrite E. assert (rd = rb) as -> by congruence. exact FB.
Qed.
(** a Reader that could not be opened (the file of the relations is not there) has replaced the changesets of an earlier one *)
Definition dir_c (name : bytes) : option bytes := if bytes_eqb name (table_file T_relations) then None else dir_b name.
Definition is (t : table) (p : table * table_def) : bool := table_eqb (fst p) t.
Definition neither (p : table * table_def) : bool := negb (is T_changesets p || is T_relations p).
Lemma three_parts l : Permutation (filter (is T_changesets) l ++ filter (is T_relations) l ++ filter neither l) l.
Proof.
  unfold neither. induction l as [|p l IH]; [constructor|]. cbn [filter]. destruct (is T_changesets p) eqn:A.
  - destruct (is T_relations p) eqn:B; [|cbn [orb negb app]; constructor; auto]. unfold is in A, B. apply ApidbWriteFacts.table_eqb_eq in A. rewrite A in B. discriminate B.
  - destruct (is T_relations p); cbn [orb negb].
    + eapply perm_trans; [apply Permutation_sym, Permutation_middle|]. constructor. exact IH.
    + rewrite app_assoc. eapply perm_trans; [apply Permutation_sym, Permutation_middle|]. constructor. rewrite <- app_assoc. exact IH.
Qed.
Definition checks (defs : list (table * table_def)) : bool :=
  (match filter (is T_changesets) defs with [p] => bytes_eqb (td_file (snd p)) (table_file T_changesets) | _ => false end &&
   match filter (is T_relations) defs with [p] => bytes_eqb (td_file (snd p)) (table_file T_relations) | _ => false end &&
   forallb (fun p => negb (bytes_eqb (td_file (snd p)) (table_file T_changesets)) || is T_changesets p) defs)%bool.
Lemma defs_c : exists defs, defs_of dir_a = Ok defs /\ checks defs = true.
Proof.
  assert (match defs_of dir_a with Ok defs => checks defs | _ => false end = true) as H by (vm_compute; reflexivity). destruct (defs_of dir_a) as [defs| |]; try discriminate H. eauto.
Qed.
Lemma same_defs : defs_of dir_b = defs_of dir_a /\ defs_of dir_c = defs_of dir_a.
Proof.
  unfold defs_of. rewrite <- same_toc. split; [reflexivity|]. unfold dir_c at 1. replace (bytes_eqb (str "toc.dat") (table_file T_relations)) with false by (vm_compute; reflexivity). rewrite <- same_toc. reflexivity.
Qed.
Example ex_failed_opening fs tmp : exists h1 fs', session ex_sort [(tmp, dir_a, Ok h1); (tmp, dir_c, Err)] fs fs' /\ found (elements_now ex_unescape fs' h1) = Some 1%nat.
Proof.
  destruct reads_a as (ra & A & _), reads_b as (rb & B & FB). destruct (C87_opens ex_sort tmp dir_a ra A fs) as (m & h1 & O1). destruct (opened _ _ _ _ _ _ O1) as (defs & D & -> & G).
  destruct defs_c as (defs' & D' & CH). rewrite D in D'. injection D' as <-. destruct same_defs as (DB & DC). unfold checks in CH. apply andb_prop in CH as (CH & CO). apply andb_prop in CH as (CC & CR).
  pose proof (three_parts defs) as P. destruct (filter (is T_changesets) defs) as [|(tc, dc) [|]] eqn:FC; try discriminate CC. destruct (filter (is T_relations) defs) as [|(tr, dr) [|]] eqn:FR; try discriminate CR.
  assert (In (tc, dc) defs /\ is T_changesets (tc, dc) = true) as (IC & EC) by (apply filter_In; rewrite FC; left; reflexivity). unfold is in EC. cbn [fst] in EC. apply ApidbWriteFacts.table_eqb_eq in EC. subst tc.
  cbn [snd] in CC, CR. apply bytes_eqb_eq in CC, CR.
  assert (exists x, sorted_data ex_sort dir_b dc = Ok x) as (x & X). { unfold sorted_data, dir_b. rewrite CC, bytes_eqb_refl. cbn [of_option bind]. unfold ex_sort. eauto. }
  assert (sorted_data ex_sort dir_c dc = Ok x) as XC. { rewrite <- X. unfold sorted_data, dir_c. rewrite CC. replace (bytes_eqb (table_file T_changesets) (table_file T_relations)) with false by (vm_compute; reflexivity). reflexivity. }
  assert (sorted_data ex_sort dir_c dr = Err) as XR. { unfold sorted_data, dir_c. rewrite CR, bytes_eqb_refl. reflexivity. }
  exists (Handle defs tmp), (put_sorted m tmp T_changesets x). split.
  - econstructor; [exact O1|]. econstructor; [|constructor]. refine (op_sort ex_sort tmp dir_c defs _ m _ Err _ P _); [rewrite DC; exact D|]. cbn [app]. econstructor; [exact XC|]. apply so_fail; [exact XR|left; reflexivity].
  - destruct (now_is ex_unescape ex_sort (put_sorted m tmp T_changesets x) defs tmp dir_b) as (rd & R & E).
    + rewrite DB. exact D.
    + intros t d I. destruct (table_eqb t T_changesets) eqn:T.
      * apply ApidbWriteFacts.table_eqb_eq in T. subst t. exists x. rewrite put_same. split; auto. assert (In (T_changesets, d) (filter (is T_changesets) defs)) as I' by (apply filter_In; split; [exact I|reflexivity]).
        rewrite FC in I'. destruct I' as [I'|[]]. congruence.
      * rewrite put_other by (right; intros ->; discriminate T). destruct (G t d I) as (y & Y & Z). exists y. split; [|exact Z]. rewrite <- Y. unfold sorted_data, dir_b.
        rewrite forallb_forall in CO. specialize (CO _ I). unfold is in CO. cbn [fst snd] in CO. rewrite T in CO. destruct (bytes_eqb (td_file d) (table_file T_changesets)); [discriminate CO|reflexivity].
    + rewrite E. assert (rd = rb) as -> by congruence. exact FB.
Qed.
