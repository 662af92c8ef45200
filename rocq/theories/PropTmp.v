(** Property C87: dump Readers that share a temporary directory. *)
From Coq Require Import ZArith List Bool Strings.Byte Strings.String Permutation Lia.
From Verif Require Import Base BaseFacts Types ApidbText ApidbWrite ApidbWriteFacts ApidbRead ApidbReadFacts TmpDir.
Import ListNotations.
Open Scope Z_scope.

Section Tmp.
Variable unescape : bytes -> option bytes.
Variable sort_file : list (nat * ftype) -> bytes -> res bytes.
Local Notation sorted_data := (sorted_data sort_file).
Local Notation session := (session sort_file).

Lemma put_same fs tmp t x : put_sorted fs tmp t x tmp t = Some x.
Proof. unfold put_sorted. rewrite bytes_eqb_refl, table_eqb_refl. reflexivity. Qed.
Lemma put_other fs tmp t x p t' : p <> tmp \/ t' <> t -> put_sorted fs tmp t x p t' = fs p t'.
Proof.
  intros N. unfold put_sorted. destruct (bytes_eqb p tmp && table_eqb t' t)%bool eqn:E; auto. apply andb_prop in E as (E1 & E2).
  apply bytes_eqb_eq in E1. apply table_eqb_eq in E2. destruct N; contradiction.
Qed.
Lemma defs_keys raws : forall acc defs, table_defs raws acc = Ok defs -> NoDup (map fst acc) -> NoDup (map fst defs).
Proof.
  induction raws as [|(def, file) raws IH]; intros acc defs E N; cbn [table_defs] in E; [injection E as <-; exact N|].
  apply bind_ok in E as ((name & fields) & _ & E). destruct (of_interest name) as [t|]; [|eauto]. apply bind_ok in E as (d & _ & E).
  apply IH in E; auto. unfold put_table. cbn [map fst]. constructor.
  - intros I. apply in_map_iff in I as ((t', v) & <- & I). apply filter_In in I as (_ & I). cbn [fst] in I. rewrite table_eqb_refl in I. discriminate.
  - clear - N. induction acc as [|(t', v) acc IH]; [constructor|]. cbn [map fst] in N. inversion N as [|? ? N1 N2]; subst. cbn [filter fst]. destruct (negb (table_eqb t' t)); auto.
    cbn [map fst]. constructor; auto. intros I. apply N1. apply in_map_iff in I as (p & <- & I). apply filter_In in I as (I & _). apply in_map_iff. eauto.
Qed.
Lemma defs_of_keys dir defs : defs_of dir = Ok defs -> NoDup (map fst defs).
Proof.
  unfold defs_of. intros E. apply bind_ok in E as (toc & _ & E). apply bind_ok in E as (raws & _ & E). eapply defs_keys; eauto. constructor.
Qed.
(** another directory is not touched *)
Lemma sort_elsewhere tmp dir order fs fs' o : sort_tables sort_file tmp dir order fs fs' o -> forall p t, p <> tmp -> fs' p t = fs p t.
Proof.
  induction 1 as [fs|t d r fs fs' sorted o _ _ IH|t d r fs fs' _ J|t d r fs fs' _ J]; intros p t' N; auto; [rewrite IH by auto; apply put_other; auto|..];
    (destruct J as [-> |(junk & ->)]; [reflexivity|apply put_other; auto]).
Qed.
Lemma sort_done tmp dir order fs fs' : sort_tables sort_file tmp dir order fs fs' (Ok tt) -> NoDup (map fst order) ->
  forall t, (forall d, In (t, d) order -> exists sorted, sorted_data dir d = Ok sorted /\ fs' tmp t = Some sorted) /\ (~ In t (map fst order) -> fs' tmp t = fs tmp t).
Proof.
  remember (Ok tt) as o eqn:O. induction 1 as [fs|t d r fs fs' sorted o S _ IH|t d r fs fs' _ J|t d r fs fs' _ J]; intros ND t'; try discriminate.
  - split; [intros d []|auto].
  - cbn [map fst] in ND. inversion ND as [|? ? N1 N2]; subst. destruct (IH eq_refl N2 t') as (A & B). split.
    + intros d' [E|I]; [injection E as -> ->|eauto]. exists sorted. split; auto. rewrite B by auto. apply put_same.
    + cbn [map fst]. intros N. rewrite B by (intros I; apply N; right; auto). apply put_other. right. intros ->. apply N. left; auto.
Qed.
(** sorting the same dump again changes nothing *)
Lemma sort_again tmp dir order fs fs' o : sort_tables sort_file tmp dir order fs fs' o -> forall defs, (forall t d, In (t, d) order -> In (t, d) defs) -> NoDup (map fst defs) ->
  (forall t d, In (t, d) defs -> exists sorted, sorted_data dir d = Ok sorted /\ fs tmp t = Some sorted) ->
  (forall t d, In (t, d) defs -> exists sorted, sorted_data dir d = Ok sorted /\ fs' tmp t = Some sorted) /\ o = Ok tt.
Proof.
  induction 1 as [fs|t d r fs fs' sorted o S _ IH|t d r fs fs' S _|t d r fs fs' S _]; intros defs INC ND G.
  - auto.
  - destruct (IH defs) as (A & B); auto; [intros; apply INC; right; auto|]. intros t' d' I. destruct (G t' d' I) as (x & X1 & X2). exists x. split; auto.
    destruct (table_eqb t' t) eqn:E; [|rewrite put_other; [exact X2|right; intros ->; rewrite table_eqb_refl in E; discriminate]].
    apply table_eqb_eq in E. subst t'. rewrite put_same. assert (d' = d) as ->; [|congruence].
    specialize (INC t d (or_introl eq_refl)). clear - ND INC I. induction defs as [|(a, b) defs IH]; [destruct I|]. cbn [map fst] in ND. inversion ND as [|? ? N1 N2]; subst.
    destruct I as [E1|I1], INC as [E2|I2]; [congruence| | |auto]; exfalso; apply N1; apply in_map_iff; [injection E1 as -> ->; exists (t, d)|injection E2 as -> ->; exists (t, d')]; auto.
  - exfalso. destruct (G t d) as (x & X & _); [apply INC; left; auto|congruence].
  - exfalso. destruct (G t d) as (x & X & _); [apply INC; left; auto|congruence].
Qed.
(** what a Reader finds when the sorted files are those of a dump with the same definitions *)
Lemma now_is fs defs tmp dir : defs_of dir = Ok defs -> (forall t d, In (t, d) defs -> exists sorted, sorted_data dir d = Ok sorted /\ fs tmp t = Some sorted) ->
  exists rd, reader_new sort_file dir = Ok rd /\ elements_now unescape fs (Handle defs tmp) = elements unescape rd.
Proof.
  intros D G. unfold reader_new, elements_now. cbn [h_tmp h_tables].
  assert (exists rd, res_map (fun p : table * table_def => data <- of_option (dir (td_file (snd p))) ;; sorted <- sort_file (td_key (snd p)) data ;; Ok (fst p, (snd p, sorted))) defs = Ok rd /\
    res_map (fun p : table * table_def => data <- unwrap (fs tmp (fst p)) ;; Ok (fst p, (snd p, data))) defs = Ok rd) as (rd & E1 & E2).
  { clear D. induction defs as [|(t, d) defs IH]; [exists []; auto|]. destruct IH as (rd & E1 & E2); [intros; apply G; right; auto|].
    destruct (G t d (or_introl eq_refl)) as (x & X1 & X2). exists ((t, (d, x)) :: rd). cbn [res_map fst snd]. rewrite E1, E2, X2. cbn [unwrap bind].
    unfold TmpDir.sorted_data in X1. destruct (of_option (dir (td_file d))) as [data| |]; cbn [bind] in X1 |- *; try discriminate. rewrite X1. cbn [bind]. auto. }
  exists rd. rewrite E2. cbn [bind]. split; auto. unfold defs_of in D. destruct (of_option (dir (str "toc.dat"))) as [toc| |]; cbn [bind] in D |- *; try discriminate.
  destruct (get_table_def_strings toc) as [raws| |]; cbn [bind] in D |- *; try discriminate. rewrite D. cbn [bind]. exact E1.
Qed.
Lemma opened tmp dir fs fs' h : opens sort_file tmp dir fs fs' (Ok h) -> exists defs, defs_of dir = Ok defs /\ h = Handle defs tmp /\
  forall t d, In (t, d) defs -> exists sorted, sorted_data dir d = Ok sorted /\ fs' tmp t = Some sorted.
Proof.
  intros O. inversion O as [|?|defs order fs0 fs1 o D P S]; subst; try discriminate. destruct o as [[]| |]; cbn [bind] in *; try discriminate.
  match goal with E : Ok _ = Ok h |- _ => injection E as <- end. exists defs. split; auto. split; auto. intros t d I.
  assert (NoDup (map fst order)) as ND. { eapply Permutation_NoDup; [apply Permutation_map, Permutation_sym, P|]. eapply defs_of_keys; eauto. }
  destruct (sort_done _ _ _ _ _ S ND t) as (A & _). apply A. eapply Permutation_in; [apply Permutation_sym, P|exact I].
Qed.
Lemma session_app a : forall b fs fs', session (a ++ b) fs fs' -> exists m, session a fs m /\ session b m fs'.
Proof.
  induction a as [|((tmp, dir), r) a IH]; intros b fs fs' S; [exists fs; split; [constructor|exact S]|]. cbn [app] in S. inversion S as [|? ? ? ? ? m ? O S']; subst.
  apply IH in S' as (m' & A & B). exists m'. split; auto. econstructor; eauto.
Qed.
(** later calls with other temporary directories, or on the same dump *)
Lemma session_keeps tmp dir defs calls : defs_of dir = Ok defs -> forall fs fs', session calls fs fs' ->
  Forall (fun c => fst (fst c) <> tmp \/ snd (fst c) = dir) calls ->
  (forall t d, In (t, d) defs -> exists sorted, sorted_data dir d = Ok sorted /\ fs tmp t = Some sorted) ->
  (forall t d, In (t, d) defs -> exists sorted, sorted_data dir d = Ok sorted /\ fs' tmp t = Some sorted) /\
  Forall (fun c => fst (fst c) = tmp -> exists h, snd c = Ok h) calls.
Proof.
  intros D. induction 1 as [fs|tmp' dir' r calls fs fs' fs'' O S IH]; intros F G; [auto|]. inversion F as [|? ? F1 F2]; subst. cbn [fst snd] in F1.
  assert ((forall t d, In (t, d) defs -> exists sorted, sorted_data dir d = Ok sorted /\ fs' tmp t = Some sorted) /\ (tmp' = tmp -> exists h, r = Ok h)) as (X & Y).
  { destruct (list_eq_dec Byte.byte_eq_dec tmp' tmp) as [->|N].
    - destruct F1 as [F1|F1]; [contradiction|]. subst dir'. inversion O as [? E|? E|defs' order fs0 fs1 o D' P T]; subst; try congruence. rewrite D in D'. injection D' as <-.
      destruct (sort_again _ _ _ _ _ _ T defs) as (A & ->); auto.
      + intros t d I. eapply Permutation_in; eauto.
      + eapply defs_of_keys; eauto.
      + cbn [bind]. split; eauto.
    - split; [|intros; contradiction]. intros t d I. destruct (G t d I) as (x & X1 & X2). exists x. split; auto. rewrite <- X2.
      inversion O as [? E|? E|defs' order fs0 fs1 o D' P T]; subst; auto. eapply sort_elsewhere; eauto. }
  destruct (IH F2 X) as (A & B). split; auto.
Qed.

(** C87: a Reader yields its own dump, whatever was in the temporary directory before and whatever Readers are opened afterwards, as
    long as they use other temporary directories or read the same dump (and then opening them succeeds). *)
Theorem C87_own_dump before after tmp dir h fs fs' :
  session (before ++ (tmp, dir, Ok h) :: after) fs fs' -> Forall (fun c => fst (fst c) <> tmp \/ snd (fst c) = dir) after ->
  exists rd, reader_new sort_file dir = Ok rd /\ elements_now unescape fs' h = elements unescape rd.
Proof.
  intros S F. apply session_app in S as (m & _ & S). inversion S as [|? ? ? ? ? m' ? O S']; subst. destruct (opened _ _ _ _ _ O) as (defs & D & -> & G).
  destruct (session_keeps tmp dir defs after D _ _ S' F G) as (X & _). apply now_is; auto.
Qed.
(** C87: opening a Reader succeeds exactly when the dump alone says so, whatever else has happened. *)
Theorem C87_opening tmp dir fs fs' r : opens sort_file tmp dir fs fs' r ->
  (forall h, r = Ok h -> exists rd, reader_new sort_file dir = Ok rd) /\ (r = Err \/ r = Panic -> forall rd, reader_new sort_file dir <> Ok rd).
Proof.
  intros O. split.
  - intros h ->. destruct (opened _ _ _ _ _ O) as (defs & D & _ & G). destruct (now_is fs' defs tmp dir D G) as (rd & R & _). eauto.
  - intros RE rd R. unfold reader_new in R. inversion O as [? E|? E|defs order fs0 fs1 o D P T]; subst; unfold defs_of in *.
    + destruct (of_option (dir (str "toc.dat"))) as [toc| |]; cbn [bind] in *; try discriminate. destruct (get_table_def_strings toc) as [raws| |]; cbn [bind] in *; try discriminate. rewrite E in R. discriminate.
    + destruct (of_option (dir (str "toc.dat"))) as [toc| |]; cbn [bind] in *; try discriminate. destruct (get_table_def_strings toc) as [raws| |]; cbn [bind] in *; try discriminate. rewrite E in R. discriminate.
    + destruct (of_option (dir (str "toc.dat"))) as [toc| |]; cbn [bind] in *; try discriminate. destruct (get_table_def_strings toc) as [raws| |]; cbn [bind] in *; try discriminate. rewrite D in R. cbn [bind] in R.
      assert (forall t d, In (t, d) order -> exists sorted, sorted_data dir d = Ok sorted) as G.
      { intros t d I. eapply Permutation_in in I; [|exact P]. clear - R I. revert rd R. induction defs as [|(a, b) defs IH]; intros rd R; [destruct I|]. cbn [res_map] in R. apply bind_ok in R as (x & R1 & R2). apply bind_ok in R2 as (y & R2 & _).
        destruct I as [I|I]; [injection I as -> ->|eauto]. cbn [fst snd] in R1. apply bind_ok in R1 as (data & R1 & R3). apply bind_ok in R3 as (sorted & R3 & _). exists sorted. unfold TmpDir.sorted_data. rewrite R1. exact R3. }
      assert (o = Ok tt) as ->; [|cbn [bind] in RE; destruct RE; discriminate].
      clear - T G. induction T as [fs|t d r fs fs' sorted o S _ IH|t d r fs fs' S _|t d r fs fs' S _]; auto; [apply IH; intros; eapply G; right; eauto|..];
        exfalso; destruct (G t d (or_introl eq_refl)) as (x & X); congruence.
Qed.
(** ... and a Reader can be opened on any disk when the dump alone says so. *)
Theorem C87_opens tmp dir rd : reader_new sort_file dir = Ok rd -> forall fs, exists fs' h, opens sort_file tmp dir fs fs' (Ok h).
Proof.
  intros R fs. unfold reader_new in R. destruct (defs_of dir) as [defs| |] eqn:D.
  - assert (exists fs', sort_tables sort_file tmp dir defs fs fs' (Ok tt)) as (fs' & S).
    { unfold defs_of in D. destruct (of_option (dir (str "toc.dat"))) as [toc| |]; cbn [bind] in D, R; try discriminate.
      destruct (get_table_def_strings toc) as [raws| |]; cbn [bind] in D, R; try discriminate. rewrite D in R. cbn [bind] in R. clear D.
      revert rd R fs. induction defs as [|(t, d) defs IH]; intros rd R fs; [exists fs; constructor|]. cbn [res_map] in R. apply bind_ok in R as (x & R1 & R2). apply bind_ok in R2 as (y & R2 & _).
      cbn [fst snd] in R1. apply bind_ok in R1 as (data & R1 & R3). apply bind_ok in R3 as (sorted & R3 & _). destruct (IH y R2 (put_sorted fs tmp t sorted)) as (fs' & S).
      exists fs'. econstructor; [|exact S]. unfold TmpDir.sorted_data. rewrite R1. exact R3. }
    exists fs', (Handle defs tmp). exact (op_sort sort_file tmp dir defs defs fs fs' (Ok tt) D (Permutation_refl _) S).
  - exfalso. unfold defs_of in D. destruct (of_option (dir (str "toc.dat"))) as [toc| |]; cbn [bind] in D, R; try discriminate.
    destruct (get_table_def_strings toc) as [raws| |]; cbn [bind] in D, R; try discriminate. rewrite D in R. discriminate.
  - exfalso. unfold defs_of in D. destruct (of_option (dir (str "toc.dat"))) as [toc| |]; cbn [bind] in D, R; try discriminate.
    destruct (get_table_def_strings toc) as [raws| |]; cbn [bind] in D, R; try discriminate. rewrite D in R. discriminate.
Qed.
(** C87: a Reader opened later on another dump, with the same temporary directory and the same table of contents, replaces the data
    of the earlier Reader: its elements() then yields the other dump, without an error. *)
Theorem C87_other_dump before between after tmp dir1 dir2 h1 h2 fs fs' :
  session (before ++ (tmp, dir1, Ok h1) :: between ++ (tmp, dir2, Ok h2) :: after) fs fs' -> dir1 (str "toc.dat") = dir2 (str "toc.dat") ->
  Forall (fun c => fst (fst c) <> tmp \/ snd (fst c) = dir2) after ->
  exists rd2, reader_new sort_file dir2 = Ok rd2 /\ elements_now unescape fs' h1 = elements unescape rd2.
Proof.
  intros S T F. apply session_app in S as (m & _ & S). inversion S as [|? ? ? ? ? m' ? O1 S']; subst. apply session_app in S' as (m2 & _ & S'). inversion S' as [|? ? ? ? ? m3 ? O2 S'']; subst.
  destruct (opened _ _ _ _ _ O1) as (defs1 & D1 & -> & _). destruct (opened _ _ _ _ _ O2) as (defs2 & D2 & -> & G).
  assert (defs_of dir1 = defs_of dir2) as E by (unfold defs_of; rewrite T; reflexivity). rewrite E, D2 in D1. injection D1 as <-.
  destruct (session_keeps tmp dir2 defs2 after D2 _ _ S'' F G) as (X & _). apply now_is; auto.
Qed.
End Tmp.
