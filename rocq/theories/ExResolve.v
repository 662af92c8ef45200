(** Non-vacuity for C76: a dump whose users table has lost a row. *)
From Coq Require Import ZArith List Bool Strings.Byte Strings.String Lia Permutation.
From Verif Require Import Base BaseFacts Types Model2 ApidbText ApidbSpec CalendarFacts ApidbTextFacts TileFacts DumpSpec ApidbWrite ApidbWriteFacts PropApidbWrite ApidbRead DumpReadSpec
  FileFormat ApidbReadFacts TocFacts JoinFacts ReaderFacts PropApidbRead PropDump RoundSpec RoundFacts PropRound PropRoundTrip PropLimits ExTools TocData PropToc ExApidb ResolveSpec PropResolve.
Import ListNotations.
Local Notation length := List.length.
Local Notation concat := List.concat.
Open Scope Z_scope.

Definition ex_first : list element := [ENode ex_n3].
Lemma ex_first_readable : readable ex_escape ex_unescape ex_clock ex_first.
Proof.
  pose proof ex_readable as (S & _ & _ & CK). unfold readable. sconj; auto.
  - unfold ex_stream in S. unfold ex_first. inversion S; subst. constructor; auto.
  - unfold distinct_versions. sconj; repeat constructor; cbn; intuition discriminate.
  - unfold ex_first. repeat constructor; cbn; intuition discriminate.
Qed.
Lemma F2_cons {A B} (R : A -> B -> Prop) a l m : Forall2 R (a :: l) m -> exists b m', m = b :: m' /\ R a b /\ Forall2 R l m'.
Proof. intros H. inversion H; subst. eauto. Qed.
(** the users table of a dump of the first node only: user 8 is there, user 7 is not *)
Example ex_lost_user : exists dir d, dump_in ex_unescape dir d /\ primary_keys d /\
  unknown_author d (ANode (node_record ex_n1)) /\ (exists name, author d (n_changeset ex_n3) 8 name) /\
  forall items l o, items_of d items -> read_until d items l o -> o = Panicked /\ (exists x, l = [ENode x] /\ n_id x = -3) /\ exists rest, items = map ANode (map node_record [ex_n3; ex_n1; ex_n1'; ex_n2]) ++ rest.
Proof.
  destruct ex_dump as (w & W). assert (exists w', ApidbWrite.dump ex_escape ex_order ex_clock ex_lib ex_first = Ok w') as (w' & W').
  { apply (proj1 (C55_dump_total _ _ _ _ ex_clock_ok _)). unfold ex_first. pose proof ex_dumpable as X. unfold ex_stream in X.
    inversion X; subst. constructor; auto. }
  set (fs := fun t => match t with T_users => files w' T_users | _ => files w t end).
  destruct (written_tables _ _ _ _ _ ex_any_order _ _ W ex_readable) as (us & cs & n & U1 & U2 & C1 & C2 & RES & CR & TS).
  destruct (written_tables _ _ _ _ _ ex_any_order _ _ W' ex_first_readable) as (us' & cs' & n' & U1' & U2' & _ & _ & RES' & _ & TS').
  set (d := written ex_clock ex_stream us cs n). set (d' := written ex_clock ex_first us' cs' n').
  set (dd := Dump (d_nodes d) (d_node_tags d) (d_ways d) (d_way_nodes d) (d_way_tags d) (d_relations d) (d_members d) (d_relation_tags d) (d_changesets d) (d_users d')).
  exists (ex_directory fs), dd.
  assert (map cr_id (d_changesets d) = map fst cs) as MC.
  { cbn [d written d_changesets]. rewrite map_map. cbn [changeset_record cr_id]. rewrite <- (combine_snd (seq n (length cs)) cs) at 3 by apply seq_length. rewrite map_map. reflexivity. }
  assert (map (fun c => (cr_id c, cr_user c)) (d_changesets d) = cs) as MU.
  { cbn [d written d_changesets]. rewrite map_map. cbn [changeset_record cr_id cr_user]. transitivity (map snd (combine (seq n (length cs)) cs)); [|apply combine_snd, seq_length]. apply map_ext. intros (a, (b, c)). reflexivity. }
  assert (map ur_id (d_users d') = map fst us') as MI by (cbn [d' written d_users]; rewrite map_map; reflexivity).
  assert (forall c uid name, author dd c uid name -> In (c, uid) cs /\ In uid (map fst us')) as AU.
  { intros c uid name (cr & ur & I1 & I2 & E1 & E2 & E3 & E4). cbn [dd d_changesets d_users] in I1, I2. split.
    - rewrite <- MU. apply in_map_iff. exists cr. split; [congruence|auto].
    - rewrite <- MI. apply in_map_iff. exists ur. split; [congruence|auto]. }
  assert (forall uid, In uid (map fst us') -> uid = 8) as U8.
  { intros uid I. apply in_map_iff in I as ((u, nm) & <- & I). apply U2', recent_in in I. cbn in I. destruct I as [I|[]]. injection I as <- _. reflexivity. }
  assert (forall uid, In (10, uid) cs -> uid = 7) as C10.
  { intros uid I. apply C2, recent_in in I. cbn in I. intuition congruence. }
  assert (forall uid, In (11, uid) cs -> uid = 8) as C11.
  { intros uid I. apply C2, recent_in in I. cbn in I. intuition congruence. }
  assert (unknown_author dd (ANode (node_record ex_n1))) as UA.
  { exists 10. split; [reflexivity|]. intros uid name A. apply AU in A as (A & B). apply C10 in A. apply U8 in B. lia. }
  assert (exists name, author dd 11 8 name) as (nm & KA).
  { destruct (RES (ENode ex_n3)) as (c & uid & uid' & nm & nm' & E & J & _); [left; reflexivity|discriminate|]. injection E as <- _.
    pose proof (C11 _ J) as ->. rewrite <- MU in J. apply in_map_iff in J as (cr & E & J). injection E as E1 E2.
    destruct (RES' (ENode ex_n3)) as (c & uid2 & uid3 & nm2 & nm3 & E & _ & K & _); [left; reflexivity|discriminate|]. injection E as _ <-.
    exists nm2. exists cr, (UserRec 8 nm2). sconj; auto. cbn [dd d' written d_users]. apply in_map_iff. exists (8, nm2). split; [reflexivity|exact K]. }
  sconj.
  - pose proof C54_shipped_toc as (SD & _). destruct SD as (entries & cat & TT & ND & F2 & IC).
    exists shipped_toc, entries, cat. destruct (TS (ex_directory fs) cat IC) as (T1 & T2 & T3 & T4 & T5 & T6 & T7 & T8 & T9 & T10).
    destruct (TS' (ex_directory fs) cat IC) as (_ & _ & _ & _ & _ & _ & _ & _ & _ & N10).
    cbn [dd d_nodes d_node_tags d_ways d_way_nodes d_way_tags d_relations d_members d_relation_tags d_changesets d_users].
    sconj; auto; first [apply ex_directory_toc|apply N10|apply T1|apply T2|apply T3|apply T4|apply T5|apply T6|apply T7|apply T8|apply T9]; try apply ex_directory_table.
  - unfold primary_keys. cbn [dd d_nodes d_ways d_relations d_changesets d_users]. rewrite MC, MI. sconj.
    1-3: repeat constructor; cbn; intuition discriminate.
    all: apply increasing_NoDup; assumption.
  - exact UA.
  - exists nm. exact KA.
  - intros items l o (ns & ws & rs & P1 & O1 & _ & _ & _ & _ & ->).
    assert (map node_record [ex_n3; ex_n1; ex_n1'; ex_n2] = ns) as <-.
    { apply (perm_strict (fun a b => key_lt (node_key a) (node_key b))); auto.
      + intros a. unfold key_lt. cbn. lia.
      + intros a b c. unfold key_lt. cbn. lia.
      + apply Permutation_sym. exact P1.
      + cbn [ordered map]. sconj; try exact I; repeat apply Forall_cons; try apply Forall_nil; unfold key_lt; cbn; lia. }
    assert (forall e, ~ item_element dd (ANode (node_record ex_n1)) e) as NE.
    { intros e (uid & name & ts & v & u & A & _). destruct UA as (c & E & UA). injection E as <-. eapply UA, A. }
    intros [(_ & F)|(-> & before & i & after & E & F & (c & CE & UN))].
    { exfalso. cbn [map app] in F. apply F2_cons in F as (e0 & l0 & _ & _ & F). apply F2_cons in F as (e1 & l1 & _ & F & _). exact (NE _ F). }
    split; [reflexivity|]. split; [|eexists; reflexivity]. destruct before as [|b0 before]; cbn [map app] in E.
    { injection E as <- _. exfalso. cbn [changeset_of] in CE. injection CE as <-. exact (UN _ _ KA). }
    injection E as <- E. apply F2_cons in F as (e0 & l0 & -> & F0 & F). destruct before as [|b1 before]; cbn [app] in E.
    { inversion F. destruct F0 as (uid & name & ts & v & u & _ & _ & _ & _ & ->). eexists. split; reflexivity. }
    injection E as <- _. exfalso. apply F2_cons in F as (e1 & l1 & _ & F & _). exact (NE _ F).
Qed.
