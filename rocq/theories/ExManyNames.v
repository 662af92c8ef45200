(** Non-vacuity of C102_recorded_authors: a user who changes names between two closes. *)
From Coq Require Import ZArith List Bool Strings.Byte Strings.String Lia Permutation.
From Verif Require Import Base BaseFacts Types Model2 ApidbText ApidbSpec CalendarFacts ApidbTextFacts TileFacts DumpSpec ApidbWrite ApidbWriteFacts PropApidbWrite ApidbRead DumpReadSpec
  FileFormat ApidbReadFacts TocFacts JoinFacts ReaderFacts PropApidbRead PropDump RoundSpec RoundFacts PropRound PropRoundTrip PropLimits ExTools TocData PropToc ExApidb DumpStop StopSpec ResolveSpec PropResolve PropStop ExStop DumpCalls DumpCallsSpec PropDumpCalls ManyClosesSpec PropManyCloses PropManyNames ExManyCloses.
Import ListNotations.
Local Notation length := List.length.
Local Notation concat := List.concat.
Open Scope Z_scope.

(** user 7 is ann, then bob *)
Definition ex_renamed : node := Node 2 1 (at_grid (-900000000) 1800000000) 1600000000000 10 7 (str "bob") true [Tag (str "k") []].
Definition ex_two_names : list dcall := [DElement (ENode ex_n1); DClose; DElement (ENode ex_renamed); DClose].
Lemma ex_names_readable : readable ex_escape ex_unescape ex_clock [ENode ex_n1; ENode ex_renamed].
Proof.
  pose proof ex_storable as ST. rewrite Forall_forall in ST.
  assert (S1 : storable ex_escape ex_unescape (ENode ex_n1)) by (apply ST; cbn; auto 10). assert (S2 : storable ex_escape ex_unescape (ENode ex_n2)) by (apply ST; cbn; auto 10).
  unfold readable. sconj.
  - constructor; [exact S1|]. constructor; [exact S2|constructor].
  - unfold distinct_versions. sconj; repeat constructor; cbn; intuition discriminate.
  - repeat constructor; cbn; intuition discriminate.
  - intros i. pose proof (ex_clock_range i). unfold four_digit_year. lia.
Qed.
Example ex_names_incoherent : ~ coherent [ENode ex_n1; ENode ex_renamed].
Proof. intros (_ & O). specialize (O 7 ann (str "bob") ltac:(cbn; auto) ltac:(cbn; auto)). discriminate O. Qed.
(** both nodes come back, with the same of the two names *)
Example ex_one_of_two_names : exists w rd k s nodes ways rels name, dcalls ex_escape ex_order (fun _ => ex_clock) ex_lib 0 ex_two_names ApidbWrite.writer_new = Ok w /\
  ApidbRead.reader_new ex_sort (ex_directory (files w)) = Ok rd /\ ApidbRead.elements ex_unescape rd = Ok (k, s) /\
  run (element_next k) s (nodes ++ [ESentinel] ++ ways ++ [ESentinel] ++ rels ++ [ESentinel]) Ended /\
  (name = ann \/ name = str "bob") /\ users_in nodes = [(7, name); (7, name)].
Proof.
  assert (X : match dcalls ex_escape ex_order (fun _ => ex_clock) ex_lib 0 ex_two_names ApidbWrite.writer_new with Ok w => true | _ => false end = true) by (vm_compute; reflexivity).
  destruct (dcalls ex_escape ex_order (fun _ => ex_clock) ex_lib 0 ex_two_names ApidbWrite.writer_new) as [w| |] eqn:W; [|discriminate X|discriminate X]. clear X.
  destruct (C102_recorded_authors ex_escape ex_unescape ex_order ex_lib ex_any_order (fun _ => ex_clock) ex_sort ex_sorts ex_markers_ignored ex_two_names w (ex_directory (files w)))
    as (us & cs & rd & k & s & nodes & ways & rels & (NU & _ & RU) & (NC & _ & RC) & A & B & C & (ns & P & _ & F) & _).
  - intros _. exact ex_names_readable.
  - exists [DElement (ENode ex_n1); DClose; DElement (ENode ex_renamed)]. reflexivity.
  - exact W.
  - apply ex_directory_ok.
  - assert (ONE : forall (l : list (Z * bytes)) u a b, NoDup (map fst l) -> In (u, a) l -> In (u, b) l -> a = b).
    { induction l as [|(k0, v) l IH]; intros u a b N I J; [destruct I|]. cbn [map fst] in N. inversion N as [|? ? N1 N2]; subst.
      destruct I as [I|I], J as [J|J]; [congruence|injection I as -> ->; destruct N1; apply in_map_iff; exists (u, b); auto|injection J as -> ->; destruct N1; apply in_map_iff; exists (u, a); auto|eauto]. }
    assert (IN : forall V (of : list element -> list (Z * V)) k0 v l, (forall a b, of (a ++ b) = of a ++ of b) ->
      (forall k v, In (k, v) l -> exists before after, fst (sections ex_two_names) = before ++ after /\ before <> [] /\ most_recent (of (concat before)) k v) -> In (k0, v) l -> In (k0, v) (of [ENode ex_n1; ENode ex_renamed])).
    { intros V of k0 v l FA R I. destruct (R _ _ I) as (bf & af & E & _ & M). replace [ENode ex_n1; ENode ex_renamed] with (concat (fst (sections ex_two_names))) by reflexivity.
      rewrite E, concat_app, FA. apply in_or_app. left. apply recent_in; auto. }
    assert (ALL : forall n e, In n ns -> node_as cs us n e -> exists name, In (7, name) us /\ users_in [e] = [(7, name)]).
    { intros n e I (uid & name & tags & J1 & J2 & _ & ->). eapply (IN _ changesets_in) in J1; [|intros; apply flat_map_app|exact RC]. cbn in J1.
      assert (uid = 7) as -> by (destruct J1 as [J1|[J1|[]]]; congruence). exists name. split; auto. }
    assert (L : length ns = 2%nat) by (rewrite (Permutation_length P); reflexivity).
    destruct F as [|n1 e1 ns1 es1 X1 F]; [discriminate L|]. destruct F as [|n2 e2 ns2 es2 X2 F]; [discriminate L|]. destruct F as [|n3 e3 ns3 es3 X3 F]; [|discriminate L].
    destruct (ALL n1 e1 ltac:(left; reflexivity) X1) as (m1 & I1 & U1). destruct (ALL n2 e2 ltac:(right; left; reflexivity) X2) as (m2 & I2 & U2).
    rewrite (ONE us 7 m2 m1 NU I2 I1) in U2. exists w, rd, k, s, [e1; e2], ways, rels, m1. sconj; auto.
    + eapply (IN _ users_in) in I1; [|intros; apply flat_map_app|exact RU]. cbn in I1. destruct I1 as [I1|[I1|[]]]; injection I1 as <-; auto.
    + change [e1; e2] with ([e1] ++ [e2]). unfold users_in in *. rewrite flat_map_app, U1, U2. reflexivity.
Qed.
