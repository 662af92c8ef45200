(** Non-vacuity of C102: the elements of the example stream, written in three sections, the second of them empty. *)
From Coq Require Import ZArith List Bool Strings.Byte Strings.String Lia Permutation.
From Verif Require Import Base BaseFacts Types Model2 ApidbText ApidbSpec CalendarFacts ApidbTextFacts TileFacts DumpSpec ApidbWrite ApidbWriteFacts PropApidbWrite ApidbRead DumpReadSpec
  FileFormat ApidbReadFacts TocFacts JoinFacts ReaderFacts PropApidbRead PropDump RoundSpec RoundFacts PropRound PropRoundTrip PropLimits ExTools TocData PropToc ExApidb DumpStop StopSpec ResolveSpec PropResolve PropStop ExStop DumpCalls DumpCallsSpec PropDumpCalls ManyClosesSpec PropManyCloses.
Import ListNotations.
Local Notation length := List.length.
Local Notation concat := List.concat.
Open Scope Z_scope.

Example ex_markers_ignored : markers_ignored ex_sort.
Proof.
  intros key a b W. unfold ex_sort. f_equal. f_equal. f_equal. destruct W as [->|(u & ->)]; [reflexivity|].
  assert (L : forall c, lines_of ((u ++ [x0a]) ++ c) = lines_of (u ++ [x0a]) ++ lines_of c) by (intros c; rewrite <- app_assoc; apply lines_whole).
  rewrite !L, !filter_app. f_equal.
Qed.
Definition ex_closings : list dcall := map DElement (firstn 3 ex_stream) ++ [DClose; DClose] ++ map DElement (skipn 3 ex_stream) ++ [DClose].
Example ex_closings_read : exists w w1 rd k s nodes ways rels, dcalls ex_escape ex_order (fun _ => ex_clock) ex_lib 0 ex_closings ApidbWrite.writer_new = Ok w /\
  ApidbWrite.dump ex_escape ex_order ex_clock ex_lib ex_stream = Ok w1 /\ files w T_nodes <> files w1 T_nodes /\ files w T_users <> files w1 T_users /\
  ApidbRead.reader_new ex_sort (ex_directory (files w)) = Ok rd /\ ApidbRead.elements ex_unescape rd = Ok (k, s) /\
  run (element_next k) s (nodes ++ [ESentinel] ++ ways ++ [ESentinel] ++ rels ++ [ESentinel]) Ended /\
  length nodes = 4%nat /\ length ways = 1%nat /\ length rels = 1%nat.
Proof.
  assert (E : concat (fst (sections ex_closings)) = ex_stream) by reflexivity.
  assert (X : match dcalls ex_escape ex_order (fun _ => ex_clock) ex_lib 0 ex_closings ApidbWrite.writer_new, ApidbWrite.dump ex_escape ex_order ex_clock ex_lib ex_stream with
    | Ok w, Ok w1 => negb (bytes_eqb (files w T_nodes) (files w1 T_nodes)) && negb (bytes_eqb (files w T_users) (files w1 T_users)) | _, _ => false end = true) by (vm_compute; reflexivity).
  destruct (dcalls ex_escape ex_order (fun _ => ex_clock) ex_lib 0 ex_closings ApidbWrite.writer_new) as [w| |] eqn:W; [|discriminate X|discriminate X].
  destruct (ApidbWrite.dump ex_escape ex_order ex_clock ex_lib ex_stream) as [w1| |] eqn:W1; [|discriminate X|discriminate X]. rename X into N.
  apply andb_prop in N as (N1 & N2). apply negb_true_iff in N1, N2.
  assert (NE : forall a b, bytes_eqb a b = false -> a <> b) by (intros a b X Y; apply bytes_eqb_eq in Y; rewrite Y in X; discriminate X).
  destruct (C102_exact ex_escape ex_unescape ex_order ex_lib ex_any_order (fun _ => ex_clock) ex_sort ex_sorts ex_markers_ignored ex_closings w (ex_directory (files w)))
    as (rd & k & s & nodes & ways & rels & ns & ws & rs & A & B & C & P1 & _ & E1 & P2 & _ & E2 & P3 & _ & E3).
  - intros _. rewrite E. exact ex_readable.
  - rewrite E. exact ex_coherent.
  - exists (map DElement (firstn 3 ex_stream) ++ [DClose; DClose] ++ map DElement (skipn 3 ex_stream)). reflexivity.
  - exact W.
  - apply ex_directory_ok.
  - rewrite E. exact ex_representable.
  - exists w, w1, rd, k, s, nodes, ways, rels. sconj; auto.
    + rewrite <- (F2_length _ _ _ E1), map_length, (Permutation_length P1). reflexivity.
    + rewrite <- (F2_length _ _ _ E2), map_length, (Permutation_length P2). reflexivity.
    + rewrite <- (F2_length _ _ _ E3), map_length, (Permutation_length P3). reflexivity.
Qed.
