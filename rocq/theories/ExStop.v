(** Non-vacuity of C80: a dump whose writer is stopped while it closes the table files, after that of users. *)
From Coq Require Import ZArith List Bool Strings.Byte Strings.String Lia Permutation.
From Verif Require Import Base BaseFacts Types Model2 ApidbText ApidbSpec CalendarFacts ApidbTextFacts TileFacts DumpSpec ApidbWrite ApidbWriteFacts PropApidbWrite ApidbRead DumpReadSpec
  FileFormat ApidbReadFacts TocFacts JoinFacts ReaderFacts PropApidbRead PropDump RoundSpec RoundFacts PropRound PropRoundTrip PropLimits ExTools TocData PropToc ExApidb DumpStop StopSpec ResolveSpec PropResolve PropStop.
Import ListNotations.
Local Notation length := List.length.
Local Notation concat := List.concat.
Local Notation append := ApidbWrite.append.
Open Scope Z_scope.

Lemma lines_whole u s : lines_of (u ++ x0a :: s) = lines_of (u ++ [x0a]) ++ lines_of s.
Proof.
  induction u as [|b u IH]; [reflexivity|]. cbn [app lines_of]. destruct (Byte.eqb b x0a); [cbn [app]; rewrite IH; reflexivity|]. rewrite IH.
  assert (lines_of (u ++ [x0a]) <> []) as N by (clear; destruct u as [|b u]; cbn [app lines_of]; [discriminate|]; destruct (Byte.eqb b x0a); [discriminate|]; destruct (lines_of (u ++ [x0a])); discriminate).
  destruct (lines_of (u ++ [x0a])); [congruence|reflexivity].
Qed.
Example ex_sorts_nothing : sorts_nothing ex_sort.
Proof. intros key s E. injection E as <-. reflexivity. Qed.
Example ex_marker_ignored : marker_ignored ex_sort.
Proof.
  intros key data W. unfold ex_sort. f_equal. f_equal. f_equal. destruct W as [->|(u & ->)]; [reflexivity|].
  rewrite <- app_assoc. change ([x0a] ++ str "\." ++ [x0a]) with (x0a :: (str "\." ++ [x0a])). rewrite lines_whole, filter_app. apply app_nil_r.
Qed.

(** stopped before anything reached the disk: all files empty *)
Example ex_early : exists rd k s, ApidbRead.reader_new ex_sort (ex_directory (fun _ => [])) = Ok rd /\ ApidbRead.elements ex_unescape rd = Ok (k, s) /\
  forall l o, run (element_next k) s l o -> Forall (eq ESentinel) l.
Proof.
  assert (stage ex_escape ex_order ex_clock ex_lib ex_stream Writing ApidbWrite.writer_new []) as ST by (apply (st_writing _ _ _ _ _ [] ex_stream); reflexivity).
  assert (on_disk ApidbWrite.writer_new [] (fun _ => [])) as OD by (split; [intros t; exists []; reflexivity|intros t []]).
  assert (leaves (fun _ => []) (ex_directory (fun _ => []))) as LV by (split; [exists shipped_toc; split; [apply ex_directory_toc|exact (proj1 C54_shipped_toc)]|apply ex_directory_table]).
  destruct ex_dump as (w' & W').
  destruct (C80_rows_on_disk ex_escape ex_unescape ex_order ex_clock ex_lib ex_any_order ex_sort ex_sorts ex_marker_ignored _ _ _ _ _ _ _ ST W' ex_readable OD ltac:(intros; left; reflexivity) LV)
    as (us & cs & ck & _ & rd & k & s & items & l0 & o0 & E1 & E2 & _).
  exists rd, k, s. sconj; auto. intros l o R. exact (C80_nothing_early ex_sort ex_escape ex_order ex_clock ex_lib ex_unescape _ _ _ _ _ _ ex_sorts_nothing ST (or_introl eq_refl) OD LV _ _ _ _ _ E1 E2 R).
Qed.

(** stopped after users was closed, with nothing of the other files on disk: the way is gone, and reading does not notice *)
Definition upto_users : list table := firstn 50 all_tables.
Example ex_upto : In T_users upto_users /\ existsb (table_eqb T_ways) upto_users = false. Proof. split; [vm_compute; tauto|vm_compute; reflexivity]. Qed.
Definition cut (w : ApidbWrite.writer) (t : table) : bytes := if existsb (table_eqb t) upto_users then files w t else [].
Example ex_lost_way : exists w rd k s l,
  stage ex_escape ex_order ex_clock ex_lib ex_stream Closing w upto_users /\
  ApidbRead.reader_new ex_sort (ex_directory (cut w)) = Ok rd /\ ApidbRead.elements ex_unescape rd = Ok (k, s) /\ run (element_next k) s l Ended /\
  length (nodes_in l) = 4%nat /\ length (relations_in l) = 1%nat /\ ways_in l = [] /\ ways_in ex_stream = [ex_w].
Proof.
  destruct ex_dump as (w' & W'). destruct (dump_parts _ _ _ _ _ _ W') as (w0 & w1 & w2 & E0 & E1 & E2 & _).
  set (w := fold_left (fun w t => append t terminator w) upto_users w2).
  assert (stage ex_escape ex_order ex_clock ex_lib ex_stream Closing w upto_users) as ST.
  { eapply (st_closing _ _ _ _ _ w0 w1 w2 upto_users [] (skipn 50 all_tables)); auto. }
  assert (forall t, existsb (table_eqb t) upto_users = true <-> In t upto_users) as X.
  { intros t. rewrite existsb_exists. split; [intros (x & J & Y); apply table_eqb_eq in Y; subst; auto|intros J; exists t; split; auto; apply table_eqb_eq; auto]. }
  assert (on_disk w upto_users (cut w)) as OD.
  { split; intros t; unfold cut; [destruct (existsb (table_eqb t) upto_users); [exists []; rewrite app_nil_r; reflexivity|eexists; reflexivity]|]. intros I. rewrite (proj2 (X t) I). reflexivity. }
  assert (forall t, whole_rows (cut w t)) as W.
  { intros t. unfold cut. destruct (existsb (table_eqb t) upto_users) eqn:E; [|left; auto]. right. apply close_marks. apply X. exact E. }
  assert (leaves (cut w) (ex_directory (cut w))) as LV by (split; [exists shipped_toc; split; [apply ex_directory_toc|exact (proj1 C54_shipped_toc)]|apply ex_directory_table]).
  destruct (C80_silent_loss ex_escape ex_unescape ex_order ex_clock ex_lib ex_any_order ex_sort ex_sorts ex_marker_ignored _ _ _ _ _ _ _ ST W' ex_readable OD W LV (proj1 ex_upto))
    as (rd & k & s & l & R1 & R2 & R3 & N1 & N2 & N3).
  exists w, rd, k, s, l. sconj; auto. replace (cut w T_ways) with (@nil byte) in N3 by reflexivity. apply length_zero_iff_nil. exact N3.
Qed.
