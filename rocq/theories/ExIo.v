(** Non-vacuity of C82: programs on a disk that fails. *)
From Coq Require Import ZArith List Bool Strings.Byte Strings.String Lia.
From Verif Require Import Base BaseFacts Types Proto ProtoFacts Block BlockFacts FloatFacts Spec SpecFacts BlockRead PropBlock ExBlock.
From Verif Require Import FileFormat FileFacts WriterFacts FileSpec PropFile ExFile CallSpec Calls PropCalls ExCalls PropPipelines Pool ParallelSpec ParallelRead ExParallelRead LowCalls LowSpec PropLow ExLow IoCalls IoSpec PropIo.
Import ListNotations.
Open Scope Z_scope.
Local Notation length := List.length.

(** header, two nodes, a way (writes the nodes), close; the disk refuses [d] for the nodes; the program goes on, and closes twice *)
Definition ex_io (d d' : outcome) : list (lcall * outcome) :=
  [(LHeader, Written); (LElement (ENode ex_node1), Written); (LElement (ENode ex_node2), Written); (LElement (EWay ex_way), d); (LClose, d'); (LClose, Written)].
Lemma ex_io_ok m k d d' : Forall (low_ok m ex_codec k ex_info) (map fst (ex_io d d')).
Proof.
  cbn [ex_io map fst]. constructor; [split; [exact ex_info_ok|split; [discriminate|apply ex_info_fits]]|]. constructor; [exact ex_node1_ok|]. constructor; [exact ex_node2_ok|]. constructor; [exact ex_way_ok|].
  constructor; [exact I|]. constructor; [exact I|constructor].
Qed.
Lemma ex_io_fit m k d d' : low_fit m ex_codec k (map fst (ex_io d d')).
Proof. intros stream W _. apply no_sentinels_spec in W. subst stream. apply pieces_fit. destruct m, k; vm_compute; reflexivity. Qed.
(** the nodes fail: the file is in order and has the way only, and all later calls return Ok *)
Example ex_nodes_lost m k : exists file, io_file m ex_codec ex_info k (ex_io (Broken 0) Written) = Ok (file, [true; true; true; false; true; true]).
Proof. destruct m, k; eexists; vm_compute; reflexivity. Qed.
Example ex_nodes_lost_laid : laid_io ex_info (report (ex_io (Broken 0) Written) [true; true; true; false; true; true])
  [PHeader ex_info; PData [EWay ex_way]] [PData [ENode ex_node1; ENode ex_node2]] [] KWay.
Proof.
  pose proof (lio_nothing ex_info) as L.
  eapply lio_written in L; [|apply ef_header]. eapply lio_quiet in L; [|apply (ef_pending _ _ _ (ENode ex_node1)); [eexists; reflexivity|reflexivity]].
  eapply lio_quiet in L; [|apply (ef_pending _ _ _ (ENode ex_node2)); [eexists; reflexivity|reflexivity]].
  eapply lio_failed in L; [|apply (ef_next _ _ _ KWay (EWay ex_way)); [left; auto|eexists; reflexivity]].
  eapply lio_written in L; [|apply ef_close; discriminate]. eapply lio_quiet in L; [|apply ef_close_nothing]. exact L.
Qed.
(** so reading it gives a header and one block with the way *)
Example ex_nodes_lost_reads m k : exists file i' got w', io_file m ex_codec ex_info k (ex_io (Broken 0) Written) = Ok (file, [true; true; true; false; true; true]) /\
  reader_new m ex_codec file = Ok i' /\ elements_run m ex_codec file got Ended /\ got = [EWay w'].
Proof.
  destruct (ex_nodes_lost m k) as (file & F).
  destruct (C82_goes_on m ex_codec ex_info k (ex_io (Broken 0) Written) file [true; true; true; false; true; true] ex_codec_ok) as (parts & lost & p & kd & L & blks & R & F2).
  - unfold ex_io, clean. repeat (constructor; [cbn; auto|]). constructor.
  - apply ex_io_ok.
  - apply ex_io_fit.
  - exact F.
  - destruct (C82_laid_unique _ _ _ _ _ _ _ _ _ _ L ex_nodes_lost_laid) as (-> & _). destruct (C81_reading m ex_codec file _ blks R F2) as (A & _).
    destruct (A _ _ eq_refl) as (i' & got & X & _ & Y & Z). { apply find_missing_iff. vm_compute. reflexivity. }
    inversion Z as [|? e ? r W Z']; subst. inversion Z'; subst. destruct e as [n|w|r0|]; cbn in W; try contradiction. exists file, i', [EWay w], w. auto.
Qed.
(** close fails and is called again: Ok, and the way is lost *)
Example ex_close_again m k : exists file, io_file m ex_codec ex_info k (ex_io Written (Broken 0)) = Ok (file, [true; true; true; true; false; true]).
Proof. destruct m, k; eexists; vm_compute; reflexivity. Qed.
(** a write that leaves 20 bytes behind: the calls after it return Ok, and reading the file panics behind the header *)
Example ex_torn m k : exists file, io_file m ex_codec ex_info k (ex_io (Broken 20) Written) = Ok (file, [true; true; true; false; true; true]) /\
  exists b, run (fb_next m ex_codec file) bit_new [b] Panicked.
Proof.
  assert (G : match io_file m ex_codec ex_info k (ex_io (Broken 20) Written) with
     | Ok (file, oks) => match oks with [true; true; true; false; true; true] => match fb_next m ex_codec file bit_new with Ok (Some b, s) => match fb_next m ex_codec file s with Panic => true | _ => false end | _ => false end | _ => false end
     | _ => false end = true) by (destruct m, k; vm_compute; reflexivity).
  destruct (io_file m ex_codec ex_info k (ex_io (Broken 20) Written)) as [(file & oks)| |]; try discriminate G. exists file.
  destruct oks as [|[|] [|[|] [|[|] [|[|] [|[|] [|[|] [|]]]]]]]; try discriminate G. split; [reflexivity|].
  destruct (fb_next m ex_codec file bit_new) as [([b|] & s)| |] eqn:E; try discriminate G. destruct (fb_next m ex_codec file s) as [| |] eqn:E2; try discriminate G.
  exists b. econstructor; [exact E|constructor; exact E2].
Qed.
(** the hypotheses of the other theorems: a program that stops at the failing call *)
Example ex_stops m k : exists file before after, io_file m ex_codec ex_info k (firstn 4 (ex_io (Broken 20) Written)) = Ok (file, [true; true; true] ++ [false]) /\
  low_file m ex_codec ex_info k [LHeader; LElement (ENode ex_node1); LElement (ENode ex_node2)] = Ok before /\
  low_file m ex_codec ex_info k [LHeader; LElement (ENode ex_node1); LElement (ENode ex_node2); LElement (EWay ex_way)] = Ok after /\ prefix before file /\ prefix file after /\ before <> file /\ file <> after.
Proof.
  assert (OK := ex_io_ok m k (Broken 20) Written). assert (FIT := ex_io_fit m k (Broken 20) Written).
  assert (F : exists file, io_file m ex_codec ex_info k (firstn 4 (ex_io (Broken 20) Written)) = Ok (file, [true; true; true; false])) by (clear; destruct m, k; eexists; vm_compute; reflexivity).
  assert (G : match io_file m ex_codec ex_info k (firstn 4 (ex_io (Broken 20) Written)), low_file m ex_codec ex_info k [LHeader; LElement (ENode ex_node1); LElement (ENode ex_node2)],
      low_file m ex_codec ex_info k [LHeader; LElement (ENode ex_node1); LElement (ENode ex_node2); LElement (EWay ex_way)] with
    | Ok (file, _), Ok b, Ok a => ((length b <? length file) && (length file <? length a))%nat%bool | _, _, _ => true end = true) by (clear; destruct m, k; vm_compute; reflexivity).
  destruct F as (file & F). rewrite F in G.
  destruct (C82_stops m ex_codec ex_info k (firstn 3 (ex_io (Broken 20) Written)) (LElement (EWay ex_way)) (Broken 20) file [true; true; true] ex_codec_ok) as (before & after & parts & p & kd & q & p' & kd' & B & A & P1 & P2 & _).
  - cbn [firstn ex_io map fst app] in *. inversion OK as [|? ? O1 OK1]; subst. inversion OK1 as [|? ? O2 OK2]; subst. inversion OK2 as [|? ? O3 OK3]; subst. inversion OK3 as [|? ? O4 OK4]; subst. constructor; [exact O1|]. constructor; [exact O2|]. constructor; [exact O3|]. constructor; [exact O4|constructor].
  - unfold low_fit in *. cbn [firstn ex_io map fst app given flat_map] in *. exact FIT.
  - exact F.
  - repeat constructor.
  - cbn [firstn ex_io map fst app] in A, B. rewrite A, B in G. apply andb_prop in G as (G1 & G2). apply Nat.ltb_lt in G1, G2.
    exists file, before, after. sconj; auto; intros ->; lia.
Qed.
