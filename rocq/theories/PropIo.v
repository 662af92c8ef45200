(** Property C82: a sequential writer on a disk that fails. *)
From Coq Require Import ZArith List Bool Strings.Byte Strings.String Lia Permutation.
From Verif Require Import Base BaseFacts Types Proto ProtoFacts Block BlockFacts BlockRead Model2 ModelFacts PropBlock.
From Verif Require Import Spec SpecFacts FileFormat FileFacts WriterFacts FileSpec PropFile CallSpec Calls PropCalls PropPipelines LowCalls LowSpec PropLow IoCalls IoSpec.
Import ListNotations.
Local Notation length := List.length.
Local Notation concat := List.concat.
Open Scope Z_scope.

Definition with_file (w : writer) (f : bytes) : writer := Writer (wr_info w) (wr_comp w) f (wr_acc w).
Lemma block_io_spec m c w b d w1 ok : block_io m c w b d = Ok (w1, ok) <->
  exists w2 new, write_file_block m c w b = Ok w2 /\ new <> [] /\ wr_file w2 = wr_file w ++ new /\
    match d with Written => w1 = w2 /\ ok = true | Broken n => w1 = with_file w2 (wr_file w ++ firstn n new) /\ ok = false end.
Proof.
  unfold block_io, write_file_block. destruct (fblock_serialize m c (wr_comp w) b) as [hb| |]; cbn [bind]; [|split; [discriminate|intros (? & ? & X & _); discriminate X]..].
  destruct d as [|n]; cbn [blob_io].
  - split.
    + intros [= <- <-]. eexists _, (write_blob hb). split; [reflexivity|]. cbn [wr_file]. split; [discriminate|auto].
    + intros (w2 & new & [= <-] & _ & _ & -> & ->). reflexivity.
  - split.
    + intros [= <- <-]. eexists _, (write_blob hb). split; [reflexivity|]. cbn [wr_file]. split; [discriminate|auto].
    + intros (w2 & new & [= <-] & _ & E & -> & ->). cbn [wr_file] in E. apply app_inv_head in E. subst new. reflexivity.
Qed.
(** a call on a disk that can fail, and the same call on a disk that does not *)
Lemma io_call_spec m c w x d w1 ok : match x with LBlob _ _ => False | _ => True end -> io_call m c w x d = Ok (w1, ok) ->
  exists w2 new, do_lcall m c w x = Ok w2 /\ wr_file w2 = wr_file w ++ new /\
    ((ok = true /\ w1 = w2 /\ (d = Written \/ new = [])) \/ (ok = false /\ new <> [] /\ exists n, d = Broken n /\ w1 = with_file w2 (wr_file w ++ firstn n new))).
Proof.
  intros X H.
  assert (B : forall w b, wr_file w = wr_file w -> block_io m c w b d = Ok (w1, ok) -> exists w2 new, write_file_block m c w b = Ok w2 /\ wr_file w2 = wr_file w ++ new /\
    ((ok = true /\ w1 = w2 /\ (d = Written \/ new = [])) \/ (ok = false /\ new <> [] /\ exists n, d = Broken n /\ w1 = with_file w2 (wr_file w ++ firstn n new)))).
  { clear. intros w b _ H. apply block_io_spec in H as (w2 & new & W & NE & F & D). exists w2, new. split; auto. split; auto. destruct d; destruct D as (-> & ->); [left; auto|right; eauto]. }
  assert (N : forall a, Ok (Writer (wr_info w) (wr_comp w) (wr_file w) a, true) = Ok (w1, ok) -> wr_file w1 = wr_file w ++ [] /\ w1 = Writer (wr_info w) (wr_comp w) (wr_file w) a /\ ok = true).
  { intros a [= <- <-]. cbn. rewrite app_nil_r. auto. }
  destruct x as [e|es| | |b|hb bb]; cbn [io_call do_lcall] in *; unfold elements_io, write_element, write_elements, writer_close, write_header in *; try (apply B in H; auto; fail); [| |destruct X].
  - destruct (acc_add (wr_acc w) e) as [(o & a)| |]; try discriminate H. cbn [bind] in *. destruct o as [es|]; [apply B in H; auto|].
    apply N in H as (F & E & ->). exists w1, []. rewrite <- E. split; [auto|]. split; auto.
  - destruct (acc_elements (wr_acc w)) as [|e r]; [|apply B in H; auto]. apply N in H as (F & E & ->). exists w1, []. rewrite <- E. split; [auto|]. split; auto.
Qed.
Lemma io_calls_app m c c1 : forall w c2 w2 oks, io_calls m c w (c1 ++ c2) = Ok (w2, oks) <->
  exists w1 o1 o2, io_calls m c w c1 = Ok (w1, o1) /\ io_calls m c w1 c2 = Ok (w2, o2) /\ oks = o1 ++ o2.
Proof.
  induction c1 as [|(x, d) c1 IH]; intros w c2 w2 oks; cbn [app io_calls].
  - split; [intros H; eexists _, _, _; eauto|]. intros (w1 & o1 & o2 & [= <- <-] & H & ->). exact H.
  - destruct (io_call m c w x d) as [(w' & ok)| |]; cbn [bind]; [|split; [discriminate|intros (? & ? & ? & X & _); discriminate X]..]. split.
    + intros H. destruct (io_calls m c w' (c1 ++ c2)) as [(w'' & oks')| |] eqn:E; try discriminate H. cbn [bind] in H. injection H as <- <-.
      apply IH in E as (w1 & o1 & o2 & E1 & E2 & ->). rewrite E1. cbn [bind]. eexists _, _, _. split; [reflexivity|]. split; [exact E2|reflexivity].
    + intros (w1 & o1 & o2 & E1 & E2 & ->). destruct (io_calls m c w' c1) as [(w'' & oks')| |] eqn:E; try discriminate E1. cbn [bind] in E1. injection E1 as <- <-.
      assert (G : io_calls m c w' (c1 ++ c2) = Ok (w2, oks' ++ o2)) by (apply IH; eexists _, _, _; eauto). rewrite G. reflexivity.
Qed.
Lemma io_calls_length m c cs : forall w w' oks, io_calls m c w cs = Ok (w', oks) -> length oks = length cs.
Proof.
  induction cs as [|(x, d) cs IH]; intros w w' oks H; cbn [io_calls] in H; [injection H as <- <-; reflexivity|].
  destruct (io_call m c w x d) as [(w1 & ok)| |]; try discriminate H. cbn [bind] in H. destruct (io_calls m c w1 cs) as [(w2 & o2)| |] eqn:E; try discriminate H. cbn [bind] in H. injection H as <- <-.
  cbn. rewrite (IH _ _ _ E). reflexivity.
Qed.

Lemma combine_snoc {A B} (a : list A) (b : list B) x y : length a = length b -> combine (a ++ [x]) (b ++ [y]) = combine a b ++ [(x, y)].
Proof. revert b. induction a as [|u a IH]; intros [|v b] L; cbn in *; try discriminate L; auto. rewrite IH; auto. Qed.
Lemma io_inv m c i k cs : codec_ok c -> Forall (fun xd => clean (snd xd)) cs -> Forall (low_ok m c k i) (map fst cs) -> low_fit m c k (map fst cs) ->
  forall w oks, io_calls m c (writer_new i k) cs = Ok (w, oks) ->
  st_inv i k (given (map fst cs)) w /\
  exists ps lost l blks, laid_io i (report cs oks) ps lost (acc_elements (wr_acc w)) (kind_st (acc_st (wr_acc w))) /\ wr_file w = frames_bytes l /\ Forall frame_ok l /\
    frames_decode m c 0 l blks /\ Forall2 part_reads ps blks.
Proof.
  intros C. induction cs as [|(x, d) cs IH] using rev_ind; intros CL OK FIT w oks H.
  - cbn in H. injection H as <- <-. split; [apply st_inv_new|]. exists [], [], [], []. sconj; try constructor.
  - rewrite map_app in *. cbn [map fst] in *. apply Forall_app in CL as (CL & CX). apply Forall_inv in CX. cbn [snd] in CX.
    apply Forall_app in OK as (OK & OX). apply Forall_inv in OX. change (stream_fit m c k (given (map fst cs ++ [x]))) in FIT. rewrite given_app in *.
    apply io_calls_app in H as (w0 & o1 & o2 & H0 & H1 & ->). cbn [io_calls] in H1. destruct (io_call m c w0 x d) as [(w1 & ok)| |] eqn:H2; try discriminate H1. cbn [bind] in H1. injection H1 as <- <-.
    destruct (IH CL OK (stream_fit_less _ _ _ _ _ FIT) _ _ H0) as (I & ps & lost & l & blks & L & WF & FO & D & R).
    assert (RP : report (cs ++ [(x, d)]) (o1 ++ [ok]) = report cs o1 ++ [(x, ok)]).
    { unfold report. rewrite map_app. apply combine_snoc. rewrite map_length. symmetry. eapply io_calls_length; eauto. }
    rewrite RP. apply io_call_spec in H2; [|destruct x; auto]. destruct H2 as (w2 & new & H2 & F2 & Z).
    destruct (call_step _ _ _ _ _ _ _ _ C OX FIT I H2) as (I' & q & E & A).
    destruct Z as [(-> & -> & _)|(-> & NE & n & -> & ->)].
    + split; auto. destruct q as [p|]; cbn [adds] in A.
      * destruct A as (f & WF1 & FOK & DEC). destruct (frames_snoc _ _ _ _ _ _ _ FO FOK D R DEC) as (FO' & blks' & D' & R').
        eexists _, _, (l ++ [f]), blks'. sconj; [eapply lio_written; eauto|rewrite frames_bytes_snoc, WF1, WF; reflexivity|auto..].
      * eexists _, _, l, blks. sconj; [eapply lio_quiet; eauto|congruence|auto..].
    + destruct CX as [CX|CX]; [discriminate CX|]. injection CX as ->. cbn [firstn]. rewrite app_nil_r.
      split; [destruct I'; split; auto|]. destruct q as [p|]; cbn [adds] in A.
      * eexists _, _, l, blks. cbn [wr_acc with_file wr_file]. sconj; [eapply lio_failed; eauto|auto..].
      * rewrite A in F2. rewrite <- (app_nil_r (wr_file w0)) in F2 at 1. apply app_inv_head in F2. destruct (NE (eq_sym F2)).
Qed.
Lemma io_file_inv m c i k cs file oks : io_file m c i k cs = Ok (file, oks) <-> exists w, io_calls m c (writer_new i k) cs = Ok (w, oks) /\ wr_file w = file.
Proof.
  unfold io_file. split; [intros H|intros (w & -> & <-); reflexivity]. destruct (io_calls m c (writer_new i k) cs) as [(w & o)| |]; try discriminate H. cbn [bind] in H. injection H as <- <-. eauto.
Qed.

(** C82, success: if every call returned Ok, the file is the same as on a disk that never fails. *)
Theorem C82_no_failure m c i k cs file oks : Forall (fun x => match x with LBlob _ _ => False | _ => True end) (map fst cs) ->
  io_file m c i k cs = Ok (file, oks) -> Forall (eq true) oks -> low_file m c i k (map fst cs) = Ok file.
Proof.
  rewrite io_file_inv. intros NB (w & H & <-) T. unfold low_file. revert w oks NB H T. generalize (writer_new i k) as w0. induction cs as [|(x, d) cs IH]; intros w0 w oks NB H T.
  - cbn in H. injection H as <- <-. reflexivity.
  - cbn [io_calls] in H. destruct (io_call m c w0 x d) as [(w1 & ok)| |] eqn:E; try discriminate H. cbn [bind] in H. destruct (io_calls m c w1 cs) as [(w2 & o2)| |] eqn:E2; try discriminate H. cbn [bind] in H.
    injection H as <- <-. inversion T as [|? ? <- T']; subst. inversion NB as [|? ? X NB']; subst. cbn [fst] in X. apply io_call_spec in E as (w3 & new & E & _ & [(_ & -> & _)|(Y & _)]); auto; [|discriminate Y].
    cbn [map fst do_lcalls]. rewrite E. cbn [bind]. eapply IH; eauto.
Qed.
(** C82, going on: a program that goes on after failed calls, when a failed write leaves nothing in the file: the file is in
    order and reads to its end as exactly the blocks of [laid_io]; the blocks of the failed calls are missing from it. *)
Theorem C82_goes_on m c i k cs file oks : codec_ok c -> Forall (fun xd => clean (snd xd)) cs -> Forall (low_ok m c k i) (map fst cs) -> low_fit m c k (map fst cs) ->
  io_file m c i k cs = Ok (file, oks) ->
  exists parts lost pending kd, laid_io i (report cs oks) parts lost pending kd /\
    exists blks, run (fb_next m c file) bit_new blks Ended /\ Forall2 part_reads parts blks.
Proof.
  rewrite io_file_inv. intros C CL OK FIT (w & H & <-). destruct (io_inv m c i k cs C CL OK FIT w oks H) as (_ & ps & lost & l & blks & L & -> & FO & D & R).
  eexists ps, lost, _, _. split; [exact L|]. exists blks. split; auto. exact (fb_run_frames m c _ _ [] bit_new FO at_end_new D).
Qed.
Lemma steps_frames m c l : forall blks pre rest s, Forall frame_ok l -> at_end pre s -> frames_decode m c (bi_index s) l blks ->
  exists s', steps (fb_next m c (pre ++ frames_bytes l ++ rest)) s blks s'.
Proof.
  induction l as [|f l IH]; intros blks pre rest s FO A D; inversion D; subst; [eexists; constructor|].
  inversion FO as [|? ? F FO']; subst. rewrite frames_bytes_cons, <- app_assoc.
  pose proof (fb_next_complete m c pre f (frames_bytes l ++ rest) s b F A H2) as N.
  destruct (IH bs (pre ++ frame_bytes f) rest (Bit (zlen pre + head_len f) (zlen (snd f)) (bi_index s + 1)) FO') as (s' & S); [apply at_end_next; auto|exact H4|].
  rewrite <- app_assoc in S. exists s'. econstructor; eauto.
Qed.
Lemma io_grows m c cs : forall w w' oks, io_calls m c w cs = Ok (w', oks) -> exists r, wr_file w' = wr_file w ++ r.
Proof.
  induction cs as [|(x, d) cs IH]; intros w w' oks H; cbn [io_calls] in H; [injection H as <- <-; exists []; rewrite app_nil_r; reflexivity|].
  destruct (io_call m c w x d) as [(w1 & ok)| |] eqn:E; try discriminate H. cbn [bind] in H. destruct (io_calls m c w1 cs) as [(w2 & o2)| |] eqn:E2; try discriminate H. cbn [bind] in H. injection H as <- <-.
  apply IH in E2 as (r & ->).
  assert (G : exists r, wr_file w1 = wr_file w ++ r); [|destruct G as (r1 & ->); exists (r1 ++ r); rewrite app_assoc; reflexivity].
  destruct x as [e|es| | |b|hb bb]; try (apply io_call_spec in E as (w3 & new & _ & F & [(_ & -> & _)|(_ & _ & n & _ & ->)]); [eauto|cbn [with_file wr_file]; eauto|exact Logic.I]; fail).
  cbn [io_call] in E. destruct d; cbn [blob_io] in E; injection E as <- <-; cbn [wr_file]; eauto.
Qed.
(** C82, torn writes: whatever is left in the file by a failing write, and whatever is called afterwards with whatever success,
    the file is first of all read as the blocks written before it. *)
Theorem C82_torn m c i k cs cs' file oks : codec_ok c -> Forall (fun xd => clean (snd xd)) cs -> Forall (low_ok m c k i) (map fst cs) -> low_fit m c k (map fst cs) ->
  io_file m c i k (cs ++ cs') = Ok (file, oks) ->
  exists oks1 oks2 parts lost pending kd, oks = oks1 ++ oks2 /\ length oks1 = length cs /\ laid_io i (report cs oks1) parts lost pending kd /\
    exists blks s, steps (fb_next m c file) bit_new blks s /\ Forall2 part_reads parts blks.
Proof.
  rewrite io_file_inv. intros C CL OK FIT (w & H & <-). apply io_calls_app in H as (w1 & o1 & o2 & H1 & H2 & ->).
  destruct (io_inv m c i k cs C CL OK FIT w1 o1 H1) as (_ & ps & lost & l & blks & L & WF & FO & D & R).
  apply io_grows in H2 as (r & ->). rewrite WF. destruct (steps_frames m c l blks [] r bit_new FO at_end_new D) as (s & S).
  eexists _, _, ps, lost, _, _. split; [reflexivity|]. split; [eapply io_calls_length; eauto|]. split; [exact L|]. exists blks, s. auto.
Qed.
(** C82, stopping: a program that stops at the first call that fails (with [?]): the file extends what was there before
    this call and is a prefix of what the call was to make of it; it reads as the blocks before this call and then ends or
    panics, or, if all of it was written after all, as the blocks after it. *)
Theorem C82_stops m c i k cs x d file oks : codec_ok c -> Forall (low_ok m c k i) (map fst cs ++ [x]) -> low_fit m c k (map fst cs ++ [x]) ->
  io_file m c i k (cs ++ [(x, d)]) = Ok (file, oks ++ [false]) -> Forall (eq true) oks ->
  exists before after parts pending kd q pending' kd', low_file m c i k (map fst cs) = Ok before /\ low_file m c i k (map fst cs ++ [x]) = Ok after /\ prefix before file /\ prefix file after /\
    laid i (map fst cs) parts pending kd /\ effect i x pending kd (Some q) pending' kd' /\
    exists blks o, run (fb_next m c file) bit_new blks o /\ (file <> after -> Forall2 part_reads parts blks) /\ (file = after -> Forall2 part_reads (parts ++ [q]) blks).
Proof.
  intros C OK FIT H T. rewrite io_file_inv in H. destruct H as (w & H & <-). apply io_calls_app in H as (w0 & o1 & o2 & H0 & H1 & EO). cbn [io_calls] in H1.
  destruct (io_call m c w0 x d) as [(w1 & ok)| |] eqn:H2; try discriminate H1. cbn [bind] in H1. injection H1 as <- <-. apply app_inj_tail in EO as (<- & <-).
  pose proof OK as OK'. pose proof FIT as FIT'. apply Forall_app in OK' as (OK1 & OX). apply Forall_inv in OX.
  assert (FIT1 : low_fit m c k (map fst cs)) by (unfold low_fit in *; rewrite given_app in FIT; exact (stream_fit_less _ _ _ _ _ FIT)).
  assert (B : low_file m c i k (map fst cs) = Ok (wr_file w0)).
  { apply C82_no_failure with (oks := oks); auto; [|rewrite io_file_inv; eauto]. clear - OK1. rewrite Forall_forall in *. intros y Y. specialize (OK1 y Y). destruct y; auto. }
  pose proof B as B'. unfold low_file in B'. bok B' v0 V0. injection B' as EV.
  assert (v0 = w0) as ->.
  { clear - V0 H0 T OK1. revert w0 oks v0 H0 V0 T OK1. generalize (writer_new i k) as u. induction cs as [|(y, e) cs IH]; intros u w0 oks v0 H0 V0 T OK1.
    - cbn in *. congruence.
    - cbn [io_calls map fst do_lcalls] in *. destruct (io_call m c u y e) as [(u1 & ok)| |] eqn:E; try discriminate H0. cbn [bind] in H0. destruct (io_calls m c u1 cs) as [(u2 & o2)| |] eqn:E2; try discriminate H0. cbn [bind] in H0.
      injection H0 as <- <-. inversion T as [|? ? <- T']; subst. inversion OK1 as [|? ? X OK2]; subst. apply io_call_spec in E as (w3 & new & E & _ & [(_ & -> & _)|(Y & _)]); [|discriminate Y|destruct y; auto].
      rewrite E in V0. cbn [bind] in V0. eapply IH; eauto. }
  apply io_call_spec in H2; [|destruct x; auto]. destruct H2 as (w2 & new & H2 & F2 & [(Y & _)|(_ & NE & n & -> & ->)]); [discriminate Y|].
  assert (AF : do_lcalls m c (writer_new i k) (map fst cs ++ [x]) = Ok w2) by (rewrite do_lcalls_app, V0; cbn [bind do_lcalls]; rewrite H2; reflexivity).
  destruct (lcalls_inv m c i k (map fst cs) C w0 OK1 FIT1 V0) as (I & ps & l & blks & L & WF & FO & D & R).
  unfold low_fit in FIT. rewrite given_app in FIT. destruct (call_step _ _ _ _ _ _ _ _ C OX FIT I H2) as (I' & q & E & A).
  destruct q as [q|]; cbn [adds] in A; [|rewrite A in F2; rewrite <- (app_nil_r (wr_file w0)) in F2 at 1; apply app_inv_head in F2; destruct (NE (eq_sym F2))].
  destruct A as (f & WF1 & FOK & DEC). rewrite WF1 in F2. apply app_inv_head in F2. subst new.
  exists (wr_file w0), (wr_file w2), ps. eexists _, _, q, _, _. split; [exact B|]. split; [unfold low_file; rewrite AF; reflexivity|]. cbn [with_file wr_file].
  split; [eexists; reflexivity|]. split; [exists (skipn n (frame_bytes f)); rewrite WF1, <- app_assoc, firstn_skipn; reflexivity|]. split; [exact L|]. split; [exact E|].
  destruct (frames_snoc _ _ _ _ _ _ _ FO FOK D R DEC) as (FO' & blks' & D' & R').
  assert (EF : frames_bytes (l ++ [f]) = (wr_file w0 ++ firstn n (frame_bytes f)) ++ skipn n (frame_bytes f)) by (rewrite frames_bytes_snoc, WF, <- app_assoc, firstn_skipn; reflexivity).
  destruct (fb_run_prefix m c _ _ [] _ _ bit_new FO' at_end_new D' EF) as (j & o & RR & J & LO & HI & _). cbn [app] in RR. exists (firstn j blks'), o. split; [exact RR|].
  assert (LB : length blks' = S (length l)) by (rewrite (firstn_length_decode _ _ _ _ _ D'), app_length; cbn; lia).
  assert (LP : length ps = length l) by (rewrite (F2_length _ _ _ R); apply (firstn_length_decode _ _ _ _ _ D)).
  split.
  - intros NF. assert (NL : zlen (firstn n (frame_bytes f)) < zlen (frame_bytes f)).
    { unfold zlen. rewrite firstn_length. destruct (Nat.le_gt_cases (length (frame_bytes f)) n) as [G|G]; [|lia]. exfalso. apply NF. rewrite firstn_all2, WF1; auto. }
    assert (JL : j = length l).
    { assert (j <> S (length l)).
      { intros ->. rewrite firstn_all2 in LO by (rewrite app_length; cbn; lia). rewrite frames_bytes_snoc, WF, !zlen_app in LO. lia. }
      rewrite app_length in J. cbn in J. destruct (Nat.eq_dec j (length l)); auto. exfalso. assert (JJ : (j < length l)%nat) by lia.
      destruct (nth_error l j) as [g|] eqn:G; [|apply nth_error_None in G; lia]. specialize (HI g). rewrite nth_error_app1 in HI by lia. specialize (HI G).
      assert (FG : frame_ok g) by (rewrite Forall_forall in FO; apply FO; eapply nth_error_In; eauto).
      rewrite firstn_app in HI. replace (j - length l)%nat with 0%nat in HI by lia. cbn [firstn] in HI. rewrite app_nil_r in HI.
      apply nth_error_split in G as (l1 & l2 & EL & LL). assert (Q : frames_bytes l = frames_bytes (firstn j l) ++ frame_bytes g ++ frames_bytes l2).
      { rewrite EL at 1. rewrite frames_bytes_app, frames_bytes_cons. f_equal. rewrite EL, <- LL, firstn_app, Nat.sub_diag, firstn_all. cbn [firstn]. rewrite app_nil_r. reflexivity. }
      rewrite WF, Q, !zlen_app, (frame_bytes_len g FG) in HI. pose proof (zlen_nonneg (frames_bytes l2)). pose proof (zlen_nonneg (firstn n (frame_bytes f))). lia. }
    subst j. rewrite <- LP. clear - R'. revert blks' R'. induction ps as [|a ps IH]; intros blks' R'; inversion R'; subst; cbn; constructor; auto.
  - intros EQ. rewrite WF1 in EQ. apply app_inv_head in EQ. assert (JL : j = S (length l)).
    { rewrite app_length in J. cbn in J. destruct (Nat.eq_dec j (S (length l))); auto. exfalso. assert (JJ : (j < length (l ++ [f]))%nat) by (rewrite app_length; cbn; lia).
      destruct (nth_error (l ++ [f]) j) as [g|] eqn:G; [|apply nth_error_None in G; lia]. specialize (HI g eq_refl).
      assert (FG : frame_ok g) by (rewrite Forall_forall in FO'; apply FO'; eapply nth_error_In; eauto).
      apply nth_error_split in G as (l1 & l2 & EL & LL). rewrite EL in HI. rewrite <- LL, firstn_app, Nat.sub_diag, firstn_all in HI. cbn [firstn] in HI. rewrite app_nil_r in HI.
      rewrite EL, EQ in EF. rewrite frames_bytes_app, frames_bytes_cons in EF. apply (f_equal zlen) in EF.
      assert (SN : skipn n (frame_bytes f) = []) by (rewrite <- EQ at 1; apply length_zero_iff_nil; rewrite skipn_length, firstn_length; lia).
      rewrite SN, app_nil_r in EF. rewrite EQ in HI. rewrite !zlen_app in EF. rewrite !zlen_app in HI. rewrite (frame_bytes_len g FG) in EF. pose proof (zlen_nonneg (frames_bytes l2)). lia. }
    subst j. rewrite firstn_all2 by lia. exact R'.
Qed.

(** C82, closing again: after a failed close, closing again returns Ok and writes nothing. *)
Theorem C82_close_again m c i k cs d d' file oks ok : io_file m c i k (cs ++ [(LClose, d); (LClose, d')]) = Ok (file, oks ++ [false; ok]) ->
  ok = true /\ exists oks', io_file m c i k (cs ++ [(LClose, d)]) = Ok (file, oks').
Proof.
  rewrite io_file_inv. intros (w & H & <-). apply io_calls_app in H as (w0 & o1 & o2 & H0 & H1 & EO). cbn [io_calls] in H1.
  destruct (io_call m c w0 LClose d) as [(w1 & ok1)| |] eqn:H2; try discriminate H1. cbn [bind] in H1.
  assert (AE : acc_elements (wr_acc w1) = []).
  { apply io_call_spec in H2; auto. destruct H2 as (w2 & new & H2 & _ & Z). assert (G : acc_elements (wr_acc w2) = []).
    { cbn [do_lcall] in H2. unfold writer_close, write_elements, write_file_block in H2. destruct (acc_elements (wr_acc w0)); [injection H2 as <-; reflexivity|]. bok H2 hb S. injection H2 as <-. reflexivity. }
    destruct Z as [(_ & -> & _)|(_ & _ & n & _ & ->)]; exact G. }
  assert (H3 : io_call m c w1 LClose d' = Ok (Writer (wr_info w1) (wr_comp w1) (wr_file w1) (Acc [] (acc_st (wr_acc w1)) (acc_index (wr_acc w1) + 1)), true)) by (cbn [io_call]; rewrite AE; reflexivity).
  rewrite H3 in H1. cbn [bind] in H1. injection H1 as <- <-. replace (oks ++ [false; ok]) with ((oks ++ [false]) ++ [ok]) in EO by (rewrite <- app_assoc; reflexivity). replace (o1 ++ [ok1; true]) with ((o1 ++ [ok1]) ++ [true]) in EO by (rewrite <- app_assoc; reflexivity).
  apply app_inj_tail in EO as (EO & ->). split; auto. exists (o1 ++ [ok1]). rewrite io_file_inv. exists w1. split; [|reflexivity].
  apply io_calls_app. eexists _, _, [ok1]. split; [exact H0|]. split; auto. cbn [io_calls]. rewrite H2. reflexivity.
Qed.
Lemma elements_of_snoc ps q : elements_of (ps ++ [q]) = elements_of ps ++ elements_of [q].
Proof. apply flat_map_app. Qed.
(** C82, accounting: of the elements given one by one, each is in the file, or pending, or in a block whose call failed. *)
Theorem C82_accounting i cs parts lost pending kd : laid_io i cs parts lost pending kd -> Forall one_by_one (map fst cs) ->
  exists stream, without_sentinels (given (map fst cs)) stream /\ Permutation stream (elements_of parts ++ elements_of lost ++ pending).
Proof.
  intros L O. exists (no_sentinels (given (map fst cs))). split; [apply no_sentinels_spec; reflexivity|].
  assert (ST : forall x p k q p' k', effect i x p k q p' k' -> one_by_one x -> Permutation (p ++ no_sentinels (given [x])) (elements_of (added q) ++ p')).
  { clear. intros x p k q p' k' E O. destruct E; try destruct O; cbn [given flat_map no_sentinels app added elements_of]; rewrite ?app_nil_r; auto.
    - destruct k, H as (? & ->); reflexivity.
    - destruct k, H as (? & ->); reflexivity.
    - destruct k', H0 as (? & ->); reflexivity. }
  induction L as [|cs ps lost p k x p' k' L IH E|cs ps lost p k x q p' k' L IH E|cs ps lost p k x q p' k' L IH E]; [constructor|..];
    rewrite map_app in *; cbn [map fst] in *; apply Forall_app in O as (O & OX); apply Forall_inv in OX; specialize (IH O); specialize (ST _ _ _ _ _ _ E OX);
    rewrite given_app, no_sentinels_app, IH, <- !app_assoc, ST; cbn [added]; rewrite ?elements_of_snoc, <- ?app_assoc; auto.
  apply Permutation_app_head. rewrite !app_assoc. apply Permutation_app_tail. apply Permutation_app_comm.
Qed.
(** the specification leaves no choice *)
Lemma effect_unique i x p k q p' k' q1 p1 k1 : effect i x p k q p' k' -> effect i x p k q1 p1 k1 -> q = q1 /\ p' = p1 /\ k' = k1.
Proof.
  intros E E1.
  assert (NK : forall kk, ~ of_kind kk ESentinel) by (intros [| |] (? & Y); discriminate Y).
  assert (FN : forall ka kb e, of_kind ka e -> of_kind kb e -> follows ka kb -> False) by (intros ka kb e A B F; assert (ka = kb) by (eapply kind_unique; eauto); unfold follows in F; intuition congruence).
  inversion E; subst; inversion E1; subst; try (sconj; auto; fail); try (exfalso; eauto; lia); try (exfalso; eapply NK; eauto; fail); try congruence.
  - assert (kept = kept0) as -> by (eapply keeps_unique; eauto). auto.
  - assert (kept = kept0) as -> by (eapply keeps_unique; eauto). auto.
  - assert (k' = k1) as -> by (eapply kind_unique; eauto). auto.
Qed.
Theorem C82_laid_unique i cs : forall ps lost p k ps' lost' p' k', laid_io i cs ps lost p k -> laid_io i cs ps' lost' p' k' -> ps = ps' /\ lost = lost' /\ p = p' /\ k = k'.
Proof.
  induction cs as [|x cs IH] using rev_ind; intros ps lost p k ps' lost' p' k' L L'.
  - inversion L; subst; try (match goal with H : _ ++ [_] = [] |- _ => destruct (app_eq_nil _ _ H); discriminate end).
    inversion L'; subst; auto; match goal with H : _ ++ [_] = [] |- _ => destruct (app_eq_nil _ _ H); discriminate end.
  - remember (cs ++ [x]) as cs1 eqn:E. destruct L as [|? ? ? ? ? ? ? ? L EF|? ? ? ? ? ? ? ? ? L EF|? ? ? ? ? ? ? ? ? L EF]; try (destruct cs; discriminate E); apply app_inj_tail in E as (-> & <-).
    all: match type of L' with laid_io _ ?c _ _ _ _ => remember c as cs1 eqn:E end.
    all: destruct L' as [|? ? ? ? ? ? ? ? L' EF'|? ? ? ? ? ? ? ? ? L' EF'|? ? ? ? ? ? ? ? ? L' EF']; try (destruct cs; discriminate E); apply app_inj_tail in E as (-> & E2); try discriminate E2; injection E2 as E2; subst.
    all: destruct (IH _ _ _ _ _ _ _ _ L L') as (? & ? & ? & ?); subst; destruct (effect_unique _ _ _ _ _ _ _ _ _ _ EF EF') as (X & ? & ?); try discriminate X; try injection X as X; subst; auto.
Qed.
(** without failures it is the specification of C81 *)
Theorem C82_laid_all_ok i cs parts lost pending kd : laid_io i (map (fun x => (x, true)) cs) parts lost pending kd <-> laid i cs parts pending kd /\ lost = [].
Proof.
  revert parts lost pending kd. induction cs as [|x cs IH] using rev_ind; intros parts lost pending kd.
  - cbn. split.
    + intros L. inversion L; subst; try (match goal with H : _ ++ [_] = [] |- _ => destruct (app_eq_nil _ _ H); discriminate end). split; [constructor|auto].
    + intros (L & ->). inversion L; subst; try (match goal with H : _ ++ [_] = [] |- _ => destruct (app_eq_nil _ _ H); discriminate end). constructor.
  - rewrite map_app. cbn [map]. split.
    + intros L. remember (map (fun x => (x, true)) cs ++ [(x, true)]) as cs1 eqn:E. destruct L as [|? ? ? ? ? ? ? ? L EF|? ? ? ? ? ? ? ? ? L EF|? ? ? ? ? ? ? ? ? L EF];
        [destruct (map (fun x => (x, true)) cs); discriminate E|..]; apply app_inj_tail in E as (-> & E2); try discriminate E2; injection E2 as ->; apply IH in L as (L & ->); (split; [|reflexivity]).
      * apply (laid_effect _ _ _ _ _ _ _ _ _ L) in EF. cbn in EF. rewrite app_nil_r in EF. exact EF.
      * apply (laid_effect _ _ _ _ _ _ _ _ _ L) in EF. exact EF.
    + intros (L & ->). remember (cs ++ [x]) as cs1 eqn:E. destruct L; try (destruct cs; discriminate E); apply app_inj_tail in E as (-> & <-).
      all: first [eapply lio_written; [apply IH; split; [eassumption|reflexivity]|]|eapply lio_quiet; [apply IH; split; [eassumption|reflexivity]|]]; constructor; auto.
Qed.
