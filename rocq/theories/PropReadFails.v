(** Property C90: reading a PBF file from a disk that fails. *)
From Coq Require Import ZArith List Bool Permutation Lia.
From Verif Require Import Base BaseFacts Types FileFormat FileSpec ParallelRead ParallelSpec Pool PoolFacts ParallelReadFacts ReaderFacts PropFile PropReadAny ReadSpec FailPool FailSpec PropFails PropDump WireMsg Proto ReadFails.
Import ListNotations.
Open Scope Z_scope.

Lemma blob_results file s r : blob_reads file s r -> r = blob_next file s \/ exists s', r = Ok (None, s').
Proof.
  intros (fl & ->). destruct fl as [| |k|k|]; cbn [blob_next_with]; cbv zeta; eauto.
  - destruct (_ && _ && _ && _); eauto.
  - destruct (_ <? 0); auto. destruct (take_exact 4 _) as [(lb, x)|]; auto. destruct (_ && _ && _); eauto.
  - destruct (blob_next file s) as [([d|], s')| |]; eauto.
Qed.
Lemma block_results m c file s r : block_reads m c file s r ->
  r = fb_next m c file s \/ (exists s', r = Ok (None, s')) \/ (r = Panic /\ exists b s', fb_next m c file s = Ok (Some b, s')).
Proof.
  unfold fb_next. intros [s' H|H|d s' r0 H B].
  - eauto.
  - apply blob_results in H as [H|(s' & H)]; [|discriminate]. rewrite <- H. auto.
  - apply blob_results in H as [H|(s2 & H)]; [|discriminate]. rewrite <- H. cbn [bind]. destruct B as [-> | ->]; auto.
    destruct (from_blob_desc m c file d) as [b| |]; cbn [unwrap_res bind]; eauto 8.
Qed.
Lemma can_end m c file s : block_reads m c file s (Ok (None, s)).
Proof. apply br_none. exists SeekFault. reflexivity. Qed.
Lemma can_be_fine m c file s : fb_next m c file s <> Err -> block_reads m c file s (fb_next m c file s).
Proof.
  unfold fb_next. destruct (blob_next file s) as [([d|], s')| |] eqn:E; cbn [bind]; intros N; [|apply br_none|congruence|apply br_panic]; try (exists NoFault; cbn [blob_next_with]; congruence).
  apply br_block with (d := d); [exists NoFault; cbn [blob_next_with]; congruence|left; reflexivity].
Qed.
Lemma can_panic m c file s b s' : fb_next m c file s = Ok (Some b, s') -> block_reads m c file s Panic.
Proof.
  unfold fb_next. destruct (blob_next file s) as [([d|], s2)| |] eqn:E; cbn [bind]; intros N; try discriminate N.
  change (block_reads m c file s (b <- unwrap_res (@Err fblock) ;; Ok (Some b, s2))). apply br_block with (d := d); [exists NoFault; cbn [blob_next_with]; congruence|right; reflexivity].
Qed.
(** the part of the blocks that is read *)
Definition cut_short (l0 : list fblock) (o0 : ending) (l : list fblock) (o : ending) : Prop := exists rest, l0 = l ++ rest /\ (o = Ended \/ rest <> [] \/ o0 = Panicked).
Lemma reads_cut m c file s l o : reads (block_reads m c file) s l o -> forall l0 o0, run (fb_next m c file) s l0 o0 -> cut_short l0 o0 l o.
Proof.
  induction 1 as [s s' H|s H|s a s' l o H R IH]; intros l0 o0 R0.
  - exists l0. auto.
  - exists l0. split; auto. right. apply block_results in H as [H|[(s' & H)|(_ & b & s' & H)]]; [|discriminate|].
    + inversion R0 as [? ? E|? E|? ? ? ? ? E]; subst; rewrite E in H; try discriminate. auto.
    + inversion R0 as [? ? E|? E|? ? ? ? ? E]; subst; rewrite E in H; try discriminate. left. discriminate.
  - apply block_results in H as [H|[(s2 & H)|(H & _)]]; try discriminate. inversion R0 as [? ? E|? E|? a2 s2 l2 ? E R2]; subst; rewrite E in H; try discriminate. injection H as <- <-.
    destruct (IH _ _ R2) as (rest & -> & C). exists rest. auto.
Qed.
Lemma cut_reads m c file s l0 o0 : run (fb_next m c file) s l0 o0 -> forall l o, cut_short l0 o0 l o -> reads (block_reads m c file) s l o.
Proof.
  induction 1 as [s s' E|s E|s a s' l0 o0 E R IH]; intros l o (rest & Q & C).
  - symmetry in Q. apply app_eq_nil in Q as (-> & ->). destruct C as [->|[C|C]]; [|congruence|discriminate]. eapply rd_end. apply can_end.
  - symmetry in Q. apply app_eq_nil in Q as (-> & ->). destruct o; [eapply rd_end; apply can_end|]. apply rd_panic. rewrite <- E. apply can_be_fine. congruence.
  - destruct l as [|x l]; cbn [app] in Q.
    + subst rest. destruct o; [eapply rd_end; apply can_end|]. apply rd_panic. eapply can_panic; eauto.
    + injection Q as <- Q. eapply rd_step; [rewrite <- E; apply can_be_fine; congruence|]. apply IH. exists rest. auto.
Qed.
(** C90: a loop over blocks() yields a beginning of the blocks of the file; where it stops it either ends like at the end of the file or
    panics, and every beginning is possible. *)
Theorem C90_blocks c file l o : reads (block_reads Wrapping c file) bit_new l o <->
  exists all rest o0, blocks_of c 0 file all o0 /\ all = l ++ rest /\ (o = Ended \/ rest <> [] \/ o0 = Panicked).
Proof.
  split.
  - intros R. destruct (C20_blocks_terminate Wrapping c file) as (l0 & o0 & R0 & _). destruct (reads_cut _ _ _ _ _ _ R _ _ R0) as (rest & A & B). apply C69_blocks in R0. eauto 8.
  - intros (all & rest & o0 & B & E & C). apply C69_blocks in B. eapply cut_reads; [exact B|]. exists rest. auto.
Qed.

(** ** Elements *)
Lemma el_reads_blocks m c file s it es o : el_reads m c file s it es o -> match it with
  | None => es = [] /\ o = Ended
  | Some es0 => exists l o1 es', reads (block_reads m c file) s l o1 /\ elements_in l o1 es' o /\ es = es0 ++ es' end.
Proof.
  induction 1 as [s|s e r l o H IH|s r it s' l o B C H IH|s r B C].
  - auto.
  - destruct IH as (l0 & o1 & es' & A1 & A2 & ->). exists l0, o1, es'. auto.
  - destruct r as [(ob, s2)| |]; try discriminate C. cbn [created bind] in C. destruct ob as [[ix i|ix es0]|]; injection C as <- <-.
    + destruct IH as (-> & ->). exists [FHeader ix i], Ended, []. split; [eapply rd_step; [exact B|eapply rd_end; apply can_end]|]. split; [constructor|reflexivity].
    + destruct IH as (l0 & o1 & es' & A1 & A2 & ->). exists (FData ix es0 :: l0), o1, (es0 ++ es'). split; [eapply rd_step; eauto|]. split; [constructor; auto|reflexivity].
    + destruct IH as (-> & ->). exists [], Ended, []. split; [eapply rd_end; exact B|]. split; [constructor|reflexivity].
  - destruct r as [([[ix i|ix es0]|], s2)| |]; try discriminate C. exists [], Panicked, []. split; [eapply rd_panic; exact B|]. split; [constructor|reflexivity].
Qed.
Lemma el_reads_items m c file s r l o : el_reads m c file s (Some []) l o -> el_reads m c file s (Some r) (r ++ l) o.
Proof. induction r; cbn; auto. intros. constructor; auto. Qed.
Lemma blocks_el_reads m c file s l o1 : reads (block_reads m c file) s l o1 -> forall es o, elements_in l o1 es o -> el_reads m c file s (Some []) es o.
Proof.
  induction 1 as [s s' H|s H|s b s' l o1 H R IH]; intros es o I.
  - inversion I; subst. eapply elf_refill with (it := None); [exact H|reflexivity|constructor].
  - inversion I; subst. eapply elf_panic; [exact H|reflexivity].
  - inversion I as [|ix i l' o2|ix es0 l' o2 es' o' I']; subst.
    + eapply elf_refill with (it := None); [exact H|reflexivity|constructor].
    + eapply elf_refill with (it := Some es0); [exact H|reflexivity|]. apply el_reads_items. auto.
Qed.
Lemma elements_first m c file b es o : elements_reads m c file (Some b) es o <->
  exists s l o1, block_reads m c file bit_new (Ok (Some b, s)) /\ reads (block_reads m c file) s l o1 /\ elements_in l o1 es o.
Proof.
  split.
  - intros H. inversion H as [|? s r B1 B2 C|? s r it s' ? ? B1 B2 C E]; subst.
    + exists s, [], Panicked. split; auto. destruct r as [([[ix i|ix es0]|], s2)| |]; try discriminate C. split; [apply rd_panic; auto|constructor].
    + exists s. destruct r as [(ob, s2)| |]; try discriminate C. cbn [created bind] in C. apply el_reads_blocks in E. destruct ob as [[ix i|ix es0]|]; injection C as <- <-.
      * destruct E as (-> & ->). exists [FHeader ix i], Ended. split; auto. split; [eapply rd_step; [exact B2|eapply rd_end; apply can_end]|constructor].
      * destruct E as (l0 & o1 & es' & A1 & A2 & ->). exists (FData ix es0 :: l0), o1. split; auto. split; [eapply rd_step; eauto|constructor; auto].
      * destruct E as (-> & ->). exists [], Ended. split; auto. split; [eapply rd_end; exact B2|constructor].
  - intros (s & l & o1 & B & R & I). inversion R as [? s' H|? H|? b2 s' l' ? H R']; subst.
    + inversion I; subst. eapply ef_loop; [exact B|exact H|reflexivity|constructor].
    + inversion I; subst. eapply ef_new_panic; [exact B|exact H|reflexivity].
    + inversion I as [|ix i l2 o2|ix es0 l2 o2 es' o' I']; subst; (eapply ef_loop; [exact B|exact H|reflexivity|]); [constructor|]. apply el_reads_items. eapply blocks_el_reads; eauto.
Qed.
(** C90: likewise elements(), when the block it skips could be read: the elements of a beginning of the data blocks, then the end or a
    panic; no error is reported when the iteration ends early. *)
Theorem C90_elements c file i first es o : FileFormat.reader_new Wrapping c file = Ok i ->
  (elements_reads Wrapping c file (Some first) es o <-> exists all l rest o0 o1, first = FHeader 0 i /\ blocks_of c 0 file (FHeader 0 i :: all) o0 /\
     all = l ++ rest /\ (o1 = Ended \/ rest <> [] \/ o0 = Panicked) /\ elements_in l o1 es o).
Proof.
  intros RN. apply C69_reader_new in RN. destruct RN as (_ & l0 & o0 & B). pose proof (proj2 (C69_blocks _ _ _ _) B) as R0. inversion R0 as [| |? b0 s0 l' oo E R']; subst. rewrite elements_first. split.
  - intros (s & l & o1 & B1 & R & I). apply block_results in B1 as [B1|[(? & B1)|(B1 & _)]]; try discriminate. rewrite E in B1. injection B1 as -> ->.
    destruct (reads_cut _ _ _ _ _ _ R _ _ R') as (rest & -> & C). exists (l ++ rest), l, rest, o0, o1. sconj; auto.
  - intros (all & l & rest & o2 & o1 & -> & B2 & -> & C & I). destruct (blocks_of_unique _ _ _ _ _ B _ _ B2) as (EQ & ->). injection EQ as ->. exists s0, l, o1. split; [rewrite <- E; apply can_be_fine; congruence|].
    split; [|exact I]. eapply cut_reads; [exact R'|]. exists rest. auto.
Qed.
(** C90: ElementIterator::new does not look at the result of skipping the header: when that fails and the disk then recovers, the header is
    taken for the first block of data and the iteration yields nothing, without an error. *)
Theorem C90_header_lost c file i : FileFormat.reader_new Wrapping c file = Ok i -> elements_reads Wrapping c file None [] Ended.
Proof.
  intros RN. apply C69_reader_new in RN. destruct RN as (_ & l0 & o0 & B). pose proof (proj2 (C69_blocks _ _ _ _) B) as R0. inversion R0 as [| |? b0 s0 l' oo E R']; subst.
  assert (HB : block_reads Wrapping c file bit_new (Ok (Some (FHeader 0 i), s0))) by (rewrite <- E; apply can_be_fine; congruence). eapply ef_loop; [apply can_end|exact HB|reflexivity|constructor].
Qed.
(** C90: Reader::new on such a disk returns what it returns on a sound one, or an error, or panics. *)
Theorem C90_reader_new c file r : reader_new_reads Wrapping c file r <->
  r = FileFormat.reader_new Wrapping c file \/ r = Err \/ (r = Panic /\ exists b l o, blocks_of c 0 file (b :: l) o).
Proof.
  assert (H : header_of (fb_next Wrapping c file bit_new) = FileFormat.reader_new Wrapping c file) by (unfold header_of, FileFormat.reader_new; destruct (fb_next Wrapping c file bit_new) as [([[ix i|ix es]|], s)| |]; reflexivity).
  assert (NE : fb_next Wrapping c file bit_new <> Err) by (destruct (first_block c file) as [(b & s & l & o & -> & _)|[(s & -> & _)|(-> & _)]]; discriminate).
  split.
  - intros [->|(r0 & B & ->)]; auto. apply block_results in B as [->|[(s' & ->)|(-> & b & s' & E)]]; auto.
    right. right. split; auto. destruct (first_block c file) as [(b2 & s & l & o & _ & _ & B)|[(s & E2 & _)|(E2 & _)]]; [eauto|congruence|congruence].
  - intros [->|[->|(-> & b & l & o & B)]]; [right|left; auto|right].
    + exists (fb_next Wrapping c file bit_new). split; [apply can_be_fine; exact NE|auto].
    + exists Panic. split; [|reflexivity]. apply C69_blocks in B. inversion B as [| |? ? ? ? ? E]; subst. eapply can_panic; eauto.
Qed.

(** ** parallel_for_each *)
Section Parallel.
Context {S : Type}.
Variables (m : mode) (c : codec) (file : bytes) (strikes : bit -> fault) (unreadable : blob_desc -> bool) (tasks : nat) (f : nat -> element -> S -> S * bool) (s0 : S).
Lemma blobs_cut s l o : run (fun s => blob_next_with (strikes s) file s) s l o -> forall l0 o0, run (blob_next file) s l0 o0 -> exists rest, l0 = l ++ rest.
Proof.
  induction 1 as [s s' E|s E|s a s' l o E R IH]; intros l0 o0 R0; [exists l0; reflexivity|exists l0; reflexivity|]. cbv beta in E. assert (B : blob_reads file s (blob_next_with (strikes s) file s)) by (exists (strikes s); reflexivity).
  rewrite E in B. apply blob_results in B as [B|(s2 & B)]; [|discriminate B]. inversion R0 as [? ? E2|? E2|? ? ? ? ? E2 R2]; subst; rewrite E2 in B; try discriminate. injection B as -> ->.
  destruct (IH _ _ R2) as (rest & ->). exists rest. reflexivity.
Qed.
Lemma for_each_of tr k p : reads_exec m c file strikes unreadable tasks f s0 tr k p -> joined p ->
  exists ds owners mades, run (fun s => blob_next_with (strikes s) file s) bit_new ds Ended /\
    all_blobs (fun d w made => if unreadable d then made = [] else blob_done m c file f d w made) ds owners mades /\
    (forall w, by_worker w tr = share w owners mades) /\ Permutation (map snd tr) (concat mades).
Proof.
  intros E (M & Q & W). destruct (fexec_inv _ _ _ _ _ _ _ _ _ _ E) as [js Sub Own N Tr Mi Wk]. rewrite M, Q, app_nil_r in Sub. cbn in Sub.
  exists (map jb js), (map ow js), (map mk js). split; [exact Sub|]. split; [|split].
  - apply jobs_blobs. apply Forall_forall. intros x I. rewrite Forall_forall in Own, W. specialize (Own x I).
    destruct (nth_error (p_workers p) (ow x)) as [ws|] eqn:Ew; [|apply nth_error_None in Ew; lia]. pose proof (Wk _ _ Ew) as G. specialize (W ws (nth_error_In _ _ Ew)).
    assert (ST : settled (fun d => if unreadable d then None else iteration_calls m c file d) f x) by (destruct W; subst; cbn in G; rewrite Forall_forall in G; apply G; auto).
    unfold settled in ST. cbv beta in ST. destruct (unreadable (jb x)).
    + destruct ST as [ST|[(_ & ST)|(b & a & r & s & ST & _)]]; [discriminate|exact ST|discriminate].
    + unfold blob_done. pose proof (iteration_calls_of m c file (jb x)) as B. destruct ST as [ST|[(ST & ->)|(b & a & r & s & ST & -> & F)]]; destruct (from_blob_desc m c file (jb x)) as [bk| |]; rewrite ST in B; try discriminate B; auto.
      * injection B as B. left. auto.
      * injection B as B. right. exists b, a, r, s. auto.
  - intros w. rewrite Mi, share_mine. reflexivity.
  - eapply trace_is_all_actions with (n := tasks) (owners := map ow js); auto.
    + rewrite !map_length. reflexivity.
    + apply Forall_map. exact Own.
    + intros w _. rewrite Mi, share_mine. reflexivity.
Qed.
(** C90: when parallel_for_each has come to its end, it has treated a beginning of the blobs of the file (the error that made it leave the
    rest out is not reported); for each of them all calls were made, or those up to the first that failed, or none if it could not be read
    or decoded; and there were no other calls. *)
Theorem C90_for_each ds0 o0 tr k p : run (blob_next file) bit_new ds0 o0 -> reads_exec m c file strikes unreadable tasks f s0 tr k p -> joined p ->
  exists ds rest owners mades, ds0 = ds ++ rest /\
    all_blobs (fun d w made => if unreadable d then made = [] else blob_done m c file f d w made) ds owners mades /\
    (forall w, by_worker w tr = share w owners mades) /\ Permutation (map snd tr) (concat mades).
Proof.
  intros R0 E J. destruct (for_each_of _ _ _ E J) as (ds & owners & mades & R & A). destruct (blobs_cut _ _ _ R _ _ R0) as (rest & ->). exists ds, rest, owners, mades. auto.
Qed.
End Parallel.
Lemma yields_no_panic {It J} (next : It -> res (option J * It)) it0 js it : yields next it0 js it -> forall l, run next it0 l Ended -> next it <> Panic /\ next it <> Err.
Proof.
  intros Y. assert (G : forall l, run next it0 l Ended -> exists l', run next it l' Ended).
  { induction Y as [x|x la y j y' Y IH N]; intros l R; [eauto|]. destruct (IH l R) as (l' & R'). inversion R' as [? ? E|? E|? ? ? ? ? E R2]; subst; rewrite E in N; try discriminate. injection N as <- <-. eauto. }
  intros l R. destruct (G l R) as (l' & R'). inversion R' as [? ? E|? E|? ? ? ? ? E R2]; subst; rewrite E; split; discriminate.
Qed.
Lemma comes_to_end {It J A S : Type} (next : It -> res (option J * It)) (plan : J -> option (list A)) (act : nat -> A -> S -> S * bool) cap it0 n s0 l :
  run next it0 l Ended -> (0 < n)%nat -> (0 < cap)%nat -> exists tr k p, fexec next plan act cap (pool_new it0 n s0) tr k p /\ finished p.
Proof.
  intros R N C. destruct (fexec_bounded next plan act cap it0 n s0 l Ended R) as (bound & B).
  assert (G : forall d tr k p, fexec next plan act cap (pool_new it0 n s0) tr k p -> (bound - k <= d)%nat -> exists tr k p, fexec next plan act cap (pool_new it0 n s0) tr k p /\ finished p).
  { induction d as [|d IH]; intros tr k p E D; pose proof (B _ _ _ E) as K;
      (destruct (fprogress next plan act cap it0 n s0 tr k p E) as [F|(o & p' & ST)]; auto; [|eauto|]);
      try (destruct (fexec_inv _ _ _ _ _ _ _ _ _ _ E) as [js Sub _ _ _ _ _]; intros DE; rewrite DE in Sub; destruct Sub as (it & Y & X); destruct (yields_no_panic _ _ _ _ Y _ R) as (X1 & X2); destruct X; contradiction).
    - pose proof (B _ _ _ (fe_snoc _ _ _ _ _ _ _ _ _ _ E ST)). lia.
    - apply (IH _ _ _ (fe_snoc _ _ _ _ _ _ _ _ _ _ E ST)). lia. }
  apply (G bound [] 0%nat (pool_new it0 n s0)); [constructor|lia].
Qed.
Lemma next_index file s d s' : blob_next file s = Ok (Some d, s') -> bi_index s' = bi_index s + 1.
Proof.
  unfold blob_next. cbv zeta. destruct (_ <? 0); [discriminate|]. destruct (take_exact 4 _) as [(lb, x)|]; [|discriminate]. destruct (of_be32 lb <? 0); [discriminate|]. destruct (take_exact (of_be32 lb) _) as [(hb, y)|]; [|discriminate].
  destruct (blob_header_decode hb); [|discriminate]. intros H. injection H as <- <-. reflexivity.
Qed.
(** C90: for every beginning of the blobs (that can be decoded) there is an error for which parallel_for_each treats just these and comes to
    its end although no command fails. *)
Theorem C90_silent_loss {S} m c file tasks (f : nat -> element -> S -> S * bool) s0 ds rest o0 blocks : run (blob_next file) bit_new (ds ++ rest) o0 ->
  Forall2 (fun d b => from_blob_desc m c file d = Ok b) ds blocks -> (forall w e s, snd (f w e s) = true) -> (0 < tasks)%nat ->
  exists strikes tr k p, reads_exec m c file strikes (fun _ => false) tasks f s0 tr k p /\ finished p /\ Permutation (map snd tr) (flat_map calls_of blocks).
Proof.
  intros R0 F2 OK T. set (strikes := fun s => if bi_index s =? zlen ds then SeekFault else NoFault).
  assert (R : run (fun s => blob_next_with (strikes s) file s) bit_new ds Ended).
  { assert (G : forall pre s, bi_index s = zlen pre -> forall l, run (blob_next file) s (l ++ rest) o0 -> pre ++ l = ds -> run (fun s => blob_next_with (strikes s) file s) s l Ended).
    { intros pre s I l. revert pre s I. induction l as [|d l IH]; intros pre s I R E.
      - rewrite app_nil_r in E. subst pre. apply run_end with (s' := s). unfold strikes. rewrite I, Z.eqb_refl. reflexivity.
      - cbn [app] in R. inversion R as [| |? ? s' ? ? N R']; subst. apply run_step with (s' := s').
        + unfold strikes. rewrite I. assert (zlen pre =? zlen (pre ++ d :: l) = false) as -> by (apply Z.eqb_neq; rewrite zlen_app, zlen_cons; pose proof (zlen_nonneg l); lia). exact N.
        + apply (IH (pre ++ [d])); auto; [|rewrite <- app_assoc; reflexivity]. rewrite (next_index _ _ _ _ N), I, zlen_app. reflexivity. }
    apply (G []); auto. }
  destruct (comes_to_end (fun s => blob_next_with (strikes s) file s) (fun d => if (fun _ => false) d then None else iteration_calls m c file d) f for_each_queue bit_new tasks s0 ds R T) as (tr & k & p & E & FIN); [unfold for_each_queue; lia|].
  exists strikes, tr, k, p. split; [exact E|]. split; [exact FIN|]. destruct FIN as (M & Q & W).
  destruct (for_each_of m c file strikes (fun _ => false) tasks f s0 _ _ _ E) as (ds1 & owners & mades & R1 & AB & _ & P); [split; auto; split; auto; eapply Forall_impl; [|exact W]; auto|].
  destruct (PropDump.run_unique _ _ _ _ R _ _ R1) as (<- & _). rewrite P. enough (mades = map calls_of blocks) as -> by (rewrite flat_map_concat_map; reflexivity).
  clear - F2 AB OK. revert blocks F2. induction AB as [|d ds w ws x xs H AB IH]; intros blocks F2; inversion F2 as [|? b ? bs B1 B2]; subst; [reflexivity|]. cbn [map]. rewrite (IH _ B2). f_equal.
  unfold blob_done in H. rewrite B1 in H. destruct H as [H|(before & e & after & s & _ & _ & H)]; [exact H|]. rewrite OK in H. discriminate.
Qed.
