(** Property C81: the low level interface of the sequential writer. *)
From Coq Require Import ZArith List Bool Strings.Byte Strings.String Lia.
From Verif Require Import Base BaseFacts Types Proto ProtoFacts Block BlockFacts BlockRead Model2 ModelFacts PropBlock.
From Verif Require Import Spec SpecFacts FileFormat FileFacts WriterFacts FileSpec PropFile CallSpec Calls PropCalls PropLegal PropPipelines PropReadAny LowCalls LowSpec.
Import ListNotations.
Local Notation length := List.length.
Local Notation concat := List.concat.
Open Scope Z_scope.

(** sizes within the format's limits, and values of the Rust types *)
Definition low_ok (m : mode) (c : codec) (k : compression) (i : file_info) (x : lcall) : Prop :=
  match x with
  | LElement e => element_ok e
  | LElements es | LBlock (FData _ es) => Forall element_ok es /\ block_fits m c k es
  | LClose => True
  | LHeader => info_ok i /\ ~ info_empty i /\ header_fits c k i
  | LBlock (FHeader _ j) => info_ok j /\ ~ info_empty j /\ header_fits c k j
  | LBlob _ _ => False
  end.
Definition low_fit (m : mode) (c : codec) (k : compression) (cs : list lcall) : Prop :=
  forall stream, without_sentinels (given cs) stream -> stream <> [] -> blocks_fit m c k stream.

Definition kind_st (s : acc_state) : kind := match s with ANodes => KNode | AWays => KWay | ARelations => KRelation end.
Lemma do_lcalls_app m c c1 : forall w c2, do_lcalls m c w (c1 ++ c2) = (w1 <- do_lcalls m c w c1 ;; do_lcalls m c w1 c2).
Proof. induction c1 as [|x c1 IH]; intros w c2; cbn [app do_lcalls bind]; auto. destruct (do_lcall m c w x); cbn [bind]; auto. Qed.
Lemma frames_decode_app m c l1 : forall i b1 l2 b2, frames_decode m c i l1 b1 -> frames_decode m c (i + zlen l1) l2 b2 -> frames_decode m c i (l1 ++ l2) (b1 ++ b2).
Proof.
  induction l1 as [|f l1 IH]; intros i b1 l2 b2 D1 D2; inversion D1; subst; cbn [app].
  - rewrite zlen_nil, Z.add_0_r in D2. exact D2.
  - constructor; auto. apply IH; auto. rewrite zlen_cons in D2. replace (i + 1 + zlen l1) with (i + (zlen l1 + 1)) by lia. exact D2.
Qed.
Lemma data_one m c k es n w w' : codec_ok c -> Forall element_ok es -> block_fits m c k es -> write_file_block m c w (FData n es) = Ok w' -> wr_comp w = k ->
  exists f, wr_file w' = wr_file w ++ frame_bytes f /\ frame_ok f /\ wr_acc w' = wr_acc w /\ wr_comp w' = k /\ wr_info w' = wr_info w /\
    forall j, exists b, frames_decode m c j [f] [b] /\ part_reads (PData (survivors es)) b.
Proof.
  intros C EO BF W CK. unfold write_file_block in W. rewrite serialize_data in W. bok W hb S. bok S d D. cbv zeta in S. injection S as <-. injection W as <-.
  destruct (data_frames_decode_any m c k [es] [d] C) as (FO & DE); auto. rewrite CK. exists (data_frame c k d). cbn [wr_file wr_acc wr_comp wr_info]. sconj; auto.
  - cbn [map] in FO. inversion FO; auto.
  - intros j. destruct (DE j) as (blks & D1 & D2 & D3). cbn [map] in D1. inversion D3 as [|x b ? blks' R D4]; subst. inversion D4; subst. inversion D2; subst. exists b. split; auto.
    destruct b; [contradiction|]. exact R.
Qed.
Lemma header_one m c k i n w w' : codec_ok c -> info_ok i -> ~ info_empty i -> header_fits c k i -> write_file_block m c w (FHeader n i) = Ok w' -> wr_comp w = k ->
  exists f, wr_file w' = wr_file w ++ frame_bytes f /\ frame_ok f /\ wr_acc w' = wr_acc w /\ wr_comp w' = k /\ wr_info w' = wr_info w /\
    forall j, exists b, frames_decode m c j [f] [b] /\ part_reads (PHeader i) b.
Proof.
  intros C IO NE HF W CK. unfold write_file_block in W. rewrite serialize_header in W. cbv zeta in W. cbn [bind] in W. injection W as <-. rewrite CK. exists (header_frame c k i). cbn [wr_file wr_acc wr_comp wr_info].
  destruct (header_fits_frame _ _ _ HF) as (HO & _). sconj; auto. intros j. exists (FHeader j (info_read i)). split; [|apply info_read_spec].
  constructor; [apply header_decode; auto|constructor].
Qed.
Lemma kind_of_kind st e : kind_of_state st e = true <-> of_kind (kind_st st) e.
Proof. unfold of_kind, a_node, a_way, a_relation. destruct st, e; cbn; split; intros H; try discriminate; try (destruct H; discriminate); eauto. Qed.
Lemma acc_push_kinds a e : exists o a', acc_push a e = (o, a') /\ acc_st a' = acc_st a /\
  ((zlen (acc_elements a ++ [e]) = 8000 /\ o = Some (acc_elements a ++ [e]) /\ acc_elements a' = []) \/
   (zlen (acc_elements a ++ [e]) <> 8000 /\ o = None /\ acc_elements a' = acc_elements a ++ [e])).
Proof.
  unfold acc_push. cbv zeta. change acc_block_size with 8000. destruct (Z.eqb_spec (zlen (acc_elements a ++ [e])) 8000) as [E|E]; eexists _, _; (split; [reflexivity|]); cbn; auto 6.
Qed.
Lemma ok_inj {A} (x y : A) : Ok x = Ok y -> x = y.
Proof. congruence. Qed.
Lemma acc_add_cases a e o a' : acc_inv a -> acc_add a e = Ok (o, a') ->
  (e = ESentinel /\ o = None /\ a' = a) \/
  (of_kind (kind_st (acc_st a)) e /\ acc_st a' = acc_st a /\
     ((zlen (acc_elements a) < 7999 /\ o = None /\ acc_elements a' = acc_elements a ++ [e]) \/
      (zlen (acc_elements a) = 7999 /\ o = Some (acc_elements a ++ [e]) /\ acc_elements a' = []))) \/
  (follows (kind_st (acc_st a)) (kind_st (acc_st a')) /\ of_kind (kind_st (acc_st a')) e /\ o = Some (acc_elements a) /\ acc_elements a' = [e]).
Proof.
  intros (L & _) H. change acc_block_size with 8000 in L.
  assert (P : acc_push a e = (o, a') -> acc_st a' = acc_st a /\
     ((zlen (acc_elements a) < 7999 /\ o = None /\ acc_elements a' = acc_elements a ++ [e]) \/
      (zlen (acc_elements a) = 7999 /\ o = Some (acc_elements a ++ [e]) /\ acc_elements a' = []))).
  { intros E. destruct (acc_push_kinds a e) as (o1 & a1 & E1 & S & X). rewrite E in E1. injection E1 as <- <-. split; auto. rewrite zlen_app, zlen_cons, zlen_nil in X.
    destruct X as [(X & -> & ->)|(X & -> & ->)]; [right|left]; sconj; auto; lia. }
  assert (Q : forall st, acc_elements (snd (acc_push (Acc [] st (acc_index a + 1)) e)) = [e] /\ acc_st (snd (acc_push (Acc [] st (acc_index a + 1)) e)) = st).
  { intros st. unfold acc_push. cbn [acc_elements app acc_st]. change (zlen [e] =? acc_block_size) with false. auto. }
  unfold acc_add in H. cbv zeta in H. unfold follows, of_kind, a_node, a_way, a_relation.
  destruct (acc_st a) eqn:ST, e; try discriminate H; apply ok_inj in H;
    try (left; injection H as <- <-; auto; fail);
    try (right; left; split; [cbn [kind_st]; eexists; reflexivity|apply P; exact H]; fail).
  all: right; right; match type of H with (_, snd (acc_push (Acc [] ?s _) _)) = _ => destruct (Q s) as (Q1 & Q2) end;
    pose proof (f_equal fst H) as H1; pose proof (f_equal snd H) as H2; cbn [fst] in H1; change (snd (o, a')) with a' in H2; subst o; rewrite <- H2; cbn [snd]; rewrite Q1, Q2; cbn; eauto 8.
Qed.
Lemma no_sentinels_app a b : no_sentinels (a ++ b) = no_sentinels a ++ no_sentinels b.
Proof. apply filter_app. Qed.
Lemma shape_keeps b : block_shape b -> survivors b = b.
Proof.
  intros [_ (st & K)]. apply survivors_kind. rewrite Forall_forall in K. destruct st; cbn in K; auto.
Qed.

(** the invariant after any calls *)
Lemma frames_bytes_snoc l f : frames_bytes (l ++ [f]) = frames_bytes l ++ frame_bytes f.
Proof. rewrite frames_bytes_app, frames_bytes_cons. cbn. rewrite app_nil_r. reflexivity. Qed.
Lemma frames_snoc m c ps p l f blks : Forall frame_ok l -> frame_ok f -> frames_decode m c 0 l blks -> Forall2 part_reads ps blks ->
  (forall j, exists b, frames_decode m c j [f] [b] /\ part_reads p b) ->
  Forall frame_ok (l ++ [f]) /\ exists blks', frames_decode m c 0 (l ++ [f]) blks' /\ Forall2 part_reads (ps ++ [p]) blks'.
Proof.
  intros FO F D R B. split; [apply Forall_app; auto|]. destruct (B (0 + zlen l)) as (b & D1 & R1). exists (blks ++ [b]). split; [apply frames_decode_app; auto|apply Forall2_app; auto].
Qed.
Definition stream_fit (m : mode) (c : codec) (k : compression) (g : list element) : Prop := forall stream, without_sentinels g stream -> stream <> [] -> blocks_fit m c k stream.
Record st_inv (i : file_info) (k : compression) (g : list element) (w : writer) : Prop := {
  si_info : wr_info w = i; si_comp : wr_comp w = k; si_acc : acc_inv (wr_acc w);
  si_given : exists before, no_sentinels g = before ++ acc_elements (wr_acc w);
  si_ok : Forall element_ok (acc_elements (wr_acc w)) }.
Definition adds (m : mode) (c : codec) (w w1 : writer) (q : option part) : Prop :=
  match q with
  | None => wr_file w1 = wr_file w
  | Some p => exists f, wr_file w1 = wr_file w ++ frame_bytes f /\ frame_ok f /\ forall j, exists b, frames_decode m c j [f] [b] /\ part_reads p b
  end.
Lemma call_step m c i k g x w0 w1 : codec_ok c -> low_ok m c k i x -> stream_fit m c k (g ++ given [x]) -> st_inv i k g w0 -> do_lcall m c w0 x = Ok w1 ->
  st_inv i k (g ++ given [x]) w1 /\
  exists q, effect i x (acc_elements (wr_acc w0)) (kind_st (acc_st (wr_acc w0))) q (acc_elements (wr_acc w1)) (kind_st (acc_st (wr_acc w1))) /\ adds m c w0 w1 q.
Proof.
  intros C OX FIT [I1 I2 I3 (before & I4) I5] H1.
  assert (CH : forall b y, block_shape b -> b ++ y <> [] -> no_sentinels (g ++ given [x]) = before ++ b ++ y -> block_fits m c k b).
  { intros b y (S & _) NE E. specialize (FIT _ (proj2 (no_sentinels_spec _ _) eq_refl)). apply FIT with (a := before) (d := y); auto.
    rewrite E. intros Z. apply app_eq_nil in Z as (_ & Z). exact (NE Z). }
  assert (GN : match x with LElement _ => True | _ => g ++ given [x] = g end) by (destruct x; cbn; auto; apply app_nil_r).
  destruct x as [e|es| | |b|hb bb]; cbn [do_lcall] in H1; cbn [low_ok] in OX; [cbn [given flat_map app] in *; clear GN|rewrite ?GN in *..].
  - unfold write_element in H1. bok H1 q A. destruct q as (o & a). pose proof (acc_add_spec _ _ _ _ I3 A) as (IA & _ & SH).
    destruct (acc_add_cases _ _ _ _ I3 A) as [(-> & -> & ->)|[(K & ST & [(Z & -> & E)|(Z & -> & E)])|(FW & K & -> & E)]].
    + injection H1 as <-. split; [split; cbn; auto|].
      * exists before. rewrite no_sentinels_app, I4. cbn. rewrite app_nil_r. reflexivity.
      * exists None. split; [constructor|reflexivity].
    + injection H1 as <-. assert (NS : no_sentinels [e] = [e]) by (clear - K; destruct (acc_st (wr_acc w0)), K as (? & ->); reflexivity).
      cbn [wr_info wr_comp wr_acc wr_file]. split; [split; cbn [wr_info wr_comp wr_acc wr_file]; auto|].
      * exists before. rewrite no_sentinels_app, I4, NS, E, <- app_assoc. reflexivity.
      * rewrite E. apply Forall_app; auto.
      * exists None. rewrite E, ST. split; [constructor; auto|reflexivity].
    + assert (NS : no_sentinels [e] = [e]) by (clear - K; destruct (acc_st (wr_acc w0)), K as (? & ->); reflexivity).
      assert (EO : Forall element_ok (acc_elements (wr_acc w0) ++ [e])) by (apply Forall_app; auto).
      unfold write_elements in H1.
      destruct (data_one m c k (acc_elements (wr_acc w0) ++ [e]) _ _ _ C EO (CH _ [] SH ltac:(intros ZZ; apply app_eq_nil in ZZ as (ZZ & _); apply app_eq_nil in ZZ as (_ & ZZ); discriminate ZZ) ltac:(rewrite no_sentinels_app, I4, NS, app_nil_r, app_assoc; reflexivity)) H1 I2) as (f & WF1 & FOK & WA & WC & WI & DEC).
      cbn [wr_file wr_acc wr_comp wr_info] in WF1, WA, WI. rewrite (shape_keeps _ SH) in DEC.
      split; [split; rewrite ?WA; auto; try congruence|].
      * exists (before ++ acc_elements (wr_acc w0) ++ [e]). rewrite no_sentinels_app, I4, NS, E, app_nil_r, app_assoc. reflexivity.
      * rewrite E. constructor.
      * exists (Some (PData (acc_elements (wr_acc w0) ++ [e]))). rewrite WA, E, ST. split; [constructor; auto|exists f; auto].
    + assert (NS : no_sentinels [e] = [e]) by (clear - K; destruct (acc_st a), K as (? & ->); reflexivity).
      unfold write_elements in H1.
      destruct (data_one m c k (acc_elements (wr_acc w0)) _ _ _ C I5 (CH _ [e] SH ltac:(intros Z; apply app_eq_nil in Z as (_ & Z); discriminate Z) ltac:(rewrite no_sentinels_app, I4, NS, <- app_assoc; reflexivity)) H1 I2) as (f & WF1 & FOK & WA & WC & WI & DEC).
      cbn [wr_file wr_acc wr_comp wr_info] in WF1, WA, WI. rewrite (shape_keeps _ SH) in DEC.
      split; [split; rewrite ?WA; auto; try congruence|].
      * exists (before ++ acc_elements (wr_acc w0)). rewrite no_sentinels_app, I4, NS, E. reflexivity.
      * rewrite E. auto.
      * exists (Some (PData (acc_elements (wr_acc w0)))). rewrite WA, E. split; [constructor; auto|exists f; auto].
  - destruct OX as (EO & BF). unfold write_elements in H1. destruct (data_one m c k es _ _ _ C EO BF H1 I2) as (f & WF1 & FOK & WA & WC & WI & DEC).
    split; [split; rewrite ?WA; auto; try congruence; eauto|].
    exists (Some (PData (survivors es))). rewrite WA. split; [constructor; auto using survivors_keeps|exists f; auto].
  - unfold writer_close in H1. destruct (acc_elements (wr_acc w0)) as [|e r] eqn:AE.
    + injection H1 as <-. split; [split; cbn; auto|].
      * split; cbn; [lia|constructor].
      * exists before. exact I4.
      * exists None. split; [constructor|reflexivity].
    + assert (SH : block_shape (e :: r)). { destruct I3 as (L1 & K1). rewrite AE in L1, K1. split; [lia|]. exists (acc_st (wr_acc w0)). exact K1. }
      unfold write_elements in H1.
      destruct (data_one m c k (e :: r) _ _ _ C I5 (CH _ [] SH ltac:(discriminate) ltac:(rewrite I4, app_nil_r; reflexivity)) H1 I2) as (f & WF1 & FOK & WA & WC & WI & DEC).
      cbn [wr_file wr_acc wr_comp wr_info] in WF1, WA, WI. rewrite (shape_keeps _ SH) in DEC.
      split; [split; rewrite ?WA; cbn [acc_elements acc_st]; auto; try congruence|].
      * split; cbn; [lia|constructor].
      * exists (before ++ e :: r). rewrite app_nil_r. exact I4.
      * exists (Some (PData (e :: r))). rewrite WA. split; [constructor; discriminate|exists f; auto].
  - destruct OX as (IO & NE & HF). unfold write_header in H1. rewrite I1 in H1. destruct (header_one m c k i _ _ _ C IO NE HF H1 I2) as (f & WF1 & FOK & WA & WC & WI & DEC).
    split; [split; rewrite ?WA; auto; try congruence; eauto|]. exists (Some (PHeader i)). rewrite WA. split; [constructor|exists f; auto].
  - destruct b as [n j|n es].
    + destruct OX as (IO & NE & HF). destruct (header_one m c k j _ _ _ C IO NE HF H1 I2) as (f & WF1 & FOK & WA & WC & WI & DEC).
      split; [split; rewrite ?WA; auto; try congruence; eauto|]. exists (Some (PHeader j)). rewrite WA. split; [constructor|exists f; auto].
    + destruct OX as (EO & BF). destruct (data_one m c k es _ _ _ C EO BF H1 I2) as (f & WF1 & FOK & WA & WC & WI & DEC).
      split; [split; rewrite ?WA; auto; try congruence; eauto|]. exists (Some (PData (survivors es))). rewrite WA. split; [constructor; auto using survivors_keeps|exists f; auto].
  - destruct OX.
Qed.
Definition added (q : option part) : list part := match q with Some p => [p] | None => [] end.
Lemma laid_effect i cs x ps p k q p' k' : laid i cs ps p k -> effect i x p k q p' k' -> laid i (cs ++ [x]) (ps ++ added q) p' k'.
Proof. intros L E. destruct E; cbn [added]; rewrite ?app_nil_r; econstructor; eauto. Qed.
Lemma given_app a b : given (a ++ b) = given a ++ given b.
Proof. apply flat_map_app. Qed.
Lemma stream_fit_less m c k a b : stream_fit m c k (a ++ b) -> stream_fit m c k a.
Proof.
  intros FIT s S NE x y d -> L. apply no_sentinels_spec in S. specialize (FIT (no_sentinels (a ++ b)) (proj2 (no_sentinels_spec _ _) eq_refl)).
  rewrite no_sentinels_app, <- S in FIT. specialize (FIT ltac:(intros Z; apply app_eq_nil in Z as (Z & _); exact (NE Z))).
  apply (FIT x y (d ++ no_sentinels b)); auto. rewrite <- !app_assoc. reflexivity.
Qed.
Lemma st_inv_new i k : st_inv i k [] (writer_new i k).
Proof. split; cbn; auto using acc_inv_new. exists []. reflexivity. Qed.
Lemma lcalls_inv m c i k cs : codec_ok c -> forall w, Forall (low_ok m c k i) cs -> low_fit m c k cs -> do_lcalls m c (writer_new i k) cs = Ok w ->
  st_inv i k (given cs) w /\
  exists ps l blks, laid i cs ps (acc_elements (wr_acc w)) (kind_st (acc_st (wr_acc w))) /\ wr_file w = frames_bytes l /\ Forall frame_ok l /\
    frames_decode m c 0 l blks /\ Forall2 part_reads ps blks.
Proof.
  intros C. induction cs as [|x cs IH] using rev_ind; intros w OK FIT H.
  - cbn in H. injection H as <-. split; [apply st_inv_new|]. exists [], [], []. sconj; try constructor.
  - rewrite do_lcalls_app in H. bok H w0 H0. cbn [do_lcalls] in H. bok H w1 H1. injection H as ->.
    apply Forall_app in OK as (OK & OX). apply Forall_inv in OX. change (stream_fit m c k (given (cs ++ [x]))) in FIT. rewrite given_app in *.
    destruct (IH w0 OK (stream_fit_less _ _ _ _ _ FIT) H0) as (I & ps & l & blks & L & WF & FO & D & R).
    destruct (call_step _ _ _ _ _ _ _ _ C OX FIT I H1) as (I' & q & E & A). split; auto.
    pose proof (laid_effect _ _ _ _ _ _ _ _ _ L E) as L'. destruct q as [p|]; cbn [adds added] in *.
    + destruct A as (f & WF1 & FOK & DEC). destruct (frames_snoc _ _ _ _ _ _ _ FO FOK D R DEC) as (FO' & blks' & D' & R').
      eexists _, (l ++ [f]), blks'. sconj; eauto. rewrite frames_bytes_snoc, WF1, WF; reflexivity.
    + rewrite app_nil_r in L'. exists ps, l, blks. sconj; auto. congruence.
Qed.

(** C81, calls: after any calls of the writer's interface (raw blobs excepted) the file consists of exactly the blocks that
    [laid] describes, in the form in which a block can be read; and wherever a crash cuts the file, what is left reads as
    the first of these blocks. *)
Theorem C81_any_calls m c i k cs file : codec_ok c -> Forall (low_ok m c k i) cs -> low_fit m c k cs -> low_file m c i k cs = Ok file ->
  exists parts pending kd, laid i cs parts pending kd /\
    (exists blks, run (fb_next m c file) bit_new blks Ended /\ Forall2 part_reads parts blks) /\
    (forall p, prefix p file -> exists n blks o, run (fb_next m c p) bit_new blks o /\ Forall2 part_reads (firstn n parts) blks).
Proof.
  intros C OK FIT H. unfold low_file in H. bok H w W. injection H as <-. destruct (lcalls_inv m c i k cs C w OK FIT W) as (_ & ps & l & blks & L & -> & FO & D & R).
  eexists ps, _, _. split; [exact L|]. split.
  - exists blks. split; auto. pose proof (fb_run_frames m c _ _ [] bit_new FO at_end_new D) as RR. exact RR.
  - intros p (r & E). destruct (fb_run_prefix m c _ _ [] p r bit_new FO at_end_new D E) as (n & o & RR & _). exists n, (firstn n blks), o. split; [exact RR|].
    clear - R. revert n. induction R; intros [|n]; cbn; constructor; auto.
Qed.
(** C81, appending: every call only adds to the file *)
Theorem C81_appends m c i k cs cs' file : low_file m c i k (cs ++ cs') = Ok file -> exists file0, low_file m c i k cs = Ok file0 /\ prefix file0 file.
Proof.
  unfold low_file. rewrite do_lcalls_app. intros H. bok H w W. injection H as <-. bok W w0 W0. rewrite W0. cbn [bind]. exists (wr_file w0). split; auto.
  clear W0. revert w0 W. induction cs' as [|x cs' IH]; intros w0 W; cbn [do_lcalls] in W; [injection W as <-; exists []; rewrite app_nil_r; reflexivity|].
  bok W w1 W1. apply IH in W as (r & ->).
  assert (P : exists r, wr_file w1 = wr_file w0 ++ r); [|destruct P as (r1 & ->); exists (r1 ++ r); rewrite app_assoc; reflexivity].
  assert (Q : forall w b w', write_file_block m c w b = Ok w' -> exists r, wr_file w' = wr_file w ++ r).
  { intros v b v' V. unfold write_file_block in V. bok V hb S. injection V as <-. cbn [wr_file]. eauto. }
  assert (N : exists r, wr_file w0 = wr_file w0 ++ r) by (exists []; rewrite app_nil_r; reflexivity).
  destruct x as [e|es| | |b|hb bb]; cbn [do_lcall] in W1; unfold write_element, write_elements, writer_close, write_header in W1; eauto.
  - bok W1 q A. destruct q as ([b|] & a); [apply Q in W1; exact W1|injection W1 as <-; exact N].
  - destruct (acc_elements (wr_acc w0)); [injection W1 as <-; exact N|apply Q in W1; exact W1].
  - injection W1 as <-. cbn [wr_file]. eauto.
Qed.

(** ** Reading files of any blocks *)
Lemma el_run_until m c file s blks : run (fb_next m c file) s blks Ended -> forall r, el_run m c file s (Some r) (r ++ concat (data_blocks blks)) Ended.
Proof.
  intros R. assert (X : el_run m c file s (Some []) (concat (data_blocks blks)) Ended).
  { remember Ended as o eqn:O. induction R as [s s' E|s E|s b s' l o E R IH]; cbn; try discriminate.
    - eapply elr_refill with (it := None); [|constructor]. unfold create_element_iterator. rewrite E. reflexivity.
    - specialize (IH O). subst o. destruct b as [n j|n es].
      + eapply elr_refill with (it := None); [|constructor]. unfold create_element_iterator. rewrite E. reflexivity.
      + eapply elr_refill with (it := Some es); [unfold create_element_iterator; rewrite E; reflexivity|].
        cbn [concat]. clear - IH. induction es; cbn; [auto|constructor; auto]. }
  induction r; cbn; [auto|constructor; auto].
Qed.
Lemma elements_run_until m c file b0 blks : run (fb_next m c file) bit_new (b0 :: blks) Ended -> elements_run m c file (concat (data_blocks blks)) Ended.
Proof.
  intros R. inversion R as [| |s a s' l o' E R']; subst. inversion R' as [s1 s2 E2|s1 E2|s1 b s2 l o' E2 R2]; subst; cbn.
  - eapply els_loop with (it := None); [exact E|unfold create_element_iterator; rewrite E2; reflexivity|constructor].
  - destruct b as [n j|n es].
    + eapply els_loop with (it := None); [exact E|unfold create_element_iterator; rewrite E2; reflexivity|constructor].
    + eapply els_loop with (it := Some es); [exact E|unfold create_element_iterator; rewrite E2; reflexivity|]. apply el_run_until; auto.
Qed.
Lemma find_missing_iff l : find_missing supported_features l = [] <-> Forall supported l.
Proof.
  unfold find_missing. induction l as [|x l IH]; cbn [filter]; [split; auto|].
  assert (X : existsb (bytes_eqb x) supported_features = true <-> supported x).
  { rewrite existsb_exists. unfold supported, supported_features. cbn [In]. split.
    - intros (y & I & E). apply bytes_eqb_eq in E. subst y. intuition.
    - intros S. exists x. split; [intuition|apply bytes_eqb_refl]. }
  destruct (existsb (bytes_eqb x) supported_features); cbn [negb].
  - rewrite IH. split; intros F; [constructor; auto; apply X; auto|inversion F; auto].
  - split; [discriminate|]. intros F. inversion F; subst. exfalso. apply X in H1. discriminate.
Qed.
(** C81, reading: such a file can be read if and only if its first block is a header with supported features; of the rest one
    gets the elements up to the next header, and nothing behind it. *)
Theorem C81_reading m c file parts blks : run (fb_next m c file) bit_new blks Ended -> Forall2 part_reads parts blks ->
  (forall j rest, parts = PHeader j :: rest -> Forall supported (fi_required j) ->
     exists i' got, reader_new m c file = Ok i' /\ info_written_read j i' /\ elements_run m c file got Ended /\ Forall2 written_read (until_header rest) got) /\
  ((forall j rest, parts = PHeader j :: rest -> ~ Forall supported (fi_required j)) -> reader_new m c file = Err).
Proof.
  intros R F. split.
  - intros j rest -> S. inversion F as [|? b ? bs PR F']; subst. destruct b as [n j'|]; [|destruct PR]. exists j', (concat (data_blocks bs)). sconj; auto.
    + inversion R as [| |s a s' l o E R']; subst. unfold reader_new. rewrite E. cbn [bind]. destruct PR as (PR & _). rewrite PR.
      apply find_missing_iff in S. rewrite S. reflexivity.
    + eapply elements_run_until; eauto.
    + clear - F'. induction F' as [|p b ps bs PR F IH]; [constructor|]. destruct p, b; cbn in *; try destruct PR; try constructor; auto. apply Forall2_app; auto.
  - intros N. unfold reader_new. destruct F as [|p b ps bs PR F].
    + inversion R as [s s' E| |]; subst. rewrite E. reflexivity.
    + inversion R as [| |s a s' l o E R']; subst. rewrite E. cbn [bind]. destruct p as [j|es], b as [n j'|n es']; try destruct PR; auto.
      specialize (N j ps eq_refl). cbn [part_reads] in *. destruct (find_missing supported_features (fi_required j')) eqn:M; auto. exfalso. apply N. apply find_missing_iff. congruence.
Qed.

(** ** Copying block by block *)
Definition copy_fits (m : mode) (c : codec) (k : compression) (b : fblock) : Prop :=
  match b with
  | FHeader _ j => ~ info_empty j /\ header_fits c k j
  | FData _ es => Forall coordinates_ok es /\ block_fits m c k es
  end.
Lemma laid_blocks i blks : forall parts p kd, laid i (map LBlock blks) parts p kd ->
  Forall2 (fun b q => match b, q with FHeader _ j, PHeader j' => j = j' | FData _ es, PData kept => block_keeps es kept | _, _ => False end) blks parts.
Proof.
  assert (S : forall l b parts p kd, laid i (map LBlock (l ++ [b])) parts p kd -> exists ps q p' kd', parts = ps ++ [q] /\ laid i (map LBlock l) ps p' kd' /\
    match b, q with FHeader _ j, PHeader j' => j = j' | FData _ es, PData kept => block_keeps es kept | _, _ => False end).
  { intros l b parts p kd L. rewrite map_app in L. cbn [map] in L. remember (map LBlock l ++ [LBlock b]) as cs eqn:E.
    destruct L; [destruct (map LBlock l); discriminate E| | | | | | | | | | ]; apply app_inj_tail in E as (-> & E2); try discriminate E2; injection E2 as <-;
      eexists _, _, _, _; (split; [reflexivity|split; [eassumption|cbn; auto]]). }
  induction blks as [|b blks IH] using rev_ind; intros parts p kd L.
  - cbn in L. inversion L; subst; try constructor; match goal with H : _ ++ [_] = [] |- _ => destruct (app_eq_nil _ _ H); discriminate end.
  - apply S in L as (ps & q & p' & kd' & -> & L & M). apply Forall2_app; eauto.
Qed.
Lemma no_given blks : given (map LBlock blks) = [].
Proof. induction blks as [|b blks IH]; auto. Qed.
(** C81, copying: any file that can be read, copied block by block: the same blocks, the headers with the same information, of every
    data block what a block keeps, each element as writing and reading changes it. *)
Theorem C81_block_copy m c i k input j blks output : codec_ok c -> reader_new m c input = Ok j -> run (fb_next m c input) bit_new blks Ended ->
  Forall (copy_fits m c k) blks -> copies_blocks m c i k input (Ok output) ->
  exists blks', run (fb_next m c output) bit_new blks' Ended /\ Forall2 block_copied blks blks'.
Proof.
  intros C RN R CF CP. remember (Ok output) as r eqn:Er. destruct CP as [X|X|i0 b0 X Y|i0 b0 X Y]; try discriminate Er.
  assert (b0 = blks) as -> by (eapply run_unique; eauto).
  destruct (C81_any_calls m c i k (map LBlock blks) output C) as (parts & p & kd & L & (blks' & R' & F) & _); auto.
  - apply Forall_map. clear - R CF. revert CF. remember Ended as o. clear Heqo. induction R as [s s' E|s E|s b s' l o E R IH]; intros CF; constructor; inversion CF as [|? ? CB CF']; subst; auto.
    apply next_legal in E. destruct b as [n j|n es]; cbn [low_ok copy_fits] in *.
    + destruct CB. split; auto. apply legal_info_ok. auto.
    + destruct CB as (CO & BF). split; auto. rewrite Forall_forall in *. intros e I. apply legal_ok; auto.
  - intros s S NE. rewrite no_given in S. inversion S; subst. destruct (NE eq_refl).
  - exists blks'. split; auto. apply laid_blocks in L. clear - L F. revert blks' F. induction L as [|b q blks parts M L IH]; intros blks' F; inversion F; subst; constructor; auto.
    destruct b, q; try contradiction; destruct y; cbn in *; try contradiction; eauto. subst. auto.
Qed.
Lemma keeps_len es kept : block_keeps es kept -> (length kept <= length es)%nat /\ (length kept = length es <-> single_type es) /\ (single_type es -> kept = es).
Proof.
  intros K.
  assert (T : single_type es -> kept = es).
  { intros T. apply (keeps_unique es); auto. destruct (kinds es) as (A & B & C). replace es with (survivors es) at 2; [apply survivors_keeps|].
    apply survivors_kind. destruct T as [T|[T|T]]; [left; apply A in T|right; left; apply B in T|right; right; apply C in T];
    unfold all in T; rewrite Forall_forall in T; auto. }
  assert (G : forall (P : element -> Prop) l l', picked P l l' -> (length l' <= length l)%nat) by (clear; induction 1; cbn; lia).
  split; [destruct K as [[_ K]|[(_ & _ & K)|(_ & _ & K)]]; eapply G; eauto|]. split; auto. split.
  - intros E. unfold single_type. destruct K as [[_ K]|[(_ & _ & K)|(_ & _ & K)]];
      apply picked_len in K; auto.
  - intros X. apply T in X. congruence.
Qed.
Lemma copied_elements blks : forall blks', Forall2 block_copied blks blks' ->
  exists kepts, Forall2 block_keeps (data_blocks blks) kepts /\ Forall2 written_read (concat kepts) (concat (data_blocks blks')).
Proof.
  induction blks as [|b blks IH]; intros blks' F; inversion F as [|? b' ? bs' M F']; subst; [exists []; cbn; auto|].
  destruct b as [n j|n es], b' as [n' j'|n' es']; try contradiction; try (exists []; cbn; split; constructor).
  destruct M as (x & K & W). destruct (IH _ F') as (kepts & A & B). exists (x :: kepts). cbn. split; [constructor; auto|apply Forall2_app; auto].
Qed.
Lemma keeps_lens ess kepts : Forall2 block_keeps ess kepts -> (length (concat kepts) <= length (concat ess))%nat /\
  (length (concat kepts) = length (concat ess) <-> Forall single_type ess) /\ (Forall single_type ess -> kepts = ess).
Proof.
  induction 1 as [|es k ess ks K F (A & B & C)]; [cbn; intuition|]. destruct (keeps_len _ _ K) as (A1 & B1 & C1).
  cbn [concat]. rewrite !app_length. sconj; [lia| |].
  - split.
    + intros E. constructor; [apply B1|apply B]; lia.
    + intros X. inversion X; subst. apply B1 in H1. apply B in H2. lia.
  - intros X. inversion X; subst. rewrite C1, C; auto.
Qed.
(** C81, copying, elements: the copy of a file opens with the same information; it has as many elements as the original exactly when
    no block of the original mixes the types of elements, and then they are the same; otherwise elements are lost. *)
Theorem C81_copy_elements m c i k input j blks output : codec_ok c -> reader_new m c input = Ok j -> run (fb_next m c input) bit_new blks Ended ->
  Forall (copy_fits m c k) blks -> copies_blocks m c i k input (Ok output) ->
  exists i' es es', reader_new m c output = Ok i' /\ info_written_read j i' /\ elements_run m c input es Ended /\ elements_run m c output es' Ended /\
    es = concat (data_blocks (tl blks)) /\ (length es' <= length es)%nat /\ (length es' = length es <-> Forall single_type (data_blocks (tl blks))) /\
    (Forall single_type (data_blocks (tl blks)) -> Forall2 written_read es es').
Proof.
  intros C RN R CF CP. destruct (C81_block_copy m c i k input j blks output C RN R CF CP) as (blks' & R' & F).
  assert (H : exists n rest, blks = FHeader n j :: rest /\ find_missing supported_features (fi_required j) = []).
  { unfold reader_new in RN. inversion R as [s s' E| |s b s' l o E RR]; subst; rewrite E in RN; cbn [bind] in RN; try discriminate.
    destruct b as [n j'|n es]; [|discriminate]. destruct (find_missing supported_features (fi_required j')) eqn:FM; [|discriminate]. injection RN as <-. eauto. }
  destruct H as (n & rest & -> & FM). inversion F as [|? b' ? bs' M F']; subst. destruct b' as [n' j'|]; [|destruct M]. cbn [block_copied] in M.
  destruct (copied_elements _ _ F') as (kepts & K & W). destruct (keeps_lens _ _ K) as (L1 & L2 & L3). pose proof (F2_length _ _ _ W) as LW.
  exists j', (concat (data_blocks rest)), (concat (data_blocks bs')). cbn [tl]. sconj; auto.
  - inversion R' as [| |s b s' l o E RR]; subst. unfold reader_new. rewrite E. cbn [bind]. destruct M as (-> & _). rewrite FM. reflexivity.
  - eapply elements_run_until; eauto.
  - eapply elements_run_until; eauto.
  - lia.
  - rewrite <- L2. lia.
  - intros X. rewrite <- (L3 X). auto.
Qed.

(** the specification leaves no choice *)
Lemma kind_unique k k' e : of_kind k e -> of_kind k' e -> k = k'.
Proof. destruct k, k'; cbn; intros (x & ->) (y & E); try discriminate E; reflexivity. Qed.
Theorem C81_laid_unique i cs : forall ps p k ps' p' k', laid i cs ps p k -> laid i cs ps' p' k' -> ps = ps' /\ p = p' /\ k = k'.
Proof.
  induction cs as [|x cs IH] using rev_ind; intros ps p k ps' p' k' L L'.
  - inversion L; subst; try (match goal with H : _ ++ [_] = [] |- _ => destruct (app_eq_nil _ _ H); discriminate end).
    inversion L'; subst; auto; match goal with H : _ ++ [_] = [] |- _ => destruct (app_eq_nil _ _ H); discriminate end.
  - remember (cs ++ [x]) as cs1 eqn:E. destruct L as [|? ? ? ? L|? ? ? ? ? ? L|? ? ? ? ? ? ? L K|? ? ? ? ? ? L K|? ? ? ? L|? ? ? ? ? L O Z|? ? ? ? ? L O Z|? ? ? ? ? ? L F O|? ? ? ? L N|? ? ? L];
      try (destruct cs; discriminate E); apply app_inj_tail in E as (-> & <-).
    all: match type of L' with laid _ ?c _ _ _ => remember c as cs1 eqn:E end.
    all: destruct L' as [|? ? ? ? L'|? ? ? ? ? ? L'|? ? ? ? ? ? ? L' K'|? ? ? ? ? ? L' K'|? ? ? ? L'|? ? ? ? ? L' O' Z'|? ? ? ? ? L' O' Z'|? ? ? ? ? ? L' F' O'|? ? ? ? L' N'|? ? ? L'];
      try (destruct cs; discriminate E); apply app_inj_tail in E as (-> & E2); try discriminate E2; try (injection E2 as E2 E3); try injection E2 as E2; subst.
    all: destruct (IH _ _ _ _ _ _ L L') as (? & ? & ?); subst; try (sconj; auto; fail).
    all: try (exfalso; cbn in *; first [destruct O; discriminate|destruct O'; discriminate|destruct k0; destruct O; discriminate|destruct k0; destruct O'; discriminate|destruct k'; destruct O; discriminate|destruct k'; destruct O'; discriminate|lia|congruence]).
    all: try (match goal with K1 : block_keeps ?e ?a, K2 : block_keeps ?e ?b |- _ => assert (a = b) as -> by (eapply keeps_unique; eauto); auto end).
    all: try (pose proof (kind_unique _ _ _ O O'); subst; auto; unfold follows in *; exfalso; intuition congruence).
    destruct k'0, O as (? & O); discriminate O.
Qed.
