(** Property C98: reading a file while it is being written. *)
From Coq Require Import ZArith List Bool Strings.Byte Permutation Lia.
From Verif Require Import Base BaseFacts Types Proto FileFormat FileFacts WriterFacts FileSpec Spec PropFile CallSpec Calls PropCalls Pool ParallelSpec ParallelRead FailPool FailSpec ReadFails PropReadFails GrowingSpec Growing.
Import ListNotations.
Local Notation length := List.length.
Local Notation concat := List.concat.
Open Scope Z_scope.

Lemma beginning_refl {A} (l : list A) : beginning l l.
Proof. exists []. rewrite app_nil_r. reflexivity. Qed.
Lemma beginning_trans {A} (a b d : list A) : beginning a b -> beginning b d -> beginning a d.
Proof. intros (x & ->) (y & ->). exists (x ++ y). rewrite app_assoc. reflexivity. Qed.
Lemma beginning_len (v w : bytes) : beginning v w -> zlen v <= zlen w.
Proof. intros (r & ->). rewrite zlen_app. pose proof (zlen_nonneg r). lia. Qed.
Lemma beginning_same {A} (a b : list A) : beginning a b -> beginning b a -> a = b.
Proof.
  intros (x & ->) (y & E). rewrite <- app_assoc in E. apply (f_equal (@length _)) in E as L. rewrite !app_length in L. destruct x; [rewrite app_nil_r; reflexivity|cbn in L; lia].
Qed.
Lemma from_pos_begin v w p : 0 <= p -> beginning v w -> beginning (from_pos v p) (from_pos w p).
Proof.
  intros P (r & ->). unfold from_pos. rewrite skipn_app. eexists. reflexivity.
Qed.
Lemma take_begin n (v w : bytes) b r : take_exact n v = Some (b, r) -> beginning v w -> exists r', take_exact n w = Some (b, r').
Proof.
  intros T (x & ->). apply take_exact_some in T as (-> & <- & _). exists (r ++ x). rewrite <- app_assoc. apply take_exact_app.
Qed.
Lemma take_pos n v w p b r : 0 <= p -> take_exact n (from_pos v p) = Some (b, r) -> beginning v w -> exists r', take_exact n (from_pos w p) = Some (b, r').
Proof. intros P T B. eapply take_begin; [exact T|]. apply from_pos_begin; auto. Qed.

(** ** one call *)
Lemma seen_same v s : blob_next_seen v v s = blob_next v s.
Proof.
  unfold blob_next_seen, blob_next. cbv zeta. set (p := bi_pos s + wrap64 (bi_jump s)). destruct (p <? 0) eqn:P; auto.
  destruct (take_exact 4 (from_pos v p)) as [(lb, x)|] eqn:L; auto. destruct (of_be32 lb <? 0); auto.
  destruct (take_exact (of_be32 lb) (from_pos v (p + 4))) as [(hb, y)|]; auto. apply Z.ltb_ge in P.
  assert (X : Z.max (p + 4) (zlen v) = Z.max p (zlen v)); [|rewrite X; reflexivity].
  apply take_exact_some in L as (L1 & L2 & _). apply (f_equal (@zlen _)) in L1. rewrite from_pos_len, zlen_app, L2 in L1 by lia. pose proof (zlen_nonneg x). lia.
Qed.
Lemma blob_seen_later v1 v2 w s d s' : blob_next_seen v1 v2 s = Ok (Some d, s') -> beginning v1 w -> beginning v2 w -> blob_next w s = Ok (Some d, s').
Proof.
  intros H B1 B2. rewrite <- seen_same. unfold blob_next_seen in *. cbv zeta in *. set (p := bi_pos s + wrap64 (bi_jump s)) in *. destruct (p <? 0) eqn:P; [discriminate H|]. apply Z.ltb_ge in P. assert (P4 : 0 <= p + 4) by lia.
  destruct (take_exact 4 (from_pos v1 p)) as [(lb, x)|] eqn:L; [|discriminate H]. destruct (take_pos _ _ _ _ _ _ P L B1) as (x' & ->). destruct (of_be32 lb <? 0); [discriminate H|].
  destruct (take_exact (of_be32 lb) (from_pos v2 (p + 4))) as [(hb, y)|] eqn:E; [|discriminate H]. destruct (take_pos _ _ _ _ _ _ P4 E B2) as (y' & ->). exact H.
Qed.
Lemma blob_later_seen v v1 v2 s d s' : blob_next v s = Ok (Some d, s') -> beginning v v1 -> beginning v v2 -> blob_next_seen v1 v2 s = Ok (Some d, s').
Proof.
  intros H B1 B2. rewrite <- seen_same in H. unfold blob_next_seen in *. cbv zeta in *. set (p := bi_pos s + wrap64 (bi_jump s)) in *. destruct (p <? 0) eqn:P; [discriminate H|]. apply Z.ltb_ge in P. assert (P4 : 0 <= p + 4) by lia.
  destruct (take_exact 4 (from_pos v p)) as [(lb, x)|] eqn:L; [|discriminate H]. destruct (take_pos _ _ _ _ _ _ P L B1) as (x' & ->). destruct (of_be32 lb <? 0); [discriminate H|].
  destruct (take_exact (of_be32 lb) (from_pos v (p + 4))) as [(hb, y)|] eqn:E; [|discriminate H]. destruct (take_pos _ _ _ _ _ _ P4 E B2) as (y' & ->). exact H.
Qed.
Lemma blob_start v s d s' : blob_next v s = Ok (Some d, s') -> 0 <= bd_start d.
Proof.
  unfold blob_next. cbv zeta. set (p := bi_pos s + wrap64 (bi_jump s)). destruct (p <? 0) eqn:P; [discriminate|]. apply Z.ltb_ge in P. assert (P4 : 0 <= p + 4) by lia.
  destruct (take_exact 4 (from_pos v p)) as [(lb, x)|]; [|discriminate]. destruct (of_be32 lb <? 0) eqn:N; [discriminate|]. apply Z.ltb_ge in N.
  destruct (take_exact (of_be32 lb) (from_pos v (p + 4))) as [(hb, y)|]; [|discriminate]. destruct (blob_header_decode hb); [|discriminate]. intros H. injection H as <- _. cbn [bd_start]. lia.
Qed.
Lemma desc_later m c v w d b : 0 <= bd_start d -> from_blob_desc m c v d = Ok b -> beginning v w -> from_blob_desc m c w d = Ok b.
Proof.
  unfold from_blob_desc. intros P H B. destruct (max_i64 <? bd_length d); [discriminate H|]. destruct (take_exact (bd_length d) (from_pos v (bd_start d))) as [(x, y)|] eqn:T; [|discriminate H].
  destruct (take_pos _ _ _ _ _ _ P T B) as (y' & ->). exact H.
Qed.
Lemma block_seen_later m c v1 v2 v3 w s b s' : fb_next_seen m c v1 v2 v3 s = Ok (Some b, s') -> beginning v1 w -> beginning v2 w -> beginning v3 w -> fb_next m c w s = Ok (Some b, s').
Proof.
  unfold fb_next_seen, fb_next. intros H B1 B2 B3. destruct (blob_next_seen v1 v2 s) as [([d|], s2)| |] eqn:E; try discriminate H. pose proof (blob_seen_later _ _ _ _ _ _ E B1 B2) as E2. rewrite E2. cbn [bind] in *.
  destruct (from_blob_desc m c v3 d) as [b2| |] eqn:F; try discriminate H. rewrite (desc_later _ _ _ _ _ _ (blob_start _ _ _ _ E2) F B3). exact H.
Qed.
Lemma block_later_seen m c v v1 v2 v3 s b s' : fb_next m c v s = Ok (Some b, s') -> beginning v v1 -> beginning v v2 -> beginning v v3 -> fb_next_seen m c v1 v2 v3 s = Ok (Some b, s').
Proof.
  unfold fb_next_seen, fb_next. intros H B1 B2 B3. destruct (blob_next v s) as [([d|], s2)| |] eqn:E; try discriminate H. rewrite (blob_later_seen _ _ _ _ _ _ E B1 B2). cbn [bind] in *.
  destruct (from_blob_desc m c v d) as [b2| |] eqn:F; try discriminate H. rewrite (desc_later _ _ _ _ _ _ (blob_start _ _ _ _ E) F B3). exact H.
Qed.
Lemma block_seen_same m c v s : fb_next_seen m c v v v s = fb_next m c v s.
Proof. unfold fb_next_seen, fb_next. rewrite seen_same. reflexivity. Qed.

Section Growing.
Variables (m : mode) (c : codec) (final : bytes).
Notation block_grows := (block_grows m c final).
Notation el_grow := (el_grow m c final).
Notation blocks_grow := (blocks_grow m c final).
Lemma step_up v s b s' v' : block_grows v s (Ok (Some b, s')) v' -> fb_next m c final s = Ok (Some b, s').
Proof.
  intros H. inversion H as [v1 v2 v3 (A1 & A2) (B1 & B2) (D1 & D2) E]; subst. rewrite E. eapply block_seen_later; eauto.
Qed.
Lemma step_down v0 v s r v' b s' : beginning v0 v -> block_grows v s r v' -> fb_next m c v0 s = Ok (Some b, s') -> r = Ok (Some b, s').
Proof.
  intros B H N. inversion H as [v1 v2 v3 (A1 & A2) (B1 & B2) (D1 & D2) E]; subst. eapply block_later_seen; eauto using beginning_trans.
Qed.
Lemma step_grows v s r v' : block_grows v s r v' -> beginning v v'.
Proof. intros H. inversion H as [v1 v2 v3 (A1 & A2) (B1 & B2) (D1 & D2) E]; subst. eauto using beginning_trans. Qed.
Lemma step_in v s r v' : block_grows v s r v' -> beginning v' final.
Proof. intros H. inversion H as [v1 v2 v3 (A1 & A2) (B1 & B2) (D1 & D2) E]; subst. auto. Qed.
Lemma step_stay v s : beginning v final -> block_grows v s (fb_next m c v s) v.
Proof. intros B. rewrite <- block_seen_same. constructor; split; auto using beginning_refl. Qed.
Lemma step_jump v s : beginning v final -> block_grows v s (fb_next m c final s) final.
Proof. intros B. rewrite <- block_seen_same. constructor; split; auto using beginning_refl. Qed.
(** whatever call is the last, it may see the final file *)

Lemma blocks_upper v s l o : blocks_grow v s l o -> forall all oa, run (fb_next m c final) s all oa -> beginning l all.
Proof.
  induction 1 as [v s s' v' B|v s v' B|v s b s' v' l o B R IH]; intros all oa Q; try (exists all; reflexivity).
  apply step_up in B. inversion Q as [? ? E|? E|? b2 s2 l2 o2 E R2]; subst; rewrite B in E; try discriminate E. injection E as <- <-. destruct (IH _ _ R2) as (r & ->). exists r. reflexivity.
Qed.
Lemma blocks_lower v0 s known o0 : run (fb_next m c v0) s known o0 -> forall v l o, beginning v0 v -> blocks_grow v s l o -> beginning known l.
Proof.
  induction 1 as [s s' E|s E|s b s' known o0 E R IH]; intros v l o B H; try (exists l; reflexivity).
  inversion H as [? ? s2 v' G|? ? v' G|? ? b2 s2 v' l2 o2 G R2]; subst; pose proof (step_down _ _ _ _ _ _ _ B G E) as X; try discriminate X. injection X as -> ->.
  destruct (IH _ _ _ (beginning_trans _ _ _ B (step_grows _ _ _ _ G)) R2) as (r & ->). exists r. reflexivity.
Qed.
Lemma created_inv r es s : created r = Ok (Some es, s) -> exists i, r = Ok (Some (FData i es), s).
Proof. destruct r as [([[i x|i x]|], s2)| |]; cbn; intros H; try discriminate H; injection H as -> ->; eauto. Qed.
Lemma create_is r : forall file s, fb_next m c file s = r -> create_element_iterator m c file s = created r.
Proof. intros file s <-. reflexivity. Qed.
Lemma el_grow_none v s l o : el_grow v s None l o -> l = [].
Proof. intros H. inversion H. reflexivity. Qed.
Lemma el_upper v s it l o : el_grow v s it l o -> forall all oa, el_run m c final s it all oa -> beginning l all.
Proof.
  induction 1 as [v s|v s e r l o H IH|v s r v' it s' l o B C H IH|v s r v' B C]; intros all oa Q; try (exists all; reflexivity).
  - inversion Q as [|? ? ? l2 o2 Q2| |]; subst. destruct (IH _ _ Q2) as (x & ->). exists x. reflexivity.
  - destruct it as [es|].
    + apply created_inv in C as (i & ->). apply step_up in B. inversion Q as [| |? it2 s2 l2 o2 C2 Q2|? C2]; subst; unfold create_element_iterator in C2; rewrite B in C2; cbn [bind] in C2; [|discriminate C2]. injection C2 as <- <-. eapply IH; eauto.
    + apply el_grow_none in H as ->. exists all. reflexivity.
Qed.
Lemma el_lower v0 s it known o0 : el_run m c v0 s it known o0 -> forall v l o, beginning v0 v -> el_grow v s it l o -> beginning known l.
Proof.
  induction 1 as [s|s e r known o0 H IH|s it s' known o0 C H IH|s C]; intros v l o B G; try (exists l; reflexivity).
  - inversion G as [|? ? ? ? l2 o2 G2| |]; subst. destruct (IH _ _ _ B G2) as (x & ->). exists x. reflexivity.
  - destruct it as [es|]; [|inversion H; subst; exists l; reflexivity].
    unfold create_element_iterator in C. destruct (fb_next m c v0 s) as [([[i x|i x]|], s2)| |] eqn:E; cbn [bind] in C; try discriminate C. injection C as -> ->.
    inversion G as [| |? ? r v' it2 s2 l2 o2 B2 C2 G2|? ? r v' B2 C2]; subst; pose proof (step_down _ _ _ _ _ _ _ B B2 E) as ->; cbn [created bind] in C2; [|discriminate C2]. injection C2 as <- <-.
    eapply IH; [|exact G2]. eapply beginning_trans; [exact B|]. eapply step_grows; eauto.
Qed.
(** staying at a version *)
Lemma el_stay v s it l o : beginning v final -> el_run m c v s it l o -> el_grow v s it l o.
Proof.
  intros B. induction 1 as [s|s e r l o H IH|s it s' l o C H IH|s C]; [constructor|constructor; auto|eapply elg_refill; [apply step_stay; exact B|exact C|exact IH]|eapply elg_panic; [apply step_stay; exact B|exact C]].
Qed.
Lemma elements_stay v l o : beginning v final -> elements_run m c v l o -> elements_grow m c final v l o.
Proof.
  intros B H. destruct H as [E|ob s E C|ob s it s' l o E C H].
  - eapply eg_skip_panic. rewrite <- E. apply step_stay. exact B.
  - eapply eg_new_panic with (s := s); [rewrite <- E; apply step_stay; exact B|apply step_stay; exact B|exact C].
  - eapply eg_loop with (s := s); [rewrite <- E; apply step_stay; exact B|apply step_stay; exact B|exact C|apply el_stay; auto].
Qed.
Lemma elements_weaken v0 v l o : beginning v0 v -> elements_grow m c final v l o -> elements_grow m c final v0 l o.
Proof.
  intros B. assert (W : forall s r v', block_grows v s r v' -> block_grows v0 s r v').
  { intros s r v' H. inversion H as [v1 v2 v3 (A1 & A2) X Y E]; subst. constructor; auto. split; eauto using beginning_trans. }
  intros [v' H|first s v' r v'' H1 H2 H3|first s v' r v'' it s' l' o' H1 H2 H3 H4]; [eapply eg_skip_panic|eapply eg_new_panic|eapply eg_loop]; eauto.
Qed.

(** *** Reader::new, which itself reads while the file grows *)
Theorem C98_new v i v' : reader_new_grows m c final v (Ok i) v' -> reader_new m c v' = Ok i /\ reader_new m c final = Ok i.
Proof.
  intros H. inversion H as [r w B E]; subst. destruct r as [([b|], s)| |]; try discriminate E.
  assert (X : forall w, fb_next m c w bit_new = Ok (Some b, s) -> reader_new m c w = Ok i).
  { intros w N. unfold reader_new. rewrite N. cbn [bind header_of] in *. destruct b; [exact E|discriminate E]. }
  rewrite E. split; apply X; [|eapply step_up; eauto]. inversion B as [v1 v2 v3 (A1 & A2) (B1 & B2) (D1 & D2) E2]; subst. rewrite E2. eapply block_seen_later; eauto using beginning_trans, beginning_refl.
Qed.
(** *** the elements of a growing file: at least what was there when the reader was made, at most what there will be *)
Theorem C98_elements v i l o : reader_new m c v = Ok i -> beginning v final -> elements_grow m c final v l o ->
  exists known o0 all oa, elements_run m c v known o0 /\ elements_run m c final all oa /\ beginning known l /\ beginning l all.
Proof.
  intros RN BF G. destruct (C20_elements_terminate m c v) as (known & o0 & K). destruct (C20_elements_terminate m c final) as (all & oa & A). exists known, o0, all, oa. split; [exact K|]. split; [exact A|].
  assert (N : exists b s, fb_next m c v bit_new = Ok (Some b, s)).
  { unfold reader_new in RN. destruct (fb_next m c v bit_new) as [([b|], s)| |]; try discriminate RN. eauto. }
  destruct N as (b & s & N). assert (NF : fb_next m c final bit_new = Ok (Some b, s)) by (eapply step_up; rewrite <- N; apply step_stay; exact BF).
  destruct G as [v' B|first s1 v' r v'' B1 B2 C|first s1 v' r v'' it s' l o B1 B2 C H].
  - pose proof (step_down _ _ _ _ _ _ _ (beginning_refl v) B N) as X. discriminate X.
  - pose proof (step_down _ _ _ _ _ _ _ (beginning_refl v) B1 N) as X. injection X as -> ->.
    split; [|exists all; reflexivity]. inversion K as [E|? ? E C2|? ? it2 s2 ? ? E C2 H2]; subst; try (exists []; reflexivity). rewrite N in E. injection E as <- <-.
    eapply el_lower with (s := s) (it := Some []) (v := v') (o := Panicked); [eapply elr_refill; eauto|eapply step_grows; exact B1|eapply elg_panic; eauto].
  - pose proof (step_down _ _ _ _ _ _ _ (beginning_refl v) B1 N) as X. injection X as -> ->. pose proof (step_grows _ _ _ _ B1) as S1.
    assert (G : el_grow v' s (Some []) l o) by (eapply elg_refill; eauto). split.
    + inversion K as [E|? ? E C2|? ? it2 s2 ? ? E C2 H2]; subst; try (exists l; reflexivity). rewrite N in E. injection E as <- <-. eapply el_lower; [eapply elr_refill; eauto|exact S1|exact G].
    + inversion A as [E|? ? E C2|? ? it2 s2 ? ? E C2 H2]; subst; rewrite NF in E; try discriminate E; injection E as <- <-.
      * eapply el_upper; [exact G|apply elr_panic; exact C2].
      * eapply el_upper; [exact G|eapply elr_refill; eauto].
Qed.
(** *** both bounds are reached: the writer can be slow or fast *)
Theorem C98_both_bounds v : beginning v final ->
  (forall known o0, elements_run m c v known o0 -> elements_grow m c final v known o0) /\
  (forall all oa, elements_run m c final all oa -> elements_grow m c final v all oa).
Proof.
  intros B. split; intros l o R; [apply elements_stay; auto|]. eapply elements_weaken; [exact B|]. apply elements_stay; auto using beginning_refl.
Qed.
(** *** a complete file *)
Theorem C98_complete l o : elements_grow m c final final l o <-> elements_run m c final l o.
Proof.
  split; [|apply elements_stay; apply beginning_refl]. intros G.
  assert (SB : forall v s r v', v = final -> block_grows v s r v' -> v' = final /\ r = fb_next m c final s).
  { intros v s r v' -> H. inversion H as [v1 v2 v3 (A1 & A2) (B1 & B2) (D1 & D2) E]; subst. assert (v1 = final) by (apply beginning_same; auto). subst v1. assert (v2 = final) by (apply beginning_same; auto). subst v2.
    assert (v' = final) by (apply beginning_same; auto). subst v'. split; auto. apply block_seen_same. }
  assert (EL : forall v s it l o, el_grow v s it l o -> v = final -> el_run m c final s it l o).
  { induction 1 as [v s|v s e r l1 o1 H IH|v s r v' it s' l1 o1 B C H IH|v s r v' B C]; intros ->; try (constructor; auto; fail).
    - apply SB in B as (-> & ->); auto. eapply elr_refill; eauto.
    - apply SB in B as (_ & ->); auto. apply elr_panic; auto. }
  destruct G as [v' B|first s v' r v'' B1 B2 C|first s v' r v'' it s' l o B1 B2 C H].
  - apply SB in B as (_ & E); auto. apply els_skip_panic. auto.
  - apply SB in B1 as (-> & E1); auto. apply SB in B2 as (-> & ->); auto. eapply els_new_panic; eauto.
  - apply SB in B1 as (-> & E1); auto. apply SB in B2 as (-> & ->); auto. eapply els_loop; eauto.
Qed.
(** *** the blocks *)
Theorem C98_blocks v l o : beginning v final -> blocks_grow v bit_new l o ->
  exists known o0 all oa, run (fb_next m c v) bit_new known o0 /\ run (fb_next m c final) bit_new all oa /\ beginning known l /\ beginning l all.
Proof.
  intros B G. destruct (C20_blocks_terminate m c v) as (known & o0 & K & _). destruct (C20_blocks_terminate m c final) as (all & oa & A & _). exists known, o0, all, oa. split; [exact K|]. split; [exact A|].
  split; [eapply blocks_lower; [exact K|apply beginning_refl|exact G]|eapply blocks_upper; eauto].
Qed.
End Growing.
(** *** a file that a sequential writer is making, in any way its interface allows: [file1] is what is there when the reader is made *)
Lemma fit_less m c k a b : calls_fit m c k (a ++ b) -> calls_fit m c k a.
Proof.
  intros (F1 & F2). assert (S : singles (a ++ b) = singles a ++ singles b) by (unfold singles; apply flat_map_app). assert (B : batches (a ++ b) = batches a ++ batches b) by (unfold batches; apply flat_map_app).
  rewrite B in F2. apply Forall_app in F2 as (F2 & _). split; auto. intros stream W. apply no_sentinels_spec in W. subst stream.
  specialize (F1 (no_sentinels (singles (a ++ b))) (proj2 (no_sentinels_spec _ _) eq_refl)). rewrite S in F1. unfold no_sentinels in *. rewrite filter_app in F1. intros x y z E L. apply (F1 x y (z ++ no_sentinels (singles b))); auto. unfold no_sentinels in *. rewrite E, <- !app_assoc. reflexivity.
Qed.
Lemma F2_firstn {A B} (R : A -> B -> Prop) l l' x : Forall2 R l l' -> beginning x l' -> Forall2 R (firstn (length x) l) x.
Proof.
  intros F (y & ->). apply Forall2_app_inv_r in F as (l1 & l2 & F1 & _ & ->). pose proof (F2_length _ _ _ F1) as L. rewrite <- L, firstn_app, firstn_all, Nat.sub_diag. cbn. rewrite app_nil_r. exact F1.
Qed.
Theorem C98_while_written m c i k cs1 cs2 file1 v file l o :
  codec_ok c -> info_ok i -> ~ info_empty i -> header_fits c k i -> Forall supported (fi_required i) ->
  Forall call_ok (cs1 ++ cs2) -> calls_fit m c k (cs1 ++ cs2) ->
  calls_file m c i k cs1 = Ok file1 -> calls_file m c i k (cs1 ++ cs2) = Ok file ->
  beginning file1 v -> beginning v file ->
  (exists i', reader_new m c v = Ok i' /\ info_written_read i i') /\
  (elements_grow m c file v l o -> exists bs1 pending1 bs pending n,
     laid_out cs1 bs1 pending1 /\ laid_out (cs1 ++ cs2) bs pending /\
     (length (flat_map content bs1) <= n)%nat /\ Forall2 written_read (firstn n (flat_map content bs)) l).
Proof.
  intros C IO NE HF SU CO CF H1 H B1 B2. pose proof (fit_less _ _ _ _ _ CF) as CF1. pose proof (proj1 (proj1 (Forall_app _ _ _) CO)) as CO1.
  destruct (C58_any_calls m c i k cs1 file1 C IO NE HF SU CO1 CF1 H1) as (bs1 & pd1 & i1 & got1 & L1 & RN1 & IW1 & G1 & W1).
  destruct (C58_any_calls m c i k _ file C IO NE HF SU CO CF H) as (bs & pd & i2 & got & L2 & RN2 & IW2 & G2 & W2). split.
  - exists i1. split; auto. unfold reader_new in *. destruct (fb_next m c file1 bit_new) as [([b|], s)| |] eqn:N; cbn [bind] in RN1; try discriminate RN1.
    rewrite <- block_seen_same. rewrite (block_later_seen m c file1 v v v _ _ _ N B1 B1 B1). exact RN1.
  - intros G. pose proof (elements_weaken m c file _ _ _ _ B1 G) as GW. destruct (C98_elements m c file file1 i1 l o RN1 (beginning_trans _ _ _ B1 B2) GW) as (known & o0 & all & oa & K & A & X & Y).
    destruct (C16_unique _ _ _ _ _ _ _ K G1) as (-> & _). destruct (C16_unique _ _ _ _ _ _ _ A G2) as (-> & _).
    exists bs1, pd1, bs, pd, (length l). split; [exact L1|]. split; [exact L2|]. split; [|eapply F2_firstn; eauto]. rewrite (F2_length _ _ _ W1). destruct X as (z & ->). rewrite app_length. lia.
Qed.

(** *** parallel_for_each *)
Lemma fexec_ext {It J A S} (next next' : It -> res (option J * It)) (plan plan' : J -> option (list A)) (act : nat -> A -> S -> S * bool) cap p tr k p' :
  (forall x, next x = next' x) -> (forall x, plan x = plan' x) -> fexec next plan act cap p tr k p' -> fexec next' plan' act cap p tr k p'.
Proof.
  intros N P. assert (ST : forall a o b, fstep next plan act cap a o b -> fstep next' plan' act cap a o b) by (intros a o b H; destruct H; rewrite ?N, ?P in *; try (econstructor; eauto; fail)). induction 1; econstructor; eauto.
Qed.
(** seeing [v1] and [v2] of the file [final] is as if this fault struck *)
Definition fault_of (final v1 v2 : bytes) (s : bit) : fault :=
  let p := bi_pos s + wrap64 (bi_jump s) in
  if p <? 0 then SeekFault else
  match take_exact 4 (from_pos v1 p) with
  | None => if p <=? zlen final then LengthFault (Z.max 0 (zlen v1 - p)) else NoFault
  | Some (lb, _) => if of_be32 lb <? 0 then NoFault else
    match take_exact (of_be32 lb) (from_pos v2 (p + 4)) with None => HeaderFault (zlen v2 - (p + 4)) | Some _ => NoFault end
  end.
Lemma seen_is_fault final v1 v2 s : beginning v1 v2 -> beginning v2 final -> blob_next_seen v1 v2 s = blob_next_with (fault_of final v1 v2 s) final s.
Proof.
  intros B1 B2. pose proof (beginning_trans _ _ _ B1 B2) as B. pose proof (beginning_len _ _ B1) as Z1. pose proof (beginning_len _ _ B2) as Z2. pose proof (zlen_nonneg v1) as Z0.
  unfold blob_next_seen, fault_of. cbv zeta. set (p := bi_pos s + wrap64 (bi_jump s)). destruct (p <? 0) eqn:P.
  { reflexivity. }
  apply Z.ltb_ge in P. destruct (take_exact 4 (from_pos v1 p)) as [(lb, x)|] eqn:L.
  - assert (HD : forall n hb y, take_exact n (from_pos v2 (p + 4)) = Some (hb, y) -> exists y', take_exact n (from_pos final (p + 4)) = Some (hb, y')) by (intros n hb y T; eapply take_pos; [|exact T|exact B2]; lia).
    destruct (take_pos _ _ _ _ _ _ P L B) as (x' & LF). destruct (of_be32 lb <? 0) eqn:N.
    { cbn [blob_next_with]. unfold blob_next. cbv zeta. fold p. rewrite (proj2 (Z.ltb_ge p 0) P), LF, N. reflexivity. }
    destruct (take_exact (of_be32 lb) (from_pos v2 (p + 4))) as [(hb, y)|] eqn:E.
    + destruct (HD _ _ _ E) as (y' & E'). cbn [blob_next_with]. unfold blob_next. cbv zeta. fold p. rewrite (proj2 (Z.ltb_ge p 0) P), LF, N, E'. reflexivity.
    + apply Z.ltb_ge in N. apply take_exact_none in E; [|exact N]. apply take_exact_some in L as (L1 & L2 & _). apply (f_equal (@zlen _)) in L1. rewrite zlen_app, L2 in L1. pose proof (zlen_nonneg x) as ZX.
      rewrite from_pos_len in L1 by lia. rewrite from_pos_len in E by lia. cbn [blob_next_with]. cbv zeta. fold p. rewrite (proj2 (Z.ltb_ge p 0) P), LF.
      assert (Q : (0 <=? zlen v2 - (p + 4)) && (zlen v2 - (p + 4) <? of_be32 lb) && (p + 4 + (zlen v2 - (p + 4)) <=? zlen final) = true).
      { rewrite !andb_true_iff, !Z.leb_le, Z.ltb_lt. lia. }
      rewrite Q. replace (p + 4 + (zlen v2 - (p + 4))) with (Z.max (p + 4) (zlen v2)) by lia. reflexivity.
  - apply take_exact_none in L; [|lia]. rewrite from_pos_len in L by lia. destruct (Z.le_gt_cases p (zlen final)) as [LE|GT].
    + rewrite (proj2 (Z.leb_le _ _) LE). cbn [blob_next_with]. cbv zeta. fold p.
      assert (Q : (0 <=? p) && (0 <=? Z.max 0 (zlen v1 - p)) && (Z.max 0 (zlen v1 - p) <? 4) && (p + Z.max 0 (zlen v1 - p) <=? zlen final) = true).
      { rewrite !andb_true_iff, !Z.leb_le, Z.ltb_lt. lia. }
      rewrite Q. replace (p + Z.max 0 (zlen v1 - p)) with (Z.max p (zlen v1)) by lia. reflexivity.
    + rewrite (proj2 (Z.leb_gt _ _)) by lia. cbn [blob_next_with]. unfold blob_next. cbv zeta. fold p. rewrite (proj2 (Z.ltb_ge p 0) P). rewrite take_exact_short.
      * replace (Z.max p (zlen final)) with p by lia. replace (Z.max p (zlen v1)) with p by lia. reflexivity.
      * rewrite from_pos_len by lia. lia.
Qed.
Lemma calls_seen m c final v d : beginning v final -> iteration_calls m c v d =
  (if match take_exact (bd_length d) (from_pos v (bd_start d)) with None => true | _ => false end then None else iteration_calls m c final d).
Proof.
  intros B. unfold iteration_calls, from_blob_desc. destruct (take_exact (bd_length d) (from_pos v (bd_start d))) as [(x, y)|] eqn:T.
  - assert (BP : beginning (from_pos v (bd_start d)) (from_pos final (bd_start d))) by (destruct B as (r & ->); unfold from_pos; rewrite skipn_app; eexists; reflexivity).
    destruct (take_begin _ _ _ _ _ T BP) as (y' & ->). reflexivity.
  - destruct (max_i64 <? bd_length d); reflexivity.
Qed.
Lemma descs_sane final s ds o : run (blob_next final) s ds o -> Forall (fun d => 0 <= bd_start d /\ 0 <= bd_length d) ds.
Proof.
  induction 1 as [|s|s d s' l o E R IH]; constructor; auto. split; [eapply blob_start; eauto|]. unfold blob_next in E. cbv zeta in E.
  destruct (_ <? 0); [discriminate E|]. destruct (take_exact 4 _) as [(lb, x)|]; [|discriminate E]. destruct (_ <? 0); [discriminate E|]. destruct (take_exact _ _) as [(hb, y)|]; [|discriminate E].
  destruct (blob_header_decode hb); [|discriminate E]. injection E as <- _. cbn [bd_length]. apply Z.mod_pos_bound. reflexivity.
Qed.
Definition too_short (v : bytes) (d : blob_desc) : bool := (0 <? bd_length d) && (zlen v <? bd_start d + bd_length d).
Lemma take_short v d : 0 <= bd_start d -> 0 <= bd_length d -> too_short v d = match take_exact (bd_length d) (from_pos v (bd_start d)) with None => true | _ => false end.
Proof.
  intros S L. unfold too_short. destruct (take_exact (bd_length d) (from_pos v (bd_start d))) as [(x, y)|] eqn:T.
  - apply take_exact_some in T as (E & LX & _). apply (f_equal (@zlen _)) in E. rewrite from_pos_len, zlen_app, LX in E by lia. pose proof (zlen_nonneg y). apply andb_false_iff.
    destruct (Z.eq_dec (bd_length d) 0) as [Q|Q]; [left; apply Z.ltb_ge; lia|right; apply Z.ltb_ge; lia].
  - apply take_exact_none in T; [|exact L]. rewrite from_pos_len in T by lia. apply andb_true_iff. rewrite !Z.ltb_lt. lia.
Qed.
Lemma all_blobs_imp (P Q : blob_desc -> nat -> list element -> Prop) (G : blob_desc -> Prop) ds ws ls : (forall d w l, G d -> P d w l -> Q d w l) -> Forall G ds -> all_blobs P ds ws ls -> all_blobs Q ds ws ls.
Proof. intros I F A. induction A as [|d ds w ws l ls H A IH]; constructor; inversion F; subst; auto. Qed.
Theorem C98_for_each {S} m c final at_len at_header at_body tasks (f : nat -> element -> S -> S * bool) s0 ds0 o0 tr k p :
  (forall s, beginning (at_len s) (at_header s) /\ beginning (at_header s) final) -> (forall d, beginning (at_body d) final) ->
  run (blob_next final) bit_new ds0 o0 -> grows_exec m c at_len at_header at_body tasks f s0 tr k p -> joined p ->
  exists ds rest owners mades, ds0 = ds ++ rest /\
    all_blobs (fun d w made => if too_short (at_body d) d then made = [] else blob_done m c final f d w made) ds owners mades /\
    (forall w, by_worker w tr = share w owners mades) /\ Permutation (map snd tr) (concat mades).
Proof.
  intros V VB R E J.
  assert (E2 : reads_exec m c final (fun s => fault_of final (at_len s) (at_header s) s)
    (fun d => match take_exact (bd_length d) (from_pos (at_body d) (bd_start d)) with None => true | _ => false end) tasks f s0 tr k p).
  { unfold reads_exec. eapply fexec_ext; [| |exact E].
    - intros s. destruct (V s) as (V1 & V2). cbv beta. apply seen_is_fault; auto.
    - intros d. cbv beta. apply calls_seen. apply VB. }
  destruct (C90_for_each _ _ _ _ _ _ _ _ _ _ _ _ _ R E2 J) as (ds & rest & owners & mades & X & A & W & PM).
  exists ds, rest, owners, mades. split; [exact X|]. split; [|split; [exact W|exact PM]].
  pose proof (descs_sane _ _ _ _ R) as F. rewrite X in F. apply Forall_app in F as (F & _).
  eapply all_blobs_imp; [|exact F|exact A]. intros d w l (G1 & G2) H. cbv beta in *. rewrite take_short by auto. exact H.
Qed.
(** *** the sequential writer only appends *)
Theorem C98_appends m c i k cs1 cs2 file :
  calls_file m c i k (cs1 ++ cs2) = Ok file -> exists file1, calls_file m c i k cs1 = Ok file1 /\ beginning file1 file.
Proof.
  unfold calls_file. destruct (write_header m c (writer_new i k)) as [w0| |]; cbn [bind]; [|discriminate|discriminate].
  assert (A : forall cs1 w w2, do_wcalls m c w (cs1 ++ cs2) = Ok w2 -> exists w1, do_wcalls m c w cs1 = Ok w1 /\ do_wcalls m c w1 cs2 = Ok w2).
  { induction cs0 as [|x cs0 IH]; intros w w2 H; [exists w; split; auto|]. cbn [app do_wcalls] in *. destruct (do_wcall m c w x) as [w'| |]; cbn [bind] in *; [apply IH; exact H|discriminate H|discriminate H]. }
  destruct (do_wcalls m c w0 (cs1 ++ cs2)) as [w2| |] eqn:D; cbn [bind]; [|discriminate|discriminate]. intros H. injection H as <-.
  destruct (A _ _ _ D) as (w1 & D1 & D2). rewrite D1. exists (wr_file w1). split; [reflexivity|].
  destruct (do_wcalls_spec _ _ _ _ _ D2) as (bs & hbs & _ & _ & -> & _). eexists. reflexivity.
Qed.
