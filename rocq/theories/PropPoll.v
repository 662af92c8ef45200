(** Property C99: calling [next] again after None. *)
From Coq Require Import ZArith List Bool Strings.Byte Lia.
From Verif Require Import Base BaseFacts Types Proto ProtoFacts FileFormat FileFacts WriterFacts FileSpec Spec PropFile CallSpec Calls PropCalls WireSpec WireFacts WireMsg PropWire ReadSpec PropReadAny PropBlobs GrowingSpec PropGrowing PollSpec Poll.
From Verif Require ApidbRead.
Import ListNotations.
Local Notation length := List.length.
Open Scope Z_scope.

(** ** generalities *)
Section Gen.
Context {S A : Type} (next : S -> res (option A * S) -> Prop).
Lemma fused_cons (x : A) rs : fused rs -> fused (Some x :: rs).
Proof. intros F a b E. destruct a as [|y a]; [discriminate E|]. injection E as <- E. exact (F a b E). Qed.
Lemma fused_none (rs : list (option A)) : Forall (fun r => r = None) rs -> fused (None :: rs).
Proof.
  intros F a b E. destruct a as [|y a]; [injection E as ->; exact F|]. injection E as <- ->. apply Forall_app in F as (_ & F). inversion F; auto.
Qed.
Lemma fused_nil : fused (@nil (option A)).
Proof. intros a b E. destruct a; discriminate E. Qed.
Lemma all_none (rs : list (option A)) : Forall (fun r => r = None) rs -> rs = repeat None (length rs).
Proof. induction 1 as [|x l -> F IH]; cbn; congruence. Qed.
(** from a state that is left by None only, and only to such states *)
Lemma polled_none (P : S -> Prop) s rs s' : (forall s r s1, P s -> next s (Ok (r, s1)) -> r = None /\ P s1) -> P s -> polled next s rs s' -> Forall (fun r => r = None) rs.
Proof.
  intros H Ps Q. induction Q as [s|s r s1 rs s2 N Q IH]; constructor; destruct (H _ _ _ Ps N); auto.
Qed.
End Gen.
Definition graph {S R} (f : S -> R) : S -> R -> Prop := fun s r => f s = r.
(** the first results are those of a [for] loop *)
Lemma polled_loop {S A} (next : S -> res (option A * S)) s rs s' l o : run next s l o -> polled (graph next) s rs s' -> fused rs -> as_loop l o rs.
Proof.
  intros R Q. revert l o R. induction Q as [s|s r s1 rs s2 N Q IH]; intros l o R F.
  - exists [], O. split; [reflexivity|]. split; [exists l; reflexivity|auto].
  - red in N. destruct r as [x|].
    + inversion R as [? ? E|? E|? ? s3 l2 o2 E R2]; subst; rewrite N in E; try discriminate E. injection E as <- <-.
      destruct (IH _ _ R2) as (l' & n & -> & (z & ->) & C). { intros a b E. apply (F (Some x :: a)). cbn. congruence. }
      exists (x :: l'), n. split; [reflexivity|]. split; [exists z; reflexivity|]. destruct C as [C|(C & D)]; [auto|]. right. split; [|auto]. cbn. f_equal. exact C.
    + inversion R as [? ? E|? E|? ? s3 l2 o2 E R2]; subst; rewrite N in E; try discriminate E. pose proof (F [] rs eq_refl) as G.
      exists [], (Datatypes.S (length rs)). split; [cbn; f_equal; apply all_none; exact G|]. split; [exists []; reflexivity|auto].
Qed.

(** ** the elements of a PBF file *)
Section Elements.
Variables (m : mode) (c : codec) (file : bytes).
Lemma el_stays x r y : snd x = None -> el_next m c file x (Ok (r, y)) -> r = None /\ snd y = None.
Proof. intros N H. inversion H; subst; cbn in *; try discriminate N. auto. Qed.
Lemma el_none_state x r : el_next m c file x r -> forall y, r = Ok (None, y) -> snd y = None.
Proof. induction 1; intros y E; inversion E; subst; cbn; auto. Qed.
Lemma el_end x r : el_next m c file x r -> forall y, r = Ok (None, y) -> el_run m c file (fst x) (snd x) [] Ended.
Proof.
  induction 1 as [s|s e r|s it s' r C H IH|s C]; intros y E; inversion E; subst; cbn in *; [constructor|]. eapply elr_refill; [exact C|]. eapply IH; eauto.
Qed.
Lemma el_step_back x r : el_next m c file x r -> forall e y, r = Ok (Some e, y) -> forall l o, el_run m c file (fst x) (snd x) l o -> exists l1, l = e :: l1 /\ el_run m c file (fst y) (snd y) l1 o.
Proof.
  induction 1 as [s|s e' r|s it s' r C H IH|s C]; intros e y E l o R; inversion E; subst; cbn in *.
  - inversion R; subst. eauto.
  - inversion R as [|? ? ? ? ? ?|? it2 s2 ? ? C2 R2|? C2]; subst; rewrite C in C2; try discriminate C2. injection C2 as <- <-. eapply IH; eauto.
Qed.
Lemma el_polled x rs y : polled (el_next m c file) x rs y -> forall l o, el_run m c file (fst x) (snd x) l o -> as_loop l o rs.
Proof.
  induction 1 as [x|x r x1 rs x2 N Q IH]; intros l o R.
  - exists [], O. split; [reflexivity|]. split; [exists l; reflexivity|auto].
  - destruct r as [e|].
    + pose proof (el_step_back _ _ N _ _ eq_refl _ _ R) as G.
      destruct G as (l1 & -> & R1). destruct (IH _ _ R1) as (l' & n & -> & (z & ->) & C).
      exists (e :: l'), n. split; [reflexivity|]. split; [exists z; reflexivity|]. destruct C as [C|(C & D)]; [auto|]. right. split; [|auto]. cbn. f_equal. exact C.
    + pose proof (el_end _ _ N _ eq_refl) as R2. destruct (el_run_det _ _ _ _ _ _ _ R _ _ R2) as (-> & ->).
      pose proof (polled_none _ (fun y => snd y = None) _ _ _ (fun a b d => el_stays a b d) (el_none_state _ _ N _ eq_refl) Q) as F.
      exists [], (Datatypes.S (length rs)). split; [cbn; f_equal; apply all_none; exact F|]. split; [exists []; reflexivity|auto].
Qed.
(** *** any number of calls of next of the iterator over the elements of any file *)
Theorem C99_elements x rs y : elements_new m c file = Ok x -> polled (el_next m c file) x rs y ->
  exists l o, elements_run m c file l o /\ as_loop l o rs.
Proof.
  intros N Q. destruct (C20_elements_terminate m c file) as (l & o & R). exists l, o. split; [exact R|]. unfold elements_new in N.
  inversion R as [E|ob s E C|ob s it s' l1 o1 E C R1]; subst; rewrite E in N; cbn [bind] in N; try discriminate N; rewrite C in N; try discriminate N.
  injection N as <-. eapply el_polled; [exact Q|exact R1].
Qed.
(** and a loop that ended can be followed by any number of further calls *)
Lemma el_polls s it l o : el_run m c file s it l o -> o = Ended -> forall n, exists y, polled (el_next m c file) (s, it) (map Some l ++ repeat None n) y.
Proof.
  assert (ST : forall s n, polled (el_next m c file) (s, None) (repeat None n) (s, None)) by (induction n; cbn; econstructor; [constructor|exact IHn]).
  assert (RE : forall s it s' rs y, create_element_iterator m c file s = Ok (it, s') -> rs <> [] -> polled (el_next m c file) (s', it) rs y -> polled (el_next m c file) (s, Some []) rs y).
  { intros s0 it0 s' rs y C NE Q. inversion Q as [|? r x1 rs1 ? N Q1]; subst; [congruence|]. econstructor; [eapply en_refill; [exact C|exact N]|exact Q1]. }
  induction 1 as [s|s e r l o H IH|s it s' l o C H IH|s C]; intros E n; try discriminate E.
  - exists (s, None). apply ST.
  - destruct (IH E n) as (y & Q). exists y. cbn. econstructor; [constructor|exact Q].
  - destruct (IH E n) as (y & Q). destruct (map Some l ++ repeat None n) as [|r rs] eqn:X; [exists (s, Some []); constructor|]. exists y. eapply RE; [exact C|discriminate|exact Q].
Qed.
Theorem C99_elements_reached l : elements_run m c file l Ended ->
  exists x, elements_new m c file = Ok x /\ forall n, exists y, polled (el_next m c file) x (map Some l ++ repeat None n) y.
Proof.
  intros R. inversion R as [| |ob s it s' l1 o1 E C R1]; subst. exists (s', it). split; [unfold elements_new; rewrite E; cbn [bind]; rewrite C; reflexivity|].
  eapply el_polls; [exact R1|reflexivity].
Qed.
(** every further call returns or panics *)
Theorem C99_elements_total x rs y : elements_new m c file = Ok x -> polled (el_next m c file) x rs y -> exists r, el_next m c file y r.
Proof.
  intros N Q. assert (X : exists l o, el_run m c file (fst x) (snd x) l o).
  { destruct (C20_elements_terminate m c file) as (l & o & R). unfold elements_new in N.
    inversion R as [E|ob s E C|ob s it s' l1 o1 E C R1]; subst; rewrite E in N; cbn [bind] in N; try discriminate N; rewrite C in N; try discriminate N. injection N as <-. eauto. }
  clear N. induction Q as [x|x r x1 rs x2 N Q IH].
  - destruct X as (l & o & R). destruct x as (s, it). cbn in R. induction R as [s|s e r l o R IH|s it s' l o C R IH|s C]; try (eexists; constructor; auto; fail).
    destruct IH as (r & H). exists r. eapply en_refill; eauto.
  - apply IH. destruct X as (l & o & R). destruct r as [e|].
    + destruct (el_step_back _ _ N _ _ eq_refl _ _ R) as (l1 & _ & R1). eauto.
    + pose proof (el_none_state _ _ N _ eq_refl) as E. destruct x1 as (s1, it1). cbn in *. subst it1. eexists _, _. constructor.
Qed.
End Elements.

(** ** raw blobs and blocks *)
Lemma fused_all_none {A} (rs : list (option A)) : Forall (fun r => r = None) rs -> fused rs.
Proof. intros F a b ->. apply Forall_app in F as (_ & F). inversion F; auto. Qed.
Lemma jump_is file s d s' : blob_next file s = Ok (Some d, s') -> bi_jump s' = bd_length d /\ 0 <= bi_pos s'.
Proof.
  unfold blob_next. cbv zeta. set (p := bi_pos s + wrap64 (bi_jump s)). destruct (p <? 0) eqn:P; [discriminate|]. apply Z.ltb_ge in P.
  destruct (take_exact 4 _) as [(lb, x)|]; [|discriminate]. destruct (of_be32 lb <? 0) eqn:N; [discriminate|]. apply Z.ltb_ge in N.
  destruct (take_exact _ _) as [(hb, y)|]; [|discriminate]. destruct (blob_header_decode hb); [|discriminate]. intros E. injection E as <- <-. cbn. split; [reflexivity|lia].
Qed.
Lemma none_cases file s s' : blob_next file s = Ok (None, s') ->
  (at_pos s < 0 /\ s' = s) \/ undecodable_at file (at_pos s) \/ (0 <= at_pos s /\ s' = Bit (Z.max (at_pos s) (zlen file)) (bi_jump s) (bi_index s)).
Proof.
  intros H. pose proof (blob_step file s) as O. rewrite H in O. destruct O as (O & HU). unfold blob_next in H. cbv zeta in H. fold (at_pos s) in H. set (p := at_pos s) in *.
  destruct (p <? 0) eqn:P; [injection H as <-; left; split; [apply Z.ltb_lt; exact P|reflexivity]|]. apply Z.ltb_ge in P.
  destruct (take_exact 4 (from_pos file p)) as [(lb, x)|] eqn:T; [|injection H as <-; auto].
  destruct (of_be32 lb <? 0) eqn:SG; [discriminate H|]. destruct (take_exact (of_be32 lb) (from_pos file (p + 4))) as [(hb, y)|] eqn:T2; [|injection H as <-; auto].
  destruct (blob_header_decode hb) as [h|] eqn:HD; [discriminate H|]. right. left. apply Z.ltb_ge in SG.
  apply take_exact_some in T as (E1 & L4 & _). apply take_exact_some in T2 as (E2 & L5 & _).
  assert (PL : 0 <= p <= zlen file). { split; [exact P|]. destruct (Z_lt_le_dec (zlen file) p) as [X|X]; [|exact X]. rewrite from_pos_out in E1 by lia. destruct lb; [discriminate L4|discriminate E1]. }
  destruct (at_split file p PL) as (pre & E & LP). rewrite E1 in E. destruct (big_endian_total lb L4) as (n & BE). pose proof (big_endian_negative lb n BE) as NG.
  assert (N31 : n < 2147483648) by (destruct (Z_lt_le_dec n 2147483648) as [|X]; auto; apply NG in X; lia).
  destruct (of_be32_value lb n BE) as (_ & V); [lia|]. rewrite V in *.
  assert (FP : from_pos file (p + 4) = x) by (rewrite <- L4; apply (from_pos_more file p lb x); auto; lia). rewrite FP in E2. subst x.
  exists pre, lb, hb, y. rewrite L5. sconj; auto. intros h HI. apply blob_header_dec in HI. rewrite HI in HD. discriminate HD.
Qed.
(** behind the end of the file and with a jump forward *)
Definition past (file : bytes) (s : bit) : Prop := 0 <= wrap64 (bi_jump s) /\ zlen file <= at_pos s.
Lemma past_stays file s r s' : past file s -> graph (blob_next file) s (Ok (r, s')) -> r = None /\ past file s'.
Proof.
  unfold graph, past. intros (J & P) N. pose proof (zlen_nonneg file). unfold blob_next in N. cbv zeta in N. fold (at_pos s) in N. destruct (at_pos s <? 0) eqn:X; [apply Z.ltb_lt in X; lia|].
  rewrite take_exact_short in N by (rewrite from_pos_len; lia). injection N as <- <-. split; [reflexivity|]. unfold at_pos. cbn [bi_pos bi_jump]. split; [exact J|lia].
Qed.
Lemma past_fused file s rs s' : past file s -> polled (graph (blob_next file)) s rs s' -> Forall (fun r => r = None) rs.
Proof. intros P Q. eapply polled_none; [|exact P|exact Q]. intros. eapply past_stays; eauto. Qed.
Lemma resumes file s rs s' : polled (graph (blob_next file)) s rs s' -> 0 <= wrap64 (bi_jump s) -> 
  fused rs \/ exists l q, blobs_from file (at_pos s) l q /\ ((exists st n t, In (st, n, t) l /\ n < 0) \/ undecodable_at file q).
Proof.
  induction 1 as [s|s r s1 rs s2 N Q IH]; intros J; [left; apply fused_nil|]. red in N. destruct r as [d|].
  - pose proof (blob_step file s) as O. rewrite N in O. destruct O as (h & st & A & (D1 & D2 & D3 & D4) & P & _). cbn [fst snd] in D3. destruct (jump_is _ _ _ _ N) as (JE & _).
    assert (HR : -2147483648 <= bh_datasize h <= 2147483647) by (destruct A as (pre & lb & hb & rest & _ & _ & _ & _ & HI & _); eapply datasize_range; eauto).
    destruct (Z_lt_le_dec (bh_datasize h) 0) as [NEG|POS].
    + right. exists [(st, bh_datasize h, bh_type h)], (st + bh_datasize h). split; [econstructor; [exact A|constructor]|]. left. exists st, (bh_datasize h), (bh_type h). split; [left; reflexivity|exact NEG].
    + destruct IH as [F|(l & q & B & X)].
      * rewrite JE, D3. change 18446744073709551616 with two64. rewrite wrap_mod by exact HR. exact POS.
      * left. apply fused_cons. exact F.
      * right. rewrite P in B. exists ((st, bh_datasize h, bh_type h) :: l), q. split; [econstructor; eauto|]. destruct X as [(a & b & t & I & L)|X]; [left; exists a, b, t; split; [right; exact I|exact L]|right; exact X].
  - destruct (none_cases _ _ _ N) as [(P & ->)|[U|(P & ->)]].
    + left. apply fused_none. eapply (polled_none _ (fun y => y = s)); [|reflexivity|exact Q]. intros y r s3 -> X. red in X. rewrite N in X. injection X as <- <-. auto.
    + right. exists [], (at_pos s). split; [constructor|auto].
    + left. apply fused_none. eapply past_fused; [|exact Q]. split; [exact J|]. change (zlen file <= Z.max (at_pos s) (zlen file) + wrap64 (bi_jump s)). lia.
Qed.
(** *** an iteration over the blobs of any file goes on behind a None only if a blob states a negative size or a blob header cannot be decoded *)
Theorem C99_resumes_only file rs s' : polled (graph (blob_next file)) bit_new rs s' -> ~ fused rs ->
  exists l q, blobs_from file 0 l q /\ ((exists st n t, In (st, n, t) l /\ n < 0) \/ undecodable_at file q).
Proof. intros Q NF. destruct (resumes file bit_new rs s' Q) as [F|X]; [vm_compute; discriminate|contradiction|exact X]. Qed.

(** *** files made of blobs *)
Lemma blob_next_cut_state pre f q s : frame_ok f -> bi_pos s + wrap64 (bi_jump s) = zlen pre ->
  (exists r, be32 (zlen (blob_header_encode (fst f))) ++ blob_header_encode (fst f) = q ++ r) -> zlen q < head_len f ->
  blob_next (pre ++ q) s = Ok (None, Bit (zlen (pre ++ q)) (bi_jump s) (bi_index s)).
Proof.
  intros H P (r & E) L. destruct H as (Ok & D & HL).
  pose proof (zlen_nonneg pre). pose proof (zlen_nonneg q). pose proof (zlen_nonneg (blob_header_encode (fst f))).
  assert (MX : Z.max (zlen pre) (zlen (pre ++ q)) = zlen (pre ++ q)) by (rewrite zlen_app; lia).
  unfold blob_next. rewrite P. destruct (zlen pre <? 0) eqn:E1; [lia|]. rewrite from_pos_app, MX.
  destruct (take_exact 4 q) as [[a b]|] eqn:T; [|reflexivity].
  apply take_exact_some in T. destruct T as (-> & La & _).
  assert (Ha : a = be32 (zlen (blob_header_encode (fst f)))).
  { rewrite <- app_assoc in E. assert (L2 : length a = 4%nat) by (unfold zlen in La; lia).
    symmetry. eapply proj1, (app_len_inv (be32 _) _ a); [|exact E]. rewrite L2. reflexivity. }
  subst a. rewrite b2z_be32 by (unfold max_i32, two31 in *; lia).
  destruct (zlen (blob_header_encode (fst f)) <? 0) eqn:E2; [lia|].
  rewrite app_assoc. rewrite from_pos_app' by (rewrite zlen_app, La; reflexivity).
  rewrite take_exact_short; [reflexivity|].
  rewrite zlen_app, La in L. unfold head_len in L. lia.
Qed.
Lemma polled_prefix l : forall pre p r s rs s', Forall frame_ok l -> at_end pre s -> 0 <= wrap64 (bi_jump s) -> frames_bytes l = p ++ r ->
  polled (graph (blob_next (pre ++ p))) s rs s' -> fused rs.
Proof.
  induction l as [|f l IH]; intros pre p r s rs s' H P J E Q.
  - cbn in E. symmetry in E. apply app_eq_nil in E as (-> & ->). apply fused_all_none. eapply past_fused; [|exact Q]. split; [exact J|]. rewrite app_nil_r. red in P. unfold at_pos. lia.
  - inversion H as [|? ? Hf Hl]; subst. rewrite frames_bytes_cons in E. pose proof (head_len_pos f). pose proof (frame_ok_len f Hf) as Lf.
    inversion Q as [|? r0 s1 rs' s2 N Q' E1 E2 E3]; [apply fused_nil|]. red in N.
    destruct (prefix_split _ _ _ _ E) as [(p' & -> & E')|(L & r' & E')].
    + rewrite blob_next_complete in N by auto. injection N as <- <-. apply fused_cons. pose proof (at_end_next pre f (bi_index s + 1) Hf) as A.
      eapply (IH (pre ++ frame_bytes f) p' r); [exact Hl|exact A| |exact E'|rewrite <- app_assoc; exact Q']. cbn [bi_jump]. rewrite wrap64_small by exact Lf. lia.
    + rewrite frame_bytes_len in L by auto. rewrite frame_bytes_eq in E' by auto. rewrite app_assoc in E'.
      destruct (Z_lt_le_dec (zlen p) (head_len f)) as [C|C].
      * rewrite (blob_next_cut_state pre f p s) in N; auto.
        2:{ destruct (prefix_split _ _ _ _ E') as [(x & -> & _)|(_ & x & Y)]; [|eauto]. rewrite !zlen_app, be32_len in C. unfold head_len in C. pose proof (zlen_nonneg x). lia. }
        injection N as <- <-. apply fused_none. eapply past_fused; [|exact Q']. split; [exact J|]. unfold at_pos. cbn [bi_pos bi_jump]. lia.
      * destruct (prefix_split _ _ _ _ E') as [(x & Ep & Ex)|(Y & x & _)].
        2:{ rewrite !zlen_app, be32_len in Y. unfold head_len in C. lia. }
        rewrite Ep, <- !app_assoc, blob_next_frame in N by auto. injection N as <- <-. apply fused_cons. apply fused_all_none. eapply past_fused; [|exact Q'].
        split; [cbn [bi_jump]; rewrite wrap64_small by exact Lf; lia|]. unfold at_pos. cbn [bi_pos bi_jump]. rewrite wrap64_small by exact Lf. rewrite zlen_app. lia.
Qed.
Lemma blocks_blobs m c file s rs s' : polled (graph (fb_next m c file)) s rs s' ->
  exists ds, polled (graph (blob_next file)) s ds s' /\ Forall2 (fun r d => r = None <-> d = None) rs ds.
Proof.
  induction 1 as [s|s r s1 rs s2 N Q (ds & P & F)]; [exists []; split; constructor|]. red in N. unfold fb_next in N. destruct (blob_next file s) as [([d|], s3)| |] eqn:E; cbn [bind] in N; try discriminate N.
  - destruct (unwrap_res (from_blob_desc m c file d)) as [b| |]; cbn [bind] in N; try discriminate N. injection N as <- <-. exists (Some d :: ds). split; [econstructor; [exact E|exact P]|]. constructor; [split; discriminate|exact F].
  - injection N as <- <-. exists (None :: ds). split; [econstructor; [exact E|exact P]|]. constructor; [split; reflexivity|exact F].
Qed.
Lemma fused_same {A B} (rs : list (option A)) (ds : list (option B)) : Forall2 (fun r d => r = None <-> d = None) rs ds -> fused ds -> fused rs.
Proof.
  intros F U a b ->. apply Forall2_app_inv_l in F as (da & db & F1 & F2 & ->). inversion F2 as [|? d ? db' X F3]; subst. rewrite (proj1 X eq_refl) in U. specialize (U da db' eq_refl).
  clear - F3 U. induction F3 as [|x y l l' H F IH]; constructor; inversion U; subst; [apply H; reflexivity|auto].
Qed.
(** a file of blobs that state their sizes, and any beginning of it: the blobs, and the blocks as long as none of them panics *)
Theorem C99_blobs m c l p : Forall consistent_blob l -> beginning p (file_of_blobs l) ->
  (forall rs s', polled (graph (blob_next p)) bit_new rs s' -> fused rs) /\ (forall rs s', polled (graph (fb_next m c p)) bit_new rs s' -> fused rs).
Proof.
  intros F (r & E). assert (FO : Forall frame_ok l) by (eapply Forall_impl; [|exact F]; apply consistent_frame).
  assert (G : forall rs s', polled (graph (blob_next p)) bit_new rs s' -> fused rs) by (intros rs s' Q; eapply (polled_prefix l [] p r bit_new); eauto using at_end_new; vm_compute; discriminate).
  split; [exact G|]. intros rs s' Q. destruct (blocks_blobs _ _ _ _ _ _ Q) as (ds & P & S). eapply fused_same; eauto.
Qed.
(** in particular of any file the sequential writer leaves, even if it is cut off: exactly as a [for] loop, then None for ever *)
Theorem C99_written m c i k cs file p :
  codec_ok c -> info_ok i -> ~ info_empty i -> header_fits c k i -> Forall call_ok cs -> calls_fit m c k cs -> calls_file m c i k cs = Ok file -> beginning p file ->
  (forall l o rs s', run (blob_next p) bit_new l o -> polled (graph (blob_next p)) bit_new rs s' -> as_loop l o rs) /\
  (forall l o rs s', run (fb_next m c p) bit_new l o -> polled (graph (fb_next m c p)) bit_new rs s' -> as_loop l o rs).
Proof.
  intros C IO NE HF CO CF H (r & E). destruct (calls_file_frames m c i k cs file C IO NE HF CO CF H) as (l & blks & bs & a & _ & -> & FO & _).
  assert (G : forall rs s', polled (graph (blob_next p)) bit_new rs s' -> fused rs) by (intros rs s' Q; eapply (polled_prefix _ [] p r bit_new); eauto using at_end_new; vm_compute; discriminate).
  split; intros lo o rs s' R Q; (eapply polled_loop; [exact R|exact Q|]); [eauto|]. destruct (blocks_blobs _ _ _ _ _ _ Q) as (ds & P & S). eapply fused_same; eauto.
Qed.

(** ** the elements of a dump *)
Theorem C99_dump k s rs s' l o : polled (graph (ApidbRead.element_next k)) s rs s' -> run (ApidbRead.element_next k) s l o -> as_loop l o rs.
Proof.
  intros Q R. eapply polled_loop; [exact R|exact Q|]. clear R.
  assert (ST : forall x y, ApidbRead.element_next k x = Ok (None, y) -> ApidbRead.ei_state y = ApidbRead.End_).
  { intros x y. unfold ApidbRead.element_next, ApidbRead.next_started. destruct (ApidbRead.ei_state x) eqn:SX; cbn [ApidbRead.set_state ApidbRead.ei_state].
    1,2: destruct (ApidbRead.node_next _ _) as [([(n, t)|], z)| |]; cbn [bind]; try discriminate; destruct (ApidbRead.make_node _ _ _ _); discriminate.
    - destruct (ApidbRead.way_next _ _) as [([((n, t), u)|], z)| |]; cbn [bind]; try discriminate; destruct (ApidbRead.make_way _ _ _ _ _); discriminate.
    - destruct (ApidbRead.rel_next _ _) as [([((n, t), u)|], z)| |]; cbn [bind]; try discriminate; destruct (ApidbRead.make_relation _ _ _ _ _); discriminate.
    - intros E. injection E as <-. exact SX. }
  induction Q as [s|s r s1 rs s2 N Q IH]; [apply fused_nil|]. red in N. destruct r as [e|]; [apply fused_cons; exact IH|]. apply fused_none. clear IH.
  eapply (polled_none _ (fun y => ApidbRead.ei_state y = ApidbRead.End_)); [|exact (ST _ _ N)|exact Q]. intros x r y E X. red in X. unfold ApidbRead.element_next, ApidbRead.next_started in X. rewrite E in X. injection X as <- <-. auto.
Qed.
