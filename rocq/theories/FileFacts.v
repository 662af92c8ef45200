(** Facts about the container format: framing, iteration, file blocks. *)
From Coq Require Import ZArith List Bool Lia Strings.Byte Strings.String.
From Verif Require Import Base BaseFacts Types Proto ProtoFacts Block BlockFacts BlockRead FileFormat.
Import ListNotations.
Local Notation length := List.length.
Open Scope Z_scope.

Lemma b2z_be32 z : 0 <= z < two31 -> of_be32 (be32 z) = z.
Proof.
  intros H. unfold of_be32, be32, fold_left. rewrite !b2z_z2b. unfold two31 in H.
  pose proof (Z.div_mod z 16777216 ltac:(lia)). pose proof (Z.mod_pos_bound z 16777216 ltac:(lia)).
  assert (A1 : z / 65536 = (z / 16777216) * 256 + (z mod 16777216) / 65536).
  { rewrite H0 at 1. replace (16777216 * (z / 16777216) + z mod 16777216) with (z mod 16777216 + (z / 16777216 * 256) * 65536) by ring.
    rewrite Z.div_add by lia. ring. }
  assert (A : ((((0 * 256 + (z / 16777216) mod 256) * 256 + (z / 65536) mod 256) * 256 + (z / 256) mod 256) * 256 + z mod 256) = z).
  { rewrite (Z.mod_small (z / 16777216)) by (split; [apply Z.div_pos; lia|apply Z.div_lt_upper_bound; lia]).
    pose proof (Z.div_mod z 256 ltac:(lia)). pose proof (Z.div_mod (z/256) 256 ltac:(lia)).
    pose proof (Z.div_mod (z/256/256) 256 ltac:(lia)).
    rewrite !Z.div_div in * by lia. change (256*256) with 65536 in *. change (65536*256) with 16777216 in *. lia. }
  rewrite A. apply wrap32_id. unfold I32, min_i32, max_i32. lia.
Qed.
Lemma be32_len z : zlen (be32 z) = 4. Proof. reflexivity. Qed.

Lemma app_len_inv {A} (a b c d : list A) : length a = length c -> a ++ b = c ++ d -> a = c /\ b = d.
Proof. revert c. induction a; destruct c; cbn; intros L E; try discriminate; auto. injection E as -> E. injection L as L. destruct (IHa _ L E). subst. auto. Qed.

Lemma from_pos_app pre rest : from_pos (pre ++ rest) (zlen pre) = rest.
Proof. unfold from_pos, zlen. rewrite Nat2Z.id, skipn_app, skipn_all, Nat.sub_diag. reflexivity. Qed.
Lemma from_pos_app' pre rest p : p = zlen pre -> from_pos (pre ++ rest) p = rest.
Proof. intros ->. apply from_pos_app. Qed.
Lemma from_pos_out f p : zlen f <= p -> from_pos f p = [].
Proof. unfold from_pos, zlen. intros. apply skipn_all2. lia. Qed.
Lemma from_pos_len f p : 0 <= p -> zlen (from_pos f p) = Z.max 0 (zlen f - p).
Proof. unfold from_pos, zlen. intros. rewrite skipn_length. lia. Qed.
Lemma take_exact_short n bs : zlen bs < n -> take_exact n bs = None.
Proof.
  unfold take_exact. intros. pose proof (zlen_nonneg bs). destruct (n <? 0) eqn:E; [reflexivity|].
  destruct (zlen bs <? n) eqn:E'; auto. lia.
Qed.
Lemma take_exact_some n bs a r : take_exact n bs = Some (a, r) -> bs = a ++ r /\ zlen a = n /\ 0 <= n.
Proof.
  unfold take_exact. destruct (n <? 0) eqn:E; [discriminate|]. destruct (zlen bs <? n) eqn:E'; [discriminate|].
  injection 1 as <- <-. rewrite firstn_skipn. split; auto. unfold zlen in *. rewrite firstn_length. lia.
Qed.
Lemma take_exact_none n bs : 0 <= n -> take_exact n bs = None -> zlen bs < n.
Proof. unfold take_exact. intros. destruct (n <? 0) eqn:E; [lia|]. destruct (zlen bs <? n) eqn:E'; [lia|discriminate]. Qed.

(** a blob that is framed consistently: what the writer always produces *)
Definition frame := (blob_header * bytes)%type.
Definition frame_ok (f : frame) : Prop :=
  blob_header_ok (fst f) /\ bh_datasize (fst f) = zlen (snd f) /\ zlen (blob_header_encode (fst f)) <= max_i32.
Definition frame_bytes (f : frame) : bytes := write_blob (blob_header_encode (fst f), snd f).
Definition frames_bytes (l : list frame) : bytes := flat_map frame_bytes l.
Definition head_len (f : frame) : Z := 4 + zlen (blob_header_encode (fst f)).

Lemma frame_ok_len f : frame_ok f -> 0 <= zlen (snd f) <= max_i32.
Proof. intros ((_ & H) & E & _). rewrite E in H. unfold I32, max_i32 in *. pose proof (zlen_nonneg (snd f)). lia. Qed.
Lemma frame_bytes_eq f : frame_ok f ->
  frame_bytes f = be32 (zlen (blob_header_encode (fst f))) ++ blob_header_encode (fst f) ++ snd f.
Proof.
  intros (_ & _ & L). unfold frame_bytes, write_blob. cbn [fst snd]. rewrite wrap32_id; auto.
  unfold I32, max_i32 in *. pose proof (zlen_nonneg (blob_header_encode (fst f))). lia.
Qed.
Lemma frame_bytes_len f : frame_ok f -> zlen (frame_bytes f) = head_len f + zlen (snd f).
Proof. intros H. rewrite frame_bytes_eq, !zlen_app, be32_len by auto. unfold head_len. ring. Qed.
Lemma head_len_pos f : 4 <= head_len f.
Proof. unfold head_len. pose proof (zlen_nonneg (blob_header_encode (fst f))). lia. Qed.

Lemma wrap64_small z : 0 <= z <= max_i32 -> wrap64 z = z.
Proof. intros. apply wrap64_id. unfold I64, max_i32, min_i64, max_i64 in *. lia. Qed.

(** [next] with the complete header of a frame in front of it; [q] is what follows the header *)
Lemma blob_next_frame pre f q s : frame_ok f -> bi_pos s + wrap64 (bi_jump s) = zlen pre ->
  blob_next (pre ++ be32 (zlen (blob_header_encode (fst f))) ++ blob_header_encode (fst f) ++ q) s =
  Ok (Some (BlobDesc (bi_index s) (zlen pre + head_len f) (zlen (snd f)) (bh_type (fst f))),
      Bit (zlen pre + head_len f) (zlen (snd f)) (bi_index s + 1)).
Proof.
  intros H P. pose proof (frame_ok_len f H) as L. destruct H as (Ok & D & HL).
  pose proof (zlen_nonneg pre). pose proof (zlen_nonneg (blob_header_encode (fst f))).
  unfold blob_next. rewrite P. destruct (zlen pre <? 0) eqn:E; [lia|].
  rewrite from_pos_app. rewrite <- (be32_len (zlen (blob_header_encode (fst f)))) at 1. rewrite take_exact_app.
  rewrite b2z_be32 by (unfold max_i32, two31 in *; lia).
  destruct (zlen (blob_header_encode (fst f)) <? 0) eqn:E2; [lia|].
  rewrite (app_assoc pre). rewrite from_pos_app' by (rewrite zlen_app, be32_len; reflexivity).
  rewrite take_exact_app, blob_header_rt; auto. 2: unfold max_i32, two64 in *; lia.
  rewrite D, Z.mod_small by (unfold max_i32, two64 in *; lia). unfold head_len. rewrite Z.add_assoc. reflexivity.
Qed.

(** [next] at the end of the file, or with an incomplete header in front of it *)
Lemma blob_next_cut pre f q s : frame_ok f -> bi_pos s + wrap64 (bi_jump s) = zlen pre ->
  (exists r, be32 (zlen (blob_header_encode (fst f))) ++ blob_header_encode (fst f) = q ++ r) -> zlen q < head_len f ->
  exists s', blob_next (pre ++ q) s = Ok (None, s').
Proof.
  intros H P (r & E) L. destruct H as (Ok & D & HL).
  pose proof (zlen_nonneg pre). pose proof (zlen_nonneg (blob_header_encode (fst f))).
  unfold blob_next. rewrite P. destruct (zlen pre <? 0) eqn:E1; [lia|]. rewrite from_pos_app.
  destruct (take_exact 4 q) as [[a b]|] eqn:T; [|eauto].
  apply take_exact_some in T. destruct T as (-> & La & _).
  assert (Ha : a = be32 (zlen (blob_header_encode (fst f)))).
  { rewrite <- app_assoc in E. assert (length a = 4%nat) by (unfold zlen in La; lia).
    symmetry. eapply proj1, (app_len_inv (be32 _) _ a); [|exact E]. rewrite H1. reflexivity. }
  subst a. rewrite b2z_be32 by (unfold max_i32, two31 in *; lia).
  destruct (zlen (blob_header_encode (fst f)) <? 0) eqn:E2; [lia|].
  rewrite app_assoc. rewrite from_pos_app' by (rewrite zlen_app, La; reflexivity).
  rewrite take_exact_short; eauto.
  rewrite zlen_app, La in L. unfold head_len in L. lia.
Qed.
Lemma blob_next_end file s : zlen file <= bi_pos s + wrap64 (bi_jump s) -> exists s', blob_next file s = Ok (None, s').
Proof.
  intros H. unfold blob_next. destruct (_ <? 0) eqn:E; eauto. rewrite from_pos_out by auto. cbn. eauto.
Qed.

(** ** reading one frame *)
Lemma from_blob_desc_at m c pre body post i t st : st = zlen pre -> zlen body <= max_i32 ->
  from_blob_desc m c (pre ++ body ++ post) (BlobDesc i st (zlen body) t) =
  fblock_deserialize m c (BlobDesc i st (zlen body) t) body.
Proof.
  intros -> L. unfold from_blob_desc. cbn [bd_length bd_start].
  destruct (max_i64 <? zlen body) eqn:E; [unfold max_i32, max_i64 in *; lia|].
  rewrite from_pos_app, take_exact_app. reflexivity.
Qed.
Lemma from_blob_desc_cut m c pre q n i t st : st = zlen pre -> zlen q < n -> n <= max_i32 ->
  from_blob_desc m c (pre ++ q) (BlobDesc i st n t) = Err.
Proof.
  intros -> L L2. unfold from_blob_desc. cbn [bd_length bd_start].
  destruct (max_i64 <? n) eqn:E; [unfold max_i32, max_i64 in *; lia|].
  rewrite from_pos_app, take_exact_short; auto.
Qed.

(** [run] is a function of the start state *)
Lemma run_det {S A} (next : S -> res (option A * S)) s l o l' o' : run next s l o -> run next s l' o' -> l = l' /\ o = o'.
Proof.
  intros H. revert l' o'. induction H as [s s' E|s E|s a s' l o E R IH]; intros l' o' H'; inversion H'; subst; try congruence; auto.
  assert (a = a0 /\ s' = s'0) as [-> ->] by (split; congruence). edestruct IH as [-> ->]; eauto.
Qed.

(** the state of a blob iterator positioned at the end of [pre] *)
Definition at_end (pre : bytes) (s : bit) : Prop := bi_pos s + wrap64 (bi_jump s) = zlen pre.
Lemma at_end_next pre f i : frame_ok f ->
  at_end (pre ++ frame_bytes f) (Bit (zlen pre + head_len f) (zlen (snd f)) i).
Proof.
  intros H. unfold at_end. cbn [bi_pos bi_jump]. rewrite wrap64_small by (apply frame_ok_len; auto).
  rewrite zlen_app, frame_bytes_len by auto. ring.
Qed.
Lemma at_end_new : at_end [] bit_new. Proof. reflexivity. Qed.

Lemma frames_bytes_cons f l : frames_bytes (f :: l) = frame_bytes f ++ frames_bytes l. Proof. reflexivity. Qed.
Lemma frames_bytes_app a b : frames_bytes (a ++ b) = frames_bytes a ++ frames_bytes b.
Proof. apply flat_map_app. Qed.

(** one step over a complete frame *)
Lemma blob_next_complete pre f q s : frame_ok f -> at_end pre s ->
  blob_next (pre ++ frame_bytes f ++ q) s =
  Ok (Some (BlobDesc (bi_index s) (zlen pre + head_len f) (zlen (snd f)) (bh_type (fst f))),
      Bit (zlen pre + head_len f) (zlen (snd f)) (bi_index s + 1)).
Proof. intros H P. rewrite frame_bytes_eq, <- !app_assoc by auto. apply blob_next_frame; auto. Qed.

Fixpoint descs (i off : Z) (l : list frame) : list blob_desc :=
  match l with
  | [] => []
  | f :: r => BlobDesc i (off + head_len f) (zlen (snd f)) (bh_type (fst f)) :: descs (i + 1) (off + head_len f + zlen (snd f)) r
  end.

Lemma blob_run_frames l : forall pre s, Forall frame_ok l -> at_end pre s ->
  run (blob_next (pre ++ frames_bytes l)) s (descs (bi_index s) (zlen pre) l) Ended.
Proof.
  induction l as [|f l IH]; intros pre s H P.
  - cbn. destruct (blob_next_end (pre ++ []) s) as (s' & E); [|econstructor; eauto]. rewrite app_nil_r. red in P. lia.
  - inversion H; subst. rewrite frames_bytes_cons. eapply run_step; [apply blob_next_complete; auto|].
    rewrite app_assoc. pose proof (at_end_next pre f (bi_index s + 1) H2) as A.
    specialize (IH _ _ H3 A). cbn [bi_index] in IH. rewrite zlen_app, frame_bytes_len, Z.add_assoc in IH by auto. exact IH.
Qed.

(** the frames of [l], numbered from [i], decode to the blocks [bs] *)
Inductive frames_decode (m : mode) (c : codec) : Z -> list frame -> list fblock -> Prop :=
| fd_nil i : frames_decode m c i [] []
| fd_cons i f l b bs : fblock_deserialize m c (BlobDesc i 0 0 (bh_type (fst f))) (snd f) = Ok b ->
    frames_decode m c (i + 1) l bs -> frames_decode m c i (f :: l) (b :: bs).

Lemma deserialize_irr m c i st len t buf : fblock_deserialize m c (BlobDesc i st len t) buf = fblock_deserialize m c (BlobDesc i 0 0 t) buf.
Proof. reflexivity. Qed.

Lemma fb_next_complete m c pre f q s b : frame_ok f -> at_end pre s ->
  fblock_deserialize m c (BlobDesc (bi_index s) 0 0 (bh_type (fst f))) (snd f) = Ok b ->
  fb_next m c (pre ++ frame_bytes f ++ q) s = Ok (Some b, Bit (zlen pre + head_len f) (zlen (snd f)) (bi_index s + 1)).
Proof.
  intros H P D. unfold fb_next. rewrite blob_next_complete by auto. cbn [bind].
  pose proof (frame_ok_len f H) as L. rewrite frame_bytes_eq by auto.
  replace (pre ++ (be32 (zlen (blob_header_encode (fst f))) ++ blob_header_encode (fst f) ++ snd f) ++ q)
    with ((pre ++ be32 (zlen (blob_header_encode (fst f))) ++ blob_header_encode (fst f)) ++ snd f ++ q)
    by (rewrite !app_assoc; reflexivity).
  rewrite from_blob_desc_at by (try lia; rewrite !zlen_app, be32_len; reflexivity).
  rewrite deserialize_irr, D. reflexivity.
Qed.

Lemma prefix_split {A} (a b p r : list A) : a ++ b = p ++ r -> (exists p', p = a ++ p' /\ b = p' ++ r) \/ (zlen p < zlen a /\ exists r', a = p ++ r').
Proof.
  revert p. induction a as [|x a IH]; intros p E; cbn in E.
  - left. exists p. auto.
  - destruct p as [|y p]; cbn in E.
    + right. split; [rewrite zlen_cons, zlen_nil; pose proof (zlen_nonneg a); lia|]. exists (x :: a). reflexivity.
    + injection E as -> E. destruct (IH _ E) as [(p' & -> & E')|(L & r' & ->)].
      * left. exists p'. auto.
      * right. rewrite !zlen_cons. split; [lia|]. exists r'. reflexivity.
Qed.

Lemma fb_run_prefix m c l : forall blks pre p r s, Forall frame_ok l -> at_end pre s ->
  frames_decode m c (bi_index s) l blks -> frames_bytes l = p ++ r ->
  exists k o, run (fb_next m c (pre ++ p)) s (firstn k blks) o /\ (k <= length l)%nat /\
    zlen (frames_bytes (firstn k l)) <= zlen p /\
    (forall f, nth_error l k = Some f -> zlen p < zlen (frames_bytes (firstn k l)) + head_len f + zlen (snd f)) /\
    (o = Panicked <-> exists f, nth_error l k = Some f /\ zlen (frames_bytes (firstn k l)) + head_len f <= zlen p).
Proof.
  induction l as [|f l IH]; intros blks pre p r s H P D E.
  - exists 0%nat, Ended. cbn in E. symmetry in E. apply app_eq_nil in E. destruct E as [-> ->].
    destruct (blob_next_end (pre ++ []) s) as (s' & N); [rewrite app_nil_r; red in P; lia|].
    sconj.
    + eapply run_end. unfold fb_next. rewrite N. reflexivity.
    + cbn; lia.
    + cbn. unfold zlen. cbn. lia.
    + cbn. discriminate.
    + split; [discriminate|]. intros (f & X & _). discriminate.
  - inversion H as [|? ? Hf Hl]; subst. inversion D as [|? ? ? b bs Db Dr]; subst. rewrite frames_bytes_cons in E.
    pose proof (head_len_pos f). pose proof (frame_ok_len f Hf) as Lf.
    destruct (prefix_split _ _ _ _ E) as [(p' & -> & E')|(L & r' & E')].
    + pose proof (at_end_next pre f (bi_index s + 1) Hf) as A.
      destruct (IH bs (pre ++ frame_bytes f) p' r _ Hl A Dr E') as (k & o & R & K & Le & Lt & O).
      exists (S k), o. cbn [firstn nth_error length]. rewrite frames_bytes_cons.
      rewrite !zlen_app. pose proof (frame_bytes_len f Hf).
      sconj.
      * eapply run_step; [apply fb_next_complete; eauto|]. rewrite app_assoc. exact R.
      * lia.
      * lia.
      * intros g X. specialize (Lt _ X). lia.
      * rewrite O. split; intros (g & X & Y); exists g; (split; [auto|lia]).
    + rewrite frame_bytes_len in L by auto.
      destruct (Z_lt_le_dec (zlen p) (head_len f)) as [C|C].
      * exists 0%nat, Ended. cbn [firstn]. change (zlen (frames_bytes [])) with 0. pose proof (zlen_nonneg p).
        destruct (blob_next_cut pre f p s Hf P) as (s' & N); auto.
        { rewrite frame_bytes_eq in E' by auto. rewrite app_assoc in E'.
          destruct (prefix_split _ _ _ _ E') as [(x & -> & _)|(_ & x & Y)]; eauto.
          rewrite !zlen_app, be32_len in C. unfold head_len in C. pose proof (zlen_nonneg x). lia. }
        sconj.
        -- eapply run_end. unfold fb_next. rewrite N. reflexivity.
        -- lia.
        -- lia.
        -- cbn. intros g [= <-]. lia.
        -- split; [discriminate|]. cbn. intros (g & [= <-] & Y). lia.
      * exists 0%nat, Panicked. cbn [firstn]. change (zlen (frames_bytes [])) with 0. pose proof (zlen_nonneg p).
        rewrite frame_bytes_eq in E' by auto. rewrite app_assoc in E'.
        destruct (prefix_split _ _ _ _ E') as [(x & Ep & Ex)|(Y & x & _)].
        2: { rewrite !zlen_app, be32_len in Y. unfold head_len in C. lia. }
        sconj.
        -- eapply run_panic. unfold fb_next. rewrite Ep, <- !app_assoc, blob_next_frame by auto. cbn [bind].
           rewrite !app_assoc, <- (app_assoc pre).
           rewrite from_blob_desc_cut; [reflexivity| | |lia].
           ++ rewrite !zlen_app, be32_len. unfold head_len. ring.
           ++ rewrite Ep, !zlen_app, be32_len in L. unfold head_len in L. lia.
        -- lia.
        -- lia.
        -- cbn. intros g [= <-]. lia.
        -- split; [|reflexivity]. intros _. exists f. cbn. split; [reflexivity|lia].
Qed.

Lemma firstn_length_decode m c i l bs : frames_decode m c i l bs -> length bs = length l.
Proof. induction 1; cbn; auto. Qed.

(** the complete file *)
Lemma fb_run_frames m c l blks pre s : Forall frame_ok l -> at_end pre s ->
  frames_decode m c (bi_index s) l blks -> run (fb_next m c (pre ++ frames_bytes l)) s blks Ended.
Proof.
  intros H P D. destruct (fb_run_prefix m c l blks pre (frames_bytes l) [] s H P D (eq_sym (app_nil_r _))) as (k & o & R & K & Le & Lt & O).
  assert (k = length l).
  { destruct (nth_error l k) as [f|] eqn:N.
    - specialize (Lt _ eq_refl). apply nth_error_split in N. destruct N as (l1 & l2 & -> & <-).
      rewrite frames_bytes_app, frames_bytes_cons, !zlen_app in Lt. rewrite firstn_app, Nat.sub_diag, firstn_all in Lt. cbn [firstn] in Lt.
      rewrite app_nil_r in Lt. rewrite frame_bytes_len in Lt. pose proof (zlen_nonneg (frames_bytes l2)). lia.
      apply Forall_app in H. destruct H as [_ H]. inversion H; auto.
    - apply nth_error_None in N. lia. }
  subst k. rewrite firstn_all2 in R by (rewrite (firstn_length_decode _ _ _ _ _ D); lia).
  destruct o; auto. exfalso. assert (exists f, nth_error l (length l) = Some f) as (f & X).
  { destruct (proj1 O eq_refl) as (f & X & _). eauto. }
  assert (nth_error l (length l) = None) by (apply nth_error_None; lia). congruence.
Qed.

(** ** the element iterator over data blocks *)
Definition block_elements (b : fblock) : list element := match b with FData _ es => es | FHeader _ _ => [] end.
Definition is_data (b : fblock) : Prop := match b with FData _ _ => True | FHeader _ _ => False end.

Lemma el_run_blocks m c file s blks o : run (fb_next m c file) s blks o -> Forall is_data blks ->
  forall r, el_run m c file s (Some r) (r ++ flat_map block_elements blks) o.
Proof.
  intros R D. assert (X : el_run m c file s (Some []) (flat_map block_elements blks) o).
  { induction R as [s s' E|s E|s b s' l o E R IH]; cbn.
    - eapply elr_refill with (it := None); [|constructor]. unfold create_element_iterator. rewrite E. reflexivity.
    - apply elr_panic. unfold create_element_iterator. rewrite E. reflexivity.
    - inversion D; subst. destruct b as [|i es]; [contradiction|]. eapply elr_refill with (it := Some es).
      + unfold create_element_iterator. rewrite E. reflexivity.
      + cbn [block_elements]. clear - IH H2. specialize (IH H2). induction es; cbn; [auto|constructor; auto]. }
  induction r; cbn; [auto|constructor; auto].
Qed.

Lemma elements_run_blocks m c file b0 blks o : run (fb_next m c file) bit_new (b0 :: blks) o -> Forall is_data blks ->
  elements_run m c file (flat_map block_elements blks) o.
Proof.
  intros R D. inversion R as [| |s a s' l o' E R']; subst. inversion R' as [s1 s2 E2|s1 E2|s1 b s2 l o' E2 R2]; subst; cbn.
  - eapply els_loop with (it := None); [exact E|unfold create_element_iterator; rewrite E2; reflexivity|constructor].
  - eapply els_new_panic; [exact E|unfold create_element_iterator; rewrite E2; reflexivity].
  - inversion D; subst. destruct b as [|i es]; [contradiction|].
    eapply els_loop with (it := Some es); [exact E|unfold create_element_iterator; rewrite E2; reflexivity|].
    apply el_run_blocks; auto.
Qed.
Lemma el_run_det m c file s it l o : el_run m c file s it l o -> forall l' o', el_run m c file s it l' o' -> l = l' /\ o = o'.
Proof.
  induction 1 as [s|s e r l o R IH|s it s' l o E R IH|s E]; intros l' o' X; inversion X; subst; auto; try congruence.
  - edestruct IH as [-> ->]; eauto.
  - assert (it0 = it /\ s'0 = s') as [-> ->] by (split; congruence). eauto.
Qed.
Lemma elements_run_det m c file l o l' o' : elements_run m c file l o -> elements_run m c file l' o' -> l = l' /\ o = o'.
Proof.
  intros A B. destruct A as [E|ob s E E2|ob s it s' l1 o1 E E2 R]; destruct B as [F|ob' t F F2|ob' t it' t' l2 o2 F F2 R2];
    try (exfalso; congruence); try (split; congruence).
  - rewrite E in F. injection F as <- <-. rewrite E2 in F2. injection F2 as <- <-. eapply el_run_det; eauto.
Qed.

(** ** file blocks *)
Definition packed (c : codec) (k : compression) (l : level) (data : bytes) : blob_data :=
  match k with Uncompressed => Raw data | Zlib => ZlibData (deflate c l data) end.
(** the blob written for a payload *)
Definition blob_of (c : codec) (k : compression) (l : level) (data : bytes) : blob :=
  match data with [] => Blob None None | _ => Blob (Some (wrap32 (zlen data))) (Some (packed c k l data)) end.
Definition frame_of (t : bytes) (b : blob) : frame := (BlobHeader t None (wrap32 (zlen (blob_encode b))), blob_encode b).

Lemma serialize_data m c k i es : fblock_serialize m c k (FData i es) =
  (d <- osm_data_serialize m es ;;
   let f := frame_of (str "OSMData") (blob_of c k LevelDefault d) in Ok (blob_header_encode (fst f), snd f)).
Proof. unfold fblock_serialize. destruct (osm_data_serialize m es) as [d| |]; cbn [bind]; auto. Qed.
Lemma serialize_header m c k i inf : fblock_serialize m c k (FHeader i inf) =
   let f := frame_of (str "OSMHeader") (blob_of c k LevelNone (osm_header_serialize inf)) in Ok (blob_header_encode (fst f), snd f).
Proof. unfold fblock_serialize. cbn [bind]. destruct (osm_header_serialize inf); reflexivity. Qed.

Lemma enc_varint_short z : zlen (enc_varint z) <= 11.
Proof.
  unfold enc_varint. assert (H : forall n z, zlen (enc_varint_aux n z) <= Z.of_nat n + 1).
  { induction n; intros y; cbn [enc_varint_aux].
    - cbn. lia.
    - destruct (y <? 128); rewrite zlen_cons; [rewrite zlen_nil; lia|]. specialize (IHn (y / 128)). lia. }
  specialize (H 10%nat z). lia.
Qed.
Lemma frame_of_ok t b : zlen t <= 9 -> utf8_ok t = true -> zlen (blob_encode b) <= max_i32 -> frame_ok (frame_of t b).
Proof.
  intros T U L. pose proof (zlen_nonneg (blob_encode b)). assert (W : I32 (zlen (blob_encode b))) by (unfold I32, max_i32 in *; lia).
  unfold frame_ok, frame_of, blob_header_ok. cbn [fst snd bh_type bh_datasize]. rewrite wrap32_id by auto. sconj; auto.
  unfold blob_header_encode, blob_header_fields. cbn [bh_type bh_indexdata bh_datasize f_opt_bytes app].
  unfold enc_fields, enc_field, enc_key. cbn [flat_map fst snd]. rewrite !zlen_app. change (zlen (@nil byte)) with 0.
  pose proof (enc_varint_short (1 * 8 + 2)). pose proof (enc_varint_short (zlen t)). pose proof (enc_varint_short (3 * 8 + 0)).
  pose proof (enc_varint_short (int_enc (zlen (blob_encode b)))). unfold max_i32. lia.
Qed.
Lemma read_packed c k l data : codec_ok c -> data <> [] -> zlen data <= max_i32 ->
  read_blob_data c (blob_of c k l data) = Ok data.
Proof.
  intros C N L. unfold blob_of. destruct data as [|x data]; [congruence|]. set (d := x :: data) in *.
  pose proof (zlen_nonneg d). rewrite wrap32_id by (unfold I32, max_i32 in *; lia).
  unfold read_blob_data, packed. destruct k; cbn [b_data b_raw_size unwrap bind]; auto.
  unfold zlib_decode. destruct (zlen d <? 0) eqn:E; [lia|]. rewrite C.
  rewrite <- (app_nil_r d) at 2. rewrite take_exact_app. reflexivity.
Qed.
Lemma blob_of_ok c k l data : blob_ok (blob_of c k l data).
Proof. unfold blob_of, blob_ok. destruct data; cbn; auto using wrap32_range. Qed.

(** payload [data] written with type [t], read back as block number [i] *)
Lemma deserialize_packed m c k l t data i st len : codec_ok c -> data <> [] -> zlen data <= max_i32 ->
  zlen (blob_encode (blob_of c k l data)) <= max_i32 ->
  fblock_deserialize m c (BlobDesc i st len t) (snd (frame_of t (blob_of c k l data))) = fblock_new m i t data.
Proof.
  intros C N L L2. unfold fblock_deserialize, frame_of. cbn [snd].
  rewrite blob_rt by (auto using blob_of_ok; unfold max_i32, two64 in *; lia). cbn [of_option bind bd_index bd_type].
  rewrite read_packed by auto. reflexivity.
Qed.
Lemma serialize_data_nonempty m es d : osm_data_serialize m es = Ok d -> d <> [].
Proof.
  unfold osm_data_serialize. intros H. bok H b E. injection H as <-.
  unfold pblock_encode, pblock_fields. cbn [app]. unfold enc_fields. cbn [flat_map enc_field].
  unfold enc_field. cbn [fst snd]. unfold enc_key.
  pose proof (enc_varint_nonempty (1 * 8 + 2)). destruct (enc_varint (1 * 8 + 2)); cbn in *; [lia|congruence].
Qed.
