(** Lemmas about parallel reading. *)
From Coq Require Import ZArith List Bool Strings.Byte Strings.String Lia Lra Permutation Reals.
From Verif Require Import Base BaseFacts Types FloatFacts Proto Block BlockFacts FormatSpec BlockRead Spec FileFormat FileFacts Pool ModelSpec ModelFacts.
From Verif Require Import ParallelSpec PoolFacts ParallelRead.
Import ListNotations.
Open Scope Z_scope.
Local Notation length := List.length.
Local Notation concat := List.concat.

Lemma blobs_blocks m c file s ds : run (blob_next file) s ds Ended -> forall blks,
  Forall2 (fun d b => from_blob_desc m c file d = Ok b) ds blks -> run (fb_next m c file) s blks Ended.
Proof.
  intros R. remember Ended as o. induction R as [s s' E|s E|s d s' l o E R IH]; intros blks F; inversion F; subst; try discriminate.
  - eapply run_end. unfold fb_next. rewrite E. reflexivity.
  - eapply run_step; [|apply IH; eauto]. unfold fb_next. rewrite E. cbn [bind]. match goal with H : from_blob_desc _ _ _ _ = _ |- _ => rewrite H end. reflexivity.
Qed.
Lemma calls_blocks m c file ds : forall plans, map (iteration_calls m c file) ds = map Some plans ->
  exists blks, Forall2 (fun d b => from_blob_desc m c file d = Ok b) ds blks /\ plans = map calls_of blks.
Proof.
  induction ds as [|d ds IH]; intros [|p plans] H; try discriminate.
  - exists []. split; [constructor|reflexivity].
  - cbn in H. injection H as H1 H2. destruct (IH _ H2) as (blks & F & ->). unfold iteration_calls in H1.
    destruct (from_blob_desc m c file d) as [[i inf|i es]| |] eqn:E; try discriminate; injection H1 as <-.
    + exists (FHeader i inf :: blks). split; [constructor; auto|reflexivity].
    + exists (FData i es :: blks). split; [constructor; auto|reflexivity].
Qed.
Lemma bbox_blocks m c file ds : forall plans, map (bbox_calls m c file) ds = map Some plans ->
  exists blks, Forall2 (fun d b => from_blob_desc m c file d = Ok b) ds blks /\
    plans = map (fun b => match leading_box None (elements_of b) with Some x => [x] | None => [] end) blks.
Proof.
  induction ds as [|d ds IH]; intros [|p plans] H; try discriminate.
  - exists []. split; [constructor|reflexivity].
  - cbn in H. injection H as H1 H2. destruct (IH _ H2) as (blks & F & ->). unfold bbox_calls in H1.
    destruct (from_blob_desc m c file d) as [[i inf|i es]| |] eqn:E; try discriminate; injection H1 as <-.
    + exists (FHeader i inf :: blks). split; [constructor; auto|reflexivity].
    + exists (FData i es :: blks). split; [constructor; auto|reflexivity].
Qed.

Lemma share_out {X} n w owners (plans : list (list X)) : Forall (fun w => (w < n)%nat) owners -> (n <= w)%nat -> share w owners plans = [].
Proof.
  intros F L. unfold share. assert (E : filter (fun p => Nat.eqb (fst p) w) (combine owners plans) = []).
  { revert plans. induction F as [|o owners H F IH]; intros [|p plans]; cbn; auto. destruct (Nat.eqb_spec o w); [lia|auto]. }
  rewrite E. reflexivity.
Qed.
Lemma by_worker_out {X} n w (tr : list (nat * X)) : Forall (fun x => (fst x < n)%nat) tr -> (n <= w)%nat -> by_worker w tr = [].
Proof.
  intros F L. unfold by_worker. induction F as [|[o a] tr H F IH]; cbn in *; auto. destruct (Nat.eqb_spec o w); [lia|auto].
Qed.

(** reading never produces a Sentinel, and coordinates are numbers *)
Lemma f_of_Z_64 z : I64 z -> is_f (f_of_Z z) (rnd (IZR z)) /\ (Rabs (rnd (IZR z)) <= 9223372036854775808)%R.
Proof.
  intros H. assert (B : (Rabs (IZR z) <= Raux.bpow Zaux.radix2 63)%R).
  { rewrite <- abs_IZR. change (Raux.bpow Zaux.radix2 63) with (IZR 9223372036854775808). apply IZR_le. unfold I64, min_i64, max_i64 in H. lia. }
  split.
  - apply f_of_Z_rnd. eapply Rle_trans; [exact B|]. apply Raux.bpow_le. lia.
  - change 9223372036854775808%R with (Raux.bpow Zaux.radix2 63). apply Generic_fmt.abs_round_le_generic; auto with typeclass_instances.
    + apply BinarySingleNaN.fexp_correct; reflexivity.
    + apply Generic_fmt.generic_format_bpow. vm_compute. discriminate.
Qed.
Lemma degrees_of_number g o x v : degrees_of g o x v -> number v.
Proof.
  intros (z & [I _] & ->). destruct (f_of_Z_64 z I) as [Fz Bz]. pose proof (f_of_Z_ok 1000000000 ltac:(lia)) as F9.
  assert (N : (Rabs (rnd (IZR z) / 1000000000) <= Raux.bpow Zaux.radix2 1023)%R).
  { apply Rle_trans with (9223372036854775808)%R; [|change 9223372036854775808%R with (Raux.bpow Zaux.radix2 63); apply Raux.bpow_le; lia].
    unfold Rdiv. rewrite Rabs_mult. apply Rle_trans with (9223372036854775808 * 1)%R; [|lra].
    apply Rmult_le_compat; try apply Rabs_pos; auto. rewrite Rabs_pos_eq by lra. lra. }
  destruct (fdiv_ok _ _ _ _ Fz F9 ltac:(lra) N) as (V & F & _). split; auto. intros E. rewrite E in F. discriminate.
Qed.
Definition readable (e : element) : Prop := match e with ENode n => point_ok (n_coord n) | ESentinel => False | _ => True end.
Lemma dense_from_ok st g d la lo dn : forall ns i kv, dense_from st g d la lo dn i kv ns -> Forall (fun n => point_ok (n_coord n)) ns.
Proof.
  induction ns as [|n ns IH]; intros i kv H; [constructor|]. destruct H as (_ & (_ & _ & _ & A & B & _) & kv' & _ & R).
  constructor; eauto. split; eapply degrees_of_number; eauto.
Qed.
Lemma block_readable b es : block_means b es -> Forall readable es.
Proof.
  intros (_ & ess & F & ->). apply Forall_concat. cbv zeta in F.
  induction F as [|g e gs ess G F IH]; constructor; auto.
  destruct G as (ds & ns & ws & rs & D & N & W & R & _ & ->).
  repeat (apply Forall_app; split); apply Forall_map.
  - destruct (g_dense g); cbn in D; [|subst; constructor]. eapply dense_from_ok; eauto.
  - clear - N. induction N as [|p n ps ns (_ & A & B & _) N IH]; constructor; auto. cbn. split; eapply degrees_of_number; eauto.
  - apply Forall_forall. intros; exact I.
  - apply Forall_forall. intros; exact I.
Qed.
Lemma data_readable m bs es : osm_data_new m bs = Ok es -> Forall readable es.
Proof.
  unfold osm_data_new. intros H. destruct (pblock_decode bs) as [b|]; [|discriminate]. cbn [of_option bind] in H.
  eapply block_readable, read_block_sound, H.
Qed.
Lemma desc_readable m c file d i es : from_blob_desc m c file d = Ok (FData i es) -> Forall readable es.
Proof.
  unfold from_blob_desc. destruct (max_i64 <? bd_length d); [discriminate|]. destruct (take_exact _ _) as [[buf r]|]; [|discriminate].
  unfold fblock_deserialize. destruct (blob_decode buf) as [b|]; [|discriminate]. cbn [of_option bind].
  destruct (read_blob_data c b) as [data| |]; try discriminate. cbn [bind]. unfold fblock_new.
  destruct (bytes_eqb _ _); [destruct (osm_header_from_bytes data); discriminate|].
  destruct (bytes_eqb _ _); [|discriminate]. destruct (osm_data_new m data) as [e| |] eqn:E; try discriminate.
  cbn. intros [= <- <-]. eapply data_readable; eauto.
Qed.
Lemma blocks_readable m c file s blks o : run (fb_next m c file) s blks o -> Forall (fun b => Forall readable (elements_of b)) blks.
Proof.
  induction 1 as [s s' E|s E|s b s' l o E R IH]; constructor; auto.
  unfold fb_next in E. destruct (blob_next file s) as [[[d|] s1]| |]; try discriminate. cbn [bind] in E.
  destruct (from_blob_desc m c file d) as [[i inf|i es]| |] eqn:F; try discriminate; cbn in E; injection E as <- <-; cbn; auto.
  eapply desc_readable; eauto.
Qed.

(** counting *)
Lemma number_of_app P a b : number_of P (a ++ b) = number_of P a + number_of P b.
Proof. unfold number_of. rewrite filter_app, zlen_app. reflexivity. Qed.
Lemma number_of_perm P a b : Permutation a b -> number_of P a = number_of P b.
Proof.
  induction 1; unfold number_of, zlen in *; cbn; auto; try lia.
  - destruct (P x); cbn; lia.
  - destruct (P x), (P y); cbn; lia.
Qed.
Lemma number_of_cons P e l : number_of P (e :: l) = (if P e then 1 else 0) + number_of P l.
Proof. change (e :: l) with ([e] ++ l). rewrite number_of_app. unfold number_of at 1. cbn. destruct (P e); reflexivity. Qed.
Lemma number_of_nonneg P l : 0 <= number_of P l. Proof. unfold number_of, zlen. lia. Qed.
Lemma mod_step a b : (fetch_add1 (a mod two64) + b) mod two64 = (a + (1 + b)) mod two64.
Proof. unfold fetch_add1. rewrite Zplus_mod_idemp_l. replace (a mod two64 + 1 + b) with (a mod two64 + (1 + b)) by ring. rewrite Zplus_mod_idemp_l. reflexivity. Qed.
Lemma count_effects tr : forall a b r s, effects count_one tr (Counters (a mod two64) (b mod two64) (r mod two64)) = Some s ->
  c_nodes s = (a + number_of is_node (map snd tr)) mod two64 /\
  c_ways s = (b + number_of is_way (map snd tr)) mod two64 /\
  c_relations s = (r + number_of is_relation (map snd tr)) mod two64.
Proof.
  induction tr as [|[w e] tr IH]; intros a b r s; cbn [effects map snd].
  - intros [= <-]. cbn. unfold number_of. cbn. change (zlen (@nil element)) with 0. rewrite !Z.add_0_r. auto.
  - rewrite !number_of_cons. cbn [count_one c_nodes c_ways c_relations]. unfold fetch_add1. rewrite !Zplus_mod_idemp_l.
    destruct e; cbn [is_node is_way is_relation]; intros H; apply IH in H; destruct H as (A & B & C); rewrite A, B, C;
      repeat split; f_equal; ring.
Qed.

(** boxes *)
Definition is_lub (bs : list bbox) (r : bbox) : Prop :=
  box_ok r /\ (forall b, In b bs -> box_le b r) /\ (forall o, (forall b, In b bs -> box_le b o) -> box_le r o).
Lemma lub_one b : box_ok b -> is_lub [b] b.
Proof. intros H. split; auto. split; [intros x [<-|[]]; apply box_le_refl; auto|]. intros o K. apply K. left; auto. Qed.
Lemma lub_snoc bs r b : is_lub bs r -> box_ok b -> is_lub (bs ++ [b]) (bb_merge r b).
Proof.
  intros (A & B & C) H. destruct (merge_lub r b A H) as (L1 & L2 & L3). split; [apply merge_ok; auto|]. split.
  - intros x I. apply in_app_or in I. destruct I as [I|[<-|[]]]; auto. eapply box_le_trans; eauto.
  - intros o K. apply L3; [apply C; intros; apply K, in_or_app; auto|apply K, in_or_app; right; left; auto].
Qed.
Lemma bbox_effects tr : Forall box_ok (map snd tr) -> forall r,
  effects bbox_merge_result tr None = Some r ->
  match r with None => tr = [] | Some b => tr <> [] /\ is_lub (map snd tr) b end.
Proof.
  induction tr as [|[w b] tr IH] using rev_ind; intros F r H.
  - cbn in H. injection H as <-. reflexivity.
  - rewrite effects_app in H. rewrite map_app in *. apply Forall_app in F. destruct F as [F1 F2]. inversion F2; subst.
    destruct (effects bbox_merge_result tr None) as [r0|] eqn:E; [|discriminate]. specialize (IH F1 _ eq_refl). cbn in H. injection H as <-.
    split; [intros X; apply app_eq_nil in X; destruct X; discriminate|].
    destruct r0 as [b0|].
    + destruct IH as [_ IH]. apply lub_snoc; auto.
    + subst tr. cbn. apply lub_one; auto.
Qed.
Lemma leading_spec es : forall ns rest acc, es = ns ++ rest -> Forall (fun e => is_node e = true) ns -> Forall (fun e => is_node e = false) rest ->
  Forall readable es ->
  match acc with None => True | Some a => box_ok a end ->
  match leading_box acc es with
  | None => acc = None /\ ns = []
  | Some b => is_lub (match acc with None => [] | Some a => [a] end ++ flat_map (fun e => match e with ENode n => [bb_from_point (n_coord n)] | _ => [] end) ns) b
  end.
Proof.
  induction es as [|e es IH]; intros ns rest acc E N R Rd A.
  - symmetry in E. apply app_eq_nil in E. destruct E as [-> ->]. cbn. destruct acc; [apply lub_one; auto|auto].
  - destruct ns as [|e' ns].
    + cbn in E. subst rest. inversion R; subst. destruct e; try discriminate; cbn; (destruct acc; [apply lub_one; auto|auto]).
    + cbn in E. injection E as <- E. inversion N; subst. destruct e as [n|w|rr|]; try discriminate. inversion Rd; subst. cbn [readable] in *.
      cbn [leading_box flat_map]. pose proof (from_point_ok _ H3) as FP.
      set (acc' := match acc with None => bb_from_point (n_coord n) | Some b => bb_merge_point b (n_coord n) end).
      assert (AO : box_ok acc') by (unfold acc'; destruct acc; auto; rewrite merge_point_is_merge; apply merge_ok; auto).
      specialize (IH ns rest (Some acc') eq_refl H2 R H4 AO). destruct (leading_box (Some acc') (ns ++ rest)) as [b|]; [|destruct IH; discriminate].
      destruct IH as (I1 & I2 & I3).
      set (pts := flat_map _ ns) in *. split; auto.
      assert (EQ : forall o, box_le acc' o <-> (forall b, In b (match acc with None => [] | Some a => [a] end ++ [bb_from_point (n_coord n)]) -> box_le b o)).
      { intros o. unfold acc'. destruct acc as [a|]; cbn.
        - rewrite merge_point_is_merge. destruct (merge_lub a _ A FP) as (L1 & L2 & L3). split.
          + intros L x [<-|[<-|[]]]; eapply box_le_trans; eauto.
          + intros K. apply L3; apply K; auto.
        - split; [intros L x [<-|[]]; auto|auto]. }
      split.
      * intros x X. rewrite app_assoc in X. apply in_app_or in X. destruct X as [X|X].
        -- assert (L : box_le acc' b) by (apply I2; left; auto). rewrite EQ in L. apply L. auto.
        -- apply I2. right. auto.
      * intros o K. apply I3. intros x [<-|X].
        -- apply EQ. intros y Y. apply K. rewrite app_assoc. apply in_or_app. auto.
        -- apply K. rewrite app_assoc. apply in_or_app. auto.
Qed.
