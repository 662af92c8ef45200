(** C70: the raw blobs of any file. *)
From Coq Require Import ZArith List Bool Lia Strings.Byte Strings.String.
From Verif Require Import Base BaseFacts Types Proto ProtoFacts Block BlockFacts FormatSpec FileFormat FileFacts WriterFacts Spec FileSpec PropBlock PropFile WireSpec WireFacts WireMsg PropWire ReadSpec PropReadAny.
Import ListNotations.
Local Notation length := List.length.
Local Notation concat := List.concat.
Open Scope Z_scope.

(** a descriptor the iterator yields, as offset, stated size and type; the size of a descriptor is an unsigned number *)
Definition desc_is (i : Z) (x : Z * Z * bytes) (d : blob_desc) : Prop :=
  bd_index d = i /\ bd_start d = fst (fst x) /\ bd_length d = snd (fst x) mod 18446744073709551616 /\ bd_type d = snd x.
Inductive descs_are : Z -> list (Z * Z * bytes) -> list blob_desc -> Prop :=
| da_nil i : descs_are i [] []
| da_cons i x l d ds : desc_is i x d -> descs_are (i + 1) l ds -> descs_are i (x :: l) (d :: ds).

Definition at_pos (s : bit) : Z := bi_pos s + wrap64 (bi_jump s).
Lemma datasize_range hb h : blob_header_is hb h -> -2147483648 <= bh_datasize h <= 2147483647.
Proof. intros (fs & _ & _ & _ & o & (us & _ & O) & ->). destruct (last_opt us) as [u|], o as [z|]; try (destruct O; fail); [destruct O as (O & _); auto|lia]. Qed.
Lemma wrap_mod z : -2147483648 <= z <= 2147483647 -> wrap64 (z mod two64) = z.
Proof.
  intros R. unfold wrap64, two63, two64. rewrite Zplus_mod_idemp_l. rewrite Z.mod_small by lia. lia.
Qed.
Lemma at_split file p : 0 <= p <= zlen file -> exists pre, file = pre ++ from_pos file p /\ zlen pre = p.
Proof. intros P. exists (firstn (Z.to_nat p) file). split; [symmetry; apply firstn_skipn|]. unfold zlen in *. rewrite firstn_length. lia. Qed.
(** one step *)
Lemma blob_step file s :
  match blob_next file s with
  | Ok (Some d, s') => exists h st, blob_header_at file (at_pos s) h st /\ desc_is (bi_index s) (st, bh_datasize h, bh_type h) d /\
      at_pos s' = st + bh_datasize h /\ bi_index s' = bi_index s + 1
  | Ok (None, _) => (forall h st, ~ blob_header_at file (at_pos s) h st) /\ ~ huge_length_at file (at_pos s)
  | Panic => huge_length_at file (at_pos s)
  | Err => False
  end.
Proof.
  assert (UN : forall pre rest pre' rest' : bytes, pre ++ rest = pre' ++ rest' -> zlen pre = zlen pre' -> pre = pre' /\ rest = rest') by (intros; apply split_same; auto; apply zlen_same; auto).
  unfold blob_next. fold (at_pos s). set (p := at_pos s). destruct (p <? 0) eqn:NEG.
  { split; [intros h st (pre & lb & hb & rest & _ & L & _)|intros (pre & lb & n & rest & _ & L & _)]; pose proof (zlen_nonneg pre); lia. }
  destruct (take_exact 4 (from_pos file p)) as [[lb r]|] eqn:T.
  2:{ apply take_exact_none in T; [|lia]. rewrite from_pos_len in T by lia.
      split; [intros h st (pre & lb & hb & rest & -> & L & B & _)|intros (pre & lb & n & rest & -> & L & B & _)]; rewrite !zlen_app, (big_endian_len _ _ B) in T;
        pose proof (zlen_nonneg rest); try pose proof (zlen_nonneg hb); lia. }
  apply take_exact_some in T. destruct T as (T & L4 & _).
  assert (0 <= p <= zlen file) as P.
  { split; [lia|]. destruct (Z_lt_le_dec (zlen file) p); auto. rewrite from_pos_out in T by lia. destruct lb; [discriminate L4|discriminate T]. }
  destruct (at_split file p P) as (pre & E & LP). rewrite T in E. destruct (big_endian_total lb L4) as (n & BE). pose proof (big_endian_negative lb n BE) as NG.
  destruct (of_be32 lb <? 0) eqn:SG.
  { exists pre, lb, n, r. sconj; auto. apply NG. lia. }
  assert (n < 2147483648) as N31 by (destruct (Z_lt_le_dec n 2147483648) as [|X]; auto; apply NG in X; lia).
  assert (NH : ~ huge_length_at file p).
  { intros (pre' & lb' & n' & r' & E' & LP' & BE' & H). rewrite E in E'. apply UN in E'; [|lia]. destruct E' as (-> & E'). apply UN in E'; [|rewrite (big_endian_len _ _ BE'); lia]. destruct E' as (-> & _).
    pose proof (big_endian_unique _ _ _ BE BE'). lia. }
  destruct (of_be32_value lb n BE) as (_ & V); [lia|]. rewrite V in *. assert (FP : from_pos file (p + 4) = r) by (rewrite <- L4; apply (from_pos_more file p lb r); auto; lia). rewrite FP.
  destruct (take_exact n r) as [[hb r2]|] eqn:T2.
  2:{ split; auto. intros h st (pre' & lb' & hb' & r' & E' & LP' & BE' & _). rewrite E in E'. apply UN in E'; [|lia]. destruct E' as (-> & E'). apply UN in E'; [|rewrite (big_endian_len _ _ BE'); lia]. destruct E' as (-> & ->).
      pose proof (big_endian_unique _ _ _ BE BE'). apply take_exact_none in T2; [|pose proof (zlen_nonneg hb'); lia]. rewrite zlen_app in T2. pose proof (zlen_nonneg r'). lia. }
  apply take_exact_some in T2. destruct T2 as (-> & L5 & _). destruct (blob_header_decode hb) as [h|] eqn:HD.
  2:{ split; auto. intros h st (pre' & lb' & hb' & r' & E' & LP' & BE' & _ & HI & _). rewrite E in E'. apply UN in E'; [|lia]. destruct E' as (-> & E'). apply UN in E'; [|rewrite (big_endian_len _ _ BE'); lia]. destruct E' as (-> & E').
      pose proof (big_endian_unique _ _ _ BE BE'). apply UN in E'; [|lia]. destruct E' as (-> & _). apply blob_header_dec in HI. congruence. }
  apply blob_header_dec in HD. exists h, (p + 4 + n). sconj.
  - exists pre, lb, hb, r2. rewrite L5. sconj; auto.
  - unfold desc_is. cbn [bd_index bd_start bd_length bd_type fst snd]. auto.
  - unfold at_pos. cbn [bi_pos bi_jump]. rewrite wrap_mod; auto. eapply datasize_range; eauto.
  - reflexivity.
Qed.
Lemma header_at_unique file p h st h' st' : blob_header_at file p h st -> blob_header_at file p h' st' -> h = h' /\ st = st'.
Proof.
  intros (pre & lb & hb & r & E & LP & BE & _ & HI & ->) (pre' & lb' & hb' & r' & E' & LP' & BE' & _ & HI' & ->). rewrite E in E'.
  apply split_same in E'; [|apply zlen_same; lia]. destruct E' as (-> & E'). apply split_same in E'; [|apply zlen_same; rewrite (big_endian_len _ _ BE), (big_endian_len _ _ BE'); auto]. destruct E' as (-> & E').
  pose proof (big_endian_unique _ _ _ BE BE') as Z0. apply split_same in E'; [|apply zlen_same; lia]. destruct E' as (-> & _). split; [eapply header_unique; eauto|lia].
Qed.
(** the blobs yielded one after the other *)
Lemma blobs_steps file : forall ds s s', steps (blob_next file) s ds s' -> exists l, blobs_from file (at_pos s) l (at_pos s') /\ descs_are (bi_index s) l ds.
Proof.
  induction 1 as [s|s d s1 ds s2 E S (l & B & D)]; [exists []; split; constructor|].
  pose proof (blob_step file s) as O. rewrite E in O. destruct O as (h & st & A & DI & P & I). exists ((st, bh_datasize h, bh_type h) :: l). rewrite P in B. rewrite I in D. split; econstructor; eauto.
Qed.
Lemma steps_blobs file : forall l p q, blobs_from file p l q -> forall s, at_pos s = p -> exists ds s', steps (blob_next file) s ds s' /\ at_pos s' = q /\ descs_are (bi_index s) l ds.
Proof.
  induction 1 as [p|p h st l q A B IH]; intros s E; [exists [], s; sconj; auto; constructor|].
  pose proof (blob_step file s) as O. rewrite E in O. destruct (blob_next file s) as [[[d|] s1]| |] eqn:N.
  - destruct O as (h' & st' & A' & DI & P & I). destruct (header_at_unique _ _ _ _ _ _ A A') as (-> & ->). destruct (IH s1 P) as (ds & s' & S & Q & D). exists (d :: ds), s'. sconj; auto; econstructor; eauto. rewrite <- I. auto.
  - destruct O as (O & _). destruct (O _ _ A).
  - destruct O.
  - exfalso. destruct A as (pre & lb & hb & r & E1 & LP & BE & L & _). destruct O as (pre' & lb' & n' & r' & E' & LP' & BE' & H). rewrite E1 in E'. apply split_same in E'; [|apply zlen_same; lia]. destruct E' as (-> & E').
    apply split_same in E'; [|apply zlen_same; rewrite (big_endian_len _ _ BE), (big_endian_len _ _ BE'); auto]. destruct E' as (-> & _). pose proof (big_endian_unique _ _ _ BE BE'). lia.
Qed.
Lemma descs_unique i l ds : descs_are i l ds -> forall ds', descs_are i l ds' -> ds = ds'.
Proof.
  induction 1 as [i|i x l d ds (A & B & C & D) R IH]; intros ds' H; inversion H as [|? ? ? d' ds2 (A' & B' & C' & D') R']; subst; auto. f_equal; auto. destruct d, d'. cbn in *. congruence.
Qed.
Theorem C70_blobs file ds o : run (blob_next file) bit_new ds o <->
  exists l q, blobs_from file 0 l q /\ descs_are 0 l ds /\ (forall h st, ~ blob_header_at file q h st) /\ (o = Panicked <-> huge_length_at file q).
Proof.
  split.
  - intros R. change 0 with (at_pos bit_new). change (at_pos bit_new) with (bi_index bit_new) at 2.
    induction R as [s s' E|s E|s d s' ds o E R (l & q & B & D & N & Q)]; pose proof (blob_step file s) as O; rewrite E in O.
    + exists [], (at_pos s). destruct O as (O1 & O2). sconj; auto; try constructor; [discriminate|intros X; destruct (O2 X)].
    + exists [], (at_pos s). sconj; auto; try (constructor; auto; fail). intros h st A.
      destruct A as (pre & lb & hb & r & E1 & LP & BE & L & _). destruct O as (pre' & lb' & n' & r' & E' & LP' & BE' & H). rewrite E1 in E'. apply split_same in E'; [|apply zlen_same; lia]. destruct E' as (-> & E').
      apply split_same in E'; [|apply zlen_same; rewrite (big_endian_len _ _ BE), (big_endian_len _ _ BE'); auto]. destruct E' as (-> & _). pose proof (big_endian_unique _ _ _ BE BE'). lia.
    + destruct O as (h & st & A & DI & P & I). exists ((st, bh_datasize h, bh_type h) :: l), q. rewrite P in B. rewrite I in D. sconj; auto; try (econstructor; eauto; fail); apply Q.
  - intros (l & q & B & D & N & Q). destruct (steps_blobs _ _ _ _ B bit_new eq_refl) as (ds' & s' & S & E & D'). change (bi_index bit_new) with 0 in D'.
    rewrite (descs_unique _ _ _ D _ D'). clear D D' B.
    induction S as [s|s d s1 ds0 s2 E2 S IH].
    + pose proof (blob_step file s) as O. rewrite E in O. destruct (blob_next file s) as [[[d|] s1]| |] eqn:X.
      * destruct O as (h & st & A & _). destruct (N _ _ A).
      * destruct O as (_ & O). destruct o; [eapply run_end; eauto|]. destruct (O (proj1 Q eq_refl)).
      * destruct O.
      * apply Q in O. subst o. apply run_panic. auto.
    + eapply run_step; eauto.
Qed.
(** also of iterations that never end: any number of steps finds exactly the blobs of the chain of offsets *)
Theorem C70_first_blobs file ds : (exists s, steps (blob_next file) bit_new ds s) <-> exists l q, blobs_from file 0 l q /\ descs_are 0 l ds.
Proof.
  split.
  - intros (s & S). destruct (blobs_steps _ _ _ _ S) as (l & B & D). exists l, (at_pos s). auto.
  - intros (l & q & B & D). destruct (steps_blobs _ _ _ _ B bit_new eq_refl) as (ds' & s' & S & _ & D'). exists s'. rewrite (descs_unique _ _ _ D _ D'). auto.
Qed.
Lemma blobs_app file a : forall p b q r, blobs_from file p a q -> blobs_from file q b r -> blobs_from file p (a ++ b) r.
Proof. induction a as [|x a IH]; intros p b q r A B; inversion A; subst; cbn; auto. econstructor; eauto. Qed.
Lemma blobs_det file l : forall p q, blobs_from file p l q -> forall l' q', blobs_from file p l' q' -> (length l <= length l')%nat -> exists r, l' = l ++ r /\ blobs_from file q r q'.
Proof.
  induction l as [|x l IH]; intros p q A l' q' B L; inversion A as [|? h st ? ? HA A']; subst.
  - exists l'. auto.
  - destruct l' as [|x' l']; [cbn in L; lia|]. inversion B as [|? h' st' ? ? HB B']; subst. destruct (header_at_unique _ _ _ _ _ _ HA HB) as (-> & ->).
    destruct (IH _ _ A' _ _ B') as (r & -> & R); [cbn in L; lia|]. exists r. auto.
Qed.
Fixpoint offsets (p : Z) (l : list (Z * Z * bytes)) : list Z := match l with [] => [] | (st, n, _) :: r => p :: offsets (st + n) r end.
Lemma offsets_len l : forall p, length (offsets p l) = length l.
Proof. induction l as [|((st, n), t) l IH]; intros p; cbn; auto. Qed.
Lemma offsets_in file : forall p l q, blobs_from file p l q -> forall x, In x (offsets p l) -> 0 <= x < zlen file /\ exists a, blobs_from file p a x.
Proof.
  induction 1 as [p|p h st l q A B IH]; intros x I; [destruct I|]. cbn in I. destruct I as [<-|I].
  - split; [|exists []; constructor]. destruct A as (pre & lb & hb & r & -> & LP & BE & _). rewrite !zlen_app, (big_endian_len _ _ BE). pose proof (zlen_nonneg pre). pose proof (zlen_nonneg hb). pose proof (zlen_nonneg r). lia.
  - destruct (IH x I) as (R & a & X). split; auto. exists ((st, bh_datasize h, bh_type h) :: a). econstructor; eauto.
Qed.
(** iterating over the blobs ends exactly if no offset is visited twice *)
Theorem C70_terminates file :
  (exists ds o, run (blob_next file) bit_new ds o) <-> (forall a b p, blobs_from file 0 a p -> blobs_from file p b p -> b = []).
Proof.
  split.
  - intros (ds & o & R) a b p A B. apply C70_blobs in R. destruct R as (l & q & L & _ & N & _).
    destruct b as [|x b]; auto. exfalso.
    assert (LONG : forall n, exists c, (n <= length c)%nat /\ blobs_from file 0 (a ++ c) p).
    { induction n as [|n (c & LC & C)]; [exists []; split; [lia|rewrite app_nil_r; auto]|]. exists (c ++ x :: b). split; [rewrite app_length; cbn; lia|]. rewrite app_assoc. eapply blobs_app; eauto. }
    destruct (LONG (S (length l))) as (c & LC & C). destruct (blobs_det _ _ _ _ L _ _ C) as (r & E & Q); [rewrite app_length; lia|].
    inversion Q as [|? h st ? ? X]; subst; [apply (f_equal (@length _)) in E; rewrite !app_length in E; cbn in E; lia|]. exact (N _ _ X).
  - intros NR.
    assert (ND : forall p l q, blobs_from file p l q -> forall a, blobs_from file 0 a p -> NoDup (offsets p l)).
    { induction 1 as [p|p h st l q A B IH]; intros a X; cbn [offsets]; constructor.
      - intros I. destruct (offsets_in _ _ _ _ B _ I) as (_ & c & C). assert (C' : blobs_from file p ((st, bh_datasize h, bh_type h) :: c) p) by (econstructor; eauto). apply (NR _ _ _ X) in C'. discriminate C'.
      - apply (IH (a ++ [(st, bh_datasize h, bh_type h)])). eapply blobs_app; eauto. econstructor; eauto. constructor. }
    assert (BOUND : forall l q, blobs_from file 0 l q -> (length l <= length file)%nat).
    { intros l q B. rewrite <- (offsets_len l 0). replace (length file) with (length (map Z.of_nat (seq 0 (length file)))) by (rewrite map_length, seq_length; auto).
      apply NoDup_incl_length; [apply (ND _ _ _ B []); constructor|]. intros x I. destruct (offsets_in _ _ _ _ B _ I) as (R & _). apply in_map_iff. exists (Z.to_nat x). split; [lia|]. apply in_seq. unfold zlen in R. lia. }
    assert (G : forall n l q, blobs_from file 0 l q -> (length file - length l <= n)%nat -> forall s ds, at_pos s = q -> steps (blob_next file) bit_new ds s -> exists ds' o, run (blob_next file) s ds' o).
    { induction n as [|n IH]; intros l q B L s ds E S.
      - destruct (blob_next file s) as [[[d|] s1]| |] eqn:X.
        + pose proof (blob_step file s) as O. rewrite X in O. destruct O as (h & st & A & _ & P & _). rewrite E in A.
          assert (B' : blobs_from file 0 (l ++ [(st, bh_datasize h, bh_type h)]) (st + bh_datasize h)) by (eapply blobs_app; eauto; econstructor; eauto; constructor).
          apply BOUND in B'. rewrite app_length in B'. cbn in B'. lia.
        + exists [], Ended. eapply run_end; eauto.
        + destruct (blob_next_not_err _ _ X).
        + exists [], Panicked. apply run_panic; auto.
      - destruct (blob_next file s) as [[[d|] s1]| |] eqn:X.
        + pose proof (blob_step file s) as O. rewrite X in O. destruct O as (h & st & A & _ & P & _). rewrite E in A.
          assert (B' : blobs_from file 0 (l ++ [(st, bh_datasize h, bh_type h)]) (st + bh_datasize h)) by (eapply blobs_app; eauto; econstructor; eauto; constructor).
          destruct (IH _ _ B') with (s := s1) (ds := ds ++ [d]) as (ds' & o & R); auto.
          * rewrite app_length. cbn. apply BOUND in B'. rewrite app_length in B'. cbn in B'. lia.
          * clear - S X. induction S; cbn; econstructor; eauto. constructor.
          * exists (d :: ds'), o. eapply run_step; eauto.
        + exists [], Ended. eapply run_end; eauto.
        + destruct (blob_next_not_err _ _ X).
        + exists [], Panicked. apply run_panic; auto. }
    apply (G (length file) [] 0 (bf_nil file 0) ltac:(cbn; lia) bit_new []); [reflexivity|constructor].
Qed.
