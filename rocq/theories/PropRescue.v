(** Property C100, when the length of a header cannot be allocated: what a program finds that catches the panic. *)
From Coq Require Import ZArith List Bool Strings.Byte Lia.
From Verif Require Import Base BaseFacts Types Proto FileFormat FileFacts WriterFacts FileSpec Spec PropFile ReadSpec PropReadAny PropBlobs GrowingSpec PollSpec Poll PropPoll SalvageSpec Salvage PropSalvage RescueSpec.
Import ListNotations.
Local Notation length := List.length.
Open Scope Z_scope.

Lemma next_pos file s d s' : blob_next file s = Ok (Some d, s') -> bi_pos s' = bd_start d.
Proof.
  unfold blob_next. intros H. destruct (_ <? 0); [discriminate H|]. destruct (take_exact 4 _) as [[lb r]|]; [|discriminate H]. destruct (_ <? 0); [discriminate H|].
  destruct (take_exact _ _) as [[hb r2]|]; [|discriminate H]. destruct (blob_header_decode hb); [|discriminate H]. injection H as <- <-. reflexivity.
Qed.
Lemma huge_no_header file p h st : huge_length_at file p -> ~ blob_header_at file p h st.
Proof.
  intros O A. destruct A as (pre & lb & hb & r & E1 & LP & BE & L & _). destruct O as (pre' & lb' & n' & r' & E' & LP' & BE' & H). rewrite E1 in E'. apply split_same in E'; [|apply zlen_same; lia]. destruct E' as (-> & E').
  apply split_same in E'; [|apply zlen_same; rewrite (big_endian_len _ _ BE), (big_endian_len _ _ BE'); auto]. destruct E' as (-> & _). pose proof (big_endian_unique _ _ _ BE BE'). lia.
Qed.
Lemma found_det file p size l : found file p size l -> forall l', found file p size l' -> l = l'.
Proof.
  induction 1 as [p size N1 N2|p size h st l A F IH|p size l A F IH]; intros l' F'; inversion F' as [? ? M1 M2|? ? h' st' l2 A' F2|? ? l2 A' F2]; subst; auto.
  - destruct (N1 _ _ A').
  - destruct (N2 A').
  - destruct (M1 _ _ A).
  - destruct (header_at_unique _ _ _ _ _ _ A A') as (-> & ->). f_equal. auto.
  - destruct (huge_no_header _ _ _ _ A' A).
  - destruct (M2 A).
  - destruct (huge_no_header _ _ _ _ A A').
  - f_equal. auto.
Qed.
Lemma answers_det i l ds : answers i l ds -> forall ds', answers i l ds' -> ds = ds'.
Proof.
  induction 1 as [i|i st size ty d l ds A B C D R IH|i l ds R IH]; intros ds' H; inversion H as [|? ? ? ? d' ? ds2 A' B' C' D' R'|? ? ds2 R']; subst; auto; f_equal; auto.
  f_equal. destruct d, d'. cbn in *. congruence.
Qed.
Section Rescue.
Variable file : bytes.
Lemma try_any s : match blob_try file s with
  | (Ok (Some d), s') => exists h st, blob_header_at file (at_pos s) h st /\ desc_is (bi_index s) (st, bh_datasize h, bh_type h) d /\
      at_pos s' = st + bh_datasize h /\ wrap64 (bi_jump s') = bh_datasize h /\ bi_index s' = bi_index s + 1
  | (Ok None, _) => (forall h st, ~ blob_header_at file (at_pos s) h st) /\ ~ huge_length_at file (at_pos s)
  | (Panic, s') => huge_length_at file (at_pos s) /\ at_pos s' = at_pos s + 4 + wrap64 (bi_jump s) /\ wrap64 (bi_jump s') = wrap64 (bi_jump s) /\ bi_index s' = bi_index s
  | (Err, _) => False
  end.
Proof.
  pose proof (blob_step file s) as O. unfold blob_try. destruct (blob_next file s) as [([d|], s')| |] eqn:N; [|exact O|exact O|].
  - destruct O as (h & st & A & D & P & I). exists h, st. assert (J : wrap64 (bi_jump s') = bh_datasize h).
    { pose proof (next_pos _ _ _ _ N) as Q. destruct D as (_ & D & _). cbn in D. unfold at_pos in P. lia. }
    auto 10.
  - split; [exact O|]. unfold at_pos. cbn [bi_pos bi_jump bi_index]. auto.
Qed.
Lemma tried_found s ds : tried (graph (blob_try file)) s ds -> exists l, found file (at_pos s) (wrap64 (bi_jump s)) l /\ answers (bi_index s) l ds.
Proof.
  induction 1 as [s s' N|s d s' ds N T (l & F & A)|s s' ds N T (l & F & A)]; unfold graph in N; pose proof (try_any s) as O; rewrite N in O.
  - exists []. split; [constructor; apply O|constructor].
  - destruct O as (h & st & H & (D1 & D2 & D3 & D4) & P & J & I). cbn [fst snd] in *. rewrite P, J in F. rewrite I in A.
    exists (Some (st, bh_datasize h, bh_type h) :: l). split; [econstructor; eauto|constructor; auto].
  - destruct O as (H & P & J & I). rewrite P, J in F. rewrite I in A. exists (None :: l). split; [apply fd_length; auto|constructor; auto].
Qed.
Lemma found_tried p size l : found file p size l -> forall s, at_pos s = p -> wrap64 (bi_jump s) = size -> exists ds, tried (graph (blob_try file)) s ds /\ answers (bi_index s) l ds.
Proof.
  induction 1 as [p size N1 N2|p size h st l A F IH|p size l A F IH]; intros s <- <-; pose proof (try_any s) as O; destruct (blob_try file s) as [[[d|]| |] s'] eqn:N.
  - destruct O as (h & st & H & _). destruct (N1 _ _ H).
  - exists []. split; [eapply td_end; exact N|constructor].
  - destruct O.
  - destruct O as (O & _). destruct (N2 O).
  - destruct O as (h' & st' & H & (D1 & D2 & D3 & D4) & P & J & I). cbn [fst snd] in *. destruct (header_at_unique _ _ _ _ _ _ A H) as (-> & ->).
    destruct (IH s' P J) as (ds & T & S). rewrite I in S. exists (Some d :: ds). split; [eapply td_item; [exact N|exact T]|constructor; auto].
  - destruct O as (O & _). destruct (O _ _ A).
  - destruct O.
  - destruct O as (O & _). destruct (huge_no_header _ _ _ _ O A).
  - destruct O as (h' & st' & H & _). destruct (huge_no_header _ _ _ _ A H).
  - destruct O as (_ & O). destruct (O A).
  - destruct O.
  - destruct O as (_ & P & J & I). destruct (IH s' P J) as (ds & T & S). rewrite I in S. exists (None :: ds). split; [eapply td_caught; [exact N|exact T]|constructor; auto].
Qed.
Lemma try_det s l : tried (graph (blob_try file)) s l -> forall l', tried (graph (blob_try file)) s l' -> l = l'.
Proof. apply tried_det. unfold graph. intros x y z -> ->. reflexivity. Qed.
(** *** the blobs: exactly what is found by going on, from behind the length, by the size of the last blob *)
Theorem C100_bad_length ds : tried (graph (blob_try file)) bit_new ds <-> exists l, found file 0 0 l /\ answers 0 l ds.
Proof.
  split; [apply (tried_found bit_new)|]. intros (l & F & A). destruct (found_tried _ _ _ F bit_new eq_refl eq_refl) as (ds' & T & A').
  rewrite (answers_det _ _ _ A _ A'). exact T.
Qed.
(** *** a file in which a bad length takes the place of a blob of the size of the one before: nothing else is lost *)
Variables (m : mode) (c : codec).
(** the block of an answer *)
Definition block_had (o : option blob_desc) : option fblock := match o with Some d => block_of m c file d | None => None end.
Lemma fb_of_try s : fb_try m c file s = match blob_try file s with
  | (Ok None, s') => (Ok None, s') | (Ok (Some d), s') => (match block_of m c file d with Some b => Ok (Some b) | None => Panic end, s') | (_, s') => (Panic, s') end.
Proof. unfold fb_try, block_of. destruct (blob_try file s) as [[[d|]| |] s']; auto. destruct (from_blob_desc m c file d); reflexivity. Qed.
Theorem C100_all_blocks ds rs : tried (graph (blob_try file)) bit_new ds -> (tried (graph (fb_try m c file)) bit_new rs <-> rs = map block_had ds).
Proof.
  intros R. assert (G : tried (graph (fb_try m c file)) bit_new (map block_had ds)).
  { induction R as [s s' N|s d s' ds N R IH|s s' ds N R IH]; unfold graph in N; pose proof (fb_of_try s) as F; rewrite N in F; cbn [map block_had].
    - eapply td_end. exact F.
    - destruct (block_of m c file d) as [b|]; [eapply td_item|eapply td_caught]; try exact F; exact IH.
    - eapply td_caught; [exact F|exact IH]. }
  split; [|intros ->; exact G]. intros T. eapply tried_det; [|exact T|exact G]. unfold graph. intros x y z -> ->. reflexivity.
Qed.
Lemma all_salvaged s ds : tried (graph (blob_try file)) s ds -> exists l, tried (el_try m c file) (s, Some []) l /\ salvage (map block_had ds) l.
Proof.
  induction 1 as [s s' N|s d s' ds N R (l & T & S)|s s' ds N R (l & T & S)]; unfold graph in N; pose proof (fb_of_try s) as F; rewrite N in F; cbn [map block_had].
  - exists []. split; [|constructor]. eapply tried_refill; [exact F|apply tried_none].
  - destruct (block_of m c file d) as [[i h|i es]|].
    + exists []. split; [|constructor]. eapply tried_refill; [exact F|apply tried_none].
    + exists (map Some es ++ l). split; [|constructor; exact S]. eapply tried_refill; [exact F|]. apply tried_items. exact T.
    + exists (None :: l). split; [|constructor; exact S]. eapply td_caught; [apply et_caught; exact F|exact T].
  - exists (None :: l). split; [|constructor; exact S]. eapply td_caught; [apply et_caught; exact F|exact T].
Qed.
(** *** the elements, whatever is damaged behind the first two blobs *)
Theorem C100_all_elements d0 d1 ds x rs : tried (graph (blob_try file)) bit_new (Some d0 :: Some d1 :: ds) -> elements_new m c file = Ok x ->
  (tried (el_try m c file) x rs <-> salvage (map block_had (Some d1 :: ds)) rs).
Proof.
  intros R N. inversion R as [|? ? s1 ? N1 R1|]; subst. inversion R1 as [|? ? s2 ? N2 R2|]; subst.
  assert (B : forall s d s', graph (blob_try file) s (Ok (Some d), s') -> blob_next file s = Ok (Some d, s')).
  { unfold graph, blob_try. intros s d s' H. destruct (blob_next file s) as [(o, s3)| |]; try discriminate H. injection H as -> ->. reflexivity. }
  apply B in N1. apply B in N2.
  assert (G : exists l, tried (el_try m c file) x l /\ salvage (map block_had (Some d1 :: ds)) l).
  { unfold elements_new, create_element_iterator, fb_next in N. rewrite N1 in N. cbn [bind] in N. destruct (unwrap_res (from_blob_desc m c file d0)) as [b0| |]; cbn [bind] in N; try discriminate N.
    rewrite N2 in N. cbn [bind] in N. cbn [map block_had]. unfold block_of at 1. destruct (from_blob_desc m c file d1) as [b1| |]; cbn [unwrap_res bind] in N; try discriminate N.
    destruct b1 as [j h|j es]; injection N as <-.
    - exists []. split; [apply tried_none|constructor].
    - destruct (all_salvaged _ _ R2) as (l & T & S). exists (map Some es ++ l). split; [apply tried_items; exact T|constructor; exact S]. }
  destruct G as (l & T & S). split; intros H.
  - rewrite (tried_det _ (fun s a b A B => el_try_det m c file s a A b B) _ _ H _ T). exact S.
  - rewrite (salvage_det _ _ H _ S). exact T.
Qed.
End Rescue.
