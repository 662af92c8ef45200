(** Property C100: going on after a panic. *)
From Coq Require Import ZArith List Bool Strings.Byte Lia.
From Verif Require Import Base BaseFacts Types Proto FileFormat FileFacts WriterFacts FileSpec Spec PropFile DamagedSpec GrowingSpec PollSpec Poll PropPoll SalvageSpec Salvage.
Import ListNotations.
Local Notation length := List.length.
Open Scope Z_scope.

Lemma tried_det {S A} (next : S -> res (option A) * S -> Prop) : (forall s x y, next s x -> next s y -> x = y) -> forall s l, tried next s l -> forall l', tried next s l' -> l = l'.
Proof.
  intros D. induction 1 as [s s' N|s a s' l N T IH|s s' l N T IH]; intros l' T'; inversion T' as [? s2 N2|? a2 s2 l2 N2 T2|? s2 l2 N2 T2]; subst; pose proof (D _ _ _ N N2) as E; try discriminate E; auto.
  - injection E as -> ->. f_equal. auto.
  - injection E as ->. f_equal. auto.
Qed.
Lemma salvage_det bs l : salvage bs l -> forall l', salvage bs l' -> l = l'.
Proof. induction 1; intros l' S; inversion S; subst; auto; f_equal; auto. Qed.
Section Salvage.
Variables (m : mode) (c : codec) (file : bytes).
(** the block of a blob, None if it cannot be had *)
Definition block_of (d : blob_desc) : option fblock := match from_blob_desc m c file d with Ok b => Some b | _ => None end.
Lemma try_end s s' : blob_next file s = Ok (None, s') -> fb_try m c file s = (Ok None, s').
Proof. intros E. unfold fb_try, blob_try. rewrite E. reflexivity. Qed.
Lemma try_step s d s' : blob_next file s = Ok (Some d, s') -> fb_try m c file s = (match block_of d with Some b => Ok (Some b) | None => Panic end, s').
Proof. intros E. unfold fb_try, blob_try, block_of. rewrite E. destruct (from_blob_desc m c file d); reflexivity. Qed.

(** *** the blocks: a panic for each blob that cannot be decoded, and nothing else is lost *)
Theorem C100_blocks ds rs : run (blob_next file) bit_new ds Ended -> (tried (graph (fb_try m c file)) bit_new rs <-> rs = map block_of ds).
Proof.
  intros R. assert (G : tried (graph (fb_try m c file)) bit_new (map block_of ds)).
  { remember Ended as o eqn:E. revert E. induction R as [s s' N|s N|s d s' ds o N R IH]; intros E; [|discriminate E|].
    - eapply td_end. red. apply try_end. exact N.
    - cbn [map]. pose proof (try_step _ _ _ N) as T. destruct (block_of d) as [b|]; [eapply td_item|eapply td_caught]; try (red; exact T); auto. }
  split; [|intros ->; exact G]. intros T. eapply tried_det; [|exact T|exact G]. unfold graph. intros s x y -> ->. reflexivity.
Qed.
Theorem C100_blocks_had ds rs : run (blob_next file) bit_new ds Ended -> tried (graph (fb_try m c file)) bit_new rs -> items rs = obtained m c file (fun _ => false) ds.
Proof.
  intros R T. apply (C100_blocks _ _ R) in T as ->. clear R. induction ds as [|d ds IH]; [reflexivity|]. cbn [map items flat_map obtained]. unfold items in IH. rewrite IH. unfold block_of. destruct (from_blob_desc m c file d); reflexivity.
Qed.
Lemma el_try_det x r : el_try m c file x r -> forall r', el_try m c file x r' -> r = r'.
Proof.
  induction 1 as [s|s e r|s ob s' r F H IH|s s' F]; intros r' H'; inversion H' as [? E|? ? ? E|? ob2 s2 ? F2 H2 E|? s2 F2 E]; subst; auto.
  - rewrite F in F2. injection F2 as <- <-. auto.
  - rewrite F in F2. discriminate F2.
  - rewrite F in F2. discriminate F2.
  - rewrite F in F2. injection F2 as <-. reflexivity.
Qed.
Lemma tried_refill s ob s' l : fb_try m c file s = (Ok ob, s') -> tried (el_try m c file) (s', match ob with Some (FData _ es) => Some es | _ => None end) l -> tried (el_try m c file) (s, Some []) l.
Proof.
  intros F T. inversion T as [? x N|? a x l' N T'|? x l' N T']; subst; [eapply td_end|eapply td_item|eapply td_caught]; try (eapply et_refill; [exact F|exact N]); exact T'.
Qed.
Lemma tried_items s es l : tried (el_try m c file) (s, Some []) l -> tried (el_try m c file) (s, Some es) (map Some es ++ l).
Proof. intros T. induction es as [|e es IH]; [exact T|]. cbn. eapply td_item; [constructor|exact IH]. Qed.
Lemma tried_none s : tried (el_try m c file) (s, None) [].
Proof. eapply td_end. constructor. Qed.
Lemma salvaged s ds o : run (blob_next file) s ds o -> o = Ended -> exists l, tried (el_try m c file) (s, Some []) l /\ salvage (map block_of ds) l.
Proof.
  induction 1 as [s s' N|s N|s d s' ds o N R IH]; intros E; try discriminate E.
  - exists []. split; [|constructor]. eapply tried_refill; [apply try_end; exact N|apply tried_none].
  - destruct (IH E) as (l & T & S). cbn [map]. pose proof (try_step _ _ _ N) as F. destruct (block_of d) as [[i h|i es]|].
    + exists []. split; [|constructor]. eapply tried_refill; [exact F|apply tried_none].
    + exists (map Some es ++ l). split; [|constructor; exact S]. eapply tried_refill; [exact F|]. apply tried_items. exact T.
    + exists (None :: l). split; [|constructor; exact S]. eapply td_caught; [apply et_caught; exact F|exact T].
Qed.
(** *** the elements: those of every data block that can be decoded, whatever is damaged between them *)
Theorem C100_elements i d0 ds x rs : reader_new m c file = Ok i -> run (blob_next file) bit_new (d0 :: ds) Ended -> elements_new m c file = Ok x ->
  (tried (el_try m c file) x rs <-> salvage (map block_of ds) rs).
Proof.
  intros RN R N. inversion R as [|? E|? ? s1 ? ? N1 R1]; subst.
  assert (G : exists l, tried (el_try m c file) x l /\ salvage (map block_of ds) l).
  { unfold elements_new, fb_next in N. rewrite N1 in N. cbn [bind] in N. destruct (unwrap_res (from_blob_desc m c file d0)) as [b0| |]; cbn [bind] in N; try discriminate N.
    unfold create_element_iterator, fb_next in N. inversion R1 as [? s2 N2|? E|? d1 s2 ds2 ? N2 R2]; subst; rewrite N2 in N; cbn [bind] in N.
    - injection N as <-. exists []. split; [apply tried_none|constructor].
    - destruct (from_blob_desc m c file d1) as [b1| |] eqn:D1; cbn [unwrap_res bind] in N; try discriminate N. cbn [map]. unfold block_of at 1. rewrite D1. destruct b1 as [j h|j es]; injection N as <-.
      + exists []. split; [apply tried_none|constructor].
      + destruct (salvaged _ _ _ R2 eq_refl) as (l & T & S). exists (map Some es ++ l). split; [apply tried_items; exact T|constructor; exact S]. }
  destruct G as (l & T & S). split; intros H.
  - rewrite (tried_det _ (fun s a b A B => el_try_det s a A b B) _ _ H _ T). exact S.
  - rewrite (salvage_det _ _ H _ S). exact T.
Qed.
(** the first data block is the exception: when it cannot be decoded there is no iterator *)
Theorem C100_first_block d0 d1 ds o : run (blob_next file) bit_new (d0 :: d1 :: ds) o -> ((exists x, elements_new m c file = Ok x) <-> block_of d0 <> None /\ block_of d1 <> None).
Proof.
  intros R. inversion R as [|? E|? ? s1 ? ? N1 R1]; subst. inversion R1 as [|? E|? ? s2 ? ? N2 R2]; subst. unfold elements_new, create_element_iterator, fb_next. rewrite N1. cbn [bind]. unfold block_of.
  destruct (from_blob_desc m c file d0) as [b0| |]; cbn [unwrap_res bind]; [|split; [intros (x & X); discriminate X|intros (A & _); congruence]..].
  rewrite N2. cbn [bind]. destruct (from_blob_desc m c file d1) as [b1| |]; cbn [unwrap_res bind]; [|split; [intros (x & X); discriminate X|intros (_ & A); congruence]..].
  split; [intros _; split; discriminate|]. intros _. destruct b1; eexists; reflexivity.
Qed.
(** nothing is caught when nothing is damaged: the for loop *)
Theorem C100_undamaged l : elements_run m c file l Ended -> exists x, elements_new m c file = Ok x /\ forall rs, tried (el_try m c file) x rs <-> rs = map Some l.
Proof.
  intros R. inversion R as [| |ob s it s' l1 o1 E C R1]; subst. exists (s', it). split; [unfold elements_new; rewrite E; cbn [bind]; rewrite C; reflexivity|].
  assert (G : tried (el_try m c file) (s', it) (map Some l)).
  { clear E C R. remember Ended as o eqn:Q. revert Q. induction R1 as [s0|s0 e r l o H IH|s0 it s1 l o C H IH|s0 C]; intros Q; try discriminate Q.
    - apply tried_none.
    - cbn. eapply td_item; [constructor|auto].
    - unfold create_element_iterator, fb_next in C. destruct (blob_next file s0) as [([d|], s2)| |] eqn:N; cbn [bind] in C; try discriminate C.
      + pose proof (try_step _ _ _ N) as F. unfold block_of in F. destruct (from_blob_desc m c file d) as [b| |] eqn:D; cbn [unwrap_res bind] in C; try discriminate C.
        eapply tried_refill; [exact F|]. destruct b; injection C as <- <-; exact (IH Q).
      + injection C as <- <-. eapply tried_refill; [apply try_end; exact N|exact (IH Q)]. }
  intros rs. split; [intros T; eapply tried_det; [exact (fun s a b A B => el_try_det s a A b B)|exact T|exact G]|intros ->; exact G].
Qed.
End Salvage.
