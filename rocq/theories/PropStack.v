(** Property C97: the nested calls of the element iterator. *)
From Coq Require Import ZArith List Bool Strings.Byte Strings.String Lia Permutation.
From Verif Require Import Base BaseFacts Types Block BlockFacts Spec FileFormat FileFacts FileSpec WriterFacts PropFile CallSpec Calls PropCalls Stack StackSpec.
Import ListNotations.
Local Notation length := List.length.
Local Notation concat := List.concat.
Open Scope nat_scope.

Section Deep.
Variables (m : mode) (c : codec) (file : bytes).
Lemma next_within_not_err room : forall s it, next_within m c file room s it <> Some Err.
Proof. induction room as [|room IH]; intros s it; cbn [next_within]; [discriminate|]. destruct it as [[|e r]|]; try discriminate. destruct (create_element_iterator m c file s) as [(it', s')| |]; try discriminate. apply IH. Qed.
Lemma loop_det room s it l o : loop_within m c file room s it l o -> forall l' o', loop_within m c file room s it l' o' -> l = l' /\ o = o'.
Proof.
  induction 1 as [s it E|s it st E|s it E|s it e s' it' l o E R IH]; intros l2 o2 X; inversion X as [? ? E2|? ? ? E2|? ? E2|? ? ? ? ? ? ? E2 R2]; subst; rewrite E in E2; try discriminate E2; auto.
  injection E2 as <- <- <-. destruct (IH _ _ R2) as (-> & ->). auto.
Qed.
Lemma within_det room l o l' o' : elements_within m c file room l o -> elements_within m c file room l' o' -> l = l' /\ o = o'.
Proof.
  intros A B. destruct A as [E|ob s E E2|ob s it s' l1 o1 E E2 R]; destruct B as [F|ob' t F F2|ob' t it' t' l2 o2 F F2 R2]; rewrite E in F; try discriminate F; auto; injection F as <- <-; rewrite E2 in F2; try discriminate F2; auto.
  injection F2 as <- <-. eapply loop_det; eauto.
Qed.
(** the first call with [left] room, the later ones with [room] *)
Definition first_then (left room : nat) (s : bit) (it : option (list element)) (l : list element) (o : option ending) : Prop :=
  match next_within m c file left s it with
  | None => l = [] /\ o = None
  | Some (Ok (None, _)) => l = [] /\ o = Some Ended
  | Some (Ok (Some e, (s', it'))) => exists l', l = e :: l' /\ loop_within m c file room s' it' l' o
  | Some Panic => l = [] /\ o = Some Panicked
  | Some Err => False
  end.
Lemma loop_first room s it l o : first_then room room s it l o -> loop_within m c file room s it l o.
Proof.
  unfold first_then. destruct (next_within m c file room s it) as [[([e|], (s', it'))| |]|] eqn:E.
  - intros (l' & -> & R). eapply lw_item; eauto.
  - intros (-> & ->). eapply lw_end; eauto.
  - intros [].
  - intros (-> & ->). apply lw_panic; auto.
  - intros (-> & ->). apply lw_overflow; auto.
Qed.
Lemma items room s es : 1 <= room -> forall l o, loop_within m c file room s (Some []) l o -> loop_within m c file room s (Some es) (es ++ l) o.
Proof.
  intros R l o L. induction es as [|e es IH]; [exact L|]. cbn [app]. eapply lw_item; [|exact IH]. destruct room; [lia|]. reflexivity.
Qed.
(** an exhausted block is followed by the blocks [ds] *)
Definition deep (left room : nat) (ds : list fblock) (ends : Prop) : Prop :=
  left = 0 \/ exists before row behind, ds = before ++ row ++ behind /\ Forall empty_block row /\ (behind <> [] \/ ends) /\
    (before = [] /\ left <= length row + 1 \/ before <> [] /\ room <= length row + 1).
Lemma deep_empty left room i ds (ends : Prop) : S left <= room -> deep left room ds ends <-> deep (S left) room (FData i [] :: ds) ends.
Proof.
  intros LE. split.
  - intros [-> |(b & r & a & -> & E & N & [(-> & H)|(H1 & H2)])].
    + right. exists [], [], (FData i [] :: ds). cbn. split; auto. split; auto. split; [left; discriminate|]. left. split; auto.
    + right. exists [], (FData i [] :: r), a. cbn [length app]. split; auto. split; [constructor; [exists i; auto|auto]|]. split; auto. left. split; auto. lia.
    + right. exists (FData i [] :: b), r, a. split; auto. split; auto. split; auto. right. split; [discriminate|auto].
  - intros [X|(b & r & a & EQ & E & N & H)]; [discriminate X|]. destruct b as [|x b].
    + cbn [app] in EQ. destruct H as [(_ & H)|(X & _)]; [|destruct (X eq_refl)]. destruct r as [|x r].
      * left. cbn in H. lia.
      * injection EQ as <- ->. inversion E; subst. cbn [length] in H. right. exists [], r, a. split; auto. split; auto. split; auto. left. split; auto. lia.
    + injection EQ as <- ->. destruct H as [(X & _)|(_ & H)]; [discriminate X|]. right. exists b, r, a. split; auto. split; auto. split; auto. destruct b as [|y b]; [left; split; [auto|lia]|right; split; [discriminate|auto]].
Qed.
Lemma deep_full left room i e es ds (ends : Prop) : S left <= room -> (left = 0 \/ deep room room ds ends) <-> deep (S left) room (FData i (e :: es) :: ds) ends.
Proof.
  intros LE. split.
  - intros [-> |[-> |(b & r & a & -> & E & N & H)]].
    + right. exists [], [], (FData i (e :: es) :: ds). cbn. split; auto. split; auto. split; [left; discriminate|]. left. split; auto.
    + lia.
    + right. exists (FData i (e :: es) :: b), r, a. split; auto. split; auto. split; auto. right. split; [discriminate|]. destruct H as [(_ & H)|(_ & H)]; exact H.
  - intros [X|(b & r & a & EQ & E & N & H)]; [discriminate X|]. destruct b as [|x b].
    + cbn [app] in EQ. destruct H as [(_ & H)|(X & _)]; [|destruct (X eq_refl)]. destruct r as [|x r].
      * left. cbn in H. lia.
      * injection EQ as <- ->. inversion E as [|? ? (j & X) _]; discriminate X.
    + injection EQ as <- ->. destruct H as [(X & _)|(_ & H)]; [discriminate X|]. right. right. exists b, r, a. split; auto. split; auto. split; auto. destruct b as [|y b]; [left; auto|right; split; [discriminate|auto]].
Qed.
Definition stops (rest : list fblock) (ob : ending) : ending := match rest with [] => ob | _ => Ended end.
Lemma exhausted ob rest room : (rest = [] \/ exists h r, rest = h :: r /\ header_block h) -> forall ds s left, run (fb_next m c file) s (ds ++ rest) ob -> Forall data_block ds -> left <= room ->
  (deep left room ds (stops rest ob = Ended) /\ exists l r, elements_in ds = l ++ r /\ first_then left room s (Some []) l None) \/
  (~ deep left room ds (stops rest ob = Ended) /\ first_then left room s (Some []) (elements_in ds) (Some (stops rest ob))).
Proof.
  intros RE. induction ds as [|b ds IH]; intros s left R D LE.
  - cbn [app] in R. cbn [elements_in flat_map]. destruct left as [|left].
    { left. split; [left; reflexivity|]. exists [], []. split; auto. split; reflexivity. }
    assert (X : (create_element_iterator m c file s = Panic /\ stops rest ob = Panicked) \/ ((exists s', create_element_iterator m c file s = Ok (None, s')) /\ stops rest ob = Ended)).
    { unfold create_element_iterator. destruct RE as [-> |(h & r & -> & (i & inf & ->))].
      - inversion R as [? s' E|? E|]; subst; rewrite E; cbn [bind stops]; [right; eauto|left; auto].
      - inversion R as [| |? ? s' ? ? E R']; subst. rewrite E. cbn [bind stops]. right. eauto. }
    unfold first_then. cbn [next_within]. destruct X as [(-> & ->)|((s' & ->) & ->)].
    + right. split; [|auto]. intros [X|(b & r & a & EQ & _ & [N|N] & _)]; [discriminate X| |discriminate N]. destruct b, r; try discriminate EQ. destruct a; [destruct (N eq_refl)|discriminate EQ].
    + destruct left as [|left].
      * left. split; [|exists [], []; split; [reflexivity|cbn; auto]]. right. exists [], [], []. split; [reflexivity|]. split; [constructor|]. split; [right; reflexivity|]. left. cbn. split; [reflexivity|lia].
      * right. split; [|cbn; auto]. intros [X|(b & r & a & EQ & _ & N & [(_ & H)|(H & _)])]; [discriminate X| |]; destruct b, r; try discriminate EQ; cbn in *; [lia|destruct (H eq_refl)].
  - inversion D as [|? ? (i & es & ->) D']; subst. cbn [app] in R. inversion R as [| |? ? s' ? ? E R']; subst.
    assert (C : create_element_iterator m c file s = Ok (Some es, s')) by (unfold create_element_iterator; rewrite E; reflexivity).
    cbn [elements_in flat_map]. destruct left as [|left].
    { left. split; [left; reflexivity|]. exists [], (es ++ elements_in ds). split; [reflexivity|]. split; reflexivity. }
    destruct es as [|e es].
    + assert (F : forall l o, first_then (S left) room s (Some []) l o <-> first_then left room s' (Some []) l o) by (intros l o; unfold first_then; cbn [next_within]; rewrite C; tauto).
      destruct (IH s' left R' D' ltac:(lia)) as [(DE & l & r & EQ & X)|(ND & X)].
      * left. split; [apply deep_empty; auto|]. exists l, r. split; auto. apply F. exact X.
      * right. split; [intros Y; apply ND; eapply deep_empty; eauto|]. apply F. exact X.
    + assert (F : forall l o, loop_within m c file room s' (Some []) l o -> left <> 0 -> first_then (S left) room s (Some []) (e :: es ++ l) o).
      { intros l o L N. unfold first_then. cbn [next_within]. rewrite C. destruct left as [|left]; [destruct (N eq_refl)|]. cbn [next_within]. exists (es ++ l). split; auto. apply items; [lia|exact L]. }
      destruct left as [|left].
      { left. split; [apply deep_full; auto|]. exists [], (e :: es ++ elements_in ds). split; [reflexivity|]. unfold first_then. cbn [next_within]. rewrite C. auto. }
      destruct (IH s' room R' D' (Nat.le_refl _)) as [(DE & l & r & EQ & X)|(ND & X)].
      * left. split; [apply deep_full; auto|]. exists (e :: es ++ l), r. split; [cbn [app]; rewrite <- app_assoc; f_equal; f_equal; exact EQ|]. apply F; [apply loop_first; exact X|discriminate].
      * right. split; [intros Y; apply deep_full in Y; [destruct Y as [Y|Y]; [discriminate Y|exact (ND Y)]|auto]|]. apply F; [apply loop_first; exact X|discriminate].
Qed.
Lemma too_deep_first room b ds (ends : Prop) : data_block b -> (room = 0 \/ deep room room ds ends) <-> too_deep room (b :: ds) ends.
Proof.
  intros (i & es & ->). split.
  - intros H. assert (H' : room = 0 \/ exists before row behind, ds = before ++ row ++ behind /\ Forall empty_block row /\ (behind <> [] \/ ends) /\ room <= length row + 1).
    { destruct H as [H|[H|(b & r & a & EQ & E & N & [(_ & H)|(_ & H)])]]; auto; right; exists b, r, a; auto. }
    clear H. destruct H' as [-> |(b & r & a & -> & E & N & H)].
    + exists [], [], (FData i es :: ds). cbn. split; auto. split; auto. split; [left; discriminate|left; lia].
    + exists (FData i es :: b), r, a. split; auto. split; auto. split; auto. right. split; [discriminate|lia].
  - intros (b & r & a & EQ & E & N & H). destruct b as [|x b].
    + destruct H as [H|(H & _)]; [|destruct (H eq_refl)]. destruct r as [|x r]; [left; cbn in H; lia|]. injection EQ as <- ->. inversion E; subst. cbn [length] in H.
      right. right. exists [], r, a. split; auto. split; auto. split; auto. left. split; auto. lia.
    + injection EQ as <- ->. assert (H' : room <= length r + 1) by (destruct H as [H|(_ & H)]; lia). right. right. exists b, r, a. split; auto. split; auto. split; auto.
      destruct b as [|y b]; [left; auto|right; split; [discriminate|auto]].
Qed.
(** the iteration over any file, with any stack *)
Theorem C97_depth first ds rest ob room : run (fb_next m c file) bit_new (first :: ds ++ rest) ob -> Forall data_block ds -> (rest = [] \/ exists h r, rest = h :: r /\ header_block h) ->
  let ends := rest <> [] \/ ob = Ended in
  (too_deep room ds ends -> exists l r, elements_in ds = l ++ r /\ elements_within m c file room l None) /\
  (~ too_deep room ds ends -> exists o, elements_run m c file (elements_in ds) o /\ elements_within m c file room (elements_in ds) (Some o)) /\
  (forall l o l' o', elements_within m c file room l o -> elements_within m c file room l' o' -> l = l' /\ o = o').
Proof.
  intros R D RE ends. inversion R as [| |s0 a s l o E R']; subst.
  assert (EN : ends <-> stops rest ob = Ended) by (subst ends; destruct rest; cbn; [intuition congruence|intuition; left; discriminate]).
  assert (DT : forall room ds0 P P', (P <-> P') -> too_deep room ds0 P -> too_deep room ds0 P') by (intros rm d P P' Q (b & r & a & X1 & X2 & X3 & X4); exists b, r, a; tauto).
  assert (G : (too_deep room ds (stops rest ob = Ended) /\ exists l r, elements_in ds = l ++ r /\ elements_within m c file room l None) \/
    (~ too_deep room ds (stops rest ob = Ended) /\ elements_within m c file room (elements_in ds) (Some (stops rest ob)))).
  { destruct ds as [|b ds].
    - cbn [app] in R'. assert (X : (create_element_iterator m c file s = Panic /\ stops rest ob = Panicked) \/ ((exists s', create_element_iterator m c file s = Ok (None, s')) /\ stops rest ob = Ended)).
      { unfold create_element_iterator. destruct RE as [-> |(h & r & -> & (i & inf & ->))].
        - inversion R' as [? s' E2|? E2|]; subst; rewrite E2; cbn [bind stops]; [right; eauto|left; auto].
        - inversion R' as [| |? ? s' ? ? E2 R2]; subst. rewrite E2. cbn [bind stops]. right. eauto. }
      destruct X as [(C & ->)|((s' & C) & ->)].
      + right. split; [|eapply ew_new_panic; eauto]. intros (b & r & a & EQ & _ & [N|N] & _); [|discriminate N]. destruct b, r; try discriminate EQ. destruct a; [destruct (N eq_refl)|discriminate EQ].
      + destruct room as [|room].
        * left. split; [exists [], [], []; split; auto; split; auto; split; auto; left; cbn; lia|]. exists [], []. split; auto. eapply ew_loop; eauto. apply lw_overflow. reflexivity.
        * right. split; [|eapply ew_loop; eauto; eapply lw_end; reflexivity]. intros (b & r & a & EQ & _ & N & [H|(H & _)]); destruct b, r; try discriminate EQ; cbn in *; [lia|destruct (H eq_refl)].
    - inversion D as [|? ? DB D']; subst. destruct DB as (i & es & ->). cbn [app] in R'. inversion R' as [| |? ? s' ? ? E2 R2]; subst.
      assert (C : create_element_iterator m c file s = Ok (Some es, s')) by (unfold create_element_iterator; rewrite E2; reflexivity).
      pose proof (too_deep_first room (FData i es) ds (stops rest ob = Ended) (ex_intro _ i (ex_intro _ es eq_refl))) as TD.
      destruct room as [|room].
      { left. split; [apply TD; auto|]. exists [], (es ++ elements_in ds). split; [reflexivity|]. eapply ew_loop; [exact E|exact C|]. apply lw_overflow. reflexivity. }
      destruct (exhausted ob rest (S room) RE ds s' (S room) R2 D' (Nat.le_refl _)) as [(DE & l & r & EQ & X)|(ND & X)].
      + left. split; [apply TD; auto|]. exists (es ++ l), r. split; [cbn [elements_in flat_map]; rewrite <- app_assoc; f_equal; exact EQ|]. eapply ew_loop; [exact E|exact C|]. apply items; [lia|]. apply loop_first. exact X.
      + right. split; [intros Y; apply TD in Y; destruct Y as [Y|Y]; [discriminate Y|exact (ND Y)]|]. eapply ew_loop; [exact E|exact C|]. cbn [elements_in flat_map]. apply items; [lia|]. apply loop_first. exact X. }
  split; [|split; [|intros; eapply within_det; eauto]].
  - intros T. destruct G as [(_ & G)|(N & _)]; [exact G|]. exfalso. apply N. eapply DT; [exact EN|exact T].
  - intros N. destruct G as [(T & _)|(_ & G)]; [exfalso; apply N; eapply DT; [symmetry; exact EN|exact T]|]. exists (stops rest ob). split; [|exact G]. clear - R D RE.
    assert (DD : forall ds, Forall data_block ds -> forall s it, run (fb_next m c file) s (ds ++ rest) ob -> el_run m c file s (Some it) (it ++ elements_in ds) (stops rest ob)).
    { clear R D ds. induction ds as [|b ds IH]; intros D s it R.
      - assert (X : el_run m c file s (Some []) [] (stops rest ob)).
        { destruct RE as [-> |(h & r & -> & (i & inf & ->))].
          - inversion R as [? s' E|? E|]; subst; cbn [stops]; [eapply elr_refill with (it := None); [unfold create_element_iterator; rewrite E; reflexivity|constructor]|apply elr_panic; unfold create_element_iterator; rewrite E; reflexivity].
          - inversion R as [| |? ? s' ? ? E R']; subst. cbn [stops]. eapply elr_refill with (it := None); [unfold create_element_iterator; rewrite E; reflexivity|constructor]. }
        cbn [elements_in flat_map]. induction it; cbn [app]; [exact X|constructor; auto].
      - inversion D as [|? ? (i & es & ->) D']; subst. inversion R as [| |? ? s' ? ? E R']; subst. cbn [elements_in flat_map].
        assert (X : el_run m c file s (Some []) (es ++ elements_in ds) (stops rest ob)) by (eapply elr_refill with (it := Some es); [unfold create_element_iterator; rewrite E; reflexivity|apply IH; auto]).
        induction it; cbn [app]; [exact X|constructor; auto]. }
    inversion R as [| |s0 a s l o E R']; subst. destruct ds as [|b ds].
    + cbn [app] in R'. destruct RE as [-> |(h & r & -> & (i & inf & ->))].
      * inversion R' as [? s' E2|? E2|]; subst; cbn [stops]; [eapply els_loop with (it := None); [exact E|unfold create_element_iterator; rewrite E2; reflexivity|constructor]|eapply els_new_panic; [exact E|unfold create_element_iterator; rewrite E2; reflexivity]].
      * inversion R' as [| |? ? s' ? ? E2 R2]; subst. eapply els_loop with (it := None); [exact E|unfold create_element_iterator; rewrite E2; reflexivity|constructor].
    + inversion D as [|? ? (i & es & ->) D']; subst. inversion R' as [| |? ? s' ? ? E2 R2]; subst. cbn [elements_in flat_map].
      eapply els_loop with (it := Some es); [exact E|unfold create_element_iterator; rewrite E2; reflexivity|]. apply DD; auto.
Qed.
End Deep.
