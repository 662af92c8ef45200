(** Properties of the data model: C22 (order), C26 (boxes), C49 (from_str). *)
From Coq Require Import ZArith List Bool Strings.Byte Strings.String Reals Lia Lra.
From Coq Require Import Floats.SpecFloat.
From Verif Require Import Base BaseFacts Types FloatFacts Block BlockFacts Spec SpecFacts ModelSpec Model2 ModelFacts.
Import ListNotations.
Open Scope Z_scope.

(** C22 holds for nodes, ways and relations: cmp says which element comes first in the order by
    type, id and version, == says that none does, and the order is a strict total one. *)
Theorem C22_total_order_partial a b c : not_sentinel a -> not_sentinel b -> not_sentinel c ->
  (element_cmp a b = Lt <-> precedes a b) /\
  (element_cmp a b = Gt <-> precedes b a) /\
  (element_cmp a b = Eq <-> same_place a b) /\
  (element_eq a b = true <-> element_cmp a b = Eq) /\
  element_cmp b a = CompOpp (element_cmp a b) /\
  (element_cmp a b <> Gt -> element_cmp b c <> Gt -> element_cmp a c <> Gt) /\
  (element_cmp a b = Lt -> element_cmp b c = Lt -> element_cmp a c = Lt) /\
  ~ precedes a a.
Proof.
  intros A B C. rewrite !cmp_lt_iff, !cmp_gt_iff, !cmp_eq_iff, eq_iff by auto.
  split; [tauto|]. split; [tauto|]. split; [tauto|]. split; [tauto|]. split.
  { pose proof (element_cmp_spec a b A B) as H. destruct (element_cmp a b); cbn.
    - apply cmp_eq_iff; auto. unfold same_place in *. lia.
    - apply cmp_gt_iff; auto.
    - apply cmp_lt_iff; auto. }
  split.
  { pose proof (precedes_total b a). pose proof (precedes_total c b). unfold precedes, same_place in *. lia. }
  split; [intros; eapply precedes_trans; eauto|]. apply precedes_irrefl.
Qed.

(** C22 is false with sentinels: Sentinel and any other element each come before the other, so
    cmp is not antisymmetric; a < Sentinel < a. *)
Theorem C22_refuted e : not_sentinel e ->
  element_cmp e ESentinel = Lt /\ element_cmp ESentinel e = Lt /\ element_eq e ESentinel = false.
Proof. intros H. destruct e; try congruence; auto. Qed.

(** C26: merging boxes or points gives the least box that contains both; hence the algebraic laws *)
Theorem C26_merge_is_least_upper_bound a b : box_ok a -> box_ok b ->
  let m := bb_merge a b in
  box_ok m /\ box_le a m /\ box_le b m /\
  (forall c, in_box c a -> in_box c m) /\ (forall c, in_box c b -> in_box c m) /\
  (forall o, box_le a o -> box_le b o -> box_le m o).
Proof.
  intros A B m. destruct (merge_lub a b A B) as (L1 & L2 & L3).
  split; [apply merge_ok; auto|]. split; [exact L1|]. split; [exact L2|].
  split; [intros c H; exact (in_box_le _ _ _ H L1)|]. split; [intros c H; exact (in_box_le _ _ _ H L2)|]. exact L3.
Qed.
Theorem C26_merge_point a c : box_ok a -> point_ok c ->
  let m := bb_merge_point a c in
  box_ok m /\ box_le a m /\ in_box c m /\
  (forall d, in_box d a -> in_box d m) /\
  (forall o, box_le a o -> in_box c o -> box_le m o).
Proof.
  intros A C m. subst m. rewrite merge_point_is_merge. pose proof (from_point_ok c C) as F.
  destruct (merge_lub a _ A F) as (L1 & L2 & L3).
  split; [apply merge_ok; auto|]. split; [exact L1|]. split; [apply point_in_le; exact L2|].
  split; [intros d H; exact (in_box_le _ _ _ H L1)|]. intros o H1 H2. apply L3; [exact H1|]. apply point_in_le. exact H2.
Qed.
Theorem C26_merge_laws a b c : box_ok a -> box_ok b -> box_ok c ->
  box_eq (bb_merge a b) (bb_merge b a) /\
  box_eq (bb_merge (bb_merge a b) c) (bb_merge a (bb_merge b c)) /\
  box_eq (bb_merge a a) a.
Proof.
  intros A B C. destruct (merge_lub a b A B) as (L1 & L2 & L3). destruct (merge_lub b a B A) as (M1 & M2 & M3).
  destruct (merge_lub b c B C) as (N1 & N2 & N3). destruct (merge_lub a a A A) as (O1 & O2 & O3).
  destruct (merge_lub (bb_merge a b) c) as (P1 & P2 & P3); auto using merge_ok.
  destruct (merge_lub a (bb_merge b c)) as (Q1 & Q2 & Q3); auto using merge_ok.
  split; [split; auto|]. split; [|split; auto using box_le_refl].
  split.
  - apply P3; [apply L3|]; eauto using box_le_trans.
  - apply Q3; [|apply N3]; eauto using box_le_trans.
Qed.
Theorem C26_from_point c : point_ok c ->
  box_ok (bb_from_point c) /\ in_box c (bb_from_point c) /\ (forall o, in_box c o -> box_le (bb_from_point c) o).
Proof.
  intros H. split; [apply from_point_ok; auto|]. split; [apply point_in_le, box_le_refl, from_point_ok; auto|].
  intros o. apply point_in_le.
Qed.

Lemma from_str_split parse s p0 p1 p2 p3 rest : split_byte x2c s = p0 :: p1 :: p2 :: p3 :: rest ->
  bb_from_str parse s =
  match parse (trim p0), parse (trim p1), parse (trim p2), parse (trim p3) with
  | Some l, Some b, Some r, Some t =>
    if negb (range_contains (f_of_Z (-180)) (f_of_Z 180) l)
     || negb (range_contains (f_of_Z (-90)) (f_of_Z 90) b)
     || negb (range_contains (f_of_Z (-180)) (f_of_Z 180) r)
     || negb (range_contains (f_of_Z (-90)) (f_of_Z 90) t)
    then Err else Ok (BBox l b r t)
  | _, _, _, _ => Err
  end.
Proof.
  intros E. unfold bb_from_str. rewrite E. cbn [map]. set (ps := trim p0 :: trim p1 :: trim p2 :: trim p3 :: map trim rest).
  assert (L : 4 <= zlen ps) by (unfold zlen, ps; cbn [List.length]; lia).
  assert (I : forall i a, 0 <= i <= 3 -> nth_error ps (Z.to_nat i) = Some a -> index ps i = Ok a).
  { intros i a B H. unfold index. destruct (i <? 0) eqn:?; [lia|]. destruct (zlen ps <=? i) eqn:?; [lia|]. rewrite H. reflexivity. }
  destruct (zlen ps <? 4) eqn:?; [lia|].
  rewrite (I 0 (trim p0)), (I 1 (trim p1)), (I 2 (trim p2)), (I 3 (trim p3)) by (first [lia|reflexivity]). cbn [bind].
  destruct (parse (trim p0)); [|reflexivity]. destruct (parse (trim p1)); [|reflexivity].
  destruct (parse (trim p2)); [|reflexivity]. destruct (parse (trim p3)); reflexivity.
Qed.

(** C49: from_str accepts exactly the strings with at least four comma separated fields whose first
    four, without the white space around them, parse to numbers within the ranges *)
Theorem C49_from_str parse s l b r t : (forall x f, parse x = Some f -> f_valid f) ->
  bb_from_str parse s = Ok (BBox l b r t) <->
  exists p0 p1 p2 p3 rest q0 q1 q2 q3,
    s = p0 ++ [x2c] ++ p1 ++ [x2c] ++ p2 ++ [x2c] ++ p3 ++ rest /\
    (rest = [] \/ exists more, rest = x2c :: more) /\
    no_comma p0 /\ no_comma p1 /\ no_comma p2 /\ no_comma p3 /\
    trimmed p0 q0 /\ trimmed p1 q1 /\ trimmed p2 q2 /\ trimmed p3 q3 /\
    parse q0 = Some l /\ parse q1 = Some b /\ parse q2 = Some r /\ parse q3 = Some t /\
    num_le (f_of_Z (-180)) l /\ num_le l (f_of_Z 180) /\ num_le (f_of_Z (-90)) b /\ num_le b (f_of_Z 90) /\
    num_le (f_of_Z (-180)) r /\ num_le r (f_of_Z 180) /\ num_le (f_of_Z (-90)) t /\ num_le t (f_of_Z 90).
Proof.
  intros PV.
  assert (V : forall z, Z.abs z <= 9007199254740992 -> f_valid (f_of_Z z)) by (intros z H; apply (f_of_Z_ok z H)).
  assert (RC : forall x f lo hi, Z.abs lo <= 180 /\ Z.abs hi <= 180 -> parse x = Some f ->
     (range_contains (f_of_Z lo) (f_of_Z hi) f = true <-> num_le (f_of_Z lo) f /\ num_le f (f_of_Z hi))).
  { intros x f lo hi Z P. unfold range_contains. rewrite andb_true_iff, !fle_spec; [tauto|eauto|apply V; lia|apply V; lia|eauto]. }
  split.
  - destruct (split_join x2c s _ eq_refl) as (p0 & rest & E & S & F).
    destruct rest as [|p1 rest]; [unfold bb_from_str; rewrite E; discriminate|].
    destruct rest as [|p2 rest]; [unfold bb_from_str; rewrite E; discriminate|].
    destruct rest as [|p3 rest]; [unfold bb_from_str; rewrite E; discriminate|].
    rewrite E in F.
    rewrite (from_str_split _ _ _ _ _ _ _ E).
    destruct (parse (trim p0)) as [l'|] eqn:P0; [|discriminate]. destruct (parse (trim p1)) as [b'|] eqn:P1; [|discriminate].
    destruct (parse (trim p2)) as [r'|] eqn:P2; [|discriminate]. destruct (parse (trim p3)) as [t'|] eqn:P3; [|discriminate].
    destruct (negb _ || _ || _ || _) eqn:R; [discriminate|]. intros X. injection X as -> -> -> ->.
    rewrite !orb_false_iff, !negb_false_iff in R. destruct R as [[[R0 R1] R2] R3].
    apply (RC _ _ (-180) 180 ltac:(lia) P0) in R0. apply (RC _ _ (-90) 90 ltac:(lia) P1) in R1.
    apply (RC _ _ (-180) 180 ltac:(lia) P2) in R2. apply (RC _ _ (-90) 90 ltac:(lia) P3) in R3.
    inversion F as [|? ? F0 F']; subst. inversion F' as [|? ? F1 F'']; subst. inversion F'' as [|? ? F2 F3]; subst. inversion F3 as [|? ? F4 F5]; subst.
    exists p0, p1, p2, p3, (flat_map (fun p => x2c :: p) rest), (trim p0), (trim p1), (trim p2), (trim p3).
    cbn [flat_map app]. rewrite <- ?app_assoc. cbn [app]. rewrite <- ?app_assoc.
    split; [reflexivity|]. split; [destruct rest; [left; reflexivity|right; cbn; eauto]|].
    sconj; auto using trim_spec; tauto.
  - intros (p0 & p1 & p2 & p3 & rest & q0 & q1 & q2 & q3 & E & R & F0 & F1 & F2 & F3 & T0 & T1 & T2 & T3 & P0 & P1 & P2 & P3 & B0 & B1 & B2 & B3 & B4 & B5 & B6 & B7).
    assert (S : exists ps, split_byte x2c s = p0 :: p1 :: p2 :: p3 :: ps).
    { destruct R as [->|(more & ->)].
      - exists []. subst s. rewrite <- (split_unique x2c p0 [p1; p2; p3]) by auto. reflexivity.
      - destruct (split_join x2c more _ eq_refl) as (m0 & ms & Em & Sm & Fm). exists (m0 :: ms). subst s.
        rewrite Sm. rewrite Em in Fm.
        rewrite <- (split_unique x2c p0 (p1 :: p2 :: p3 :: m0 :: ms)) by auto.
        reflexivity. }
    destruct S as (ps & S). rewrite (from_str_split _ _ _ _ _ _ _ S). apply trimmed_trim in T0, T1, T2, T3.
    rewrite T0, T1, T2, T3, P0, P1, P2, P3.
    rewrite (proj2 (RC _ _ (-180) 180 ltac:(lia) P0)), (proj2 (RC _ _ (-90) 90 ltac:(lia) P1)), (proj2 (RC _ _ (-180) 180 ltac:(lia) P2)), (proj2 (RC _ _ (-90) 90 ltac:(lia) P3)) by auto.
    reflexivity.
Qed.
(** in particular a NaN is refused *)
Theorem C49_never_nan parse s b : (forall x f, parse x = Some f -> f_valid f) -> bb_from_str parse s = Ok b ->
  bb_left b <> S754_nan /\ bb_bottom b <> S754_nan /\ bb_right b <> S754_nan /\ bb_top b <> S754_nan.
Proof.
  intros V H. destruct b as [l b r t]. apply C49_from_str in H; auto.
  destruct H as (p0 & p1 & p2 & p3 & rest & q0 & q1 & q2 & q3 & _ & _ & _ & _ & _ & _ & _ & _ & _ & _ & _ & _ & _ & _ & A1 & A2 & A3 & A4 & A5 & A6 & A7 & A8).
  cbn. sconj; intros X; subst; cbn in *; contradiction.
Qed.
