(** The decoders of Proto.v compute the relations of WireSpec.v: lemmas. *)
From Coq Require Import ZArith List Bool Strings.Byte Strings.String Lia ZifyBool.
From Verif Require Import Base BaseFacts Proto WireSpec.
Import ListNotations.
Open Scope Z_scope.
Local Notation length := List.length.
Local Notation concat := List.concat.

(** ** UTF-8 *)
Lemma utf8_nil : utf8_text [].
Proof. exists []. split; [constructor|reflexivity]. Qed.
Lemma utf8_cons c p r : scalar c -> map b2z p = utf8_char c -> utf8_text r -> utf8_text (p ++ r).
Proof. intros S P (cs & F & E). exists (c :: cs). split; [constructor; auto|]. rewrite map_app, P, E. reflexivity. Qed.
Ltac u8 := repeat match goal with H : _ && _ = true |- _ => apply andb_true_iff in H; destruct H end.
Ltac dm := Z.to_euclidean_division_equations; lia.
Ltac u8b := match goal with |- context [?a <? ?b] => let E := fresh in destruct (a <? b) eqn:E; [|] end.
Lemma utf8_sound n : forall bs, (length bs <= n)%nat -> utf8_ok bs = true -> utf8_text bs.
Proof.
  induction n as [|n IH]; intros bs L H.
  { destruct bs; [apply utf8_nil|cbn in L; lia]. }
  destruct bs as [|b0 r0]; [apply utf8_nil|]. cbn [utf8_ok] in H.
  pose proof (b2z_range b0) as R0. cbn [length] in L.
  destruct (b2z b0 <? 128) eqn:E0.
  { apply (utf8_cons (b2z b0) [b0]); [unfold scalar; lia| |apply IH; [lia|auto]]. unfold utf8_char. rewrite E0. reflexivity. }
  destruct r0 as [|b1 r1]; [discriminate|]. pose proof (b2z_range b1) as R1. cbn [length] in L.
  destruct ((194 <=? b2z b0) && (b2z b0 <=? 223)) eqn:E1.
  { u8. apply (utf8_cons (64 * (b2z b0 - 192) + (b2z b1 - 128)) [b0; b1]); [unfold scalar; lia| |apply IH; [lia|auto]].
    unfold utf8_char. u8b; [lia|]. u8b; [|lia]. cbn [map]. repeat f_equal; dm. }
  destruct r1 as [|b2 r2]; [discriminate|]. pose proof (b2z_range b2) as R2. cbn [length] in L.
  assert (three : 224 <= b2z b0 <= 239 -> 128 <= b2z b1 <= 191 -> 128 <= b2z b2 <= 191 -> (b2z b0 = 224 -> 160 <= b2z b1) ->
    (b2z b0 = 237 -> b2z b1 <= 159) -> utf8_ok r2 = true -> utf8_text (b0 :: b1 :: b2 :: r2)).
  { intros A B C D E F. apply (utf8_cons (4096 * (b2z b0 - 224) + 64 * (b2z b1 - 128) + (b2z b2 - 128)) [b0; b1; b2]); [unfold scalar; lia| |apply IH; [lia|auto]].
    unfold utf8_char. u8b; [lia|]. u8b; [lia|]. u8b; [|lia]. cbn [map]. repeat f_equal; dm. }
  destruct (b2z b0 =? 224) eqn:E2; [u8; apply three; auto; lia|].
  destruct ((225 <=? b2z b0) && (b2z b0 <=? 236)) eqn:E3; [u8; apply three; auto; lia|].
  destruct (b2z b0 =? 237) eqn:E4; [u8; apply three; auto; lia|].
  destruct ((238 <=? b2z b0) && (b2z b0 <=? 239)) eqn:E5; [u8; apply three; auto; lia|].
  destruct r2 as [|b3 r3]; [discriminate|]. pose proof (b2z_range b3) as R3. cbn [length] in L.
  assert (four : 240 <= b2z b0 <= 244 -> 128 <= b2z b1 <= 191 -> 128 <= b2z b2 <= 191 -> 128 <= b2z b3 <= 191 -> (b2z b0 = 240 -> 144 <= b2z b1) ->
    (b2z b0 = 244 -> b2z b1 <= 143) -> utf8_ok r3 = true -> utf8_text (b0 :: b1 :: b2 :: b3 :: r3)).
  { intros A B C C' D E F.
    apply (utf8_cons (262144 * (b2z b0 - 240) + 4096 * (b2z b1 - 128) + 64 * (b2z b2 - 128) + (b2z b3 - 128)) [b0; b1; b2; b3]);
      [unfold scalar; lia| |apply IH; [lia|auto]].
    unfold utf8_char. u8b; [lia|]. u8b; [lia|]. u8b; [lia|]. cbn [map]. repeat f_equal; dm. }
  destruct (b2z b0 =? 240) eqn:E6; [u8; apply four; auto; lia|].
  destruct ((241 <=? b2z b0) && (b2z b0 <=? 243)) eqn:E7; [u8; apply four; auto; lia|].
  destruct (b2z b0 =? 244) eqn:E8; [u8; apply four; auto; lia|]. discriminate.
Qed.
Lemma utf8_complete cs : forall bs, Forall scalar cs -> map b2z bs = flat_map utf8_char cs -> utf8_ok bs = true.
Proof.
  induction cs as [|c cs IH]; intros bs F E; cbn [flat_map] in E.
  { destruct bs; [reflexivity|discriminate]. }
  inversion F as [|? ? S F']; subst. unfold scalar in S. unfold utf8_char in E.
  destruct (c <? 128) eqn:E1; [|destruct (c <? 2048) eqn:E2; [|destruct (c <? 65536) eqn:E3]]; cbn [app] in E.
  - destruct bs as [|b0 r]; [discriminate|]. injection E as X0 E. cbn [utf8_ok]. rewrite X0, E1. auto.
  - destruct bs as [|b0 [|b1 r]]; try discriminate. injection E as X0 X1 E. cbn [utf8_ok].
    rewrite X0, X1. replace (192 + c / 64 <? 128) with false by (symmetry; dm).
    replace ((194 <=? 192 + c / 64) && (192 + c / 64 <=? 223)) with true by (symmetry; dm).
    rewrite (IH r) by auto. dm.
  - destruct bs as [|b0 [|b1 [|b2 r]]]; try discriminate. injection E as X0 X1 X2 E. cbn [utf8_ok].
    rewrite X0, X1, X2, (IH r) by auto. clear IH F F' E X0 X1 X2.
    assert (K : 0 <= c / 4096 <= 15) by dm. assert (K1 : 0 <= c / 64 mod 64 < 64) by dm. assert (K2 : 0 <= c mod 64 < 64) by dm.
    assert (K3 : c = 4096 * (c / 4096) + 64 * (c / 64 mod 64) + c mod 64) by dm.
    set (a := c / 4096) in *. set (b := c / 64 mod 64) in *. set (d := c mod 64) in *. clearbody a b d.
    replace (224 + a <? 128) with false by lia. replace ((194 <=? 224 + a) && (224 + a <=? 223)) with false by lia.
    destruct (224 + a =? 224) eqn:Y1; [lia|].
    destruct ((225 <=? 224 + a) && (224 + a <=? 236)) eqn:Y2; [lia|]. destruct (224 + a =? 237) eqn:Y3; [lia|].
    destruct ((238 <=? 224 + a) && (224 + a <=? 239)) eqn:Y4; lia.
  - destruct bs as [|b0 [|b1 [|b2 [|b3 r]]]]; try discriminate. injection E as X0 X1 X2 X3 E. cbn [utf8_ok].
    rewrite X0, X1, X2, X3, (IH r) by auto. clear IH F F' E X0 X1 X2 X3.
    assert (K : 0 <= c / 262144 <= 4) by dm. assert (K0 : 0 <= c / 4096 mod 64 < 64) by dm.
    assert (K1 : 0 <= c / 64 mod 64 < 64) by dm. assert (K2 : 0 <= c mod 64 < 64) by dm.
    assert (K3 : c = 262144 * (c / 262144) + 4096 * (c / 4096 mod 64) + 64 * (c / 64 mod 64) + c mod 64) by dm.
    set (a := c / 262144) in *. set (b := c / 64 mod 64) in *. set (d := c mod 64) in *. set (e := c / 4096 mod 64) in *. clearbody a b d e.
    replace (240 + a <? 128) with false by lia. replace ((194 <=? 240 + a) && (240 + a <=? 223)) with false by lia.
    replace (240 + a =? 224) with false by lia. replace ((225 <=? 240 + a) && (240 + a <=? 236)) with false by lia.
    replace (240 + a =? 237) with false by lia. replace ((238 <=? 240 + a) && (240 + a <=? 239)) with false by lia.
    destruct (240 + a =? 240) eqn:Y1; [lia|]. destruct ((241 <=? 240 + a) && (240 + a <=? 243)) eqn:Y2; [lia|].
    destruct (240 + a =? 244) eqn:Y3; lia.
Qed.
Lemma utf8_ok_spec bs : utf8_ok bs = true <-> utf8_text bs.
Proof. split; [apply (utf8_sound (length bs)); lia|intros (cs & F & E); eapply utf8_complete; eauto]. Qed.

(** ** Varints *)
Lemma varint_nonneg b u : varint b u -> 0 <= u.
Proof. induction 1; pose proof (b2z_range b); lia. Qed.
Lemma varint_len b u : varint b u -> (1 <= length b)%nat.
Proof. induction 1; cbn; lia. Qed.
Lemma varint_bound b u : varint b u -> u < 128 ^ Z.of_nat (length b).
Proof.
  induction 1 as [b H|b r u H V IH].
  - cbn. lia.
  - cbn [length]. rewrite Nat2Z.inj_succ, Z.pow_succ_r by lia. pose proof (b2z_range b). lia.
Qed.
Lemma dec_varint_sound n : forall bs u r, dec_varint_aux n bs = Some (u, r) ->
  exists vb, bs = vb ++ r /\ varint vb u /\ (length vb <= n)%nat /\ u < 2 * 128 ^ (Z.of_nat n - 1).
Proof.
  induction n as [|n IH]; intros bs u r H; cbn [dec_varint_aux] in H; [discriminate|].
  destruct bs as [|b bs]; [discriminate|]. pose proof (b2z_range b) as R. destruct (b2z b <? 128) eqn:E.
  - assert (X : u = b2z b /\ r = bs /\ u < 2 * 128 ^ (Z.of_nat (S n) - 1)).
    { destruct n; [destruct (b2z b <? 2) eqn:E2; [|discriminate]|]; injection H as <- <-; sconj; auto; [lia|].
      replace (Z.of_nat (S (S n)) - 1) with (Z.succ (Z.of_nat n)) by lia. rewrite Z.pow_succ_r by lia.
      pose proof (Z.pow_pos_nonneg 128 (Z.of_nat n)). lia. }
    destruct X as (-> & -> & X). exists [b]. sconj; auto; [constructor; lia|cbn; lia].
  - destruct (dec_varint_aux n bs) as [[x r']|] eqn:D; [|discriminate]. injection H as <- <-.
    destruct (IH _ _ _ D) as (vb & -> & V & L & B). exists (b :: vb). sconj; auto; [constructor; auto; lia|cbn; lia|].
    destruct n as [|n]; [discriminate D|]. replace (Z.of_nat (S (S n)) - 1) with (Z.succ (Z.of_nat (S n) - 1)) by lia.
    rewrite Z.pow_succ_r by lia. lia.
Qed.
Lemma dec_varint_complete vb u : varint vb u -> forall n r, (length vb <= n)%nat -> u < 2 * 128 ^ (Z.of_nat n - 1) ->
  dec_varint_aux n (vb ++ r) = Some (u, r).
Proof.
  induction 1 as [b H|b t u H V IH]; intros n r L B; destruct n as [|n]; cbn [length] in L; try lia; cbn [app dec_varint_aux].
  - destruct (b2z b <? 128) eqn:E; [|lia]. destruct n; [|reflexivity]. cbn in B. destruct (b2z b <? 2) eqn:E2; [reflexivity|lia].
  - destruct (b2z b <? 128) eqn:E; [lia|]. pose proof (varint_len _ _ V). pose proof (b2z_range b).
    rewrite IH; [reflexivity|lia|]. destruct n as [|n]; [lia|].
    replace (Z.of_nat (S (S n)) - 1) with (Z.succ (Z.of_nat (S n) - 1)) in B by lia. rewrite Z.pow_succ_r in B by lia. lia.
Qed.
Lemma dec_varint_spec bs u r : dec_varint bs = Some (u, r) <-> exists vb, bs = vb ++ r /\ varint64 vb u.
Proof.
  unfold dec_varint, varint64. split.
  - intros H. apply dec_varint_sound in H. destruct H as (vb & -> & V & L & B). exists vb. sconj; auto. pose proof (varint_nonneg _ _ V).
    change (2 * 128 ^ (Z.of_nat 10 - 1)) with 18446744073709551616 in B. lia.
  - intros (vb & -> & V & L & _ & B). apply dec_varint_complete; auto.
Qed.
Lemma varint64_len b u : varint64 b u -> (1 <= length b)%nat.
Proof. intros (V & _). eapply varint_len; eauto. Qed.

(** ** Keys and payloads *)
Lemma dec_key_spec bs t wt r : dec_key bs = Some (t, wt, r) <-> exists kb, bs = kb ++ r /\ key kb t wt /\ wt <= 5.
Proof.
  unfold dec_key, key. split.
  - destruct (dec_varint bs) as [[k r']|] eqn:D; [|discriminate]. apply dec_varint_spec in D. destruct D as (kb & -> & V).
    assert (P : 0 <= k) by (destruct V as (_ & _ & P & _); lia).
    destruct (two32 <=? k) eqn:E1; [discriminate|]. destruct (5 <? k mod 8) eqn:E2; [discriminate|].
    destruct (k / 8 <? 1) eqn:E3; [discriminate|]. intros [= <- <- <-]. exists kb. split; auto. split; [|lia]. exists k. sconj; auto; zl.
  - intros (kb & -> & (k & V & B & -> & W & T) & W5).
    assert (D : dec_varint (kb ++ r) = Some (8 * t + wt, r)) by (apply dec_varint_spec; eauto). rewrite D.
    replace (two32 <=? 8 * t + wt) with false by zl. replace ((8 * t + wt) mod 8) with wt by zl. replace ((8 * t + wt) / 8) with t by zl.
    destruct (5 <? wt) eqn:E; [lia|]. destruct (t <? 1) eqn:E2; [lia|]. reflexivity.
Qed.
Lemma key_len kb t wt : key kb t wt -> (1 <= length kb)%nat.
Proof. intros (k & V & _). eapply varint64_len; eauto. Qed.
Lemma take_exact_spec n bs b r : take_exact n bs = Some (b, r) <-> bs = b ++ r /\ zlen b = n.
Proof.
  split.
  - unfold take_exact. destruct (n <? 0) eqn:E; [discriminate|]. destruct (zlen bs <? n) eqn:E2; [discriminate|]. intros [= <- <-].
    rewrite firstn_skipn. split; auto. unfold zlen in *. rewrite firstn_length. lia.
  - intros (-> & <-). apply take_exact_app.
Qed.
Lemma dec_delimited_spec bs b r : dec_delimited bs = Some (b, r) <-> exists lb, bs = lb ++ b ++ r /\ varint64 lb (zlen b).
Proof.
  unfold dec_delimited. split.
  - destruct (dec_varint bs) as [[n r']|] eqn:D; [|discriminate]. apply dec_varint_spec in D. destruct D as (lb & -> & V).
    intros T. apply take_exact_spec in T. destruct T as (-> & <-). eauto.
  - intros (lb & -> & V). assert (D : dec_varint (lb ++ b ++ r) = Some (zlen b, b ++ r)) by (apply dec_varint_spec; eauto).
    rewrite D. apply take_exact_app.
Qed.

(** ** Groups *)
Lemma skip_group_sound f : forall num bs r, skip_group f num bs = Some r -> exists g, bs = g ++ r /\ group num g.
Proof.
  induction f as [|f IH]; intros num bs r H; cbn [skip_group] in H; [discriminate|].
  destruct (dec_key bs) as [[[t wt] r0]|] eqn:K; [|discriminate]. apply dec_key_spec in K. destruct K as (kb & -> & K & W).
  assert (W0 : 0 <= wt) by (destruct K as (k & K); lia).
  destruct (wt =? 4) eqn:E4.
  { destruct (t =? num) eqn:T; [|discriminate]. injection H as <-. apply Z.eqb_eq in T, E4. subst. exists kb. split; auto. apply group_end; auto. }
  assert (Q : forall body r', one_field (kb ++ body) -> r0 = body ++ r' -> skip_group f num r' = Some r -> exists g, kb ++ r0 = g ++ r /\ group num g).
  { intros body r' O -> S. destruct (IH _ _ _ S) as (g & -> & G). exists ((kb ++ body) ++ g). split; [rewrite !app_assoc; reflexivity|]. apply group_field; auto. }
  destruct (wt =? 0) eqn:E0.
  { destruct (dec_varint r0) as [[u r']|] eqn:D; [|discriminate]. apply dec_varint_spec in D. destruct D as (vb & -> & V).
    apply Z.eqb_eq in E0; subst. eapply Q; eauto. econstructor; eauto. }
  destruct (wt =? 1) eqn:E1.
  { destruct (take_exact 8 r0) as [[b r']|] eqn:D; [|discriminate]. apply take_exact_spec in D. destruct D as (-> & L).
    apply Z.eqb_eq in E1; subst. eapply Q; eauto. eapply of_fixed64; eauto. unfold zlen in L. lia. }
  destruct (wt =? 2) eqn:E2.
  { destruct (dec_delimited r0) as [[b r']|] eqn:D; [|discriminate]. apply dec_delimited_spec in D. destruct D as (lb & -> & V).
    apply Z.eqb_eq in E2; subst. apply (Q (lb ++ b) r'); auto; [|rewrite app_assoc; reflexivity]. eapply of_bytes; eauto. }
  destruct (wt =? 3) eqn:E3.
  { destruct (skip_group f t r0) as [r'|] eqn:D; [|discriminate]. apply IH in D. destruct D as (g & -> & G).
    apply Z.eqb_eq in E3; subst. eapply Q; eauto. eapply of_group; eauto. }
  destruct (take_exact 4 r0) as [[b r']|] eqn:D; [|discriminate]. apply take_exact_spec in D. destruct D as (-> & L).
  assert (wt = 5) by lia. subst. eapply Q; eauto. eapply of_fixed32; eauto. unfold zlen in L. lia.
Qed.
Scheme group_ind2 := Induction for group Sort Prop with one_field_ind2 := Induction for one_field Sort Prop.
Combined Scheme group_field_ind from group_ind2, one_field_ind2.
Lemma dec_key_app kb t wt r : key kb t wt -> wt <= 5 -> dec_key (kb ++ r) = Some (t, wt, r).
Proof. intros K W. apply dec_key_spec. eauto. Qed.
Lemma dec_varint_app vb u r : varint64 vb u -> dec_varint (vb ++ r) = Some (u, r).
Proof. intros V. apply dec_varint_spec. eauto. Qed.
Lemma dec_delimited_app lb b r : varint64 lb (zlen b) -> dec_delimited (lb ++ b ++ r) = Some (b, r).
Proof. intros V. apply dec_delimited_spec. eauto. Qed.
Lemma take8 b r : length b = 8%nat -> take_exact 8 (b ++ r) = Some (b, r).
Proof. intros L. apply take_exact_spec. split; auto. unfold zlen. lia. Qed.
Lemma take4 b r : length b = 4%nat -> take_exact 4 (b ++ r) = Some (b, r).
Proof. intros L. apply take_exact_spec. split; auto. unfold zlen. lia. Qed.
Lemma group_complete :
  (forall num g, group num g -> forall f r, (length g <= f)%nat -> skip_group f num (g ++ r) = Some r) /\
  (forall b, one_field b -> forall f num r, (length b <= f)%nat -> skip_group (S f) num (b ++ r) = skip_group f num r).
Proof.
  apply group_field_ind.
  - intros num kb K f r L. pose proof (key_len _ _ _ K). destruct f as [|f]; [lia|]. cbn [skip_group].
    rewrite (dec_key_app _ _ _ _ K) by lia. cbn [Z.eqb Pos.eqb]. rewrite Z.eqb_refl. reflexivity.
  - intros num fb rb O IHO G IHG f r L. rewrite app_length in L. rewrite <- app_assoc.
    assert (1 <= length fb)%nat by (destruct O; rewrite app_length; match goal with K : key _ _ _ |- _ => pose proof (key_len _ _ _ K) end; lia).
    destruct f as [|f]; [lia|].
    destruct (Nat.le_gt_cases (length fb) f) as [Y|Y].
    + rewrite IHO by lia. apply IHG. lia.
    + exfalso. assert (1 <= length rb)%nat; [|lia]. inversion G; subst; [eapply key_len; eauto|].
      rewrite app_length. destruct H0; rewrite app_length; match goal with K : key _ _ _ |- _ => pose proof (key_len _ _ _ K) end; lia.
  - intros kb num vb u K V f n r L. rewrite <- app_assoc. cbn [skip_group]. rewrite (dec_key_app _ _ _ _ K) by lia. cbn [Z.eqb].
    rewrite (dec_varint_app _ _ _ V). reflexivity.
  - intros kb num b K V f n r L. rewrite <- app_assoc. cbn [skip_group]. rewrite (dec_key_app _ _ _ _ K) by lia. cbn [Z.eqb Pos.eqb].
    rewrite take8 by auto. reflexivity.
  - intros kb num lb b K V f n r L. rewrite <- !app_assoc. cbn [skip_group]. rewrite (dec_key_app _ _ _ _ K) by lia. cbn [Z.eqb Pos.eqb].
    rewrite dec_delimited_app by auto. reflexivity.
  - intros kb num g K G IHG f n r L. rewrite <- app_assoc. rewrite app_length in L. pose proof (key_len _ _ _ K).
    cbn [skip_group]. rewrite (dec_key_app _ _ _ _ K) by lia. cbn [Z.eqb Pos.eqb]. rewrite IHG by lia. reflexivity.
  - intros kb num b K V f n r L. rewrite <- app_assoc. cbn [skip_group]. rewrite (dec_key_app _ _ _ _ K) by lia. cbn [Z.eqb Pos.eqb].
    rewrite take4 by auto. reflexivity.
Qed.

(** ** Messages *)
Lemma dec_fields_aux_sound f : forall bs fs, dec_fields_aux f bs = Some fs -> message bs fs.
Proof.
  induction f as [|f IH]; intros bs fs H; destruct bs as [|b bs]; cbn [dec_fields_aux] in H; try discriminate;
    try (injection H as <-; constructor).
  destruct (dec_key (b :: bs)) as [[[t wt] r]|] eqn:K; [|discriminate]. apply dec_key_spec in K. destruct K as (kb & E & K & W). rewrite E.
  destruct (dec_value f t wt r) as [[v r']|] eqn:V; [|discriminate]. destruct (dec_fields_aux f r') as [fs'|] eqn:D; [|discriminate].
  injection H as <-. apply IH in D. unfold dec_value in V.
  destruct (wt =? 0) eqn:E0.
  { destruct (dec_varint r) as [[u r1]|] eqn:X; [|discriminate]. injection V as <- <-. apply dec_varint_spec in X. destruct X as (vb & -> & X).
    apply Z.eqb_eq in E0; subst. rewrite app_assoc. constructor; auto. constructor; auto. }
  destruct (wt =? 1) eqn:E1.
  { destruct (take_exact 8 r) as [[u r1]|] eqn:X; [|discriminate]. injection V as <- <-. apply take_exact_spec in X. destruct X as (-> & X).
    apply Z.eqb_eq in E1; subst. rewrite app_assoc. constructor; auto. constructor; auto. unfold zlen in X. lia. }
  destruct (wt =? 2) eqn:E2.
  { destruct (dec_delimited r) as [[u r1]|] eqn:X; [|discriminate]. injection V as <- <-. apply dec_delimited_spec in X. destruct X as (lb & -> & X).
    apply Z.eqb_eq in E2; subst. replace (kb ++ lb ++ u ++ r1) with ((kb ++ lb ++ u) ++ r1) by (rewrite <- !app_assoc; reflexivity).
    constructor; auto. constructor; auto. }
  destruct (wt =? 3) eqn:E3.
  { destruct (skip_group f t r) as [r1|] eqn:X; [|discriminate]. injection V as <- <-. apply skip_group_sound in X. destruct X as (g & -> & X).
    apply Z.eqb_eq in E3; subst. rewrite app_assoc. constructor; auto. constructor; auto. }
  destruct (wt =? 5) eqn:E5; [|discriminate].
  destruct (take_exact 4 r) as [[u r1]|] eqn:X; [|discriminate]. injection V as <- <-. apply take_exact_spec in X. destruct X as (-> & X).
  apply Z.eqb_eq in E5; subst. rewrite app_assoc. constructor; auto. constructor; auto. unfold zlen in X. lia.
Qed.
Lemma field_len b n v : field_is b n v -> (1 <= length b)%nat.
Proof. destruct 1; rewrite app_length; match goal with K : key _ _ _ |- _ => pose proof (key_len _ _ _ K) end; lia. Qed.
Lemma dec_fields_aux_complete bs fs : message bs fs -> forall f, (length bs <= f)%nat -> dec_fields_aux f bs = Some fs.
Proof.
  induction 1 as [|b num v r fs F M IH]; intros f L; [destruct f; reflexivity|].
  pose proof (field_len _ _ _ F) as FL. rewrite app_length in L. destruct f as [|f]; [lia|].
  assert (X : exists wt r0, dec_key (b ++ r) = Some (num, wt, r0) /\ dec_value f num wt r0 = Some (v, r)).
  { destruct F as [kb num vb u K V|kb num x K V|kb num lb x K V|kb num g K V|kb num x K V]; pose proof (key_len _ _ _ K) as KL;
      rewrite <- ?app_assoc; eexists _, _; (split; [apply dec_key_app; [eassumption|lia]|]); unfold dec_value; cbn [Z.eqb].
    - rewrite (dec_varint_app _ _ _ V). reflexivity.
    - cbn [Z.eqb Pos.eqb]. rewrite take8 by auto. reflexivity.
    - cbn [Z.eqb Pos.eqb]. rewrite dec_delimited_app by auto. reflexivity.
    - cbn [Z.eqb Pos.eqb]. rewrite app_length in L. rewrite (proj1 group_complete _ _ V) by lia. reflexivity.
    - cbn [Z.eqb Pos.eqb]. rewrite take4 by auto. reflexivity. }
  destruct X as (wt & r0 & X1 & X2).
  destruct (b ++ r) as [|y ys] eqn:Y; [destruct b; [cbn in FL; lia|discriminate]|].
  cbn [dec_fields_aux]. rewrite X1, X2, IH by lia. reflexivity.
Qed.
Lemma dec_fields_spec bs fs : dec_fields bs = Some fs <-> message bs fs.
Proof.
  unfold dec_fields. split; [apply dec_fields_aux_sound|]. intros M. eapply dec_fields_aux_complete; eauto.
Qed.
Lemma message_app a fa b fb : message a fa -> message b fb -> message (a ++ b) (fa ++ fb).
Proof. induction 1; intros; cbn; auto. rewrite <- app_assoc. constructor; auto. Qed.
Lemma message_nonneg bs fs : message bs fs -> forall n u, In (n, WVarint u) fs -> 0 <= u.
Proof.
  induction 1 as [|f num v r fs F M IH]; intros n u I; [destruct I|]. destruct I as [I|I]; [|eauto].
  injection I as -> ->. inversion F; subst. match goal with V : varint64 _ _ |- _ => destruct V as (_ & _ & V & _); exact V end.
Qed.
