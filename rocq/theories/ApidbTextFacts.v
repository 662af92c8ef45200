(** Facts about the text conversions of the dump. *)
From Coq Require Import ZArith List Bool Strings.Byte Strings.String Lia.
From Verif Require Import Base BaseFacts ApidbText ApidbSpec CalendarFacts.
Import ListNotations.
Local Notation length := List.length.
Open Scope Z_scope.

(** printable ASCII *)
Definition printable (b : byte) : Prop := 32 <= b2z b < 127.
Definition plain_text (s : bytes) : Prop := Forall printable s.

Lemma plain_app a b : plain_text (a ++ b) <-> plain_text a /\ plain_text b.
Proof. apply Forall_app. Qed.
Lemma plain_no b s : plain_text s -> ~ printable b -> ~ In b s.
Proof. intros F N I. apply N. exact (proj1 (Forall_forall _ _) F b I). Qed.
Lemma not_tab : ~ printable x09. Proof. intros (H & _). apply H. reflexivity. Qed.
Lemma not_lf : ~ printable x0a. Proof. intros (H & _). apply H. reflexivity. Qed.
Lemma not_cr : ~ printable x0d. Proof. intros (H & _). apply H. reflexivity. Qed.
Lemma utf8_ascii_cons b s : b2z b < 128 -> utf8_ok (b :: s) = utf8_ok s.
Proof. intros H. cbn [utf8_ok]. destruct (Z.ltb_spec (b2z b) 128); [reflexivity|lia]. Qed.
Lemma utf8_plain_app a s : plain_text a -> utf8_ok (a ++ s) = utf8_ok s.
Proof.
  induction a as [|b a IH]; intros F; cbn [app]; auto. inversion F as [|? ? P F']; subst. unfold printable in P.
  rewrite utf8_ascii_cons by lia. auto.
Qed.
Lemma utf8_plain a : plain_text a -> utf8_ok a = true.
Proof. intros. rewrite <- (app_nil_r a). rewrite utf8_plain_app; auto. Qed.

(** decide printability of a literal *)
Definition plainb (s : bytes) : bool := forallb (fun b => (32 <=? b2z b) && (b2z b <? 127)) s.
Lemma plainb_ok s : plainb s = true -> plain_text s.
Proof.
  unfold plainb. rewrite forallb_forall. intros H. apply Forall_forall. intros b I. specialize (H b I).
  apply andb_prop in H as (A & B). apply Z.leb_le in A. apply Z.ltb_lt in B. unfold printable. lia.
Qed.

(** ** digits *)
Lemma b2z_digit d : 0 <= d <= 9 -> b2z (digit d) = 48 + d.
Proof. intros. unfold digit. rewrite b2z_z2b. apply Z.mod_small. lia. Qed.
Lemma digit_is d : 0 <= d <= 9 -> is_digit (digit d) = true.
Proof. intros. unfold is_digit. rewrite b2z_digit by lia. destruct (Z.leb_spec 48 (48+d)); [|lia]. destruct (Z.leb_spec (48+d) 57); [auto|lia]. Qed.
Lemma digit_val_digit d : 0 <= d <= 9 -> digit_val (digit d) = d.
Proof. intros. unfold digit_val. rewrite b2z_digit; lia. Qed.
Lemma is_digit_range b : is_digit b = true <-> 48 <= b2z b <= 57.
Proof.
  unfold is_digit. rewrite andb_true_iff, Z.leb_le, Z.leb_le. tauto.
Qed.
Lemma is_digit_digit b : is_digit b = true -> b = digit (digit_val b) /\ 0 <= digit_val b <= 9.
Proof.
  rewrite is_digit_range. intros H. unfold digit, digit_val. split; [|lia].
  replace (48 + (b2z b - 48)) with (b2z b) by lia. symmetry. apply z2b_b2z.
Qed.

Definition all_digits (s : bytes) : Prop := Forall (fun b => is_digit b = true) s.
Lemma digits_plain s : all_digits s -> plain_text s.
Proof. apply Forall_impl. intros b H. apply is_digit_range in H. unfold printable. lia. Qed.
Lemma decimal_digits s n : decimal s n -> all_digits s.
Proof.
  induction 1 as [|s n d D IH R]; [constructor|]. apply Forall_app. split; auto. constructor; [|constructor]. apply digit_is. lia.
Qed.
Lemma decimal_nonneg s n : decimal s n -> 0 <= n.
Proof. induction 1; lia. Qed.

Lemma digits_val_app a b acc : digits_val (a ++ b) acc = obind (digits_val a acc) (digits_val b).
Proof. revert acc. induction a as [|x a IH]; intros acc; cbn; auto. destruct (is_digit x); cbn; auto. Qed.
Lemma digits_val_shift s : forall acc n, digits_val s 0 = Some n -> digits_val s acc = Some (acc * 10 ^ zlen s + n).
Proof.
  induction s as [|b s IH] using rev_ind; intros acc n H.
  - cbn in H. injection H as <-. cbn. f_equal. lia.
  - rewrite digits_val_app in *. destruct (digits_val s 0) as [v|] eqn:E; [|discriminate]. rewrite (IH acc v eq_refl).
    cbn [obind digits_val] in *. destruct (is_digit b); [|discriminate]. injection H as <-. f_equal.
    rewrite zlen_app. change (zlen [b]) with 1. rewrite Z.pow_add_r by (pose proof (zlen_nonneg s); lia). lia.
Qed.
Lemma decimal_val s n : decimal s n -> digits_val s 0 = Some n.
Proof.
  induction 1 as [|s n d D IH R]; auto. rewrite digits_val_app, IH. cbn [obind digits_val].
  fold (digit d). rewrite digit_is, digit_val_digit by lia. reflexivity.
Qed.
Lemma val_decimal s n : digits_val s 0 = Some n -> decimal s n.
Proof.
  revert n. induction s as [|b s IH] using rev_ind; intros n H.
  - injection H as <-. constructor.
  - rewrite digits_val_app in H. destruct (digits_val s 0) as [v|]; [|discriminate]. cbn [obind digits_val] in H.
    destruct (is_digit b) eqn:E; [|discriminate]. injection H as <-. apply is_digit_digit in E as (E & R). rewrite E at 1.
    apply dec_snoc; auto.
Qed.
Lemma decimal_app a m b n : decimal a m -> decimal b n -> decimal (a ++ b) (m * 10 ^ zlen b + n).
Proof.
  intros A B. apply val_decimal. rewrite digits_val_app, (decimal_val _ _ A). cbn [obind]. apply digits_val_shift, decimal_val, B.
Qed.
Lemma decimal_one d : 0 <= d <= 9 -> decimal [digit d] d.
Proof. intros. replace d with (10 * 0 + d) at 2 by lia. apply (dec_snoc [] 0 d); [constructor|lia]. Qed.
Lemma decimal_cons d s n : 0 <= d <= 9 -> decimal s n -> decimal (digit d :: s) (d * 10 ^ zlen s + n).
Proof. intros R D. apply (decimal_app [digit d] d s n); auto. apply decimal_one; auto. Qed.

Lemma digits_spec fuel : forall n acc, 0 <= n < 2 ^ Z.of_nat fuel -> (0 < fuel)%nat ->
  exists s, digits fuel n acc = s ++ acc /\ decimal s n /\ s <> [] /\ (forall r, s = x30 :: r -> n = 0 /\ r = []).
Proof.
  induction fuel as [|f IH]; intros n acc R P; [lia|]. cbn [digits]. destruct (Z.ltb_spec n 10).
  - exists [digit n]. repeat split; auto; try discriminate; try (apply decimal_one; lia).
    + injection H0 as E _. apply (f_equal b2z) in E. rewrite b2z_digit in E by lia. change (b2z x30) with 48 in E. lia.
    + injection H0 as _ E. congruence.
  - assert (R' : 0 <= n / 10 < 2 ^ Z.of_nat f).
    { split; [apply Z.div_pos; lia|]. apply Z.div_lt_upper_bound; [lia|].
      rewrite Nat2Z.inj_succ, Z.pow_succ_r in R by lia. lia. }
    assert (P' : (0 < f)%nat) by (destruct f; [cbn in R'; pose proof (Z.div_le_lower_bound n 10 1); lia|lia]).
    destruct (IH (n / 10) (digit (n mod 10) :: acc) R' P') as (s & E & D & N & L).
    pose proof (Z.mod_pos_bound n 10 ltac:(lia)). pose proof (Z.div_mod n 10 ltac:(lia)).
    exists (s ++ [digit (n mod 10)]). split; [rewrite E, <- app_assoc; reflexivity|]. split.
    + replace n with (10 * (n / 10) + n mod 10) at 2 by lia. apply dec_snoc; auto. lia.
    + split; [destruct s; discriminate|]. intros r Er. destruct s as [|b s]; [congruence|]. injection Er as -> _.
      destruct (L s eq_refl) as (Z0 & _). assert (1 <= n / 10) by (apply Z.div_le_lower_bound; lia). lia.
Qed.
Lemma show_nat_spec n : 0 <= n -> decimal (show_nat n) n /\ show_nat n <> [] /\ (forall r, show_nat n = x30 :: r -> n = 0 /\ r = []).
Proof.
  intros N. unfold show_nat.
  destruct (digits_spec (S (Z.to_nat (Z.log2 n))) n []) as (s & E & D & NE & L); [|lia|].
  - split; [lia|]. rewrite Nat2Z.inj_succ, Z2Nat.id by apply Z.log2_nonneg.
    destruct (Z.eq_dec n 0) as [->|NZ]; [reflexivity|]. apply Z.log2_spec; lia.
  - rewrite E, app_nil_r. auto.
Qed.
Lemma show_int_plain z : plain (show_int z) z.
Proof.
  unfold show_int, plain. destruct (Z.ltb_spec z 0).
  - right. split; [lia|]. exists (show_nat (- z)). destruct (show_nat_spec (- z) ltac:(lia)) as (D & _ & L). split; auto. split; auto.
    intros r E. destruct (L r E). lia.
  - left. destruct (show_nat_spec z ltac:(lia)) as (D & NE & L). repeat split; auto. intros r E. apply (L r E).
Qed.
Lemma digit_not_sign b : is_digit b = true -> Byte.eqb b x2d = false /\ Byte.eqb b x2b = false.
Proof.
  rewrite is_digit_range. intros H.
  split; (destruct (Byte.eqb b _) eqn:E; auto; apply Byte.byte_dec_bl in E; subst b); [change (b2z x2d) with 45 in H|change (b2z x2b) with 43 in H]; lia.
Qed.
(** [from_str] of a number as it is usually written *)
Lemma parse_plain lo hi s z : plain s z -> lo <= z <= hi -> parse_int lo hi s = Some z.
Proof.
  intros [(N & D & NE & _)|(N & r & -> & D & _)] R; unfold parse_int.
  - destruct s as [|b s]; [congruence|]. pose proof (decimal_digits _ _ D) as F. inversion F as [|? ? Hb _]; subst.
    destruct (digit_not_sign _ Hb) as (-> & ->). rewrite (decimal_val _ _ D), Z.mul_1_l.
    destruct (Z.leb_spec lo z); [|lia]. destruct (Z.leb_spec z hi); [reflexivity|lia].
  - rewrite Byte.byte_dec_lb by reflexivity. rewrite (decimal_val _ _ D). replace (-1 * - z) with z by lia.
    destruct r; [inversion D; [lia|destruct s; discriminate]|].
    destruct (Z.leb_spec lo z); [|lia]. destruct (Z.leb_spec z hi); [reflexivity|lia].
Qed.
Lemma parse_show lo hi z : lo <= z <= hi -> parse_int lo hi (show_int z) = Some z.
Proof. apply parse_plain, show_int_plain. Qed.
Lemma plain_text_int s z : plain s z -> plain_text s.
Proof.
  intros [(_ & D & _)|(_ & r & -> & D & _)].
  - apply digits_plain, (decimal_digits _ _ D).
  - constructor; [vm_compute; split; [discriminate|reflexivity]|]. apply digits_plain, (decimal_digits _ _ D).
Qed.
Lemma show_int_text z : plain_text (show_int z).
Proof. eapply plain_text_int, show_int_plain. Qed.
Lemma show_int_nonempty z : show_int z <> [].
Proof. destruct (show_int_plain z) as [(_ & _ & N & _)|(_ & r & E & _)]; auto. rewrite E. discriminate. Qed.
Lemma plain_unique s z z' : plain s z -> plain s z' -> z = z'.
Proof.
  intros A B.
  destruct A as [(N & D & NE & _)|(N & r & -> & D & _)], B as [(N' & D' & NE' & _)|(N' & r' & E & D' & _)].
  - apply decimal_val in D. apply decimal_val in D'. congruence.
  - subst s. apply decimal_digits in D. inversion D as [|? ? H _]; subst. destruct (digit_not_sign _ H) as (H' & _). discriminate.
  - apply decimal_digits in D'. inversion D' as [|? ? H _]; subst. destruct (digit_not_sign _ H) as (H' & _). discriminate.
  - injection E as <-. apply decimal_val in D. apply decimal_val in D'. rewrite D in D'. injection D' as D'. lia.
Qed.
Lemma show_int_inj a b : show_int a = show_int b -> a = b.
Proof. intros E. apply (plain_unique (show_int a)); [apply show_int_plain|rewrite E; apply show_int_plain]. Qed.

(** ** scanning *)
Lemma scan_digits_app k s : forall r acc v, all_digits s -> (length s <= k)%nat ->
  (length s = k \/ match r with [] => True | b :: _ => is_digit b = false end) ->
  digits_val s acc = Some v -> scan_digits k (s ++ r) acc = (v, r).
Proof.
  revert s. induction k as [|k IH]; intros s r acc v F L T V.
  - destruct s; cbn in L; [|lia]. cbn in V. injection V as <-. cbn. destruct r; reflexivity.
  - destruct s as [|b s].
    + cbn in V. injection V as <-. cbn [app]. destruct T as [T|T]; [cbn in T; lia|]. destruct r as [|c r]; cbn; auto. rewrite T. reflexivity.
    + inversion F as [|? ? Hb F']; subst. cbn [app scan_digits]. cbn [digits_val] in V. rewrite Hb in *. cbn [length] in *.
      apply IH; auto; [lia|]. destruct T; [left; lia|right; auto].
Qed.
Lemma scan_number_app k s r n : decimal s n -> s <> [] -> (length s <= k)%nat ->
  (length s = k \/ match r with [] => True | b :: _ => is_digit b = false end) ->
  scan_number k (s ++ r) = Some (n, r).
Proof.
  intros D NE L T. pose proof (decimal_digits _ _ D) as F. destruct s as [|b s]; [congruence|].
  inversion F as [|? ? Hb _]; subst. unfold scan_number. cbn [app]. rewrite Hb. f_equal.
  apply (scan_digits_app k (b :: s)); auto. apply decimal_val; auto.
Qed.
Lemma expect_hd b r : expect b (b :: r) = Some r.
Proof. cbn. rewrite Byte.byte_dec_lb; auto. Qed.

Lemma show2_spec n : 0 <= n <= 99 -> padded 2 (show2 n) n.
Proof.
  intros R. pose proof (Z.div_mod n 10 ltac:(lia)). pose proof (Z.mod_pos_bound n 10 ltac:(lia)).
  assert (0 <= n / 10 <= 9) by (split; [apply Z.div_pos; lia|]; pose proof (Z.div_lt_upper_bound n 10 10); lia).
  split; [|reflexivity]. unfold show2. apply val_decimal. cbn [digits_val].
  rewrite !digit_is by lia. cbn [digits_val]. rewrite !digit_val_digit by lia. f_equal. lia.
Qed.
Lemma show6_spec n : 0 <= n <= 999999 -> padded 6 (show6 n) n.
Proof.
  intros R.
  assert (E1 : n / 100000 = n / 10 / 10 / 10 / 10 / 10) by (rewrite !Z.div_div by lia; reflexivity).
  assert (E2 : n / 10000 = n / 10 / 10 / 10 / 10) by (rewrite !Z.div_div by lia; reflexivity).
  assert (E3 : n / 1000 = n / 10 / 10 / 10) by (rewrite !Z.div_div by lia; reflexivity).
  assert (E4 : n / 100 = n / 10 / 10) by (rewrite !Z.div_div by lia; reflexivity).
  split; [|reflexivity]. unfold show6. rewrite E1, E2, E3, E4. clear E1 E2 E3 E4.
  set (a := n / 10). set (b := a / 10). set (c := b / 10). set (d := c / 10). set (e := d / 10).
  assert (n = 10 * a + n mod 10) by (apply Z.div_mod; lia). pose proof (Z.mod_pos_bound n 10 ltac:(lia)).
  assert (a = 10 * b + a mod 10) by (apply Z.div_mod; lia). pose proof (Z.mod_pos_bound a 10 ltac:(lia)).
  assert (b = 10 * c + b mod 10) by (apply Z.div_mod; lia). pose proof (Z.mod_pos_bound b 10 ltac:(lia)).
  assert (c = 10 * d + c mod 10) by (apply Z.div_mod; lia). pose proof (Z.mod_pos_bound c 10 ltac:(lia)).
  assert (d = 10 * e + d mod 10) by (apply Z.div_mod; lia). pose proof (Z.mod_pos_bound d 10 ltac:(lia)).
  fold a b c d e. clearbody e. apply val_decimal. cbn [digits_val].
  rewrite !digit_is by lia. cbn [digits_val]. rewrite !digit_val_digit by lia. f_equal. lia.
Qed.
Lemma decimal_zero s n : decimal s n -> decimal (x30 :: s) n.
Proof.
  intros D. replace n with (0 * 10 ^ zlen s + n) by lia. change x30 with (digit 0). apply decimal_cons; auto. lia.
Qed.
Lemma decimal_len s n : decimal s n -> n < 10 ^ zlen s.
Proof.
  induction 1 as [|s n d D IH R]; [reflexivity|]. rewrite zlen_app. change (zlen [z2b (48 + d)]) with 1.
  rewrite Z.pow_add_r by (pose proof (zlen_nonneg s); lia). lia.
Qed.
Lemma show_nat_len k n : 10 ^ (k - 1) <= n < 10 ^ k -> 1 <= k -> zlen (show_nat n) = k.
Proof.
  intros R K. assert (0 <= n) by (pose proof (Z.pow_nonneg 10 (k - 1)); lia).
  destruct (show_nat_spec n ltac:(lia)) as (D & NE & L).
  pose proof (decimal_len _ _ D) as U. pose proof (zlen_nonneg (show_nat n)) as ZN.
  assert (k - 1 < zlen (show_nat n)) by (apply (Z.pow_lt_mono_r_iff 10); lia).
  destruct (Z.le_gt_cases (zlen (show_nat n)) k); [lia|]. exfalso.
  destruct (show_nat n) as [|b s] eqn:E; [congruence|]. rewrite zlen_cons in *.
  pose proof (decimal_digits _ _ D) as F. inversion F as [|? ? Hb F']; subst. apply is_digit_digit in Hb as (Eb & Rb).
  assert (exists m, decimal s m) as (m & Dm).
  { apply decimal_val in D. cbn [digits_val] in D. destruct (is_digit b); [|discriminate].
    destruct (digits_val s 0) as [m|] eqn:Em; [exists m; apply val_decimal; auto|].
    exfalso. clear - F' Em. assert (G : forall acc, exists v, digits_val s acc = Some v).
    { clear Em. induction s as [|c s IH]; intros acc; cbn; [eauto|]. inversion F' as [|? ? Hc F]; subst. rewrite Hc. auto. }
    destruct (G 0). congruence. }
  rewrite Eb in D. pose proof (decimal_cons (digit_val b) s m Rb Dm) as D2.
  apply decimal_val in D. apply decimal_val in D2. rewrite D in D2. injection D2 as D2.
  assert (10 ^ k <= 10 ^ zlen s) by (apply Z.pow_le_mono_r; lia).
  pose proof (decimal_nonneg _ _ Dm).
  assert (digit_val b = 0) by nia. rewrite H4 in Eb. change (digit 0) with x30 in Eb. subst b.
  destruct (L s eq_refl) as (Z0 & _). pose proof (Z.pow_pos_nonneg 10 (k - 1)). lia.
Qed.
Lemma pad4_spec n : 0 <= n -> decimal (pad4 n) n /\ 4 <= zlen (pad4 n) /\ (n <= 9999 -> zlen (pad4 n) = 4).
Proof.
  intros N. destruct (show_nat_spec n N) as (D & NE & _). unfold pad4.
  destruct (Z.ltb_spec n 10); [|destruct (Z.ltb_spec n 100); [|destruct (Z.ltb_spec n 1000)]].
  - assert (L : zlen (show_nat n) = 1).
    { destruct (Z.eq_dec n 0) as [->|NZ]; [reflexivity|]. apply show_nat_len; lia. }
    rewrite !zlen_cons, L. split; [do 3 apply decimal_zero; auto|lia].
  - assert (L : zlen (show_nat n) = 2) by (apply show_nat_len; lia). rewrite !zlen_cons, L. split; [do 2 apply decimal_zero; auto|lia].
  - assert (L : zlen (show_nat n) = 3) by (apply show_nat_len; lia). rewrite !zlen_cons, L. split; [apply decimal_zero; auto|lia].
  - split; auto. split.
    + pose proof (decimal_len _ _ D). assert (3 < zlen (show_nat n)); [|lia].
      apply (Z.pow_lt_mono_r_iff 10); [lia|apply zlen_nonneg|]. lia.
    + intros. apply show_nat_len; lia.
Qed.
Lemma pad4_nonempty n : 0 <= n -> pad4 n <> [].
Proof. intros N E. destruct (pad4_spec n N) as (_ & L & _). rewrite E in L. change (zlen (@nil byte)) with 0 in L. lia. Qed.

Lemma scan_year_show y r : scan_year (show_year y ++ x2d :: r) = Some (y, x2d :: r).
Proof.
  unfold show_year. destruct (Z.leb_spec 0 y); [destruct (Z.leb_spec y 9999)|]; cbn [andb].
  - destruct (pad4_spec y ltac:(lia)) as (D & _ & L). specialize (L ltac:(lia)).
    unfold scan_year. destruct (pad4 y) as [|b s] eqn:E; [discriminate|]. cbn [app].
    pose proof (decimal_digits _ _ D) as F. inversion F as [|? ? Hb _]; subst. destruct (digit_not_sign _ Hb) as (-> & ->).
    change (b :: s ++ x2d :: r) with ((b :: s) ++ x2d :: r). apply scan_number_app; auto; try discriminate; unfold zlen in L; lia.
  - destruct (Z.ltb_spec y 0); [lia|]. destruct (pad4_spec y ltac:(lia)) as (D & _ & _). cbn [app]. unfold scan_year. cbn [Byte.eqb].
    replace (Byte.eqb x2b x2d) with false by reflexivity. replace (Byte.eqb x2b x2b) with true by reflexivity.
    apply scan_number_app; auto; [apply pad4_nonempty; lia|rewrite app_length; lia].
  - destruct (Z.ltb_spec y 0); [|lia]. destruct (pad4_spec (- y) ltac:(lia)) as (D & _ & _). cbn [app]. unfold scan_year.
    replace (Byte.eqb x2d x2d) with true by reflexivity.
    rewrite (scan_number_app _ _ _ (- y)); auto; [f_equal; f_equal; lia|apply pad4_nonempty; lia|rewrite app_length; lia].
Qed.

Lemma scan2 n b r : 0 <= n <= 99 -> scan_number 2 (show2 n ++ b :: r) = Some (n, b :: r).
Proof. intros R. destruct (show2_spec n R) as (D & _). apply scan_number_app; auto; discriminate. Qed.
Lemma scan2_end n : 0 <= n <= 99 -> scan_number 2 (show2 n) = Some (n, []).
Proof. intros R. destruct (show2_spec n R) as (D & _). rewrite <- (app_nil_r (show2 n)). apply scan_number_app; auto; discriminate. Qed.

(** the part of the parser after the fields: fraction and end *)
Lemma parse_show_seconds t frac ns : scan_fraction frac = Some (ns, []) -> chrono_seconds t = true ->
  (match frac with [] => True | b :: _ => is_digit b = false end) ->
  parse_sql_time (show_seconds t ++ frac) = Some (t, ns).
Proof.
  intros Fr Ch NDg. unfold show_seconds. destruct (date_of_day_ok (t / 86400)) as (y & m & d & E & (M & D) & Inv). rewrite E.
  pose proof (Z.mod_pos_bound t 86400 ltac:(lia)) as S. set (s := t mod 86400) in *.
  pose proof (Z.div_mod s 3600 ltac:(lia)). pose proof (Z.mod_pos_bound s 3600 ltac:(lia)).
  pose proof (Z.div_mod s 60 ltac:(lia)). pose proof (Z.mod_pos_bound s 60 ltac:(lia)).
  pose proof (Z.div_mod (s / 60) 60 ltac:(lia)). pose proof (Z.mod_pos_bound (s / 60) 60 ltac:(lia)).
  assert (HH : s / 3600 = s / 60 / 60) by (rewrite Z.div_div by lia; reflexivity).
  assert (month_length y m <= 31).
  { unfold month_length, month_lengths. assert (C : In m [1;2;3;4;5;6;7;8;9;10;11;12]) by (cbn; lia).
    cbn [In] in C. repeat (destruct C as [<-|C]; [destruct (is_leap y); vm_compute; discriminate|]). destruct C. }
  rewrite <- !app_assoc. cbn [app]. unfold parse_sql_time.
  rewrite scan_year_show. cbn [obind]. rewrite expect_hd. cbn [obind].
  rewrite scan2 by lia. cbn [obind]. rewrite expect_hd. cbn [obind].
  rewrite scan2 by lia. cbn [obind]. rewrite expect_hd. cbn [obind].
  rewrite scan2 by lia. cbn [obind]. rewrite expect_hd. cbn [obind].
  rewrite scan2 by lia. cbn [obind]. rewrite expect_hd. cbn [obind].
  destruct (show2_spec (s mod 60) ltac:(lia)) as (D2 & _).
  rewrite (scan_number_app 2 _ frac _ D2); [|discriminate|cbn; lia|auto]. cbn [obind]. rewrite Fr. cbn [obind].
  destruct (Z.leb_spec (s / 3600) 23); [|lia]. destruct (Z.leb_spec (s / 60 mod 60) 59); [|lia]. destruct (Z.leb_spec (s mod 60) 59); [|lia].
  cbn [andb]. rewrite Inv. cbn [obind]. pose proof (Z.div_mod t 86400 ltac:(lia)). fold s in H7.
  replace (86400 * (t / 86400) + 3600 * (s / 3600) + 60 * (s / 60 mod 60) + s mod 60) with t by lia. rewrite Ch. reflexivity.
Qed.
Lemma parse_millis t s : to_sql_time_millis t = Ok s -> parse_sql_time s = Some (t / 1000, 0).
Proof.
  unfold to_sql_time_millis. destruct (chrono_seconds (t / 1000)) eqn:C; [|discriminate]. intros [= <-].
  rewrite <- (app_nil_r (show_seconds _)). apply parse_show_seconds; auto.
Qed.
Lemma scan_fraction_6 n : 0 <= n <= 999999 -> scan_fraction (x2e :: show6 n) = Some (1000 * n, []).
Proof.
  intros R. destruct (show6_spec n R) as (D & L). cbn [scan_fraction]. replace (Byte.eqb x2e x2e) with true by reflexivity.
  rewrite <- (app_nil_r (show6 n)) at 1. rewrite (scan_number_app 9 _ [] _ D); [|discriminate|unfold zlen in L; lia|auto].
  cbn [skip_digits]. rewrite L. change (zlen (@nil byte)) with 0. replace (9 - (6 - 0)) with 3 by lia. f_equal. f_equal. lia.
Qed.
Lemma parse_micros t s : to_sql_time_micros t = Ok s -> parse_sql_time s = Some (t / 1000000, 1000 * (t mod 1000000)).
Proof.
  unfold to_sql_time_micros. destruct (chrono_seconds (t / 1000000)) eqn:C; [|discriminate]. intros [= <-].
  pose proof (Z.mod_pos_bound t 1000000 ltac:(lia)). apply parse_show_seconds; auto. apply scan_fraction_6. lia.
Qed.

(** ** shape of the text *)
Lemma show_year_padded y : 0 <= y <= 9999 -> padded 4 (show_year y) y.
Proof.
  intros R. unfold show_year. destruct (Z.leb_spec 0 y); [|lia]. destruct (Z.leb_spec y 9999); [|lia]. cbn [andb].
  destruct (pad4_spec y ltac:(lia)) as (D & _ & L). split; auto.
Qed.
Lemma year_of_day n y m d : date_of_day n = (y, m, d) -> year_start y <= n + 719528 < year_start (y + 1).
Proof.
  intros E. destruct (date_of_day_ok n) as (y' & m' & d' & E' & V & I). rewrite E in E'. injection E' as <- <- <-.
  rewrite day_of_valid in I by auto. apply (f_equal (fun o => match o with Some z => z | None => 0 end)) in I.
  destruct (month_inverse _ _ _ V) as (O & _). cbv zeta in O. rewrite year_start_next. lia.
Qed.
Lemma year_start_mono a b : a <= b -> year_start a <= year_start b.
Proof.
  intros L. replace b with (a + Z.of_nat (Z.to_nat (b - a))) by lia. induction (Z.to_nat (b - a)) as [|k IH].
  - replace (a + Z.of_nat 0) with a by lia. lia.
  - replace (a + Z.of_nat (S k)) with (a + Z.of_nat k + 1) by lia. rewrite year_start_next. pose proof (year_len_range (a + Z.of_nat k)). lia.
Qed.
Lemma show_seconds_text t : plain_text (show_seconds t).
Proof.
  unfold show_seconds. destruct (date_of_day_ok (t / 86400)) as (y & m & d & E & (M & D) & Inv). rewrite E.
  pose proof (Z.mod_pos_bound t 86400 ltac:(lia)) as S. set (s := t mod 86400) in *.
  assert (P2 : forall n, 0 <= n <= 99 -> plain_text (show2 n)) by (intros n R; destruct (show2_spec n R) as (DD & _); apply digits_plain, (decimal_digits _ _ DD)).
  assert (month_length y m <= 31).
  { unfold month_length, month_lengths. assert (C : In m [1;2;3;4;5;6;7;8;9;10;11;12]) by (cbn; lia).
    cbn [In] in C. repeat (destruct C as [<-|C]; [destruct (is_leap y); vm_compute; discriminate|]). destruct C. }
  pose proof (Z.mod_pos_bound s 60 ltac:(lia)). pose proof (Z.mod_pos_bound (s / 60) 60 ltac:(lia)).
  assert (0 <= s / 3600 <= 23) by (split; [apply Z.div_pos; lia|]; pose proof (Z.div_lt_upper_bound s 3600 24); lia).
  repeat (apply plain_app; split); try (apply P2; lia); try (apply plainb_ok; reflexivity).
  unfold show_year. destruct (Z.leb_spec 0 y); [destruct (Z.leb_spec y 9999)|]; cbn [andb].
  - destruct (pad4_spec y ltac:(lia)) as (DD & _). apply digits_plain, (decimal_digits _ _ DD).
  - destruct (Z.ltb_spec y 0); [lia|]. destruct (pad4_spec y ltac:(lia)) as (DD & _). constructor; [vm_compute; split; [discriminate|reflexivity]|]. apply digits_plain, (decimal_digits _ _ DD).
  - destruct (Z.ltb_spec y 0); [|lia]. destruct (pad4_spec (- y) ltac:(lia)) as (DD & _). constructor; [vm_compute; split; [discriminate|reflexivity]|]. apply digits_plain, (decimal_digits _ _ DD).
Qed.
Lemma millis_text t s : to_sql_time_millis t = Ok s -> plain_text s.
Proof. unfold to_sql_time_millis. destruct (chrono_seconds _); [|discriminate]. intros [= <-]. apply show_seconds_text. Qed.
Lemma micros_text t s : to_sql_time_micros t = Ok s -> plain_text s.
Proof.
  unfold to_sql_time_micros. destruct (chrono_seconds _); [|discriminate]. intros [= <-].
  pose proof (Z.mod_pos_bound t 1000000 ltac:(lia)). destruct (show6_spec (t mod 1000000) ltac:(lia)) as (D & _).
  apply plain_app; split; [apply show_seconds_text|]. apply Forall_cons; [vm_compute; split; [discriminate|reflexivity]|apply digits_plain, (decimal_digits _ _ D)].
Qed.
Lemma bool_text b : plain_text (to_sql_bool b).
Proof. destruct b; apply plainb_ok; reflexivity. Qed.
Lemma parse_bool b : parse_sql_bool (to_sql_bool b) = Some b.
Proof. destruct b; reflexivity. Qed.

Lemma show_seconds_sql t : four_digit_year t -> sql_text t (show_seconds t) /\ zlen (show_seconds t) = 19.
Proof.
  intros R. unfold four_digit_year in R. unfold show_seconds, sql_text.
  destruct (date_of_day_ok (t / 86400)) as (y & m & d & E & (M & D) & Inv). rewrite E.
  pose proof (Z.mod_pos_bound t 86400 ltac:(lia)) as S. pose proof (Z.div_mod t 86400 ltac:(lia)) as DM. set (s := t mod 86400) in *.
  assert (month_length y m <= 31).
  { unfold month_length, month_lengths. assert (C : In m [1;2;3;4;5;6;7;8;9;10;11;12]) by (cbn; lia).
    cbn [In] in C. repeat (destruct C as [<-|C]; [destruct (is_leap y); vm_compute; discriminate|]). destruct C. }
  pose proof (Z.div_mod s 3600 ltac:(lia)). pose proof (Z.mod_pos_bound s 3600 ltac:(lia)).
  pose proof (Z.div_mod s 60 ltac:(lia)). pose proof (Z.mod_pos_bound s 60 ltac:(lia)).
  pose proof (Z.div_mod (s / 60) 60 ltac:(lia)). pose proof (Z.mod_pos_bound (s / 60) 60 ltac:(lia)).
  assert (HH : s / 3600 = s / 60 / 60) by (rewrite Z.div_div by lia; reflexivity).
  pose proof (year_of_day _ _ _ _ E) as Y.
  assert (Y0 : 0 <= y).
  { destruct (Z.le_gt_cases 0 y); auto. pose proof (year_start_mono (y + 1) 0 ltac:(lia)). change (year_start 0) with 0 in *. lia. }
  assert (Y1 : y <= 9999).
  { destruct (Z.le_gt_cases y 9999); auto. pose proof (year_start_mono 10000 y ltac:(lia)). change (year_start 10000) with 3652425 in *. lia. }
  split.
  - exists (t / 86400), (s / 3600), (s / 60 mod 60), (s mod 60), y, m, d, (show_year y), (show2 m), (show2 d), (show2 (s / 3600)),
      (show2 (s / 60 mod 60)), (show2 (s mod 60)).
    split; [lia|]. split; [lia|]. split; [lia|]. split; [lia|]. split; [apply calendar_iff; auto|].
    split; [apply show_year_padded; lia|]. repeat (split; [apply show2_spec; lia|]). reflexivity.
  - rewrite !zlen_app. destruct (show_year_padded y ltac:(lia)) as (_ & ->). reflexivity.
Qed.
