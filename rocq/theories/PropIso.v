(** C63: timestamps as ISO 8601 text. *)
From Coq Require Import ZArith List Bool Strings.Byte Strings.String Lia.
From Verif Require Import Base BaseFacts Types ApidbText ApidbSpec CalendarFacts ApidbTextFacts Converters IsoSpec.
Import ListNotations.
Open Scope Z_scope.
Local Notation length := List.length.

(** ** decimal numbers of the same length *)
Lemma app_snoc_inj {A} (a b : list A) x y : a ++ [x] = b ++ [y] -> a = b /\ x = y.
Proof. apply app_inj_tail. Qed.
Lemma decimal_len_nat s n k : decimal s n -> zlen s = k -> 0 <= n < 10 ^ k.
Proof. intros D <-. split; [eapply decimal_nonneg|apply decimal_len]; eauto. Qed.
Lemma decimal_unique s n : decimal s n -> forall s', decimal s' n -> zlen s = zlen s' -> s = s'.
Proof.
  induction 1 as [|s n d D IH R]; intros s' D' L.
  - unfold zlen in L. destruct s'; [auto|cbn in L; lia].
  - inversion D' as [E0 E1|s0 n0 d0 D0 R0 E0 E1]; subst.
    + rewrite zlen_app in L. pose proof (zlen_nonneg s). change (zlen [z2b (48 + d)]) with 1 in L. change (zlen (@nil byte)) with 0 in L. lia.
    + assert (n0 = n /\ d0 = d) as (-> & ->) by lia. rewrite !zlen_app in L. f_equal. apply IH; auto. unfold zlen in *. cbn [List.length] in L. lia.
Qed.
Lemma text_lt_app s : forall a b, text_lt a b -> text_lt (s ++ a) (s ++ b).
Proof. induction s; cbn; intros; auto. apply lt_later. auto. Qed.
Lemma decimal_lt s n : decimal s n -> forall s' n', decimal s' n' -> zlen s = zlen s' -> n < n' ->
  forall r r', text_lt (s ++ r) (s' ++ r').
Proof.
  induction 1 as [|s n d D IH R]; intros s' n' D' L N r r'.
  - unfold zlen in L. destruct s'; [|cbn in L; lia]. inversion D' as [E0 E1|s0 n0 d0 D0 R0 E0 E1]; [lia|]. destruct s0; discriminate.
  - inversion D' as [E0 E1|s0 n0 d0 D0 R0 E0 E1]; subst.
    + rewrite zlen_app in L. pose proof (zlen_nonneg s). change (zlen [z2b (48 + d)]) with 1 in L. change (zlen (@nil byte)) with 0 in L. lia.
    + assert (Ls : zlen s = zlen s0) by (rewrite !zlen_app in L; unfold zlen in *; cbn [List.length] in L; lia).
      rewrite <- !app_assoc. destruct (Z.lt_trichotomy n n0) as [Q|[Q|Q]]; [apply (IH s0 n0); auto| |lia].
      subst n0. rewrite <- (decimal_unique s n D s0 D0 Ls). apply text_lt_app. cbn [app]. apply lt_here.
      change (b2z (digit d) < b2z (digit d0)). rewrite !b2z_digit by lia. lia.
Qed.

(** ** years *)
Lemma pad4_digits n : 0 <= n -> year_digits (pad4 n) n.
Proof.
  intros N. destruct (pad4_spec n N) as (D & L & L4). split; [exact D|]. split; [exact L|]. intros G r E.
  assert (9999 < n) by (destruct (Z.le_gt_cases n 9999) as [Q|Q]; [specialize (L4 Q); lia|auto]).
  unfold pad4 in E. destruct (Z.ltb_spec n 10); [lia|]. destruct (Z.ltb_spec n 100); [lia|]. destruct (Z.ltb_spec n 1000); [lia|].
  destruct (show_nat_spec n N) as (_ & _ & Z0). destruct (Z0 r E). lia.
Qed.
Lemma show_year_text y : year_text y (show_year y).
Proof.
  unfold show_year. destruct (Z.leb_spec 0 y); [destruct (Z.leb_spec y 9999)|]; cbn [andb].
  - apply common_year; [lia|]. apply pad4_digits. auto.
  - destruct (Z.ltb_spec y 0); [lia|]. apply (far_year y (pad4 y)); [lia|]. apply pad4_digits. auto.
  - destruct (Z.ltb_spec y 0); [|lia]. apply (negative_year y (pad4 (- y))); [lia|]. apply pad4_digits. lia.
Qed.
Lemma leading_digit s n : decimal s n -> s <> [] -> (forall r, s <> x30 :: r) -> 10 ^ (zlen s - 1) <= n.
Proof.
  induction 1 as [|s n d D IH R]; intros NE NZ; [congruence|].
  destruct s as [|b s].
  - inversion D as [E0 E1|s0 n0 d0 D0 R0 E0 E1]; [|destruct s0; discriminate]. cbn [app] in *. change (zlen [z2b (48 + d)] - 1) with 0.
    destruct (Z.eq_dec d 0) as [->|]; [exfalso; apply (NZ []); reflexivity|]. rewrite Z.pow_0_r. lia.
  - specialize (IH ltac:(discriminate)). assert (10 ^ (zlen (b :: s) - 1) <= n).
    { apply IH. intros r E. injection E as -> ->. apply (NZ (r ++ [z2b (48 + d)])). reflexivity. }
    rewrite zlen_app. change (zlen [z2b (48 + d)]) with 1. replace (zlen (b :: s) + 1 - 1) with (Z.succ (zlen (b :: s) - 1)) by lia.
    assert (0 <= zlen (b :: s) - 1) by (rewrite zlen_cons; pose proof (zlen_nonneg s); lia). rewrite Z.pow_succ_r by auto. lia.
Qed.
Lemma year_digits_len s n : year_digits s n -> (n <= 9999 -> zlen s = 4) /\ (4 < zlen s -> 10 ^ (zlen s - 1) <= n < 10 ^ zlen s).
Proof.
  intros (D & L & Z0). assert (B : 4 < zlen s -> 10 ^ (zlen s - 1) <= n).
  { intros G. apply leading_digit; auto. intros ->. change (zlen (@nil byte)) with 0 in L. lia. apply Z0; auto. }
  split.
  - intros N. destruct (Z.eq_dec (zlen s) 4); auto. specialize (B ltac:(lia)). exfalso.
    assert (10 ^ 4 <= 10 ^ (zlen s - 1)) by (apply Z.pow_le_mono_r; lia). change (10 ^ 4) with 10000 in *. lia.
  - intros G. split; [auto|]. apply decimal_len. auto.
Qed.
Lemma year_digits_unique s s' n : year_digits s n -> year_digits s' n -> s = s'.
Proof.
  intros Y Y'. pose proof (year_digits_len _ _ Y) as (A & B). pose proof (year_digits_len _ _ Y') as (A' & B').
  destruct Y as (D & L & _). destruct Y' as (D' & L' & _). apply (decimal_unique s n); auto.
  destruct (Z.le_gt_cases n 9999) as [Q|Q]; [rewrite A, A' by auto; auto|].
  pose proof (decimal_len _ _ D) as U. pose proof (decimal_len _ _ D') as U'.
  assert (4 < zlen s). { destruct (Z.eq_dec (zlen s) 4) as [E|]; [rewrite E in U; change (10 ^ 4) with 10000 in U; lia|lia]. }
  assert (4 < zlen s'). { destruct (Z.eq_dec (zlen s') 4) as [E|]; [rewrite E in U'; change (10 ^ 4) with 10000 in U'; lia|lia]. }
  specialize (B ltac:(auto)). specialize (B' ltac:(auto)).
  destruct (Z.lt_trichotomy (zlen s) (zlen s')) as [T|[T|T]]; auto; exfalso.
  - assert (10 ^ zlen s <= 10 ^ (zlen s' - 1)) by (apply Z.pow_le_mono_r; lia). lia.
  - assert (10 ^ zlen s' <= 10 ^ (zlen s - 1)) by (apply Z.pow_le_mono_r; lia). lia.
Qed.
Lemma year_text_unique y s s' : year_text y s -> year_text y s' -> s = s'.
Proof. intros H H'. inversion H; inversion H'; subst; try lia; try f_equal; eapply year_digits_unique; eauto. Qed.
Lemma padded_unique k s s' n : padded k s n -> padded k s' n -> s = s'.
Proof. intros (D & L) (D' & L'). apply (decimal_unique s n); auto. lia. Qed.

(** ** the text of an instant *)
Lemma show_iso_text t : iso_text t (show_iso t).
Proof.
  unfold show_iso, iso_text.
  destruct (date_of_day_ok (t / 86400)) as (y & m & d & E & (M & D) & Inv). rewrite E.
  pose proof (Z.mod_pos_bound t 86400 ltac:(lia)) as S. pose proof (Z.div_mod t 86400 ltac:(lia)) as DM. set (s := t mod 86400) in *.
  assert (month_length y m <= 31).
  { unfold month_length, month_lengths. assert (C : In m [1;2;3;4;5;6;7;8;9;10;11;12]) by (cbn; lia).
    cbn [In] in C. repeat (destruct C as [<-|C]; [destruct (is_leap y); vm_compute; discriminate|]). destruct C. }
  pose proof (Z.div_mod s 3600 ltac:(lia)). pose proof (Z.mod_pos_bound s 3600 ltac:(lia)).
  pose proof (Z.div_mod s 60 ltac:(lia)). pose proof (Z.mod_pos_bound s 60 ltac:(lia)).
  pose proof (Z.div_mod (s / 60) 60 ltac:(lia)). pose proof (Z.mod_pos_bound (s / 60) 60 ltac:(lia)).
  assert (HH : s / 3600 = s / 60 / 60) by (rewrite Z.div_div by lia; reflexivity).
  exists (t / 86400), (s / 3600), (s / 60 mod 60), (s mod 60), y, m, d, (show_year y), (show2 m), (show2 d), (show2 (s / 3600)),
      (show2 (s / 60 mod 60)), (show2 (s mod 60)).
  split; [lia|]. split; [lia|]. split; [lia|]. split; [lia|]. split; [apply calendar_iff; auto|].
  split; [apply show_year_text|]. repeat (split; [apply show2_spec; lia|]). reflexivity.
Qed.
Lemma split_time day h mi se day' h' mi' se' :
  86400 * day + 3600 * h + 60 * mi + se = 86400 * day' + 3600 * h' + 60 * mi' + se' ->
  0 <= h <= 23 -> 0 <= mi <= 59 -> 0 <= se <= 59 -> 0 <= h' <= 23 -> 0 <= mi' <= 59 -> 0 <= se' <= 59 ->
  day = day' /\ h = h' /\ mi = mi' /\ se = se'.
Proof. lia. Qed.
Lemma iso_unique t s s' : iso_text t s -> iso_text t s' -> s = s'.
Proof.
  intros (day & h & mi & se & y & m & d & ty & tm & td & th & tmi & tse & E & H1 & H2 & H3 & C & Y & P1 & P2 & P3 & P4 & P5 & ->)
         (day' & h' & mi' & se' & y' & m' & d' & ty' & tm' & td' & th' & tmi' & tse' & E' & H1' & H2' & H3' & C' & Y' & P1' & P2' & P3' & P4' & P5' & ->).
  rewrite E in E'. destruct (split_time _ _ _ _ _ _ _ _ E') as (<- & <- & <- & <-); auto.
  apply calendar_iff in C. apply calendar_iff in C'. rewrite <- C' in C. injection C as -> -> ->.
  rewrite (year_text_unique _ _ _ Y Y'), (padded_unique _ _ _ _ P1 P1'), (padded_unique _ _ _ _ P2 P2'), (padded_unique _ _ _ _ P3 P3'),
    (padded_unique _ _ _ _ P4 P4'), (padded_unique _ _ _ _ P5 P5'). reflexivity.
Qed.
(** prefix: a year text is followed by '-', so it can be cut off *)
Lemma year_text_show y s : year_text y s -> s = show_year y.
Proof. intros H. exact (year_text_unique _ _ _ H (show_year_text y)). Qed.
Lemma cut2 k a n b m r r' : padded k a n -> padded k b m -> a ++ r = b ++ r' -> n = m /\ r = r'.
Proof.
  intros (D & L) (D' & L') E. assert (a = b /\ r = r') as (-> & ->).
  { assert (LL : length a = length b) by (unfold zlen in *; lia). clear - E LL. revert b E LL.
    induction a as [|x a IH]; intros [|z b] E LL; cbn in *; try discriminate; auto.
    injection E as -> E. destruct (IH b E) as (-> & ->); auto. }
  split; auto. apply decimal_val in D. apply decimal_val in D'. congruence.
Qed.
Lemma iso_injective t t' s : iso_text t s -> iso_text t' s -> t = t'.
Proof.
  intros (day & h & mi & se & y & m & d & ty & tm & td & th & tmi & tse & -> & H1 & H2 & H3 & C & Y & P1 & P2 & P3 & P4 & P5 & E)
         (day' & h' & mi' & se' & y' & m' & d' & ty' & tm' & td' & th' & tmi' & tse' & -> & H1' & H2' & H3' & C' & Y' & P1' & P2' & P3' & P4' & P5' & E').
  rewrite E' in E. clear E' s. apply year_text_show in Y. apply year_text_show in Y'. subst ty ty'.
  pose proof (f_equal scan_year E) as F.
  change (str "-") with [x2d] in *. change (str "T") with [x54] in *. change (str ":") with [x3a] in *. change (str "Z") with [x5a] in *.
  cbn [app] in E, F. rewrite !scan_year_show in F. injection F as Fy Fr. clear E.
  destruct (cut2 _ _ _ _ _ _ _ P1' P1 Fr) as (Em & Er). injection Er as Er.
  destruct (cut2 _ _ _ _ _ _ _ P2' P2 Er) as (Ed & Er2). injection Er2 as Er2.
  destruct (cut2 _ _ _ _ _ _ _ P3' P3 Er2) as (Eh & Er3). injection Er3 as Er3.
  destruct (cut2 _ _ _ _ _ _ _ P4' P4 Er3) as (Emi & Er4). injection Er4 as Er4.
  destruct (cut2 _ _ _ _ _ _ _ P5' P5 Er4) as (Ese & _). subst.
  apply calendar_iff in C. apply calendar_iff in C'.
  destruct (date_of_day_ok day) as (y1 & m1 & d1 & E1 & _ & I1). destruct (date_of_day_ok day') as (y2 & m2 & d2 & E2 & _ & I2).
  rewrite <- C in E1. rewrite <- C' in E2. injection E1 as <- <- <-. injection E2 as <- <- <-. assert (Some day = Some day') as Q by congruence.
  injection Q as ->. lia.
Qed.

(** ** chronological order and order of the texts *)
Definition date_lt (a b : date) : Prop :=
  let '(y, m, d) := a in let '(y', m', d') := b in y < y' \/ y = y' /\ (m < m' \/ m = m' /\ d < d').
Lemma date_lt_trans a b c : date_lt a b -> date_lt b c -> date_lt a c.
Proof. destruct a as ((?, ?), ?), b as ((?, ?), ?), c as ((?, ?), ?). unfold date_lt. lia. Qed.
Lemma next_day_lt a b : next_day a b -> date_lt a b.
Proof. destruct 1; unfold date_lt; lia. Qed.
Lemma date_of_day_lt n k : date_lt (date_of_day n) (date_of_day (n + Z.of_nat (S k))).
Proof.
  induction k as [|k IH].
  - apply next_day_lt. exact (date_step n).
  - eapply date_lt_trans; [exact IH|]. replace (n + Z.of_nat (S (S k))) with (n + Z.of_nat (S k) + 1) by lia. apply next_day_lt, date_step.
Qed.
Lemma iso_order t t' s s' : iso_text t s -> iso_text t' s' -> zlen s = 20 -> zlen s' = 20 -> t < t' -> text_lt s s'.
Proof.
  intros (day & h & mi & se & y & m & d & ty & tm & td & th & tmi & tse & -> & H1 & H2 & H3 & C & Y & P1 & P2 & P3 & P4 & P5 & ->)
         (day' & h' & mi' & se' & y' & m' & d' & ty' & tm' & td' & th' & tmi' & tse' & -> & H1' & H2' & H3' & C' & Y' & P1' & P2' & P3' & P4' & P5' & ->).
  rewrite !zlen_app. rewrite (proj2 P1), (proj2 P2), (proj2 P3), (proj2 P4), (proj2 P5), (proj2 P1'), (proj2 P2'), (proj2 P3'), (proj2 P4'), (proj2 P5').
  change (zlen (str "-")) with 1. change (zlen (str "T")) with 1. change (zlen (str ":")) with 1. change (zlen (str "Z")) with 1. intros L L' T.
  assert (K : forall k a n b q r r', padded k a n -> padded k b q -> n < q -> text_lt (a ++ r) (b ++ r')).
  { intros k a n b q r r' (D & Q) (D' & Q') N. apply (decimal_lt a n D b q D'); auto. lia. }
  assert (YP : padded 4 ty y) by (inversion Y as [? ? R (D & _)|? ? R (_ & Q & _) Ey|? ? R (_ & Q & _)]; subst; [split; [auto|lia]| |];
    rewrite zlen_app in L; change (zlen (str "+")) with 1 in L; change (zlen (str "-")) with 1 in L; lia).
  assert (YP' : padded 4 ty' y') by (inversion Y' as [? ? R (D & _)|? ? R (_ & Q & _) Ey|? ? R (_ & Q & _)]; subst; [split; [auto|lia]| |];
    rewrite zlen_app in L'; change (zlen (str "+")) with 1 in L'; change (zlen (str "-")) with 1 in L'; lia).
  assert (O : day < day' \/ day = day' /\ (h < h' \/ h = h' /\ (mi < mi' \/ mi = mi' /\ se < se'))) by lia.
  assert (DL : date_lt (y, m, d) (y', m', d') \/ (y, m, d) = (y', m', d') /\ day = day').
  { apply calendar_iff in C. apply calendar_iff in C'. destruct (Z.eq_dec day day') as [<-|N]; [right; split; congruence|left].
    rewrite C, C'. replace day' with (day + Z.of_nat (S (Z.to_nat (day' - day - 1)))) by lia. apply date_of_day_lt. }
  assert (DE : (y, m, d) = (y', m', d') -> y = y' /\ m = m' /\ d = d') by (intros [= -> -> ->]; auto).
  unfold date_lt in DL.
  assert (DL' : y < y' \/ y = y' /\ (m < m' \/ m = m' /\ (d < d' \/ d = d' /\ day = day'))) by (destruct DL as [DL|(DL & ?)]; [lia|specialize (DE DL); lia]).
  clear DL DE.
  destruct DL' as [Q|(Q & DL)]; [eapply K; eauto|]. subst y'. rewrite (padded_unique _ _ _ _ YP YP'). apply text_lt_app, text_lt_app.
  destruct DL as [Q|(Q & DL)]; [eapply K; eauto|]. subst m'. rewrite (padded_unique _ _ _ _ P1 P1'). apply text_lt_app, text_lt_app.
  destruct DL as [Q|(Q & DL)]; [eapply K; eauto|]. subst d' day'. rewrite (padded_unique _ _ _ _ P2 P2'). apply text_lt_app, text_lt_app.
  destruct O as [Q|(_ & O)]; [lia|].
  destruct O as [Q|(Q & O)]; [eapply K; eauto|]. subst h'. rewrite (padded_unique _ _ _ _ P3 P3'). apply text_lt_app, text_lt_app.
  destruct O as [Q|(Q & O)]; [eapply K; eauto|]. subst mi'. rewrite (padded_unique _ _ _ _ P4 P4'). apply text_lt_app, text_lt_app.
  eapply K; eauto.
Qed.

(** ** C63 *)
Lemma representable_iff t : representable t <-> chrono_seconds t = true.
Proof.
  unfold chrono_seconds, min_seconds, max_seconds. rewrite andb_true_iff, !Z.leb_le. split.
  - intros (lo & hi & C1 & C2 & R).
    assert (lo = -96465292) as ->.
    { assert (C : calendar (-96465292) (-262143, 1, 1)) by (apply calendar_iff; vm_compute; reflexivity).
      apply calendar_iff in C1. apply calendar_iff in C.
      destruct (date_of_day_ok lo) as (y1 & m1 & d1 & E1 & _ & I1). destruct (date_of_day_ok (-96465292)) as (y2 & m2 & d2 & E2 & _ & I2).
      rewrite <- C1 in E1. rewrite <- C in E2. injection E1 as <- <- <-. injection E2 as <- <- <-. rewrite I1 in I2. injection I2. auto. }
    assert (hi = 95026236) as ->.
    { assert (C : calendar 95026236 (262142, 12, 31)) by (apply calendar_iff; vm_compute; reflexivity).
      apply calendar_iff in C2. apply calendar_iff in C.
      destruct (date_of_day_ok hi) as (y1 & m1 & d1 & E1 & _ & I1). destruct (date_of_day_ok 95026236) as (y2 & m2 & d2 & E2 & _ & I2).
      rewrite <- C2 in E1. rewrite <- C in E2. injection E1 as <- <- <-. injection E2 as <- <- <-. rewrite I1 in I2. injection I2. auto. }
    lia.
  - intros R. exists (-96465292), 95026236. split; [apply calendar_iff; vm_compute; reflexivity|]. split; [apply calendar_iff; vm_compute; reflexivity|]. lia.
Qed.
(** for every timestamp in microseconds: the result is the ISO 8601 text of the second it lies in, and nothing
    else; the error exactly when that second is not in the years -262143 to 262142; never a panic *)
Theorem C63_iso_text u :
  (forall s, timestamp_to_iso8601_seconds u = Ok s <-> representable (u / 1000000) /\ iso_text (u / 1000000) s) /\
  (timestamp_to_iso8601_seconds u = Err <-> ~ representable (u / 1000000)) /\
  timestamp_to_iso8601_seconds u <> Panic.
Proof.
  unfold timestamp_to_iso8601_seconds. pose proof (representable_iff (u / 1000000)) as RI.
  destruct (chrono_seconds (u / 1000000)); (split; [|split]).
  - intros s. split.
    + intros [= <-]. split; [apply RI; auto|apply show_iso_text].
    + intros (_ & I). f_equal. eapply iso_unique; [apply show_iso_text|auto].
  - split; [discriminate|]. intros Q. exfalso. apply Q, RI. auto.
  - discriminate.
  - intros s. split; [discriminate|]. intros (Q & _). apply RI in Q. discriminate Q.
  - split; auto. intros _ Q. apply RI in Q. discriminate Q.
  - discriminate.
Qed.
(** two timestamps have the same text exactly when they lie in the same second *)
Theorem C63_same_second u v s s' : timestamp_to_iso8601_seconds u = Ok s -> timestamp_to_iso8601_seconds v = Ok s' ->
  (s = s' <-> u / 1000000 = v / 1000000).
Proof.
  intros A B. apply C63_iso_text in A. apply C63_iso_text in B. destruct A as (_ & A), B as (_ & B). split.
  - intros <-. eapply iso_injective; eauto.
  - intros E. rewrite E in A. eapply iso_unique; eauto.
Qed.
(** in the years 0 to 9999 (twenty characters) the texts sort as the instants do *)
Theorem C63_sorted u v s s' : timestamp_to_iso8601_seconds u = Ok s -> timestamp_to_iso8601_seconds v = Ok s' ->
  zlen s = 20 -> zlen s' = 20 -> (u / 1000000 < v / 1000000 <-> text_lt s s').
Proof.
  intros A B L L'. pose proof A as A0. pose proof B as B0. apply C63_iso_text in A. apply C63_iso_text in B. destruct A as (_ & A), B as (_ & B). split.
  - intros T. eapply iso_order; eauto.
  - intros T. destruct (Z.lt_trichotomy (u / 1000000) (v / 1000000)) as [Q|[Q|Q]]; auto; exfalso.
    + apply (C63_same_second _ _ _ _ A0 B0) in Q. subst s'. clear - T. remember s as r eqn:E in T at 2. revert E.
      induction T; intros E; [discriminate|injection E; intros; subst; lia|injection E; auto].
    + pose proof (iso_order _ _ _ _ B A L' L Q) as T'. clear - T T'. induction T; inversion T'; subst; auto; lia.
Qed.
Theorem C63_length u s : timestamp_to_iso8601_seconds u = Ok s -> (zlen s = 20 <-> four_digit_year (u / 1000000)).
Proof.
  intros A. apply C63_iso_text in A. destruct A as (_ & day & h & mi & se & y & m & d & ty & tm & td & th & tmi & tse & E & H1 & H2 & H3 & C & Y & P1 & P2 & P3 & P4 & P5 & ->).
  rewrite !zlen_app. rewrite (proj2 P1), (proj2 P2), (proj2 P3), (proj2 P4), (proj2 P5).
  change (zlen (str "-")) with 1. change (zlen (str "T")) with 1. change (zlen (str ":")) with 1. change (zlen (str "Z")) with 1.
  assert (zlen ty = 4 <-> 0 <= y <= 9999) as YL.
  { inversion Y as [? ? R Q|? ? R (_ & Q & _) Ey|? ? R (_ & Q & _)]; subst.
    - destruct (year_digits_len _ _ Q) as (F & _). split; auto. intros _. apply F. lia.
    - rewrite zlen_app. change (zlen (str "+")) with 1. lia.
    - rewrite zlen_app. change (zlen (str "-")) with 1. lia. }
  apply calendar_iff in C. symmetry in C. pose proof (year_of_day _ _ _ _ C) as YD. unfold four_digit_year.
  transitivity (0 <= y <= 9999); [rewrite <- YL; lia|].
  change 0 with (year_start 0) in YD at 1 || idtac.
  pose proof (year_start_mono (y + 1) 0). pose proof (year_start_mono 10000 y). pose proof (year_start_mono 0 y). pose proof (year_start_mono (y + 1) 10000).
  change (year_start 0) with 0 in *. change (year_start 10000) with 3652425 in *.
  rewrite E. split; intros R; [|destruct (Z.le_gt_cases 0 y); [destruct (Z.le_gt_cases y 9999)|]]; lia.
Qed.
(** pbf-info prints the text of the header's replication timestamp for every second chrono can represent, in both builds *)
Theorem C63_replication_timestamp checked t : representable t ->
  exists s, replication_time_text checked t = Ok s /\ iso_text t s.
Proof.
  intros R. pose proof R as R0. apply representable_iff in R. unfold chrono_seconds, min_seconds, max_seconds in R. apply andb_true_iff in R. rewrite !Z.leb_le in R.
  unfold replication_time_text. cbv zeta. exists (show_iso t). split; [|apply show_iso_text].
  assert (-8334601228800000000 <= t * 1000000 <= 8210266876799000000) by lia.
  replace ((min_i64 <=? t * 1000000) && (t * 1000000 <=? max_i64)) with true.
  2:{ symmetry. apply andb_true_iff. rewrite !Z.leb_le. unfold min_i64, max_i64. change (- two63) with (-9223372036854775808). change (two63 - 1) with 9223372036854775807. lia. }
  apply C63_iso_text. rewrite Z.div_mul by lia. split; auto. apply show_iso_text.
Qed.
(** any other timestamp: an error if the number of microseconds fits an i64; otherwise a panic in a debug build, and in a
    release build the text of the second that the wrapped product stands for, or an error *)
Theorem C63_other_timestamps checked t : ~ representable t ->
  (I64 (t * 1000000) -> replication_time_text checked t = Err) /\
  (~ I64 (t * 1000000) -> if checked then replication_time_text checked t = Panic else
     exists u, I64 u /\ (2 ^ 64 | t * 1000000 - u) /\
       ((exists s, replication_time_text checked t = Ok s /\ representable (u / 1000000) /\ iso_text (u / 1000000) s) \/
        (replication_time_text checked t = Err /\ ~ representable (u / 1000000)))).
Proof.
  intros R. assert (forall u, (exists s, timestamp_to_iso8601_seconds u = Ok s /\ representable (u / 1000000) /\ iso_text (u / 1000000) s) \/ (timestamp_to_iso8601_seconds u = Err /\ ~ representable (u / 1000000))) as T.
  { intros u. unfold timestamp_to_iso8601_seconds. destruct (chrono_seconds (u / 1000000)) eqn:E.
    - left. exists (show_iso (u / 1000000)). split; auto. split; [apply representable_iff; exact E|apply show_iso_text].
    - right. split; auto. intros X. apply representable_iff in X. congruence. }
  unfold replication_time_text. cbv zeta.
  assert ((min_i64 <=? t * 1000000) && (t * 1000000 <=? max_i64) = true <-> I64 (t * 1000000)) as B.
  { rewrite andb_true_iff, !Z.leb_le. unfold I64, min_i64, max_i64. lia. }
  destruct ((min_i64 <=? t * 1000000) && (t * 1000000 <=? max_i64)).
  - split; [|intros X; exfalso; apply X; apply B; auto]. intros _. destruct (T (t * 1000000)) as [(s & _ & X & _)|(X & _)]; auto.
    exfalso. apply R. rewrite Z.div_mul in X by lia. exact X.
  - split; [intros X; apply B in X; discriminate|]. intros _. destruct checked; auto. exists (wrap64 (t * 1000000)). split; [apply wrap64_range|]. split; [|apply T]. set (x := t * 1000000). clearbody x. exists ((x + two63) / two64). pose proof (Z.div_mod (x + two63) two64 ltac:(discriminate)). change (2 ^ 64) with two64. unfold wrap64. lia.
Qed.
