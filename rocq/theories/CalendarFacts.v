(** chrono's calendar functions (ApidbText) follow the calendar (ApidbSpec). *)
From Coq Require Import ZArith List Bool Strings.Byte Strings.String Lia.
From Verif Require Import Base BaseFacts ApidbText ApidbSpec.
Import ListNotations.
Open Scope Z_scope.

(** exhaustive check of an interval of integers *)
Fixpoint all_below (n : nat) (lo : Z) (p : Z -> bool) : bool :=
  match n with O => true | S k => p lo && all_below k (lo + 1) p end.
Lemma all_below_ok n : forall lo p, all_below n lo p = true -> forall z, lo <= z < lo + Z.of_nat n -> p z = true.
Proof.
  induction n as [|n IH]; intros lo p H z Hz; [lia|]. cbn [all_below] in H. apply andb_prop in H as (H1 & H2).
  destruct (Z.eq_dec z lo) as [->|N]; auto. apply (IH _ _ H2). lia.
Qed.

Definition year_len (y : Z) : Z := if is_leap y then 366 else 365.

Definition delta_check (y : Z) : bool :=
  (0 <=? year_delta y) && (year_delta y <=? 97) && (365 + year_delta (y + 1) =? year_delta y + year_len y).
Lemma delta_checked : all_below 401 0 delta_check = true.
Proof. vm_compute. reflexivity. Qed.
Lemma delta_spec y : 0 <= y <= 400 -> 0 <= year_delta y <= 97 /\ 365 + year_delta (y + 1) = year_delta y + year_len y.
Proof.
  intros H. pose proof (all_below_ok _ _ _ delta_checked y ltac:(lia)) as K. unfold delta_check in K.
  apply andb_prop in K as (K & C). apply andb_prop in K as (A & B).
  apply Z.leb_le in A. apply Z.leb_le in B. apply Z.eqb_eq in C. lia.
Qed.
Lemma year_len_range y : 365 <= year_len y <= 366.
Proof. unfold year_len. destruct (is_leap y); lia. Qed.
Lemma delta_400 : year_delta 400 = 97. Proof. reflexivity. Qed.
Lemma delta_0 : year_delta 0 = 0. Proof. reflexivity. Qed.

Lemma cycle_spec c : 0 <= c < 146097 -> exists y o, cycle_to_yo c = (y, o) /\ 0 <= y < 400 /\ 0 <= o < year_len y /\
  c = 365 * y + year_delta y + o.
Proof.
  intros H. unfold cycle_to_yo. set (q := c / 365). set (r := c mod 365).
  assert (E : c = 365 * q + r) by (apply Z.div_mod; lia). assert (R : 0 <= r < 365) by (apply Z.mod_pos_bound; lia).
  clearbody q r. assert (Q : 0 <= q <= 400) by lia. destruct (delta_spec q Q) as (D & N). pose proof (year_len_range q).
  destruct (Z.ltb_spec r (year_delta q)).
  - assert (q <> 0) by (intros ->; rewrite delta_0 in *; lia).
    destruct (delta_spec (q - 1) ltac:(lia)) as (D' & N'). replace (q - 1 + 1) with q in N' by lia.
    exists (q - 1), (r + 365 - year_delta (q - 1)). repeat split; lia.
  - assert (q <> 400) by (intros ->; rewrite delta_400 in *; lia).
    exists q, (r - year_delta q). repeat split; lia.
Qed.
Lemma cycle_inverse y o : 0 <= y < 400 -> 0 <= o < year_len y ->
  365 * y + year_delta y + year_len y <= 146097 /\ cycle_to_yo (365 * y + year_delta y + o) = (y, o).
Proof.
  intros Y O. destruct (delta_spec y ltac:(lia)) as (D & N). pose proof (year_len_range y).
  destruct (delta_spec (y + 1) ltac:(lia)) as (D1 & _). split; [lia|].
  unfold cycle_to_yo. destruct (Z.lt_ge_cases (year_delta y + o) 365).
  - replace ((365 * y + year_delta y + o) / 365) with y by (apply (Z.div_unique _ _ _ (year_delta y + o)); lia).
    replace ((365 * y + year_delta y + o) mod 365) with (year_delta y + o) by (apply (Z.mod_unique _ _ y); lia).
    destruct (Z.ltb_spec (year_delta y + o) (year_delta y)); [lia|]. f_equal. lia.
  - replace ((365 * y + year_delta y + o) / 365) with (y + 1) by (apply (Z.div_unique _ _ _ (year_delta y + o - 365)); lia).
    replace ((365 * y + year_delta y + o) mod 365) with (year_delta y + o - 365) by (apply (Z.mod_unique _ _ (y + 1)); lia).
    destruct (Z.ltb_spec (year_delta y + o - 365) (year_delta (y + 1))); [|lia]. replace (y + 1 - 1) with y by lia. f_equal. lia.
Qed.

Lemma is_leap_cycle q y : is_leap (400 * q + y) = is_leap y.
Proof.
  unfold is_leap.
  replace ((400 * q + y) mod 4) with (y mod 4) by (replace (400 * q + y) with (y + (100 * q) * 4) by lia; symmetry; apply Z.mod_add; lia).
  replace ((400 * q + y) mod 100) with (y mod 100) by (replace (400 * q + y) with (y + (4 * q) * 100) by lia; symmetry; apply Z.mod_add; lia).
  replace ((400 * q + y) mod 400) with (y mod 400) by (replace (400 * q + y) with (y + q * 400) by lia; symmetry; apply Z.mod_add; lia).
  reflexivity.
Qed.
Lemma month_lengths_leap y y' : is_leap y = is_leap y' -> month_lengths y = month_lengths y'.
Proof. unfold month_lengths. intros ->. reflexivity. Qed.

(** days before a year, counted from year 0 *)
Definition year_start (y : Z) : Z := 365 * y + (y + 3) / 4 - (y + 99) / 100 + (y + 399) / 400.
Lemma year_start_cycle q y : year_start (400 * q + y) = 146097 * q + 365 * y + year_delta y.
Proof.
  unfold year_start, year_delta.
  replace (400 * q + y + 3) with (y + 3 + (100 * q) * 4) by lia.
  replace (400 * q + y + 99) with (y + 99 + (4 * q) * 100) by lia.
  replace (400 * q + y + 399) with (y + 399 + q * 400) by lia.
  rewrite !Z.div_add by lia. lia.
Qed.

Definition month_check (leap : bool) (o : Z) : bool :=
  let y := if leap then 0 else 1 in
  let '(m, d) := month_day (month_lengths y) 1 o in
  (1 <=? m) && (m <=? 12) && (1 <=? d) && (d <=? month_length y m) && (o =? days_before (month_lengths y) m + (d - 1)).
Lemma month_checked : all_below 366 0 (month_check true) && all_below 365 0 (month_check false) = true.
Proof. vm_compute. reflexivity. Qed.
Lemma month_spec y o : 0 <= o < year_len y -> exists m d, month_day (month_lengths y) 1 o = (m, d) /\
  1 <= m <= 12 /\ 1 <= d <= month_length y m /\ o = days_before (month_lengths y) m + (d - 1).
Proof.
  intros H. destruct (andb_prop _ _ month_checked) as (A & B).
  assert (K : month_check (is_leap y) o = true).
  { unfold year_len in H. destruct (is_leap y).
    - apply (all_below_ok _ _ _ A); lia.
    - apply (all_below_ok _ _ _ B); lia. }
  unfold month_check in K. unfold month_length.
  rewrite (month_lengths_leap y (if is_leap y then 0 else 1)) by (destruct (is_leap y); reflexivity).
  fold (month_length (if is_leap y then 0 else 1)). unfold month_length in *.
  destruct (month_day _ 1 o) as (m & d). exists m, d. split; auto.
  apply andb_prop in K as (K & E). apply andb_prop in K as (K & D). apply andb_prop in K as (K & C). apply andb_prop in K as (A' & B').
  apply Z.leb_le in A'. apply Z.leb_le in B'. apply Z.leb_le in C. apply Z.leb_le in D. apply Z.eqb_eq in E. lia.
Qed.

Definition valid (dt : date) : Prop := let '(y, m, d) := dt in 1 <= m <= 12 /\ 1 <= d <= month_length y m.
Lemma day_of_valid y m d : valid (y, m, d) ->
  day_of_date y m d = Some (year_start y + days_before (month_lengths y) m + (d - 1) - 719528).
Proof.
  intros (M & D). unfold day_of_date.
  destruct (Z.leb_spec 1 m); [|lia]. destruct (Z.leb_spec m 12); [|lia].
  destruct (Z.leb_spec 1 d); [|lia]. destruct (Z.leb_spec d (month_length y m)); [|lia]. reflexivity.
Qed.

(** number of a day to its date and back *)
Lemma date_of_day_ok n : exists y m d, date_of_day n = (y, m, d) /\ valid (y, m, d) /\ day_of_date y m d = Some n.
Proof.
  unfold date_of_day. set (k := n + 719528).
  assert (KB : 0 <= k mod 146097 < 146097) by (apply Z.mod_pos_bound; lia).
  destruct (cycle_spec (k mod 146097) KB) as (yc & o & E & Y & O & C). rewrite E.
  set (q := k / 146097) in *.
  assert (L : year_len (400 * q + yc) = year_len yc) by (unfold year_len; rewrite is_leap_cycle; auto).
  destruct (month_spec (400 * q + yc) o ltac:(lia)) as (m & d & E' & M & D & O'). rewrite E'.
  exists (400 * q + yc), m, d. split; auto. split; [split; auto|]. rewrite day_of_valid by (split; auto).
  f_equal. rewrite year_start_cycle. pose proof (Z.div_mod k 146097 ltac:(lia)). fold q in H. unfold k in *. lia.
Qed.

Definition month_inv_check (leap : bool) (m : Z) : bool :=
  let y := if leap then 0 else 1 in
  (month_length y m <=? 31) && (0 <=? days_before (month_lengths y) m) &&
  (days_before (month_lengths y) m + month_length y m <=? (if leap then 366 else 365)) &&
  all_below 31 1 (fun d => negb (d <=? month_length y m) ||
    match month_day (month_lengths y) 1 (days_before (month_lengths y) m + (d - 1)) with (m', d') => (m' =? m) && (d' =? d) end).
Lemma month_inv_checked : all_below 12 1 (month_inv_check true) && all_below 12 1 (month_inv_check false) = true.
Proof. vm_compute. reflexivity. Qed.
Lemma month_inverse y m d : valid (y, m, d) ->
  let o := days_before (month_lengths y) m + (d - 1) in 0 <= o < year_len y /\ month_day (month_lengths y) 1 o = (m, d).
Proof.
  intros (M & D). destruct (andb_prop _ _ month_inv_checked) as (A & B).
  assert (K : month_inv_check (is_leap y) m = true).
  { destruct (is_leap y); [apply (all_below_ok _ _ _ A)|apply (all_below_ok _ _ _ B)]; lia. }
  unfold month_length in D. unfold month_inv_check in K. unfold month_length in K.
  replace (year_len y) with (if is_leap y then 366 else 365) by reflexivity.
  rewrite (month_lengths_leap y (if is_leap y then 0 else 1)) in * by (destruct (is_leap y); reflexivity).
  set (ls := month_lengths _) in *. apply andb_prop in K as (K & K4). apply andb_prop in K as (K & K3). apply andb_prop in K as (K1 & K2).
  apply Z.leb_le in K1. apply Z.leb_le in K2. apply Z.leb_le in K3. cbv zeta. split; [lia|].
  pose proof (all_below_ok _ _ _ K4 d ltac:(lia)) as K. cbv beta in K.
  destruct (Z.leb_spec d (nth (Z.to_nat (m - 1)) ls 0)); [|lia]. cbn [negb orb] in K.
  destruct (month_day _ 1 _) as (m' & d'). apply andb_prop in K as (A' & B'). apply Z.eqb_eq in A'. apply Z.eqb_eq in B'. congruence.
Qed.

Lemma day_of_date_inverse y m d n : valid (y, m, d) -> day_of_date y m d = Some n -> date_of_day n = (y, m, d).
Proof.
  intros V E. rewrite day_of_valid in E by auto. apply (f_equal (fun o => match o with Some z => z | None => 0 end)) in E.
  destruct (month_inverse _ _ _ V) as (O & MD). cbv zeta in O, MD.
  set (o := days_before (month_lengths y) m + (d - 1)) in *.
  set (q := y / 400). set (yc := y mod 400). assert (Y : y = 400 * q + yc) by (apply Z.div_mod; lia).
  assert (YC : 0 <= yc < 400) by (apply Z.mod_pos_bound; lia).
  assert (L : year_len y = year_len yc) by (unfold year_len; rewrite Y, is_leap_cycle; auto).
  destruct (cycle_inverse yc o YC ltac:(lia)) as (B & C).
  assert (Hk : n + 719528 = (365 * yc + year_delta yc + o) + q * 146097).
  { pose proof (year_start_cycle q yc) as S. rewrite <- Y in S. lia. }
  destruct (delta_spec yc ltac:(lia)) as (DY & _).
  unfold date_of_day. rewrite Hk, Z.mod_add by lia. rewrite Z.div_add by lia.
  rewrite (Z.mod_small (365 * yc + year_delta yc + o) 146097) by lia. rewrite (Z.div_small (365 * yc + year_delta yc + o) 146097) by lia. rewrite C.
  rewrite Z.add_0_l, <- Y, MD. reflexivity.
Qed.

(** ** the calendar *)
Lemma is_leap_spec y : is_leap y = true <-> leap_year y.
Proof.
  unfold is_leap, leap_year. rewrite andb_true_iff, orb_true_iff, negb_true_iff, Z.eqb_neq, !Z.eqb_eq.
  rewrite <- !Z.mod_divide by lia. tauto.
Qed.
Lemma month_ends_spec y m l : month_ends y m l <-> 1 <= m <= 12 /\ l = month_length y m.
Proof.
  unfold month_length, month_lengths. split.
  - intros H. inversion H as [m' I|m' I|L|L]; subst; cbn [In] in *.
    + split; [lia|]. repeat (destruct I as [<-|I]; [reflexivity|]). destruct I.
    + split; [lia|]. repeat (destruct I as [<-|I]; [reflexivity|]). destruct I.
    + split; [lia|]. apply is_leap_spec in L. cbn. rewrite L. reflexivity.
    + split; [lia|]. cbn. destruct (is_leap y) eqn:E; auto. apply is_leap_spec in E. tauto.
  - intros (M & ->). assert (C : m = 2 \/ In m [1;3;5;7;8;10;12] \/ In m [4;6;9;11]) by (cbn; lia).
    destruct C as [->|[I|I]].
    + cbn. destruct (is_leap y) eqn:E; [apply days_29, is_leap_spec, E|]. apply days_28. rewrite <- is_leap_spec. congruence.
    + replace (nth _ _ _) with 31; [apply days_31; auto|]. cbn [In] in I. repeat (destruct I as [<-|I]; [reflexivity|]). destruct I.
    + replace (nth _ _ _) with 30; [apply days_30; auto|]. cbn [In] in I. repeat (destruct I as [<-|I]; [reflexivity|]). destruct I.
Qed.
Lemma days_before_next y m : 1 <= m < 12 -> days_before (month_lengths y) (m + 1) = days_before (month_lengths y) m + month_length y m.
Proof.
  intros M. unfold month_length, month_lengths.
  assert (C : In m [1;2;3;4;5;6;7;8;9;10;11]) by (cbn; lia).
  cbn [In] in C. repeat (destruct C as [<-|C]; [destruct (is_leap y); reflexivity|]). destruct C.
Qed.
Lemma year_start_next y : year_start (y + 1) = year_start y + year_len y.
Proof.
  set (q := y / 400). set (c := y mod 400). assert (Y : y = 400 * q + c) by (apply Z.div_mod; lia).
  assert (C : 0 <= c < 400) by (apply Z.mod_pos_bound; lia). clearbody q c. subst y.
  replace (400 * q + c + 1) with (400 * q + (c + 1)) by lia. rewrite !year_start_cycle. unfold year_len. rewrite is_leap_cycle.
  destruct (delta_spec c ltac:(lia)) as (_ & E). unfold year_len in E. lia.
Qed.
Lemma month_length_pos y m : 1 <= m <= 12 -> 28 <= month_length y m.
Proof.
  intros M. unfold month_length, month_lengths.
  assert (C : In m [1;2;3;4;5;6;7;8;9;10;11;12]) by (cbn; lia).
  cbn [In] in C. repeat (destruct C as [<-|C]; [destruct (is_leap y); vm_compute; discriminate|]). destruct C.
Qed.

Lemma next_day_number a b : next_day a b -> exists n, valid a /\ valid b /\
  (let '(y, m, d) := a in day_of_date y m d = Some n) /\ (let '(y, m, d) := b in day_of_date y m d = Some (n + 1)).
Proof.
  intros H. inversion H as [y m d l E D|y m l E D|y]; subst.
  - apply month_ends_spec in E as (M & ->). assert (V1 : valid (y, m, d)) by (split; lia). assert (V2 : valid (y, m, d + 1)) by (split; lia).
    eexists. split; auto. split; auto. rewrite !day_of_valid by auto. split; [reflexivity|]. f_equal. lia.
  - apply month_ends_spec in E as (M & ->). pose proof (month_length_pos y m M). pose proof (month_length_pos y (m + 1) ltac:(lia)).
    assert (V1 : valid (y, m, month_length y m)) by (split; lia). assert (V2 : valid (y, m + 1, 1)) by (split; lia).
    eexists. split; auto. split; auto. rewrite !day_of_valid by auto. split; [reflexivity|]. f_equal. rewrite days_before_next by lia. lia.
  - assert (V1 : valid (y, 12, 31)) by (split; [lia|vm_compute; split; discriminate]).
    assert (V2 : valid (y + 1, 1, 1)) by (split; [lia|vm_compute; split; discriminate]).
    eexists. split; auto. split; auto. rewrite !day_of_valid by auto. split; [reflexivity|]. f_equal. rewrite year_start_next.
    assert (E1 : days_before (month_lengths (y + 1)) 1 = 0) by reflexivity.
    assert (E2 : days_before (month_lengths y) 12 + 31 = year_len y) by (unfold year_len, month_lengths; destruct (is_leap y); reflexivity).
    lia.
Qed.
Lemma next_day_exists a : valid a -> exists b, next_day a b.
Proof.
  destruct a as ((y & m) & d). intros (M & D). destruct (Z.eq_dec d (month_length y m)) as [->|N].
  - destruct (Z.eq_dec m 12) as [->|N].
    + eexists. apply next_year.
    + eexists. apply next_month; [apply month_ends_spec; auto|lia].
  - eexists. apply same_month with (l := month_length y m); [apply month_ends_spec; auto|lia].
Qed.
Lemma date_step n : next_day (date_of_day n) (date_of_day (n + 1)).
Proof.
  destruct (date_of_day_ok n) as (y & m & d & E & V & D). rewrite E. destruct (next_day_exists _ V) as (b & N).
  destruct (next_day_number _ _ N) as (k & _ & VB & K1 & K2). rewrite D in K1. injection K1 as <-.
  destruct b as ((y' & m') & d'). rewrite (day_of_date_inverse _ _ _ _ VB K2). auto.
Qed.
Theorem calendar_iff n dt : calendar n dt <-> dt = date_of_day n.
Proof.
  split.
  - induction 1 as [|n a b C IH N|n a b C IH N].
    + vm_compute. reflexivity.
    + subst a. destruct (next_day_number _ _ N) as (k & _ & VB & K1 & K2).
      destruct (date_of_day_ok n) as (y & m & d & E & V & D). rewrite E in K1. rewrite D in K1. injection K1 as <-.
      destruct b as ((y' & m') & d'). symmetry. apply day_of_date_inverse; auto.
    + subst b. destruct (next_day_number _ _ N) as (k & VA & _ & K1 & K2).
      destruct (date_of_day_ok n) as (y & m & d & E & V & D). rewrite E in K2. rewrite D in K2.
      apply (f_equal (fun o => match o with Some z => z | None => 0 end)) in K2. assert (k = n - 1) by lia. subst k.
      destruct a as ((y' & m') & d'). symmetry. apply day_of_date_inverse; auto.
  - intros ->. revert n. apply (Z.bi_induction (fun n => calendar n (date_of_day n))).
    + intros x y ->. tauto.
    + replace (date_of_day 0) with ((1970, 1, 1) : date) by (vm_compute; reflexivity). apply epoch.
    + intros n. rewrite <- Z.add_1_r. split; intros H.
      * eapply day_later; [exact H|]. apply date_step.
      * replace n with (n + 1 - 1) at 1 by lia. eapply day_earlier; [exact H|]. apply date_step.
Qed.
