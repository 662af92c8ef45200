(** Property C75: exactly which rows of a dump table are read, and as what. *)
From Coq Require Import ZArith List Bool Strings.Byte Strings.String Lia.
From Verif Require Import Base BaseFacts Types ApidbText ApidbSpec CalendarFacts ApidbTextFacts DumpSpec ApidbWrite ApidbWriteFacts ApidbRead DumpReadSpec Model2 ModelFacts ApidbReadFacts FieldSpec.
Import ListNotations.
Local Notation length := List.length.
Open Scope Z_scope.

(** ** integers *)
Lemma number_head s v : number s v -> exists b r, s = b :: r /\ Byte.eqb b x2d = false /\ Byte.eqb b x2b = false.
Proof.
  intros (D & NE). destruct s as [|b r]; [congruence|]. exists b, r. split; auto. apply decimal_digits in D. inversion D; subst.
  apply digit_not_sign; auto.
Qed.
Lemma number_val s v : number s v -> s <> [] /\ digits_val s 0 = Some v.
Proof. intros (D & NE). split; auto. apply decimal_val; auto. Qed.
Theorem C75_integers : forall lo hi s z, parse_int lo hi s = Some z <-> reads_int lo hi s z.
Proof.
  intros lo hi s z. split.
  - unfold parse_int. destruct s as [|b r]; [discriminate|].
    assert (U : forall sgn (s' : bytes) (P : Prop), (forall v, number s' v -> lo <= sgn * v <= hi -> z = sgn * v -> P) ->
      match s' with [] => None | _ => match digits_val s' 0 with
        | Some v => let z := sgn * v in if (lo <=? z) && (z <=? hi) then Some z else None | None => None end end = Some z -> P).
    { intros sgn s' P H. destruct s' as [|c s']; [discriminate|]. destruct (digits_val (c :: s') 0) as [v|] eqn:E; [|discriminate].
      cbv zeta. destruct (Z.leb_spec lo (sgn * v)); [|discriminate]. destruct (Z.leb_spec (sgn * v) hi); [|discriminate]. cbn [andb].
      intros [= <-]. apply (H v); auto. split; [apply val_decimal; auto|discriminate]. }
    destruct (Byte.eqb b x2d) eqn:E1; [|destruct (Byte.eqb b x2b) eqn:E2].
    + apply Byte.byte_dec_bl in E1. subst b. apply U. intros v N R ->. replace (-1 * v) with (- v) in * by lia. apply (int_minus _ _ r); auto.
    + apply Byte.byte_dec_bl in E2. subst b. apply U. intros v N R ->. replace (1 * v) with v in * by lia. apply (int_plus _ _ r); auto.
    + apply (U 1 (b :: r)). intros v N R ->. replace (1 * v) with v in * by lia. apply int_bare; auto.
  - assert (L : forall z, lo <= z <= hi -> ((lo <=? z) && (z <=? hi)) = true).
    { intros k R. apply andb_true_iff. split; apply Z.leb_le; lia. }
    intros [s' v N R|s' v N R|s' v N R]; unfold parse_int; destruct (number_val _ _ N) as (NE & V).
    + destruct (number_head _ _ N) as (b & r & -> & -> & ->). rewrite V. cbv zeta. rewrite Z.mul_1_l, (L v R). reflexivity.
    + cbn [str app]. change (str "+" ++ s') with (x2b :: s'). replace (Byte.eqb x2b x2d) with false by reflexivity. replace (Byte.eqb x2b x2b) with true by reflexivity.
      destruct s'; [congruence|]. rewrite V. cbv zeta. rewrite Z.mul_1_l, (L v R). reflexivity.
    + change (str "-" ++ s') with (x2d :: s'). replace (Byte.eqb x2d x2d) with true by reflexivity.
      destruct s'; [congruence|]. rewrite V. cbv zeta. replace (-1 * v) with (- v) by lia. rewrite (L (- v) R). reflexivity.
Qed.
Theorem C75_booleans : forall s b, parse_sql_bool s = Some b <-> reads_bool s b.
Proof.
  intros s b. unfold parse_sql_bool, reads_bool. destruct (bytes_eqb s (str "t")) eqn:E1; [|destruct (bytes_eqb s (str "f")) eqn:E2].
  - apply bytes_eqb_eq in E1. subst. split; [intros [= <-]; auto|]. intros [(_ & ->)|(H & _)]; [auto|discriminate].
  - apply bytes_eqb_eq in E2. subst. split; [intros [= <-]; auto|]. intros [(H & _)|(_ & ->)]; [discriminate|auto].
  - split; [discriminate|]. intros [(-> & _)|(-> & _)]; discriminate.
Qed.
Theorem C75_nulls : forall s o, parse_sql_null_string s = o <-> (s = str "\N" /\ o = None) \/ (s <> str "\N" /\ o = Some s).
Proof.
  intros s o. unfold parse_sql_null_string, sql_null. destruct (bytes_eqb s (str "\N")) eqn:E.
  - apply bytes_eqb_eq in E. split; [intros <-; auto|]. intros [(_ & ->)|(N & _)]; congruence.
  - assert (s <> str "\N") by (intros ->; rewrite bytes_eqb_refl in E; discriminate). split; [intros <-; auto|]. intros [(X & _)|(_ & ->)]; congruence.
Qed.
Theorem C75_member_kinds : forall s k, parse_member_type s = Some k <-> reads_kind s k.
Proof.
  intros s k. unfold parse_member_type.
  assert (L : forall a b, bytes_eqb s a || bytes_eqb s b = true <-> s = a \/ s = b).
  { intros a b. rewrite orb_true_iff, !bytes_eqb_eq. tauto. }
  destruct (bytes_eqb s (str "n") || _) eqn:E1; [|destruct (bytes_eqb s (str "w") || _) eqn:E2; [|destruct (bytes_eqb s (str "r") || _) eqn:E3]].
  - apply L in E1. split; [intros [= <-]; exact E1|]. destruct k; auto; destruct E1 as [->| ->]; cbn; intros [H|H]; discriminate.
  - apply L in E2. split; [intros [= <-]; exact E2|]. destruct k; auto; destruct E2 as [->| ->]; cbn; intros [H|H]; discriminate.
  - apply L in E3. split; [intros [= <-]; exact E3|]. destruct k; auto; destruct E3 as [->| ->]; cbn; intros [H|H]; discriminate.
  - split; [discriminate|]. intros H. destruct k; apply L in H; congruence.
Qed.

(** ** times *)
Lemma scan_digits_split k : forall s acc v r, scan_digits k s acc = (v, r) ->
  exists p, s = p ++ r /\ (length p <= k)%nat /\ digits_val p acc = Some v /\ all_digits p /\
    (length p = k \/ match r with [] => True | b :: _ => is_digit b = false end).
Proof.
  induction k as [|k IH]; intros s acc v r H.
  - cbn in H. assert ((acc, s) = (v, r)) as [= -> ->] by (destruct s; exact H). exists []. cbn. repeat split; auto. constructor.
  - destruct s as [|b s]; cbn in H.
    + injection H as <- <-. exists []. cbn. repeat split; auto; [lia|constructor].
    + destruct (is_digit b) eqn:E.
      * apply IH in H as (p & -> & L & V & F & T). exists (b :: p). cbn [app length digits_val]. rewrite E. repeat split; auto; [lia|constructor; auto|].
        destruct T; [left; lia|right; auto].
      * injection H as <- <-. exists []. cbn. repeat split; auto; [lia|constructor].
Qed.
Lemma scan_number_split k s v r : (1 <= k)%nat -> scan_number k s = Some (v, r) ->
  exists p, s = p ++ r /\ number p v /\ (length p <= k)%nat /\ (length p = k \/ match r with [] => True | b :: _ => is_digit b = false end).
Proof.
  intros K H. unfold scan_number in H. destruct s as [|b s]; [discriminate|]. destruct (is_digit b) eqn:E; [|discriminate].
  injection H as H. apply scan_digits_split in H as (p & S & L & V & F & T). exists p. repeat split; auto; [apply val_decimal; auto|].
  intros ->. cbn [app] in S. subst r. destruct T as [T|T]; [cbn in T; lia|congruence].
Qed.
Lemma expect_split b s r : expect b s = Some r <-> s = b :: r.
Proof.
  destruct s as [|c s]; cbn; [split; discriminate|]. destruct (Byte.eqb c b) eqn:E.
  - apply Byte.byte_dec_bl in E. subst. split; [intros [= ->]|intros [= ->]]; reflexivity.
  - split; [discriminate|]. intros [= -> ->]. rewrite beqb_refl in E. discriminate.
Qed.
Lemma scan_year_split s y r : scan_year s = Some (y, r) -> exists p, s = p ++ r /\ reads_year p y.
Proof.
  unfold scan_year. destruct s as [|b s]; [discriminate|].
  destruct (Byte.eqb b x2d) eqn:E1; [|destruct (Byte.eqb b x2b) eqn:E2].
  - apply Byte.byte_dec_bl in E1. subst b. destruct (scan_number (length s) s) as [(v, r')|] eqn:E; [|discriminate]. intros [= <- <-].
    destruct s as [|c s]; [discriminate|]. apply scan_number_split in E as (p & S & N & _); [|cbn; lia]. exists (x2d :: p).
    rewrite S. split; auto. apply (year_minus p v); auto.
  - apply Byte.byte_dec_bl in E2. subst b. intros E.
    destruct s as [|c s]; [discriminate|]. apply scan_number_split in E as (p & S & N & _); [|cbn; lia]. exists (x2b :: p).
    rewrite S. split; auto. apply (year_plus p y); auto.
  - intros E. apply scan_number_split in E as (p & S & N & L & _); [|lia]. exists p. split; auto. constructor; auto. unfold zlen. lia.
Qed.
Lemma scan_two s v r : scan_number 2 s = Some (v, r) -> exists p, s = p ++ r /\ two_digits p v.
Proof.
  intros H. apply scan_number_split in H as (p & S & N & L & _); [|lia]. exists p. split; auto. split; auto. unfold zlen. lia.
Qed.
Lemma all_digits_decimal r : all_digits r -> exists w, decimal r w.
Proof.
  intros F. assert (G : forall acc, exists v, digits_val r acc = Some v).
  { induction r as [|c r IH]; intros acc; cbn; [eauto|]. inversion F as [|? ? Hc F']; subst. rewrite Hc. auto. }
  destruct (G 0) as (w & W). exists w. apply val_decimal; auto.
Qed.
Lemma skip_digits_nil r : skip_digits r = [] <-> all_digits r.
Proof.
  induction r as [|b r IH]; cbn.
  - split; auto. constructor.
  - destruct (is_digit b) eqn:E.
    + rewrite IH. split; [constructor; auto|]. intros F; inversion F; auto.
    + split; [discriminate|]. intros F; inversion F; congruence.
Qed.
Lemma scan_fraction_iff s ns : scan_fraction s = Some (ns, []) <-> reads_fraction s ns.
Proof.
  split.
  - unfold scan_fraction. destruct s as [|b r]; [intros [= <-]; constructor|].
    destruct (Byte.eqb b x2e) eqn:E; [|discriminate]. apply Byte.byte_dec_bl in E. subst b.
    destruct (scan_number 9 r) as [(v, r')|] eqn:E; [|discriminate]. cbv zeta. intros [= <- S].
    apply scan_number_split in E as (p & -> & N & L & T); [|lia]. rewrite zlen_app. replace (zlen p + zlen r' - zlen r') with (zlen p) by lia.
    apply skip_digits_nil in S. destruct r' as [|c r'].
    + rewrite app_nil_r. eapply short_fraction; eauto. unfold zlen. lia.
    + destruct T as [T|T]; [|inversion S; congruence].
      assert (zlen p = 9) as Z9 by (unfold zlen; lia). rewrite Z9. change (10 ^ (9 - 9)) with 1. rewrite Z.mul_1_r.
      destruct (all_digits_decimal _ S) as (w & W). apply (long_fraction p v (c :: r') w); auto. split; auto. apply N.
  - intros [|p v k N L K|p v r w P D].
    + reflexivity.
    + change (str "." ++ p) with (x2e :: p). unfold scan_fraction. rewrite beqb_refl.
      rewrite <- (app_nil_r p) at 1. destruct N as (D & NE). rewrite (scan_number_app 9 p [] v D NE); [|unfold zlen in L; lia|auto].
      change (zlen (@nil byte)) with 0. rewrite L. replace (k - 0) with k by lia. reflexivity.
    + change (str "." ++ p ++ r) with (x2e :: p ++ r). unfold scan_fraction. rewrite beqb_refl. destruct P as (DP & LP).
      assert (length p = 9%nat) as L9 by (unfold zlen in LP; lia).
      rewrite (scan_number_app 9 p r v DP); [|intros ->; discriminate|lia|auto]. cbv zeta.
      rewrite zlen_app, LP. replace (9 + zlen r - zlen r) with 9 by lia. change (10 ^ (9 - 9)) with 1. rewrite Z.mul_1_r.
      apply decimal_digits in D. apply skip_digits_nil in D. rewrite D. reflexivity.
Qed.
Lemma number_two p v b r : two_digits p v -> is_digit b = false -> scan_number 2 (p ++ b :: r) = Some (v, b :: r).
Proof. intros ((D & NE) & L) B. apply scan_number_app; auto. unfold zlen in L. lia. Qed.
Lemma fraction_head s ns : reads_fraction s ns -> match s with [] => True | b :: _ => is_digit b = false end.
Proof. intros [|p v k N L K|p v r w P D]; auto; reflexivity. Qed.
Lemma scan_year_app p y r : reads_year p y -> scan_year (p ++ x2d :: r) = Some (y, x2d :: r).
Proof.
  intros [s v N L|s v N|s v N].
  - destruct (number_head _ _ N) as (b & q & -> & E1 & E2). destruct N as (D & NE). cbn [app]. unfold scan_year. rewrite E1, E2.
    change (b :: q ++ x2d :: r) with ((b :: q) ++ x2d :: r). apply scan_number_app; auto. unfold zlen in L. lia.
  - destruct N as (D & NE). change ((str "+" ++ s) ++ x2d :: r) with (x2b :: s ++ x2d :: r). unfold scan_year.
    replace (Byte.eqb x2b x2d) with false by reflexivity. replace (Byte.eqb x2b x2b) with true by reflexivity.
    apply scan_number_app; auto. rewrite app_length. lia.
  - destruct N as (D & NE). change ((str "-" ++ s) ++ x2d :: r) with (x2d :: s ++ x2d :: r). unfold scan_year.
    replace (Byte.eqb x2d x2d) with true by reflexivity.
    rewrite (scan_number_app _ s (x2d :: r) v D NE); auto. rewrite app_length. lia.
Qed.
Lemma day_of_date_calendar y m d n : day_of_date y m d = Some n <-> calendar n (y, m, d).
Proof.
  rewrite calendar_iff. split.
  - intros H. symmetry. apply day_of_date_inverse; auto. unfold day_of_date in H.
    destruct (Z.leb_spec 1 m); [|discriminate]. destruct (Z.leb_spec m 12); [|discriminate]. destruct (Z.leb_spec 1 d); [|discriminate].
    destruct (Z.leb_spec d (month_length y m)); [|discriminate]. split; lia.
  - intros H. destruct (date_of_day_ok n) as (y' & m' & d' & E & V & K). rewrite E in H. injection H as -> -> ->. exact K.
Qed.
(** the range of chrono is a range of years *)
Lemma chrono_years day y m d h mi se : calendar day (y, m, d) -> 0 <= h <= 23 -> 0 <= mi <= 59 -> 0 <= se <= 59 ->
  chrono_seconds (86400 * day + 3600 * h + 60 * mi + se) = true <-> -262143 <= y <= 262142.
Proof.
  intros C H M S. apply calendar_iff in C. symmetry in C. apply year_of_day in C.
  unfold chrono_seconds, min_seconds, max_seconds. rewrite andb_true_iff, !Z.leb_le.
  assert (year_start (-262143) = -95745764 /\ year_start 262143 = 95745764 + 1 - 1 + (year_start 262143 - 95745764)) as (A & _) by (split; [reflexivity|lia]).
  assert (year_start (-262143) - 719528 = -96465292) as L1 by reflexivity.
  assert (86400 * (year_start 262143 - 719528) = 8210266876800) as L2 by reflexivity.
  split.
  - intros (G1 & G2). split.
    + destruct (Z.le_gt_cases (-262143) y); auto. exfalso. pose proof (year_start_mono (y + 1) (-262143) ltac:(lia)). lia.
    + destruct (Z.le_gt_cases y 262142); auto. exfalso. pose proof (year_start_mono 262143 y ltac:(lia)). lia.
  - intros (G1 & G2). pose proof (year_start_mono (-262143) y ltac:(lia)). pose proof (year_start_mono (y + 1) 262143 ltac:(lia)). lia.
Qed.
Lemma two_nonneg s v : two_digits s v -> 0 <= v.
Proof. intros ((D & _) & _). eapply decimal_nonneg; eauto. Qed.
Theorem C75_times : forall s t, parse_sql_time s = Some t <-> reads_time s t.
Proof.
  intros s t. split.
  - unfold parse_sql_time. destruct (scan_year s) as [(y, s1)|] eqn:EY; [|discriminate]. cbn [obind].
    destruct (expect x2d s1) as [s2|] eqn:X1; [|discriminate]. cbn [obind].
    destruct (scan_number 2 s2) as [(m, s3)|] eqn:EM; [|discriminate]. cbn [obind].
    destruct (expect x2d s3) as [s4|] eqn:X2; [|discriminate]. cbn [obind].
    destruct (scan_number 2 s4) as [(d, s5)|] eqn:ED; [|discriminate]. cbn [obind].
    destruct (expect x20 s5) as [s6|] eqn:X3; [|discriminate]. cbn [obind].
    destruct (scan_number 2 s6) as [(hh, s7)|] eqn:EH; [|discriminate]. cbn [obind].
    destruct (expect x3a s7) as [s8|] eqn:X4; [|discriminate]. cbn [obind].
    destruct (scan_number 2 s8) as [(mm, s9)|] eqn:EN; [|discriminate]. cbn [obind].
    destruct (expect x3a s9) as [s10|] eqn:X5; [|discriminate]. cbn [obind].
    destruct (scan_number 2 s10) as [(ss, s11)|] eqn:ES; [|discriminate]. cbn [obind].
    destruct (scan_fraction s11) as [(ns, s12)|] eqn:EF; [|discriminate]. cbn [obind].
    destruct s12; [|discriminate]. destruct (Z.leb_spec hh 23); [|discriminate]. destruct (Z.leb_spec mm 59); [|discriminate]. destruct (Z.leb_spec ss 59); [|discriminate].
    cbn [andb]. destruct (day_of_date y m d) as [n|] eqn:EDAY; [|discriminate]. cbn [obind]. cbv zeta.
    destruct (chrono_seconds _) eqn:CH; [|discriminate]. intros [= <-].
    apply scan_year_split in EY as (py & -> & RY). apply expect_split in X1, X2, X3, X4, X5. subst s1 s3 s5 s7 s9.
    apply scan_two in EM as (pm & -> & RM). apply scan_two in ED as (pd & -> & RD). apply scan_two in EH as (ph & -> & RH).
    apply scan_two in EN as (pn & -> & RN). apply scan_two in ES as (ps & -> & RS). apply scan_fraction_iff in EF.
    apply day_of_date_calendar in EDAY.
    apply (chrono_years _ _ _ _ _ _ _ EDAY) in CH; [|split; auto; eapply two_nonneg; eauto..].
    exists py, pm, pd, ph, pn, ps, s11, y, m, d, hh, mm, ss, n. cbn [fst snd].
    split; [reflexivity|]. repeat (split; [assumption|]). reflexivity.
  - intros (sy & sm & sd & sh & smi & ss & sf & y & m & d & h & mi & se & day & -> & RY & RM & RD & RH & RN & RS & RF & C & H & M & S & Y & T).
    change (str "-") with [x2d]. change (str " ") with [x20]. change (str ":") with [x3a]. cbn [app].
    unfold parse_sql_time. rewrite (scan_year_app _ _ _ RY). cbn [obind]. rewrite expect_hd. cbn [obind].
    rewrite (number_two _ _ _ _ RM) by reflexivity. cbn [obind]. rewrite expect_hd. cbn [obind].
    rewrite (number_two _ _ _ _ RD) by reflexivity. cbn [obind]. rewrite expect_hd. cbn [obind].
    rewrite (number_two _ _ _ _ RH) by reflexivity. cbn [obind]. rewrite expect_hd. cbn [obind].
    rewrite (number_two _ _ _ _ RN) by reflexivity. cbn [obind]. rewrite expect_hd. cbn [obind].
    destruct RS as ((DS & NS) & LS). rewrite (scan_number_app 2 _ sf _ DS NS); [|unfold zlen in LS; lia|right; eapply fraction_head; eauto]. cbn [obind].
    apply scan_fraction_iff in RF. rewrite RF. cbn [obind].
    destruct (Z.leb_spec h 23); [|lia]. destruct (Z.leb_spec mi 59); [|lia]. destruct (Z.leb_spec se 59); [|lia]. cbn [andb].
    pose proof (two_nonneg _ _ RH). pose proof (two_nonneg _ _ RN). pose proof (decimal_nonneg _ _ DS).
    rewrite (proj2 (day_of_date_calendar _ _ _ _) C). cbn [obind]. cbv zeta.
    rewrite (proj2 (chrono_years _ _ _ _ h mi se C ltac:(lia) ltac:(lia) ltac:(lia))) by lia. rewrite <- T. destruct t; reflexivity.
Qed.

(** ** rows *)
Lemma position_under v names i : position v names = Some i <-> exists before after, names = before ++ v :: after /\ ~ In v before /\ length before = i.
Proof.
  revert i. induction names as [|a names IH]; intros i; cbn [position].
  - split; [discriminate|]. intros ([|b before] & after & E & _); discriminate.
  - destruct (bytes_eqb a v) eqn:E.
    + apply bytes_eqb_eq in E. subst a. split.
      * intros [= <-]. exists [], names. repeat split; auto.
      * intros (before & after & E & N & <-). destruct before as [|b before]; [reflexivity|]. injection E as -> _. destruct N. left; auto.
    + assert (a <> v) by (intros ->; rewrite bytes_eqb_refl in E; discriminate). split.
      * destruct (position v names) as [j|]; [|discriminate]. intros [= <-]. destruct (proj1 (IH j) eq_refl) as (before & after & -> & N & L).
        exists (a :: before), after. repeat split; cbn; auto. intros [X|X]; auto.
      * intros (before & after & E' & N & <-). destruct before as [|b before]; [injection E' as -> _; congruence|]. injection E' as -> E'.
        rewrite (proj2 (IH (length before))); auto. exists before, after. repeat split; auto. intros I. apply N. right; auto.
Qed.
Lemma fields_under names cells : forall ns fs, res_map (field_index names) ns = Ok fs ->
  forall k v, nth_error ns k = Some v -> (forall s, col fs cells k = Ok s <-> under names cells v s) /\ ((exists s, col fs cells k = Ok s) \/ col fs cells k = Panic).
Proof.
  induction ns as [|n ns IH]; intros fs E k v K; [destruct k; discriminate|]. cbn [res_map] in E.
  destruct (field_index names n) as [i| |] eqn:EI; try discriminate. cbn [bind] in E.
  destruct (res_map (field_index names) ns) as [fs'| |] eqn:ER; try discriminate. cbn [bind] in E. injection E as <-.
  destruct k as [|k]; cbn [nth_error] in K.
  - injection K as ->. unfold field_index in EI. destruct (position v names) as [j|] eqn:P; [|discriminate]. injection EI as ->.
    unfold col. cbn [nth_error]. split; [|destruct (nth_error cells i); cbn; eauto].
    intros s. split.
    + destruct (nth_error cells i) as [s'|] eqn:N; [|discriminate]. intros [= ->]. destruct (proj1 (position_under _ _ _) P) as (b & a & E1 & N1 & L).
      exists b, a. repeat split; auto. rewrite L; auto.
    + intros (b & a & E1 & N1 & L). assert (position v names = Some (length b)) as P' by (apply position_under; eauto).
      rewrite P in P'. injection P' as ->. rewrite L. reflexivity.
  - destruct (IH fs' eq_refl k v K) as (A & B). split; auto.
Qed.
Lemma reads_i64_iff s z : parse_i64 s = Some z <-> reads_i64 s z. Proof. apply C75_integers. Qed.
Lemma reads_i32_iff s z : parse_i32 s = Some z <-> reads_i32 s z. Proof. apply C75_integers. Qed.
Lemma reads_i16_iff s z : parse_i16 s = Some z <-> reads_i16 s z. Proof. apply C75_integers. Qed.
Lemma reads_null_iff s o : parse_i32 s = o <-> reads_nullable s o.
Proof.
  destruct o as [z|]; cbn [reads_nullable]; [apply reads_i32_iff|]. split.
  - intros E z R. apply reads_i32_iff in R. congruence.
  - intros N. destruct (parse_i32 s) as [z|] eqn:E; auto. apply reads_i32_iff in E. destruct (N z E).
Qed.
Lemma reads_text_iff u c s : unescaped u c = s <-> reads_text u c s.
Proof.
  unfold unescaped, reads_text. destruct (u c) as [x|]; split.
  - intros ->; auto.
  - intros [[= ->]|(H & _)]; [auto|discriminate].
  - intros ->; auto.
  - intros [H|(_ & ->)]; [discriminate|auto].
Qed.

(** conversions never fail with an error: they succeed or panic *)
Definition no_err {A} (x : res A) : Prop := x <> Err.
Lemma no_err_bind {A B} (x : res A) (f : A -> res B) : no_err x -> (forall a, no_err (f a)) -> no_err (bind x f).
Proof. unfold no_err. intros X F. destruct x; cbn; auto; congruence. Qed.
Lemma no_err_unwrap {A} (o : option A) : no_err (unwrap o).
Proof. destruct o; discriminate. Qed.
Lemma no_err_col fs cells k : no_err (col fs cells k).
Proof. unfold col. destruct (nth_error fs k); [apply no_err_unwrap|discriminate]. Qed.
Lemma no_err_map {A B} (f : A -> res B) l : (forall a, no_err (f a)) -> no_err (res_map f l).
Proof. intros F. induction l; cbn; [discriminate|]. apply no_err_bind; auto. intros b. apply no_err_bind; auto. discriminate. Qed.
Lemma exactly {A} (x : res A) (P : A -> Prop) : no_err x -> (forall r, x = Ok r <-> P r) -> reads_exactly x P.
Proof. intros N H. split; auto. intros NP. destruct x as [a| |]; auto; [destruct (NP a); apply H; auto|destruct N; auto]. Qed.
Ltac noerr := repeat (apply no_err_bind; [first [apply no_err_unwrap|apply no_err_col|apply no_err_map; intros ?; apply no_err_col]|intros ?]); discriminate.
Ltac inv_binds H := repeat match type of H with
  | bind ?x _ = Ok _ => let E := fresh "E" in destruct x eqn:E; cbn [bind] in H; try discriminate H
  end.
Lemma unwrap_ok {A} (o : option A) a : unwrap o = Ok a <-> o = Some a.
Proof. destruct o; cbn; split; try discriminate; intros [= ->]; auto. Qed.
Lemma plain_columns cells line : copy_line cells line -> Forall (fun c => ~ In x09 c /\ ~ In x0a c) cells -> columns line = cells.
Proof.
  intros H C. destruct (copy_line_app _ _ H) as (t & -> & ->). unfold columns. rewrite rev_unit. cbn [drop_lf]. rewrite beqb_refl.
  rewrite drop_lf_no, rev_involutive.
  2:{ intros I. apply in_rev in I. revert I. apply join_no_lf. eapply Forall_impl; [|exact C]. intros a (_ & N). exact N. }
  destruct cells as [|c r]; [inversion H|]. rewrite join_flat. apply split_unique. eapply Forall_impl; [|exact C]. intros a (N & _). exact N.
Qed.

Section Rows.
Variables (names cells : list bytes) (line : bytes).
Hypothesis CL : columns line = cells.
Section One.
Variables (t : table) (file : bytes) (td : table_def).
Hypothesis TD : table_def_new t file names = Ok td.
Lemma col_under k v : nth_error (field_names t) k = Some v -> forall s, col (td_fields td) cells k = Ok s <-> under names cells v s.
Proof.
  intros K s. unfold table_def_new in TD. destruct (res_map (field_index names) (field_names t)) as [fs| |] eqn:E; try discriminate.
  cbn [bind] in TD. destruct (res_map _ (key_names t)); try discriminate. cbn [bind] in TD. injection TD as <-. cbn [td_fields].
  apply (fields_under names cells _ _ E k v K).
Qed.
End One.
(** turn the equations of a successful call into facts about the row *)
Ltac facts TD := repeat match goal with
  | E : col (td_fields _) cells ?k = Ok _ |- _ => apply (col_under _ _ _ TD k _ eq_refl) in E
  | E : unwrap _ = Ok _ |- _ => apply unwrap_ok in E
  | E : parse_i64 _ = Some _ |- _ => apply reads_i64_iff in E
  | E : parse_i32 _ = Some _ |- _ => apply reads_i32_iff in E
  | E : parse_i16 _ = Some _ |- _ => apply reads_i16_iff in E
  | E : parse_sql_bool _ = Some _ |- _ => apply C75_booleans in E
  | E : parse_sql_time _ = Some _ |- _ => apply C75_times in E
  | E : parse_member_type _ = Some _ |- _ => apply C75_member_kinds in E
  end.
Ltac give := first
  [ eassumption | apply reads_null_iff; reflexivity | apply reads_text_iff; reflexivity ].
Ltac haves := repeat match goal with
  | |- _ /\ _ => split
  | |- has _ _ _ _ _ => eexists; split; [eassumption|give]
  end.
(** turn the facts about a row into equations *)
Ltac equations TD := repeat match goal with
  | H : _ /\ _ |- _ => destruct H
  | H : has _ _ _ _ _ |- _ => destruct H as (? & ? & ?)
  | E : under names cells ?v _ |- _ => (eapply (col_under _ _ _ TD) in E; [|reflexivity]) || fail 1
  end.
Ltac conv := repeat match goal with
  | E : reads_i64 _ _ |- _ => apply reads_i64_iff in E
  | E : reads_i32 _ _ |- _ => apply reads_i32_iff in E
  | E : reads_i16 _ _ |- _ => apply reads_i16_iff in E
  | E : reads_nullable _ _ |- _ => apply reads_null_iff in E
  | E : reads_bool _ _ |- _ => apply C75_booleans in E
  | E : reads_time _ _ |- _ => apply C75_times in E
  | E : reads_kind _ _ |- _ => apply C75_member_kinds in E
  | E : reads_text _ _ _ |- _ => apply reads_text_iff in E
  end.
Ltac use TD n v := match goal with E : under names cells (str v) _ |- _ => apply (col_under _ _ _ TD n (str v) eq_refl) in E; rewrite E; cbn [bind] end.
Ltac rw := repeat match goal with
  | E : ?x = ?v |- context [?x] => rewrite E; cbn [bind unwrap]
  end.

Lemma node_exact file td : table_def_new T_nodes file names = Ok td -> reads_exactly (create_node (td_fields td) line) (node_row names cells).
Proof.
  intros TD. apply exactly; [unfold create_node; noerr|]. intros r. unfold create_node, node_row. rewrite CL. split.
  - intros H. inv_binds H. injection H as <-. facts TD. haves.
  - intros H. repeat match goal with H : _ /\ _ |- _ => destruct H | H : has _ _ _ _ _ |- _ => destruct H as (? & ? & ?) end.
    use TD 0%nat "node_id"%string. use TD 1%nat "latitude"%string. use TD 2%nat "longitude"%string. use TD 3%nat "changeset_id"%string. use TD 4%nat "visible"%string.
    use TD 5%nat """timestamp"""%string. use TD 6%nat "tile"%string. use TD 7%nat "version"%string. use TD 8%nat "redaction_id"%string.
    conv. rw. destruct r; reflexivity.
Qed.
Ltac open_row := repeat match goal with H : _ /\ _ |- _ => destruct H | H : has _ _ _ _ _ |- _ => destruct H as (? & ? & ?) end.
Section Unescape.
Variable unescape : bytes -> option bytes.
Lemma node_tag_exact file td : table_def_new T_node_tags file names = Ok td ->
  reads_exactly (create_node_tag unescape (td_fields td) line) (tag_row unescape names cells "node_id").
Proof.
  intros TD. apply exactly; [unfold create_node_tag; noerr|]. intros r. unfold create_node_tag, tag_row. rewrite CL. split.
  - intros H. inv_binds H. injection H as <-. facts TD. haves.
  - intros H. open_row. use TD 0%nat "node_id"%string. use TD 1%nat "version"%string. use TD 2%nat "k"%string. use TD 3%nat "v"%string.
    conv. rw. destruct r; reflexivity.
Qed.
Lemma way_tag_exact file td : table_def_new T_way_tags file names = Ok td ->
  reads_exactly (create_tag unescape (td_fields td) line) (tag_row unescape names cells "way_id").
Proof.
  intros TD. apply exactly; [unfold create_tag; noerr|]. intros r. unfold create_tag, tag_row. rewrite CL. split.
  - intros H. inv_binds H. injection H as <-. facts TD. haves.
  - intros H. open_row. use TD 0%nat "way_id"%string. use TD 3%nat "version"%string. use TD 1%nat "k"%string. use TD 2%nat "v"%string.
    conv. rw. destruct r; reflexivity.
Qed.
Lemma relation_tag_exact file td : table_def_new T_relation_tags file names = Ok td ->
  reads_exactly (create_tag unescape (td_fields td) line) (tag_row unescape names cells "relation_id").
Proof.
  intros TD. apply exactly; [unfold create_tag; noerr|]. intros r. unfold create_tag, tag_row. rewrite CL. split.
  - intros H. inv_binds H. injection H as <-. facts TD. haves.
  - intros H. open_row. use TD 0%nat "relation_id"%string. use TD 3%nat "version"%string. use TD 1%nat "k"%string. use TD 2%nat "v"%string.
    conv. rw. destruct r; reflexivity.
Qed.
Lemma member_exact file td : table_def_new T_relation_members file names = Ok td ->
  reads_exactly (create_relation_member unescape (td_fields td) line) (member_row unescape names cells).
Proof.
  intros TD. apply exactly; [unfold create_relation_member; noerr|]. intros r. unfold create_relation_member, member_row. rewrite CL. split.
  - intros H. inv_binds H. injection H as <-. facts TD. haves.
  - intros H. open_row. use TD 0%nat "relation_id"%string. use TD 1%nat "member_type"%string. use TD 2%nat "member_id"%string.
    use TD 3%nat "member_role"%string. use TD 4%nat "version"%string. use TD 5%nat "sequence_id"%string.
    conv. rw. destruct r; reflexivity.
Qed.
End Unescape.
Lemma way_exact file td : table_def_new T_ways file names = Ok td -> reads_exactly (create_obj (td_fields td) line) (object_row names cells "way_id").
Proof.
  intros TD. apply exactly; [unfold create_obj; noerr|]. intros r. unfold create_obj, object_row. rewrite CL. split.
  - intros H. inv_binds H. injection H as <-. facts TD. haves.
  - intros H. open_row. use TD 0%nat "way_id"%string. use TD 1%nat "changeset_id"%string. use TD 2%nat """timestamp"""%string.
    use TD 3%nat "version"%string. use TD 4%nat "visible"%string. use TD 5%nat "redaction_id"%string.
    conv. rw. destruct r; reflexivity.
Qed.
Lemma relation_exact file td : table_def_new T_relations file names = Ok td -> reads_exactly (create_obj (td_fields td) line) (object_row names cells "relation_id").
Proof.
  intros TD. apply exactly; [unfold create_obj; noerr|]. intros r. unfold create_obj, object_row. rewrite CL. split.
  - intros H. inv_binds H. injection H as <-. facts TD. haves.
  - intros H. open_row. use TD 0%nat "relation_id"%string. use TD 1%nat "changeset_id"%string. use TD 2%nat """timestamp"""%string.
    use TD 3%nat "version"%string. use TD 4%nat "visible"%string. use TD 5%nat "redaction_id"%string.
    conv. rw. destruct r; reflexivity.
Qed.
Lemma way_node_exact file td : table_def_new T_way_nodes file names = Ok td -> reads_exactly (create_way_node (td_fields td) line) (way_node_row names cells).
Proof.
  intros TD. apply exactly; [unfold create_way_node; noerr|]. intros r. unfold create_way_node, way_node_row. rewrite CL. split.
  - intros H. inv_binds H. injection H as <-. facts TD. haves.
  - intros H. open_row. use TD 0%nat "way_id"%string. use TD 1%nat "node_id"%string. use TD 2%nat "version"%string. use TD 3%nat "sequence_id"%string.
    conv. rw. destruct r; reflexivity.
Qed.
Lemma changeset_exact file td : table_def_new T_changesets file names = Ok td -> reads_exactly (create_changeset (td_fields td) line) (changeset_row names cells).
Proof.
  intros TD. apply exactly; [unfold create_changeset; noerr|]. intros r. unfold create_changeset, changeset_row. rewrite CL. split.
  - intros H. inv_binds H. injection H as <-. facts TD. haves.
  - intros H. open_row. use TD 0%nat "id"%string. use TD 1%nat "user_id"%string. use TD 2%nat "created_at"%string.
    use TD 3%nat "min_lat"%string. use TD 4%nat "max_lat"%string. use TD 5%nat "min_lon"%string. use TD 6%nat "max_lon"%string.
    use TD 7%nat "closed_at"%string. use TD 8%nat "num_changes"%string.
    conv. rw. destruct r; reflexivity.
Qed.
Lemma res_map_nth {A B} (f : A -> res B) : forall l bs, res_map f l = Ok bs <-> Forall2 (fun a b => f a = Ok b) l bs.
Proof.
  induction l as [|a l IH]; intros bs; cbn.
  - split; [intros [= <-]; constructor|]. intros H; inversion H; auto.
  - split.
    + intros H. inv_binds H. injection H as <-. constructor; auto. apply IH; auto.
    + intros H. inversion H as [|? b ? bs' H1 H2]; subst. rewrite H1. cbn [bind]. rewrite (proj2 (IH bs') H2). reflexivity.
Qed.
Lemma in_existsb_iff s l : existsb (bytes_eqb s) l = true <-> In s l.
Proof.
  rewrite existsb_exists. split; [intros (x & I & E); apply bytes_eqb_eq in E; subst; auto|]. intros I. exists s. split; auto. apply bytes_eqb_refl.
Qed.
Lemma status_iff s : parse_status s = Some tt <-> In s [str "pending"; str "active"; str "confirmed"; str "suspended"; str "deleted"].
Proof. unfold parse_status. rewrite <- in_existsb_iff. destruct (existsb _ _); split; auto; discriminate. Qed.
Lemma format_iff s : parse_format s = Some tt <-> In s [str "html"; str "markdown"; str "text"].
Proof. unfold parse_format. rewrite <- in_existsb_iff. destruct (existsb _ _); split; auto; discriminate. Qed.
Lemma user_exact file td : table_def_new T_users file names = Ok td -> reads_exactly (create_user (td_fields td) line) (user_row names cells).
Proof.
  intros TD. apply exactly; [unfold create_user; apply no_err_bind; [apply no_err_map; intros ?; apply no_err_col|intros ?; cbv zeta; noerr]|].
  intros r. unfold create_user. rewrite CL. clear CL. split.
  - intros H. destruct (res_map _ (seq 0 29)) as [all| |] eqn:EA; cbn [bind] in H; try discriminate H.
    apply res_map_nth in EA. cbn [seq] in EA.
    repeat match goal with F : Forall2 _ (_ :: _) _ |- _ => inversion F; clear F; subst | F : Forall2 _ [] _ |- _ => inversion F; clear F; subst end.
    cbn [nth_error unwrap bind] in H. inv_binds H. injection H as <-. facts TD.
    repeat match goal with x : unit |- _ => destruct x end.
    repeat match goal with
    | E : parse_status _ = Some tt |- _ => apply status_iff in E
    | E : parse_format _ = Some tt |- _ => apply format_iff in E
    end.
    unfold user_row, has_some, has.
    split; [eexists; split; eassumption|]. split; [eexists; split; [eassumption|reflexivity]|].
    split; [eexists; eexists; split; eassumption|]. split; [eexists; eexists; split; eassumption|].
    split; [repeat (constructor; [eexists; eexists; split; eassumption|]); constructor|].
    split; [repeat (constructor; [eexists; eexists; split; eassumption|]); constructor|].
    split; [eexists; split; [eexists; split; [eassumption|reflexivity]|assumption]|].
    split; [eexists; split; [eexists; split; [eassumption|reflexivity]|assumption]|].
    repeat (constructor; [eexists; eexists; split; [eassumption|reflexivity]|]); constructor.
  - unfold user_row. intros (H1 & H2 & H3 & H4 & H5 & H6 & (s1 & H7 & I1) & (s2 & H8 & I2) & H9).
    repeat match goal with F : Forall _ (_ :: _) |- _ => inversion F; clear F; subst | F : Forall _ [] |- _ => clear F end.
    unfold has_some in *. repeat match goal with H : exists _, _ |- _ => destruct H end. open_row.
    assert (exists all, res_map (col (td_fields td) cells) (seq 0 29) = Ok all /\ forall k v s, nth_error (field_names T_users) k = Some v -> under names cells v s -> nth_error all k = Some s) as (all & EA & NA).
    { assert (G : forall k v, nth_error (field_names T_users) k = Some v -> exists s, col (td_fields td) cells k = Ok s).
      { intros k v K. assert (exists s, under names cells v s) as (s & U).
        { do 29 (destruct k as [|k]; [cbn in K; injection K as <-; eexists; eassumption|]). destruct k; discriminate K. }
        exists s. eapply (col_under _ _ _ TD); eauto. }
      assert (G' : forall n, (n <= 29)%nat -> forall m, (n + m = 29)%nat -> exists bs, res_map (col (td_fields td) cells) (seq m n) = Ok bs /\ forall j, (j < n)%nat -> exists s, nth_error bs j = Some s /\ col (td_fields td) cells (m + j) = Ok s).
      { induction n as [|n IH]; intros L m E; cbn [seq res_map].
        - exists []. split; auto. intros j J; lia.
        - destruct (IH ltac:(lia) (S m) ltac:(lia)) as (bs & B1 & B2). destruct (nth_error (field_names T_users) m) as [v|] eqn:K.
          + destruct (G m v K) as (s & CS). exists (s :: bs). rewrite CS. cbn [bind]. rewrite B1. split; auto. intros [|j] J.
            * exists s. rewrite Nat.add_0_r. auto.
            * destruct (B2 j ltac:(lia)) as (s' & N & C). exists s'. split; auto. replace (m + S j)%nat with (S m + j)%nat by lia. auto.
          + apply nth_error_None in K. cbn in K. lia. }
      destruct (G' 29%nat (le_n _) 0%nat eq_refl) as (bs & B1 & B2). exists bs. split; auto. intros k v s K U.
      assert (k < 29)%nat as LK by (assert (X : nth_error (field_names T_users) k <> None) by congruence; apply nth_error_Some in X; exact X).
      destruct (B2 k LK) as (s' & N & C). cbn [plus] in C. apply (col_under _ _ _ TD k v K) in U. congruence. }
    rewrite EA. cbn [bind]. cbv zeta.
    Ltac nu NA n v := match goal with E : under names cells (str v) _ |- _ => rewrite (NA n (str v) _ eq_refl E); cbn [bind unwrap] end.
    apply status_iff in I1. apply format_iff in I2. subst s1 s2. conv.
    nu NA 1%nat "id"%string. rw. nu NA 3%nat "creation_time"%string. rw. nu NA 4%nat "display_name"%string.
    nu NA 5%nat "data_public"%string. rw. nu NA 9%nat "home_zoom"%string. rw. nu NA 11%nat "email_valid"%string. rw.
    nu NA 15%nat "status"%string. rw. nu NA 17%nat "consider_pd"%string. rw. nu NA 20%nat "terms_seen"%string. rw.
    nu NA 21%nat "description_format"%string. rw. nu NA 22%nat "changesets_count"%string. rw. nu NA 23%nat "traces_count"%string. rw.
    nu NA 24%nat "diary_entries_count"%string. rw. nu NA 25%nat "image_use_gravatar"%string. rw.
    destruct r; cbn in *; congruence.
Qed.
End Rows.

(** C75: a row of a table is read if and only if every column the table needs is there with a text
    that means something, and then as what it says; any other row makes the reader panic. *)
Theorem C75_rows : forall unescape file names cells line td,
  copy_line cells line -> Forall (fun c => ~ In x09 c /\ ~ In x0a c) cells ->
  (table_def_new T_nodes file names = Ok td -> reads_exactly (create_node (td_fields td) line) (node_row names cells)) /\
  (table_def_new T_node_tags file names = Ok td -> reads_exactly (create_node_tag unescape (td_fields td) line) (tag_row unescape names cells "node_id")) /\
  (table_def_new T_ways file names = Ok td -> reads_exactly (create_obj (td_fields td) line) (object_row names cells "way_id")) /\
  (table_def_new T_way_nodes file names = Ok td -> reads_exactly (create_way_node (td_fields td) line) (way_node_row names cells)) /\
  (table_def_new T_way_tags file names = Ok td -> reads_exactly (create_tag unescape (td_fields td) line) (tag_row unescape names cells "way_id")) /\
  (table_def_new T_relations file names = Ok td -> reads_exactly (create_obj (td_fields td) line) (object_row names cells "relation_id")) /\
  (table_def_new T_relation_members file names = Ok td -> reads_exactly (create_relation_member unescape (td_fields td) line) (member_row unescape names cells)) /\
  (table_def_new T_relation_tags file names = Ok td -> reads_exactly (create_tag unescape (td_fields td) line) (tag_row unescape names cells "relation_id")) /\
  (table_def_new T_changesets file names = Ok td -> reads_exactly (create_changeset (td_fields td) line) (changeset_row names cells)) /\
  (table_def_new T_users file names = Ok td -> reads_exactly (create_user (td_fields td) line) (user_row names cells)).
Proof.
  intros unescape file names cells line td CP CN. pose proof (plain_columns _ _ CP CN) as CL.
  split; [apply (node_exact _ _ _ CL)|]. split; [apply (node_tag_exact _ _ _ CL)|]. split; [apply (way_exact _ _ _ CL)|].
  split; [apply (way_node_exact _ _ _ CL)|]. split; [apply (way_tag_exact _ _ _ CL)|]. split; [apply (relation_exact _ _ _ CL)|].
  split; [apply (member_exact _ _ _ CL)|]. split; [apply (relation_tag_exact _ _ _ CL)|]. split; [apply (changeset_exact _ _ _ CL)|apply (user_exact _ _ _ CL)].
Qed.
