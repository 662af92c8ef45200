(** Rounding analysis of the coordinate conversions (Flocq). *)
From Coq Require Import ZArith Reals Lia Lra Psatz Floats.SpecFloat Bool.
From Flocq Require Import Core Relative BinarySingleNaN Operations.
From Verif Require Import Base BaseFacts Types Block.
Open Scope Z_scope.

(** ** from spec_float to Flocq *)

Definition fprec : Z := 53.
Definition femax : Z := 1024.
Local Instance Hprec : Prec_gt_0 53 := eq_refl.
Local Instance Hmax : Prec_lt_emax 53 1024 := eq_refl.
Notation bfloat := (binary_float 53 1024).
Notation fexp := (SpecFloat.fexp 53 1024).
Notation rnd := (round radix2 fexp ZnearestE).

(** an actual binary64 value *)
Definition f_valid (x : f64) : Prop := SpecFloat.valid_binary 53 1024 x = true.
Definition f_finite (x : f64) : Prop := is_finite_SF x = true.
(** its real value *)
Definition f2r (x : f64) : R := SF2R radix2 x.

Lemma round_nearest_even_equiv s m l :
  round_nearest_even m l = choice_mode mode_NE s m l.
Proof.
  unfold round_nearest_even. destruct l as [|c]; [reflexivity|].
  destruct c; try reflexivity. cbn. unfold Round.cond_incr. destruct (Z.even m); reflexivity.
Qed.
Lemma binary_round_aux_equiv sx mx ex lx :
  SpecFloat.binary_round_aux 53 1024 sx mx ex lx = BinarySingleNaN.binary_round_aux 53 1024 mode_NE sx mx ex lx.
Proof.
  unfold SpecFloat.binary_round_aux, BinarySingleNaN.binary_round_aux.
  set (mrse' := shr_fexp _ _ _ _ _). destruct mrse' as [mrs' e']. simpl.
  rewrite (round_nearest_even_equiv sx). reflexivity.
Qed.
Lemma binary_round_equiv s m e :
  SpecFloat.binary_round 53 1024 s m e = BinarySingleNaN.binary_round 53 1024 mode_NE s m e.
Proof.
  unfold SpecFloat.binary_round, BinarySingleNaN.binary_round, shl_align_fexp.
  set (mez := shl_align _ _ _); destruct mez as [mz ez]. apply binary_round_aux_equiv.
Qed.
Lemma binary_normalize_equiv m e szero :
  SpecFloat.binary_normalize 53 1024 m e szero = B2SF (BinarySingleNaN.binary_normalize 53 1024 Hprec Hmax mode_NE m e szero).
Proof.
  destruct m as [|p|p]; [reflexivity| |]; simpl; rewrite B2SF_SF2B; apply binary_round_equiv.
Qed.

Lemma fmul_B (x y : bfloat) : fmul (B2SF x) (B2SF y) = B2SF (Bmult mode_NE x y).
Proof.
  unfold fmul. destruct x as [sx|sx| |sx mx ex Bx]; destruct y as [sy|sy| |sy my ey By]; try reflexivity.
  simpl. rewrite B2SF_SF2B. apply binary_round_aux_equiv.
Qed.
Lemma fdiv_B (x y : bfloat) : fdiv (B2SF x) (B2SF y) = B2SF (Bdiv mode_NE x y).
Proof.
  unfold fdiv. destruct x as [sx|sx| |sx mx ex Bx]; destruct y as [sy|sy| |sy my ey By]; try reflexivity.
  simpl. rewrite B2SF_SF2B. set (melz := SFdiv_core_binary _ _ _ _ _ _). destruct melz as [[mz ez] lz].
  apply binary_round_aux_equiv.
Qed.
Lemma fsub_B (x y : bfloat) : fsub (B2SF x) (B2SF y) = B2SF (Bminus mode_NE x y).
Proof.
  unfold fsub. destruct x as [sx|sx| |sx mx ex Bx]; destruct y as [sy|sy| |sy my ey By]; try reflexivity;
    try (simpl; destruct (Bool.eqb _ _); reflexivity).
  simpl. unfold Z.sub. rewrite <- cond_Zopp_negb. apply binary_normalize_equiv.
Qed.

Lemma f_valid_B x : f_valid x -> exists b : bfloat, B2SF b = x.
Proof. intros H. exists (SF2B x H). apply B2SF_SF2B. Qed.
Lemma B_valid (b : bfloat) : f_valid (B2SF b).
Proof. apply valid_binary_B2SF. Qed.
Lemma f2r_B (b : bfloat) : f2r (B2SF b) = B2R b.
Proof. unfold f2r. destruct b; reflexivity. Qed.
Lemma fin_B (b : bfloat) : f_finite (B2SF b) <-> is_finite b = true.
Proof. unfold f_finite. rewrite is_finite_SF_B2SF. reflexivity. Qed.

(** a valid finite float with a given real value *)
Definition is_f (x : f64) (r : R) : Prop := f_valid x /\ f_finite x /\ f2r x = r.

Lemma big_1023 : (bpow radix2 1023 < bpow radix2 1024)%R.
Proof. apply bpow_lt; lia. Qed.
Lemma rnd_bound r : (Rabs r <= bpow radix2 1023)%R -> (Rabs (rnd r) < bpow radix2 1024)%R.
Proof.
  intros H. apply Rle_lt_trans with (bpow radix2 1023); [|apply big_1023].
  apply abs_round_le_generic; auto with typeclass_instances.
  - apply fexp_correct; reflexivity.
  - apply generic_format_bpow. vm_compute. discriminate.
Qed.

Lemma fmul_ok x y a b : is_f x a -> is_f y b -> (Rabs (a * b) <= bpow radix2 1023)%R -> is_f (fmul x y) (rnd (a * b)).
Proof.
  intros (Vx & Fx & <-) (Vy & Fy & <-) H.
  destruct (f_valid_B _ Vx) as [bx <-]. destruct (f_valid_B _ Vy) as [by' <-].
  rewrite fmul_B. rewrite !f2r_B in *. apply fin_B in Fx, Fy.
  pose proof (Bmult_correct _ _ Hprec Hmax mode_NE bx by') as C. cbv zeta in C.
  rewrite Rlt_bool_true in C by (apply rnd_bound; auto).
  destruct C as (C1 & C2 & _). rewrite Fx, Fy in C2.
  split; [apply B_valid|]. split; [apply fin_B; exact C2|]. rewrite f2r_B. exact C1.
Qed.
Lemma fdiv_ok x y a b : is_f x a -> is_f y b -> b <> 0%R -> (Rabs (a / b) <= bpow radix2 1023)%R -> is_f (fdiv x y) (rnd (a / b)).
Proof.
  intros (Vx & Fx & <-) (Vy & Fy & <-) Hb H.
  destruct (f_valid_B _ Vx) as [bx <-]. destruct (f_valid_B _ Vy) as [by' <-].
  rewrite fdiv_B. rewrite !f2r_B in *. apply fin_B in Fx, Fy.
  pose proof (Bdiv_correct _ _ Hprec Hmax mode_NE bx by' Hb) as C. cbv zeta in C.
  rewrite Rlt_bool_true in C by (apply rnd_bound; auto).
  destruct C as (C1 & C2 & _). rewrite Fx in C2.
  split; [apply B_valid|]. split; [apply fin_B; exact C2|]. rewrite f2r_B. exact C1.
Qed.
Lemma fsub_ok x y a b : is_f x a -> is_f y b -> (Rabs (a - b) <= bpow radix2 1023)%R -> is_f (fsub x y) (rnd (a - b)).
Proof.
  intros (Vx & Fx & <-) (Vy & Fy & <-) H.
  destruct (f_valid_B _ Vx) as [bx <-]. destruct (f_valid_B _ Vy) as [by' <-].
  rewrite fsub_B. rewrite !f2r_B in *. apply fin_B in Fx, Fy.
  pose proof (Bminus_correct _ _ Hprec Hmax mode_NE bx by' Fx Fy) as C. cbv zeta in C.
  rewrite Rlt_bool_true in C by (apply rnd_bound; auto).
  destruct C as (C1 & C2 & _).
  split; [apply B_valid|]. split; [apply fin_B; exact C2|]. rewrite f2r_B. exact C1.
Qed.
Lemma f_of_Z_rnd z : (Rabs (IZR z) <= bpow radix2 1023)%R -> is_f (f_of_Z z) (rnd (IZR z)).
Proof.
  intros H. unfold f_of_Z. rewrite binary_normalize_equiv.
  pose proof (binary_normalize_correct _ _ Hprec Hmax mode_NE z 0 false) as C. cbv zeta in C.
  assert (E : F2R (Float radix2 z 0) = IZR z) by (unfold F2R; cbn; ring).
  rewrite E in C. rewrite Rlt_bool_true in C by (apply rnd_bound; auto).
  destruct C as (C1 & C2 & _).
  split; [apply B_valid|]. split; [apply fin_B; exact C2|]. rewrite f2r_B. exact C1.
Qed.
Lemma rnd_int z : Z.abs z <= 9007199254740992 -> rnd (IZR z) = IZR z.
Proof.
  intros H. apply round_generic; auto with typeclass_instances.
  destruct (Z.eq_dec (Z.abs z) 9007199254740992) as [E|NE].
  - assert (G : generic_format radix2 fexp (bpow radix2 53)) by (apply generic_format_bpow; vm_compute; discriminate).
    replace (IZR z) with (if z <? 0 then - bpow radix2 53 else bpow radix2 53)%R.
    + destruct (z <? 0); [apply generic_format_opp|]; exact G.
    + cbn. destruct (z <? 0) eqn:S; [rewrite <- opp_IZR|]; apply f_equal; lia.
  - change fexp with (FLT_exp (-1074) 53).
    apply generic_format_FLT. exists (Float radix2 z 0).
    + unfold F2R; cbn; ring.
    + cbn [Fnum]. change (radix2 ^ 53) with 9007199254740992. lia.
    + cbn. lia.
Qed.
Lemma IZR_1023 z : Z.abs z <= 9007199254740992 -> (Rabs (IZR z) <= bpow radix2 1023)%R.
Proof.
  intros H. rewrite <- abs_IZR. apply Rle_trans with (IZR 9007199254740992); [apply IZR_le; lia|].
  change (IZR 9007199254740992) with (bpow radix2 53). apply bpow_le; lia.
Qed.
Lemma f_of_Z_ok z : Z.abs z <= 9007199254740992 -> is_f (f_of_Z z) (IZR z).
Proof. intros H. pose proof (f_of_Z_rnd z (IZR_1023 z H)) as P. rewrite rnd_int in P by auto. exact P. Qed.

Lemma small_1023 r : (Rabs r <= 1000000000000000)%R -> (Rabs r <= bpow radix2 1023)%R.
Proof.
  intros H. apply Rle_trans with (bpow radix2 53); [change (bpow radix2 53) with 9007199254740992%R; lra|]. apply bpow_le; lia.
Qed.

(** ** rounding error: relative 2^-53 plus 2^-1075 *)
Definition uu : R := (/ 9007199254740992)%R.
Lemma rnd_err r : (Rabs (rnd r - r) <= uu * Rabs r + / 1000000000000000000)%R.
Proof.
  destruct (Rle_or_lt (bpow radix2 (-1022)) (Rabs r)) as [H|H].
  - pose proof (relative_error_N_FLT radix2 (-1074) 53 Hprec (fun n => negb (Z.even n)) r) as E.
    change (-1074 + 53 - 1) with (-1022) in E. specialize (E H).
    change (FLT_exp (-1074) 53) with fexp in E. unfold ZnearestE.
    change (bpow radix2 (- (53) + 1)) with (/ 4503599627370496)%R in E.
    eapply Rle_trans; [exact E|]. unfold uu. pose proof (Rabs_pos r). set (a := Rabs r) in *. clearbody a. lra.
  - assert (E : (Rabs (rnd r - r) <= / 2 * ulp radix2 fexp r)%R).
    { apply error_le_half_ulp; auto with typeclass_instances. apply fexp_correct; reflexivity. }
    assert (U : (ulp radix2 fexp r <= / 1000000000000000000)%R).
    { change fexp with (FLT_exp (-1074) 53). rewrite ulp_FLT_small.
      - apply Rle_trans with (bpow radix2 (-64)); [apply bpow_le; lia|].
        assert (B : bpow radix2 (-64) = (/ 18446744073709551616)%R) by reflexivity. rewrite B. lra.
      - reflexivity.
      - apply Rlt_le_trans with (1 := H). apply bpow_le. lia. }
    unfold uu. pose proof (Rabs_pos r). lra.
Qed.

(** ** conversion to integers *)

Lemma f2r_finite s m e : f2r (S754_finite s m e) = (if s then - (IZR (Zpos m) * bpow radix2 e) else IZR (Zpos m) * bpow radix2 e)%R.
Proof.
  unfold f2r, SF2R, F2R. cbn [Fnum Fexp]. destruct s; cbn [cond_Zopp]; [|reflexivity].
  rewrite opp_IZR. ring.
Qed.

Lemma pow2_pos e : 0 <= e -> 0 < 2 ^ e.
Proof. intros. apply Z.pow_pos_nonneg; lia. Qed.
Lemma bpow_Z e : 0 <= e -> bpow radix2 e = IZR (2 ^ e).
Proof. intros H. rewrite <- IZR_Zpower by auto. reflexivity. Qed.
Lemma bpow_neg e : e < 0 -> bpow radix2 e = (/ IZR (2 ^ (- e)))%R.
Proof. intros H. replace e with (- - e) at 1 by lia. rewrite bpow_opp, bpow_Z by lia. reflexivity. Qed.

(** floor(m*2^e + 1/2), and floor *)
Lemma round_mag_spec m e :
  let r := (IZR (Zpos m) * bpow radix2 e)%R in
  (r - /2 < IZR (round_mag m e) <= r + /2)%R.
Proof.
  cbv zeta. unfold round_mag. destruct (0 <=? e) eqn:E.
  - rewrite mult_IZR, bpow_Z by lia. lra.
  - rewrite bpow_neg by lia.
    assert (P : 0 < 2 ^ (- e)) by (apply pow2_pos; lia).
    assert (Q : 2 * 2 ^ (- e - 1) = 2 ^ (- e)).
    { rewrite <- (Z.pow_1_r 2) at 1. rewrite <- Z.pow_add_r by lia. f_equal. lia. }
    set (d := 2 ^ (- e)) in *. set (h := 2 ^ (- e - 1)) in *.
    pose proof (Z.mul_div_le (Zpos m + h) d P) as L1.
    pose proof (Z.mul_succ_div_gt (Zpos m + h) d P) as L2.
    set (q := (Zpos m + h) / d) in *.
    assert (PR : (0 < IZR d)%R) by (apply IZR_lt; lia).
    apply IZR_le in L1. apply IZR_lt in L2. apply (f_equal IZR) in Q.
    rewrite ?mult_IZR, ?plus_IZR, ?succ_IZR in *.
    assert (X : (IZR (Zpos m) * / IZR d * IZR d = IZR (Zpos m))%R) by (field; lra).
    set (r := (IZR (Zpos m) * / IZR d)%R) in *. nra.
Qed.
Lemma trunc_mag_spec m e :
  let r := (IZR (Zpos m) * bpow radix2 e)%R in
  (r - 1 < IZR (trunc_mag m e) <= r)%R.
Proof.
  cbv zeta. unfold trunc_mag. destruct (0 <=? e) eqn:E.
  - rewrite mult_IZR, bpow_Z by lia. lra.
  - rewrite bpow_neg by lia.
    assert (P : 0 < 2 ^ (- e)) by (apply pow2_pos; lia).
    set (d := 2 ^ (- e)) in *.
    pose proof (Z.mul_div_le (Zpos m) d P) as L1.
    pose proof (Z.mul_succ_div_gt (Zpos m) d P) as L2.
    set (q := (Zpos m) / d) in *.
    assert (PR : (0 < IZR d)%R) by (apply IZR_lt; lia).
    apply IZR_le in L1. apply IZR_lt in L2.
    rewrite ?mult_IZR, ?plus_IZR, ?succ_IZR in *.
    assert (X : (IZR (Zpos m) * / IZR d * IZR d = IZR (Zpos m))%R) by (field; lra).
    set (r := (IZR (Zpos m) * / IZR d)%R) in *. nra.
Qed.

Lemma clamp_id lo hi z : lo <= z <= hi -> clamp lo hi z = z.
Proof. intros H. unfold clamp. destruct (z <? lo) eqn:?; [lia|]. destruct (hi <? z) eqn:?; lia. Qed.

(** round half away from zero, as an integer within half of the real value *)
Lemma f_round_spec x r : is_f x r -> (Rabs r <= 1000000000000000000)%R ->
  (Rabs (IZR (f_round_i64 x) - r) <= /2)%R.
Proof.
  intros (V & F & <-) H. destruct x as [s|s| |s m e]; try discriminate F.
  - unfold f2r, f_round_i64, f_int, SF2R. replace (0 - 0)%R with 0%R by ring. rewrite Rabs_R0. lra.
  - pose proof (round_mag_spec m e) as S. cbv zeta in S. rewrite f2r_finite in *.
    set (a := (IZR (Zpos m) * bpow radix2 e)%R) in *.
    assert (A : (0 <= a)%R) by (apply Rmult_le_pos; [apply IZR_le; lia|apply bpow_ge_0]).
    assert (AB : (a <= 1000000000000000000)%R).
    { destruct s; [rewrite Rabs_Ropp in H|]; rewrite Rabs_pos_eq in H; auto. }
    assert (B : -1 < round_mag m e < 1000000000000000001).
    { split; apply lt_IZR; lra. }
    unfold f_round_i64, f_int. rewrite clamp_id by (unfold min_i64, max_i64; destruct s; lia).
    destruct s; [rewrite opp_IZR|]; apply Rabs_le; lra.
Qed.
Lemma f_round_unique x r k : is_f x r -> (Rabs r <= 1000000000000000000)%R -> (Rabs (r - IZR k) < /2)%R -> f_round_i64 x = k.
Proof.
  intros H B K. pose proof (f_round_spec _ _ H B) as S.
  assert (T : (Rabs (IZR (f_round_i64 x) - IZR k) < 1)%R).
  { replace (IZR (f_round_i64 x) - IZR k)%R with ((IZR (f_round_i64 x) - r) + (r - IZR k))%R by ring.
    eapply Rle_lt_trans; [apply Rabs_triang|]. lra. }
  rewrite <- minus_IZR, <- abs_IZR in T. apply lt_IZR in T. lia.
Qed.
(** truncation toward zero *)
Lemma f_trunc_spec x r : is_f x r -> (Rabs r <= 1000000000000000000)%R ->
  (Rabs (IZR (f_trunc_i64 x) - r) < 1 /\ Rabs (IZR (f_trunc_i64 x)) <= Rabs r /\ 0 <= IZR (f_trunc_i64 x) * r)%R.
Proof.
  intros (V & F & <-) H. destruct x as [s|s| |s m e]; try discriminate F.
  - unfold f2r, f_trunc_i64, f_int, SF2R. replace (0 - 0)%R with 0%R by ring. rewrite Rabs_R0. repeat split; lra.
  - pose proof (trunc_mag_spec m e) as S. cbv zeta in S. rewrite f2r_finite in *.
    set (a := (IZR (Zpos m) * bpow radix2 e)%R) in *.
    assert (A : (0 <= a)%R) by (apply Rmult_le_pos; [apply IZR_le; lia|apply bpow_ge_0]).
    assert (AB : (a <= 1000000000000000000)%R).
    { destruct s; [rewrite Rabs_Ropp in H|]; rewrite Rabs_pos_eq in H; auto. }
    assert (B : -1 < trunc_mag m e < 1000000000000000001).
    { split; apply lt_IZR; lra. }
    assert (B0 : (0 <= IZR (trunc_mag m e))%R) by (apply IZR_le; lia).
    unfold f_trunc_i64, f_int. rewrite clamp_id by (unfold min_i64, max_i64; destruct s; lia).
    destruct s; [rewrite opp_IZR, !Rabs_Ropp|]; rewrite (Rabs_pos_eq a), (Rabs_pos_eq (IZR (trunc_mag m e))) by auto;
      (split; [apply Rabs_def1; lra|split; [lra|nra]]).
Qed.

(** ** the three conversions *)

Ltac fbound := apply small_1023; try (apply Rabs_le); lra.

(** fits in degrees *)
Definition deg (x : f64) : Prop := f_valid x /\ f_finite x /\ (Rabs (f2r x) <= 180)%R.

Lemma scaled_ok x : deg x -> exists y,
  is_f (fsub (fdiv (fmul x (f_of_Z 1000000000)) (f_of_Z 100)) (f_of_Z 0)) y /\
  (Rabs (y - f2r x * 10000000) <= / 1000000)%R.
Proof.
  intros (V & F & H).
  assert (X : is_f x (f2r x)) by (split; [exact V|split; [exact F|reflexivity]]).
  set (r := f2r x) in *. clearbody r. apply Rabs_le_inv in H.
  pose proof (fmul_ok _ _ _ _ X (f_of_Z_ok 1000000000 ltac:(lia)) ltac:(fbound)) as M.
  pose proof (rnd_err (r * 1000000000)) as E1. set (a := rnd (r * 1000000000)) in *. clearbody a.
  assert (A1 : (Rabs (r * 1000000000) <= 180000000000)%R) by (apply Rabs_le; lra).
  assert (E1' : (Rabs (a - r * 1000000000) <= / 50000)%R) by (unfold uu in E1; lra).
  apply Rabs_le_inv in E1'.
  pose proof (fdiv_ok _ _ _ _ M (f_of_Z_ok 100 ltac:(lia)) ltac:(lra) ltac:(fbound)) as D.
  pose proof (rnd_err (a / 100)) as E2. set (b := rnd (a / 100)) in *. clearbody b.
  assert (A2 : (Rabs (a / 100) <= 1800000001)%R) by (apply Rabs_le; lra).
  assert (E2' : (Rabs (b - a / 100) <= / 4000000)%R) by (unfold uu in E2; lra).
  apply Rabs_le_inv in E2'.
  pose proof (fsub_ok _ _ _ _ D (f_of_Z_ok 0 ltac:(lia)) ltac:(fbound)) as S.
  pose proof (rnd_err (b - 0)) as E3. set (c := rnd (b - 0)) in *. clearbody c.
  assert (A3 : (Rabs (b - 0) <= 1800000002)%R) by (apply Rabs_le; lra).
  assert (E3' : (Rabs (c - (b - 0)) <= / 4000000)%R) by (unfold uu in E3; lra).
  apply Rabs_le_inv in E3'.
  exists c. split; [exact S|]. apply Rabs_le. lra.
Qed.

Lemma mul7_ok x : deg x -> exists y, is_f (fmul x (f_of_Z 10000000)) y /\ (Rabs (y - f2r x * 10000000) <= / 1000000)%R.
Proof.
  intros (V & F & H).
  assert (X : is_f x (f2r x)) by (split; [exact V|split; [exact F|reflexivity]]).
  set (r := f2r x) in *. clearbody r. apply Rabs_le_inv in H.
  pose proof (fmul_ok _ _ _ _ X (f_of_Z_ok 10000000 ltac:(lia)) ltac:(fbound)) as M.
  pose proof (rnd_err (r * 10000000)) as E1. set (a := rnd (r * 10000000)) in *. clearbody a.
  assert (A1 : (Rabs (r * 10000000) <= 1800000000)%R) by (apply Rabs_le; lra).
  exists a. split; auto. unfold uu in E1. lra.
Qed.

(** C07 *)
Lemma quantisation x : deg x -> (Rabs (IZR (enc_coord 100 0 x) - f2r x * 10000000) <= / 2 + / 1000000)%R.
Proof.
  intros H. destruct (scaled_ok x H) as (y & Y & E). destruct H as (_ & _ & H).
  unfold enc_coord. apply Rabs_le_inv in H. apply Rabs_le_inv in E.
  pose proof (f_round_spec _ _ Y ltac:(apply Rabs_le; lra)) as S. apply Rabs_le_inv in S. apply Rabs_le. lra.
Qed.
Lemma step_range x : deg x -> Z.abs (enc_coord 100 0 x) <= 1800000000.
Proof.
  intros H. pose proof (quantisation x H) as Q. destruct H as (_ & _ & H).
  apply Rabs_le_inv in H. apply Rabs_le_inv in Q.
  assert (enc_coord 100 0 x < 1800000001) by (apply lt_IZR; lra).
  assert (-1800000001 < enc_coord 100 0 x) by (apply lt_IZR; lra). lia.
Qed.

(** the f64 the PBF reader and the dump reader assign to grid step k *)
Definition pbf_f64 (k : Z) : f64 := fdiv (f_of_Z (100 * k)) (f_of_Z 1000000000).
Definition dump_f64 (k : Z) : f64 := fdiv (f_of_Z k) (f_of_Z 10000000).

Lemma dump_ok k : Z.abs k <= 1800000000 -> is_f (dump_f64 k) (rnd (IZR k / 10000000)).
Proof.
  intros H. assert (B : (-1800000000 <= IZR k <= 1800000000)%R) by (split; apply IZR_le; lia).
  apply fdiv_ok; [apply f_of_Z_ok; lia|apply f_of_Z_ok; lia|lra|fbound].
Qed.
Lemma pbf_ok k : Z.abs k <= 1800000000 -> is_f (pbf_f64 k) (rnd (IZR k / 10000000)).
Proof.
  intros H. assert (B : (-1800000000 <= IZR k <= 1800000000)%R) by (split; apply IZR_le; lia).
  assert (E : (IZR k / 10000000 = IZR (100 * k) / 1000000000)%R) by (rewrite mult_IZR; field).
  rewrite E. apply fdiv_ok; [apply f_of_Z_ok; lia|apply f_of_Z_ok; lia|lra|].
  rewrite <- E. fbound.
Qed.
Lemma grid_err k : Z.abs k <= 1800000000 -> (Rabs (rnd (IZR k / 10000000) - IZR k / 10000000) <= / 10000000000000)%R.
Proof.
  intros H. assert (B : (-1800000000 <= IZR k <= 1800000000)%R) by (split; apply IZR_le; lia).
  pose proof (rnd_err (IZR k / 10000000)) as E.
  assert (A : (Rabs (IZR k / 10000000) <= 180)%R) by (apply Rabs_le; lra). unfold uu in E. lra.
Qed.
Lemma grid_deg x k : Z.abs k <= 1800000000 -> is_f x (rnd (IZR k / 10000000)) -> deg x.
Proof.
  intros H (V & F & E). split; auto. split; auto. rewrite E.
  assert (B : (-1800000000 <= IZR k <= 1800000000)%R) by (split; apply IZR_le; lia).
  replace 180%R with (IZR 180) by reflexivity. rewrite <- (rnd_int 180) by lia.
  assert (A : (Rabs (IZR k / 10000000) <= IZR 180)%R) by (apply Rabs_le; lra).
  apply abs_round_le_generic; auto with typeclass_instances.
  - apply fexp_correct; reflexivity.
  - apply generic_format_round; auto with typeclass_instances. apply fexp_correct; reflexivity.
  - rewrite rnd_int by lia. exact A.
Qed.

(** C06, C46: a grid coordinate is stored as its own step *)
Lemma step_grid x k : Z.abs k <= 1800000000 -> is_f x (rnd (IZR k / 10000000)) -> enc_coord 100 0 x = k.
Proof.
  intros H X. pose proof (grid_deg _ _ H X) as D. destruct (scaled_ok x D) as (y & Y & E).
  destruct X as (_ & _ & X). rewrite X in E. pose proof (grid_err k H) as G.
  assert (B : (-1800000000 <= IZR k <= 1800000000)%R) by (split; apply IZR_le; lia).
  apply Rabs_le_inv in E. apply Rabs_le_inv in G. unfold enc_coord.
  eapply f_round_unique; [exact Y| |]; [apply Rabs_le; lra|apply Rabs_def1; lra].
Qed.
Lemma seven_grid x k : Z.abs k <= 1800000000 -> is_f x (rnd (IZR k / 10000000)) ->
  f_round_i64 (fmul x (f_of_Z 10000000)) = k.
Proof.
  intros H X. pose proof (grid_deg _ _ H X) as D. destruct (mul7_ok x D) as (y & Y & E).
  destruct X as (_ & _ & X). rewrite X in E. pose proof (grid_err k H) as G.
  assert (B : (-1800000000 <= IZR k <= 1800000000)%R) by (split; apply IZR_le; lia).
  apply Rabs_le_inv in E. apply Rabs_le_inv in G.
  eapply f_round_unique; [exact Y| |]; [apply Rabs_le; lra|apply Rabs_def1; lra].
Qed.

(** the two readers agree bit for bit *)
Lemma sign_of_div (x y : bfloat) : is_finite (Bdiv mode_NE x y) = true -> B2R y <> 0%R ->
  (Rabs (rnd (B2R x / B2R y)) < bpow radix2 1024)%R ->
  Bsign (Bdiv mode_NE x y) = xorb (Bsign x) (Bsign y).
Proof.
  intros F N B. pose proof (Bdiv_correct _ _ Hprec Hmax mode_NE x y N) as C. cbv zeta in C.
  rewrite Rlt_bool_true in C by exact B. destruct C as (_ & _ & C). apply C.
  destruct (Bdiv mode_NE x y); auto; discriminate.
Qed.
Lemma readers_agree k : Z.abs k <= 1800000000 -> pbf_f64 k = dump_f64 k.
Proof.
  intros H. pose proof (pbf_ok k H) as (V1 & F1 & R1). pose proof (dump_ok k H) as (V2 & F2 & R2).
  destruct (Z.eq_dec k 0) as [->|N]; [vm_compute; reflexivity|].
  destruct (f_valid_B _ V1) as [b1 E1]. destruct (f_valid_B _ V2) as [b2 E2].
  rewrite <- E1, <- E2 in *. f_equal. rewrite f2r_B in R1, R2.
  assert (NZ : rnd (IZR k / 10000000) <> 0%R).
  { pose proof (grid_err k H) as G. apply Rabs_le_inv in G. intros Z. rewrite Z in G.
    assert (1 <= k \/ k <= -1) as [K|K] by lia; apply IZR_le in K; lra. }
  apply B2R_inj; [| |congruence].
  - apply is_finite_strict_B2R. congruence.
  - apply is_finite_strict_B2R. congruence.
Qed.
