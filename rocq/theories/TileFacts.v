(** Facts about quadtile numbers. *)
From Coq Require Import ZArith Reals Lia Lra Psatz Floats.SpecFloat Bool.
From Flocq Require Import Core Relative BinarySingleNaN Operations.
From Verif Require Import Base BaseFacts Types Block FloatFacts ApidbText ApidbSpec.
Open Scope Z_scope.

Local Instance Hprec' : Prec_gt_0 53 := eq_refl.
Local Instance Hmax' : Prec_lt_emax 53 1024 := eq_refl.

(** ** bits *)
Lemma land_one z : Z.land z 1 = z mod 2.
Proof. change 1 with (Z.ones 1). rewrite Z.land_ones by lia. reflexivity. Qed.
Lemma low_bit x i : Z.land (Z.shiftr x i) 1 = Z.b2z (Z.testbit x i).
Proof.
  rewrite land_one, Zmod_odd, <- Z.bit0_odd, Z.shiftr_spec by lia. rewrite Z.add_0_l. destruct (Z.testbit x i); reflexivity.
Qed.
Lemma lor_bit t b : Z.lor (2 * t) (Z.b2z b) = 2 * t + Z.b2z b.
Proof.
  destruct b; cbn [Z.b2z]; [|rewrite Z.lor_0_r; lia].
  assert (E : Z.land (2 * t) 1 = 0) by (rewrite land_one, Z.mul_comm; apply Z.mod_mul; lia).
  rewrite Z.add_nocarry_lxor by exact E. symmetry. apply Z.lxor_lor, E.
Qed.
Lemma shift_or t x i : 0 <= t -> 2 * t < two64 ->
  Z.lor (Z.shiftl t 1 mod two64) (Z.land (Z.shiftr x i) 1) = 2 * t + Z.b2z (Z.testbit x i).
Proof.
  intros T U. rewrite low_bit, Z.shiftl_mul_pow2 by lia. change (2 ^ 1) with 2. rewrite Z.mul_comm, Z.mod_small by lia. apply lor_bit.
Qed.
Lemma b2z_01 b : 0 <= Z.b2z b <= 1. Proof. destruct b; cbn; lia. Qed.
Lemma testbit_hi t b j : 0 <= j -> Z.testbit (2 * t + Z.b2z b) (j + 1) = Z.testbit t j.
Proof.
  intros J. rewrite Z.add_1_r. destruct b; cbn [Z.b2z].
  - apply Z.testbit_odd_succ; auto.
  - rewrite Z.add_0_r. apply Z.testbit_even_succ; auto.
Qed.
Lemma testbit_lo t b : Z.testbit (2 * t + Z.b2z b) 0 = b.
Proof. destruct b; cbn [Z.b2z]; [apply Z.testbit_odd_0|rewrite Z.add_0_r; apply Z.testbit_even_0]. Qed.

Lemma interleave_spec x y n : (n <= 16)%nat -> forall t, 0 <= t < 2 ^ (2 * (16 - Z.of_nat n)) ->
  let r := interleave n x y t in
  0 <= r < 2 ^ 32 /\
  (forall j, 0 <= j -> Z.testbit r (j + 2 * Z.of_nat n) = Z.testbit t j) /\
  forall i, 0 <= i < Z.of_nat n -> Z.testbit r (2 * i + 1) = Z.testbit x i /\ Z.testbit r (2 * i) = Z.testbit y i.
Proof.
  induction n as [|n IH]; intros L t T; cbn [interleave].
  - cbv zeta. split; [exact T|]. split; [intros j J; f_equal; lia|lia].
  - assert (TB : 0 <= t < 2 ^ 30).
    { split; [exact (proj1 T)|]. apply Z.lt_le_trans with (2 ^ (2 * (16 - Z.of_nat (S n)))); [exact (proj2 T)|]. apply Z.pow_le_mono_r; [reflexivity|]. lia. }
    change (2 ^ 30) with 1073741824 in TB.
    pose proof (b2z_01 (Z.testbit x (Z.of_nat n))). pose proof (b2z_01 (Z.testbit y (Z.of_nat n))).
    assert (U0 : 0 <= t) by lia. assert (U1 : 2 * t < two64) by (clear - TB; unfold two64; lia).
    rewrite (shift_or t x (Z.of_nat n) U0 U1). set (t1 := 2 * t + Z.b2z (Z.testbit x (Z.of_nat n))) in *.
    assert (U2 : 0 <= t1) by (unfold t1; lia). assert (U3 : 2 * t1 < two64) by (unfold t1, two64; lia).
    rewrite (shift_or t1 y (Z.of_nat n) U2 U3). set (t2 := 2 * t1 + Z.b2z (Z.testbit y (Z.of_nat n))) in *.
    assert (T2 : 0 <= t2 < 2 ^ (2 * (16 - Z.of_nat n))).
    { split; [lia|]. replace (2 * (16 - Z.of_nat n)) with (2 * (16 - Z.of_nat (S n)) + 2) by lia.
      rewrite Z.pow_add_r by lia. change (2 ^ 2) with 4. lia. }
    destruct (IH ltac:(lia) t2 T2) as (R & Hi & Bits). cbv zeta. split; [exact R|]. split.
    + intros j J. replace (j + 2 * Z.of_nat (S n)) with (j + 1 + 1 + 2 * Z.of_nat n) by lia. rewrite Hi by lia.
      unfold t2. rewrite testbit_hi by lia. unfold t1. apply testbit_hi; lia.
    + intros i I. destruct (Z.eq_dec i (Z.of_nat n)) as [E|N].
      * rewrite E. split.
        -- replace (2 * Z.of_nat n + 1) with (0 + 1 + 2 * Z.of_nat n) by lia. rewrite Hi by lia. unfold t2. rewrite testbit_hi by lia. apply testbit_lo.
        -- replace (2 * Z.of_nat n) with (0 + 2 * Z.of_nat n) by lia. rewrite Hi by lia. apply testbit_lo.
      * apply Bits. lia.
Qed.
Lemma tile_interleaved lat lon : interleaved (tile_x lon) (tile_y lat) (calculate_tile lat lon).
Proof.
  unfold calculate_tile. destruct (interleave_spec (tile_x lon) (tile_y lat) 16 ltac:(lia) 0 ltac:(cbn; lia)) as (R & _ & B).
  split; [exact R|]. intros i I. apply B. lia.
Qed.
Lemma interleaved_unique x y x' y' t : 0 <= x < 2 ^ 16 -> 0 <= y < 2 ^ 16 -> 0 <= x' < 2 ^ 16 -> 0 <= y' < 2 ^ 16 ->
  interleaved x y t -> interleaved x' y' t -> x = x' /\ y = y'.
Proof.
  intros X Y X' Y' (_ & H) (_ & H').
  assert (G : forall a b, 0 <= a < 2 ^ 16 -> 0 <= b < 2 ^ 16 -> (forall i, 0 <= i < 16 -> Z.testbit a i = Z.testbit b i) -> a = b).
  { intros a b A B E. apply Z.bits_inj'. intros n Hn. destruct (Z.lt_ge_cases n 16); [apply E; lia|].
    assert (HB : forall c, 0 <= c < 2 ^ 16 -> Z.testbit c n = false).
    { intros c C. destruct (Z.eq_dec c 0) as [->|NZ]; [apply Z.bits_0|]. apply Z.bits_above_log2; [lia|].
      assert (Z.log2 c < 16) by (apply Z.log2_lt_pow2; lia). lia. }
    rewrite !HB by auto. reflexivity. }
  split; apply G; auto; intros i I.
  - rewrite <- (proj1 (H i I)). apply (proj1 (H' i I)).
  - rewrite <- (proj2 (H i I)). apply (proj2 (H' i I)).
Qed.
Lemma interleaved_fun x y t t' : interleaved x y t -> interleaved x y t' -> t = t'.
Proof.
  intros (R & H) (R' & H'). apply Z.bits_inj'. intros n Hn. destruct (Z.lt_ge_cases n 32).
  - pose proof (Z.div_mod n 2 ltac:(lia)) as DM. pose proof (Z.mod_pos_bound n 2 ltac:(lia)).
    assert (I : 0 <= n / 2 < 16) by (split; [apply Z.div_pos; lia|apply Z.div_lt_upper_bound; lia]).
    destruct (H _ I) as (A & B). destruct (H' _ I) as (A' & B').
    assert (n mod 2 = 0 \/ n mod 2 = 1) as [E|E] by lia; rewrite E in DM.
    + replace n with (2 * (n / 2)) by lia. congruence.
    + replace n with (2 * (n / 2) + 1) by lia. congruence.
  - assert (HB : forall c, 0 <= c < 2 ^ 32 -> Z.testbit c n = false).
    { intros c C. destruct (Z.eq_dec c 0) as [->|NZ]; [apply Z.bits_0|]. apply Z.bits_above_log2; [lia|].
      assert (Z.log2 c < 32) by (apply Z.log2_lt_pow2; lia). lia. }
    rewrite !HB by auto. reflexivity.
Qed.

(** ** quantisation *)
Lemma fadd_B (x y : bfloat) : fadd (B2SF x) (B2SF y) = B2SF (Bplus mode_NE x y).
Proof.
  unfold fadd. destruct x as [sx|sx| |sx mx ex Bx]; destruct y as [sy|sy| |sy my ey By]; try reflexivity;
    try (simpl; destruct (Bool.eqb _ _); reflexivity).
  simpl. apply binary_normalize_equiv.
Qed.
Lemma fadd_ok x y a b : is_f x a -> is_f y b -> (Rabs (a + b) <= bpow radix2 1023)%R -> is_f (fadd x y) (rnd (a + b)).
Proof.
  intros (Vx & Fx & <-) (Vy & Fy & <-) H.
  destruct (f_valid_B _ Vx) as [bx <-]. destruct (f_valid_B _ Vy) as [by' <-].
  rewrite fadd_B. rewrite !f2r_B in *. apply fin_B in Fx, Fy.
  pose proof (Bplus_correct _ _ Hprec' Hmax' mode_NE bx by' Fx Fy) as C. cbv zeta in C.
  rewrite Rlt_bool_true in C by (apply rnd_bound; auto).
  destruct C as (C1 & C2 & _).
  split; [apply B_valid|]. split; [apply fin_B; exact C2|]. rewrite f2r_B. exact C1.
Qed.
Lemma rnd_between r lo hi : Z.abs lo <= 9007199254740992 -> Z.abs hi <= 9007199254740992 ->
  (IZR lo <= r <= IZR hi)%R -> (IZR lo <= rnd r <= IZR hi)%R.
Proof.
  intros L H (A & B). rewrite <- (rnd_int lo L), <- (rnd_int hi H). split; apply round_le; auto with typeclass_instances;
    apply fexp_correct; reflexivity.
Qed.
Lemma round_u64_spec x r : is_f x r -> (0 <= r <= 1000000000)%R -> (Rabs (IZR (f_round_u64 x) - r) <= /2)%R.
Proof.
  intros (V & F & <-) H. destruct x as [s|s| |s m e]; try discriminate F.
  - unfold f2r, f_round_u64, f_int, SF2R. replace (0 - 0)%R with 0%R by ring. rewrite Rabs_R0. lra.
  - pose proof (round_mag_spec m e) as S. cbv zeta in S. rewrite f2r_finite in *.
    set (a := (IZR (Zpos m) * bpow radix2 e)%R) in *.
    assert (A : (0 < a)%R) by (apply Rmult_lt_0_compat; [apply IZR_lt; lia|apply bpow_gt_0]).
    destruct s; [lra|].
    assert (B : -1 < round_mag m e < 1000000001) by (split; apply lt_IZR; lra).
    unfold f_round_u64, f_int. rewrite clamp_id by (unfold two64; lia).
    apply Rabs_le; lra.
Qed.
(** column or row of a coordinate: [h] is 180 for longitudes, 90 for latitudes *)
Lemma quantised x h : (h = 180 \/ h = 90) -> f_valid x -> f_finite x -> (Rabs (f2r x) <= IZR h)%R ->
  let q := f_round_u64 (fdiv (fmul (fadd x (f_of_Z h)) (f_of_Z 65535)) (f_of_Z (2 * h))) in
  0 <= q <= 65535 /\ (Rabs (IZR q - (f2r x + IZR h) * 65535 / (2 * IZR h)) <= / 2 + / 1000000000)%R.
Proof.
  intros Hh V F B. assert (X : is_f x (f2r x)) by (split; [exact V|split; [exact F|reflexivity]]).
  set (r := f2r x) in *. clearbody r. apply Rabs_le_inv in B.
  assert (HR : (90 <= IZR h <= 180)%R) by (destruct Hh as [Hh|Hh]; subst h; lra).
  assert (HZ : 90 <= h <= 180) by lia.
  assert (H2 : IZR (2 * h) = (2 * IZR h)%R) by (rewrite mult_IZR; reflexivity).
  pose proof (fadd_ok _ _ _ _ X (f_of_Z_ok h ltac:(lia)) ltac:(fbound)) as A.
  pose proof (rnd_between (r + IZR h) 0 (2 * h) ltac:(lia) ltac:(lia) ltac:(rewrite H2; lra)) as RA.
  pose proof (rnd_err (r + IZR h)) as E1. set (a := rnd (r + IZR h)) in *. clearbody a. rewrite H2 in RA.
  assert (E1' : (Rabs (a - (r + IZR h)) <= / 10000000000000)%R).
  { assert ((Rabs (r + IZR h) <= 360)%R) by (apply Rabs_le; lra). unfold uu in E1. lra. }
  apply Rabs_le_inv in E1'.
  pose proof (fmul_ok _ _ _ _ A (f_of_Z_ok 65535 ltac:(lia)) ltac:(fbound)) as M.
  assert (HM : IZR (2 * h * 65535) = (2 * IZR h * 65535)%R) by (rewrite !mult_IZR; reflexivity).
  pose proof (rnd_between (a * 65535) 0 (2 * h * 65535) ltac:(lia) ltac:(lia) ltac:(rewrite HM; lra)) as RM.
  pose proof (rnd_err (a * 65535)) as E2. set (m := rnd (a * 65535)) in *. clearbody m. rewrite HM in RM.
  assert (E2' : (Rabs (m - a * 65535) <= / 100000000)%R).
  { assert ((Rabs (a * 65535) <= 23592600)%R) by (apply Rabs_le; lra). unfold uu in E2. lra. }
  apply Rabs_le_inv in E2'.
  assert (HD : (0 <= m / (2 * IZR h) <= 65535)%R).
  { split; [apply Rmult_le_pos; [lra|apply Rlt_le, Rinv_0_lt_compat; lra]|].
    apply Rmult_le_reg_r with (2 * IZR h)%R; [lra|]. unfold Rdiv. rewrite Rmult_assoc, Rinv_l by lra. lra. }
  assert (D : is_f (fdiv (fmul (fadd x (f_of_Z h)) (f_of_Z 65535)) (f_of_Z (2 * h))) (rnd (m / (2 * IZR h)))).
  { rewrite <- H2. apply fdiv_ok; auto; rewrite ?H2; try lra; [rewrite <- H2; apply f_of_Z_ok; lia|]. fbound. }
  pose proof (rnd_between (m / (2 * IZR h)) 0 65535 ltac:(lia) ltac:(lia) HD) as RD.
  pose proof (rnd_err (m / (2 * IZR h))) as E3. set (d := rnd (m / (2 * IZR h))) in *. clearbody d.
  assert (E3' : (Rabs (d - m / (2 * IZR h)) <= / 100000000000)%R).
  { rewrite (Rabs_pos_eq (m / (2 * IZR h))) in E3 by lra. unfold uu in E3. lra. }
  apply Rabs_le_inv in E3'.
  pose proof (round_u64_spec _ _ D ltac:(lra)) as Q. cbv zeta. set (q := f_round_u64 _) in *. clearbody q. apply Rabs_le_inv in Q.
  split.
  - assert (-1 < q) by (apply lt_IZR; lra). assert (q < 65536) by (apply lt_IZR; lra). lia.
  - assert (E4 : (Rabs (m / (2 * IZR h) - (r + IZR h) * 65535 / (2 * IZR h)) <= / 4000000000)%R).
    { replace (m / (2 * IZR h) - (r + IZR h) * 65535 / (2 * IZR h))%R with ((m - (r + IZR h) * 65535) * / (2 * IZR h))%R by (field; lra).
      rewrite Rabs_mult. rewrite (Rabs_pos_eq (/ (2 * IZR h))) by (apply Rlt_le, Rinv_0_lt_compat; lra).
      apply Rmult_le_reg_r with (2 * IZR h)%R; [lra|]. rewrite Rmult_assoc, Rinv_l by lra. rewrite Rmult_1_r.
      apply Rle_trans with (/ 50000000)%R; [apply Rabs_le; lra|]. nra. }
    apply Rabs_le_inv in E4. apply Rabs_le. lra.
Qed.
