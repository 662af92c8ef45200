(** Property C79: what happens to the bounding box of a header, exactly. *)
From Coq Require Import ZArith List Bool Strings.Byte Strings.String Reals Lia Lra ZifyBool.
From Flocq Require Import Core.
From Verif Require Import Base BaseFacts Types Proto ProtoFacts Block BlockFacts FloatFacts.
From Verif Require Import Spec SpecFacts FileFormat FileFacts WriterFacts FileSpec PropFile PropReadAny HeaderBoxSpec.
Import ListNotations.
Open Scope Z_scope.

Lemma copied_inv b b' : copied b b' ->
  b' = BBox (of_nano (to_nano (bb_left b))) (of_nano (to_nano (bb_bottom b))) (of_nano (to_nano (bb_right b))) (of_nano (to_nano (bb_top b))).
Proof.
  intros (m & c & k & i & w & i' & C & O & F & E & W & R & E').
  assert (N : ~ info_empty i) by (intros ->; discriminate).
  destruct (header_fits_frame _ _ _ F) as (FO & L1 & L2).
  rewrite (write_header_spec) in W by auto. injection W as <-.
  assert (R2 : run (fb_next m c (frame_bytes (header_frame c k i))) bit_new [FHeader 0 (info_read i)] Ended).
  { replace (frame_bytes (header_frame c k i)) with ([] ++ frames_bytes [header_frame c k i]) by apply frames_one.
    apply fb_run_frames; auto using at_end_new. constructor; [|constructor]. apply header_decode; auto. }
  cbn [wr_file] in R. pose proof (run_unique _ _ _ _ _ _ R2 _ _ R) as U. destruct U as (U & _). injection U as <-.
  unfold info_read in E'. cbn in E'. rewrite E in E'. cbn in E'. congruence.
Qed.
Lemma rnd_between n r : 0 <= n <= 9007199254740992 -> (Rabs r <= IZR n)%R -> (Rabs (rnd r) <= IZR n)%R.
Proof.
  intros N H. apply Rabs_le_inv in H. apply Rabs_le.
  assert (M : forall a b, (a <= b)%R -> (rnd a <= rnd b)%R) by (intros a b L; apply round_le; auto with typeclass_instances; apply IEEE754.BinarySingleNaN.fexp_correct; reflexivity).
  pose proof (M r (IZR n) ltac:(lra)) as U. pose proof (M (IZR (- n)) r ltac:(rewrite opp_IZR; lra)) as L.
  rewrite rnd_int in U, L by lia. rewrite opp_IZR in L. lra.
Qed.
Lemma of_nano_ok z : Z.abs z <= 180000000000 -> is_f (of_nano z) (rnd (IZR z / 1000000000)) /\
  (Rabs (rnd (IZR z / 1000000000) - IZR z / 1000000000) <= / 40000000000000)%R.
Proof.
  intros Bz. assert (Rz : (-180000000000 <= IZR z <= 180000000000)%R) by (split; apply IZR_le; lia). split.
  - unfold of_nano, nanodeg. apply fdiv_ok; [apply f_of_Z_ok; lia|apply f_of_Z_ok; lia|lra|]. apply small_1023. apply Rabs_le. lra.
  - pose proof (rnd_err (IZR z / 1000000000)) as E2. assert (Bq : (Rabs (IZR z / 1000000000) <= 180)%R) by (apply Rabs_le; lra). unfold uu in E2. lra.
Qed.
(** the integer written for an edge *)
Lemma to_nano_ok x : degrees x -> exists y, (Rabs (y - f2r x * 1000000000) <= / 40000)%R /\ (Rabs y <= 180000000000)%R /\
  (Rabs (IZR (to_nano x) - y) < 1)%R /\ (Rabs (IZR (to_nano x)) <= Rabs y)%R.
Proof.
  intros (V & F & H). assert (X : is_f x (f2r x)) by (split; [exact V|split; [exact F|reflexivity]]).
  set (r := f2r x) in *. clearbody r. apply Rabs_le_inv in H.
  pose proof (fmul_ok _ _ _ _ X (f_of_Z_ok 1000000000 ltac:(lia)) ltac:(apply small_1023; apply Rabs_le; lra)) as M.
  pose proof (rnd_err (r * 1000000000)) as E1. set (y := rnd (r * 1000000000)) in *.
  assert (B : (Rabs (r * 1000000000) <= 180000000000)%R) by (apply Rabs_le; lra).
  assert (By : (Rabs y <= 180000000000)%R).
  { apply (rnd_between 180000000000); auto. lia. }
  exists y. assert (Eb : (Rabs (y - r * 1000000000) <= / 40000)%R) by (unfold uu in E1; lra).
  destruct (f_trunc_spec _ _ M ltac:(lra)) as (T1 & T2 & T3). sconj; auto.
Qed.
Lemma abs_le_Z a b : (Rabs (IZR a) <= Rabs (IZR b) + / 100)%R -> Z.abs a <= Z.abs b.
Proof. intros H. rewrite <- !abs_IZR in H. assert (A : (IZR (Z.abs a) < IZR (Z.abs b + 1))%R) by (rewrite plus_IZR; lra). apply lt_IZR in A. lia. Qed.
Lemma abs_lt_Z a b : (Rabs (IZR a - IZR b) < 1 + / 100)%R -> Z.abs (a - b) <= 1.
Proof. intros H. rewrite <- minus_IZR, <- abs_IZR in H. assert (A : (IZR (Z.abs (a - b)) < IZR 2)%R) by lra. apply lt_IZR in A. lia. Qed.
Lemma edge_first x : degrees x -> toward_zero x (of_nano (to_nano x)).
Proof.
  intros H. destruct (to_nano_ok x H) as (y & A & B & C & D). exists (to_nano x). sconj.
  - apply le_IZR. rewrite abs_IZR. lra.
  - reflexivity.
  - replace (IZR (to_nano x) - f2r x * 1000000000)%R with ((IZR (to_nano x) - y) + (y - f2r x * 1000000000))%R by ring.
    eapply Rle_lt_trans; [apply Rabs_triang|]. lra.
  - eapply Rle_trans; [exact D|]. replace y with ((y - f2r x * 1000000000) + f2r x * 1000000000)%R by ring.
    eapply Rle_trans; [apply Rabs_triang|]. lra.
Qed.
Lemma nano_degrees k : Z.abs k <= 180000000000 -> degrees (of_nano k) /\ (Rabs (f2r (of_nano k) * 1000000000 - IZR k) <= / 40000)%R.
Proof.
  intros B. destruct (of_nano_ok k B) as ((V & F & E) & Er). split.
  - split; [exact V|]. split; [exact F|]. rewrite E. assert (Rz : (-180000000000 <= IZR k <= 180000000000)%R) by (split; apply IZR_le; lia).
    apply (rnd_between 180); [lia|]. apply Rabs_le. lra.
  - rewrite E. apply Rabs_le_inv in Er. apply Rabs_le. lra.
Qed.
Lemma edge_next k : Z.abs k <= 180000000000 -> Z.abs (to_nano (of_nano k)) <= 180000000000 /\
  (to_nano (of_nano k) = k \/ k <> 0 /\ to_nano (of_nano k) = k - Z.sgn k).
Proof.
  intros B. destruct (nano_degrees k B) as (D & E). destruct (to_nano_ok _ D) as (y & A & By & C & T).
  set (z := to_nano (of_nano k)) in *. clearbody z. set (x := (f2r (of_nano k) * 1000000000)%R) in *. clearbody x.
  apply Rabs_le_inv in A. apply Rabs_le_inv in E. apply Rabs_def2 in C.
  assert (L1 : Z.abs (z - k) <= 1) by (apply abs_lt_Z, Rabs_def1; lra).
  assert (L2 : Z.abs z <= Z.abs k).
  { apply abs_le_Z. eapply Rle_trans; [exact T|]. replace y with ((y - IZR k) + IZR k)%R by ring. eapply Rle_trans; [apply Rabs_triang|].
    assert (Rabs (y - IZR k) <= / 100)%R by (apply Rabs_le; lra). lra. }
  split; [lia|]. destruct (Z.eq_dec z k); [left; auto|right]. lia.
Qed.
Lemma edge_next_abs k : Z.abs k <= 180000000000 -> let z := to_nano (of_nano k) in
  Z.abs z <= 180000000000 /\ Z.abs z <= Z.abs k /\ (Z.abs z = Z.abs k -> z = k).
Proof. intros B z. destruct (edge_next k B) as (A & R). fold z in A, R. clearbody z. destruct R as [->|(N & ->)]; lia. Qed.
Lemma of_nano_inj a b : Z.abs a <= 180000000000 -> Z.abs b <= 180000000000 -> of_nano a = of_nano b -> a = b.
Proof.
  intros A B E. destruct (nano_degrees a A) as (_ & X). destruct (nano_degrees b B) as (_ & Y). rewrite E in X.
  apply Rabs_le_inv in X. apply Rabs_le_inv in Y. assert (H : (Rabs (IZR a - IZR b) < 1)%R) by (apply Rabs_def1; lra).
  rewrite <- minus_IZR, <- abs_IZR in H. assert (K : (IZR (Z.abs (a - b)) < IZR 1)%R) by lra. apply lt_IZR in K. lia.
Qed.
Lemma whole_kept d : Z.abs d <= 180 -> of_nano (to_nano (f_of_Z d)) = f_of_Z d.
Proof.
  intros H. assert (N : forall n, (n <= 180)%nat -> of_nano (to_nano (f_of_Z (Z.of_nat n))) = f_of_Z (Z.of_nat n) /\ of_nano (to_nano (f_of_Z (- Z.of_nat n))) = f_of_Z (- Z.of_nat n)).
  { assert (A : List.forallb (fun n => match of_nano (to_nano (f_of_Z (Z.of_nat n))), f_of_Z (Z.of_nat n) with
       | SpecFloat.S754_finite s m e, SpecFloat.S754_finite s' m' e' => Bool.eqb s s' && Pos.eqb m m' && Z.eqb e e'
       | SpecFloat.S754_zero s, SpecFloat.S754_zero s' => Bool.eqb s s' | _, _ => false end &&
      match of_nano (to_nano (f_of_Z (- Z.of_nat n))), f_of_Z (- Z.of_nat n) with
       | SpecFloat.S754_finite s m e, SpecFloat.S754_finite s' m' e' => Bool.eqb s s' && Pos.eqb m m' && Z.eqb e e'
       | SpecFloat.S754_zero s, SpecFloat.S754_zero s' => Bool.eqb s s' | _, _ => false end) (seq 0 181) = true) by (vm_compute; reflexivity).
    rewrite forallb_forall in A. intros n L. specialize (A n ltac:(apply in_seq; lia)).
    set (p := of_nano (to_nano (f_of_Z (Z.of_nat n)))) in *. set (q := f_of_Z (Z.of_nat n)) in *. set (p' := of_nano (to_nano (f_of_Z (- Z.of_nat n)))) in *. set (q' := f_of_Z (- Z.of_nat n)) in *.
    clearbody p q p' q'. apply andb_true_iff in A. destruct A as [A1 A2].
    split; [destruct p, q; try discriminate A1|destruct p', q'; try discriminate A2]; repeat (match goal with H : (_ && _) = true |- _ => apply andb_true_iff in H; destruct H end);
    repeat match goal with H : Bool.eqb _ _ = true |- _ => apply Bool.eqb_prop in H | H : Pos.eqb _ _ = true |- _ => apply Pos.eqb_eq in H | H : Z.eqb _ _ = true |- _ => apply Z.eqb_eq in H end; congruence. }
  destruct (N (Z.abs_nat d) ltac:(lia)) as (N1 & N2). destruct (Z.le_gt_cases 0 d).
  - replace (Z.of_nat (Z.abs_nat d)) with d in N1 by lia. exact N1.
  - replace (- Z.of_nat (Z.abs_nat d)) with d in N2 by lia. exact N2.
Qed.

(** *** C79 *)
(** the first copy rounds every edge toward zero to whole nanodegrees *)
Theorem C79_first b b' : bbox_degrees b -> copied b b' -> each_edge toward_zero b b'.
Proof. intros (D1 & D2 & D3 & D4) C. rewrite (copied_inv _ _ C). unfold each_edge; cbn. sconj; apply edge_first; auto. Qed.
(** so every further copy is of a box of whole nanodegrees; each edge stays or moves by one toward zero *)
Theorem C79_again b b' b'' : bbox_degrees b -> copied b b' -> copied b' b'' -> each_edge same_or_next b' b''.
Proof.
  intros D C C'. pose proof (C79_first _ _ D C) as (E1 & E2 & E3 & E4). rewrite (copied_inv _ _ C'). unfold each_edge; cbn.
  assert (X : forall x x', toward_zero x x' -> same_or_next x' (of_nano (to_nano x'))).
  { intros x x' (k & Bk & -> & _). exists k. change (fdiv (f_of_Z k) (f_of_Z 1000000000)) with (of_nano k). exists (to_nano (of_nano k)).
    destruct (edge_next k Bk) as (_ & R). sconj; auto; reflexivity. }
  sconj; eapply X; eauto.
Qed.
(** positions are on a grid of 1e-7 degrees: an edge on the grid is still nearest to its grid line after a copy *)
Theorem C79_grid b b' : copied b b' -> forall k, Z.abs k <= 1800000000 ->
  let near x x' := step_value k x -> (Rabs (IZR k - f2r x' * 10000000) <= / 50)%R in each_edge near b b'.
Proof.
  intros C k Bk near. assert (X : forall x, near x (of_nano (to_nano x))).
  { intros x (S & _). pose proof (grid_deg x k Bk S) as Dx. destruct (nano_edge x Dx) as (_ & E & _). destruct S as (_ & _ & S). rewrite S in E.
    pose proof (grid_err k Bk) as G. apply Rabs_le_inv in E. apply Rabs_le_inv in G. apply Rabs_le. lra. }
  rewrite (copied_inv _ _ C). unfold each_edge; cbn. sconj; apply X.
Qed.
(** boxes of whole degrees come back as they were written *)
Theorem C79_whole_degrees b b' : each_edge (fun x _ => whole_degrees x) b b -> copied b b' -> b' = b.
Proof.
  intros ((d1 & B1 & E1) & (d2 & B2 & E2) & (d3 & B3 & E3) & (d4 & B4 & E4)) C. rewrite (copied_inv _ _ C). destruct b as [l bo r t]. cbn in *. subst.
  rewrite !whole_kept by auto. reflexivity.
Qed.
(** copying a box again and again comes to rest after finitely many copies *)
Definition nbox (a b c d : Z) : bbox := BBox (of_nano a) (of_nano b) (of_nano c) (of_nano d).
Lemma settles_from seq : (forall n, copied (seq n) (seq (S n))) -> forall size a b c d, 
  Z.abs a <= 180000000000 -> Z.abs b <= 180000000000 -> Z.abs c <= 180000000000 -> Z.abs d <= 180000000000 ->
  Z.abs a + Z.abs b + Z.abs c + Z.abs d = Z.of_nat size -> forall n0, seq n0 = nbox a b c d -> exists n, (n0 <= n)%nat /\ forall m, (n <= m)%nat -> seq m = seq n.
Proof.
  intros CP size. induction size as [size IH] using lt_wf_ind. intros a b c d A B C D Sz n0 E.
  pose proof (copied_inv _ _ (CP n0)) as N. rewrite E in N. unfold nbox in N. cbn in N.
  destruct (edge_next_abs a A) as (A' & La & Ra). destruct (edge_next_abs b B) as (B' & Lb & Rb). destruct (edge_next_abs c C) as (C' & Lc & Rc). destruct (edge_next_abs d D) as (D' & Ld & Rd).
  set (a' := to_nano (of_nano a)) in *. set (b' := to_nano (of_nano b)) in *. set (c' := to_nano (of_nano c)) in *. set (d' := to_nano (of_nano d)) in *.
  destruct (Z.eq_dec (Z.abs a' + Z.abs b' + Z.abs c' + Z.abs d') (Z.of_nat size)) as [Eq|Ne].
  - assert (Ea : a' = a) by (apply Ra; clear - La Lb Lc Ld Sz Eq; lia). assert (Eb : b' = b) by (apply Rb; clear - La Lb Lc Ld Sz Eq; lia).
    assert (Ec : c' = c) by (apply Rc; clear - La Lb Lc Ld Sz Eq; lia). assert (Ed : d' = d) by (apply Rd; clear - La Lb Lc Ld Sz Eq; lia).
    assert (Fix : forall j, seq (n0 + j)%nat = nbox a b c d).
    { induction j as [|j IHj]; [rewrite Nat.add_0_r; exact E|]. rewrite Nat.add_succ_r. rewrite (copied_inv _ _ (CP (n0 + j)%nat)), IHj. unfold nbox; cbn.
      fold a' b' c' d'. rewrite Ea, Eb, Ec, Ed. reflexivity. }
    exists n0. split; [lia|]. intros m L. replace m with (n0 + (m - n0))%nat by (clear - L; lia). rewrite Fix, E. reflexivity.
  - destruct (IH (Z.to_nat (Z.abs a' + Z.abs b' + Z.abs c' + Z.abs d')) ltac:(clear - La Lb Lc Ld Sz Ne; lia) a' b' c' d' A' B' C' D' ltac:(clear; lia) (S n0) N) as (n & L & H).
    exists n. split; [lia|auto].
Qed.
Theorem C79_settles seq : bbox_degrees (seq 0%nat) -> (forall n, copied (seq n) (seq (S n))) ->
  exists n, forall m, (n <= m)%nat -> seq m = seq n.
Proof.
  intros D CP. destruct (C79_first _ _ D (CP 0%nat)) as ((a & A & E1 & _) & (b & B & E2 & _) & (c & C & E3 & _) & (d & Dd & E4 & _)).
  destruct (settles_from seq CP (Z.to_nat (Z.abs a + Z.abs b + Z.abs c + Z.abs d)) a b c d A B C Dd ltac:(lia) 1%nat) as (n & _ & H); [|eauto].
  destruct (seq 1%nat) as [l bo r t]. cbn [bb_left bb_bottom bb_right bb_top] in E1, E2, E3, E4. unfold nano_value in E1, E2, E3, E4. rewrite E1, E2, E3, E4. reflexivity.
Qed.
