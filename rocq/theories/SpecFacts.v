(** The round trip lemmas restated over the specification vocabulary. *)
From Coq Require Import ZArith List Bool Strings.Byte Strings.String Reals Lia Lra ZifyBool.
From Flocq Require Import Core.
From Verif Require Import Base BaseFacts Types Proto ProtoFacts Block BlockFacts FloatFacts Spec.
Import ListNotations.
Open Scope Z_scope.
Local Notation length := List.length.

Lemma norm_ts_spec t : truncated_to_second t (norm_ts t).
Proof.
  exists (Z.quot t 1000). unfold norm_ts.
  pose proof (Z.quot_rem t 1000 ltac:(lia)). pose proof (Z.rem_bound_abs t 1000 ltac:(lia)).
  split; [lia|]. destruct (Z.le_gt_cases 0 t).
  - pose proof (Z.quot_pos t 1000 ltac:(lia) ltac:(lia)). pose proof (Z.rem_nonneg t 1000 ltac:(lia) ltac:(lia)).
    split; [lia|nia].
  - pose proof (Z.rem_nonpos t 1000 ltac:(lia) ltac:(lia)).
    pose proof (Z.quot_opp_l t 1000 ltac:(lia)). pose proof (Z.quot_pos (-t) 1000 ltac:(lia) ltac:(lia)).
    split; [lia|nia].
Qed.
Lemma truncated_unique t a b : truncated_to_second t a -> truncated_to_second t b -> a = b.
Proof.
  intros (s & -> & A & B) (s' & -> & C & D).
  assert (Z.abs s = Z.abs s') by lia.
  destruct (Z.eq_dec t 0) as [->|N]; [lia|]. nia.
Qed.
Lemma truncated_whole t : whole_second t -> truncated_to_second t t.
Proof.
  intros H. exists (t / 1000). unfold whole_second in H. pose proof (Z.div_mod t 1000 ltac:(lia)). split; [lia|split; [lia|nia]].
Qed.
Lemma truncated_is_whole t t' : truncated_to_second t t' -> whole_second t'.
Proof. intros (s & -> & _). unfold whole_second. rewrite Z.mul_comm. apply Z.mod_mul. lia. Qed.

Lemma grid_f64_value k : Z.abs k <= 1800000000 -> step_value k (grid_f64 k).
Proof.
  intros H. split; [apply pbf_ok; auto|]. intros ->. reflexivity.
Qed.

Lemma is_f_unique x y r : is_f x r -> is_f y r -> r <> 0%R -> x = y.
Proof.
  intros (V1 & F1 & R1) (V2 & F2 & R2) N.
  destruct (f_valid_B _ V1) as [b1 E1]. destruct (f_valid_B _ V2) as [b2 E2].
  rewrite <- E1, <- E2 in *. f_equal. rewrite f2r_B in R1, R2.
  apply Flocq.IEEE754.BinarySingleNaN.B2R_inj; [| |congruence].
  - apply Flocq.IEEE754.BinarySingleNaN.is_finite_strict_B2R. congruence.
  - apply Flocq.IEEE754.BinarySingleNaN.is_finite_strict_B2R. congruence.
Qed.
Lemma rnd_grid_nz k : Z.abs k <= 1800000000 -> k <> 0 -> rnd (IZR k / 10000000) <> 0%R.
Proof.
  intros H N Z. pose proof (grid_err k H) as G. apply Rabs_le_inv in G. rewrite Z in G.
  assert (1 <= k \/ k <= -1) as [K|K] by lia; apply IZR_le in K; lra.
Qed.
(** the value of a step is unique *)
Lemma step_value_unique k x y : Z.abs k <= 1800000000 -> step_value k x -> step_value k y -> x = y.
Proof.
  intros H (A & A0) (B & B0). destruct (Z.eq_dec k 0) as [E|N].
  - rewrite A0, B0; auto.
  - eapply is_f_unique; eauto. apply rnd_grid_nz; auto.
Qed.
Lemma step_value_step k x : Z.abs k <= 1800000000 -> step_value k x -> step_of x = k.
Proof. intros H (A & _). apply step_grid; auto. Qed.
Lemma step_value_grid k x : Z.abs k <= 1800000000 -> step_value k x -> grid_f64 k = x.
Proof. intros H A. eapply step_value_unique; eauto. apply grid_f64_value; auto. Qed.

Lemma norm_coord_spec c : degrees (lat c) -> degrees (lon c) -> coord_written_read c (norm_coord c).
Proof.
  intros A B. exists (step_of (lat c)), (step_of (lon c)). unfold norm_coord; cbn [lat lon].
  pose proof (step_range _ A) as RA. pose proof (step_range _ B) as RB.
  sconj; auto using grid_f64_value; apply quantisation; auto.
Qed.
Lemma degrees_fits c : degrees (lat c) -> degrees (lon c) -> step_fits c.
Proof.
  intros A B. apply step_range in A, B. unfold step_fits, step_of, I64. lia.
Qed.

Lemma norm_spec e : element_ok e -> e <> ESentinel -> written_read e (norm e).
Proof.
  destruct e; cbn; intros H N; try congruence.
  - destruct H as (_ & A & B). unfold node_written_read, norm_node; cbn. sconj; auto using norm_ts_spec, norm_coord_spec.
  - unfold way_written_read, norm_way; cbn. sconj; auto using norm_ts_spec.
  - unfold relation_written_read, norm_relation; cbn. sconj; auto using norm_ts_spec.
Qed.
Lemma element_ok_input es : Forall element_ok es -> block_input_ok es.
Proof.
  intros H. split; induction H as [|e l He Hl IH]; constructor; auto; destruct e; cbn in *; auto.
  - destruct He; auto.
  - destruct He as (_ & A & B). apply degrees_fits; auto.
Qed.

(** writing something already read changes nothing *)
Lemma norm_ts_whole t : whole_second t -> norm_ts t = t.
Proof. intros H. eapply truncated_unique; [apply norm_ts_spec|apply truncated_whole; auto]. Qed.
Lemma norm_coord_grid c : on_grid (lat c) -> on_grid (lon c) -> norm_coord c = c.
Proof.
  intros (a & A1 & A2) (b & B1 & B2). destruct c as [x y]. unfold norm_coord; cbn in *.
  rewrite (step_value_step _ _ A1 A2), (step_value_step _ _ B1 B2).
  rewrite (step_value_grid _ _ A1 A2), (step_value_grid _ _ B1 B2). reflexivity.
Qed.
Lemma on_grid_degrees x : on_grid x -> degrees x.
Proof. intros (k & H & A & _). eapply grid_deg; eauto. Qed.
Lemma grid_on_grid x : degrees x -> on_grid (grid_f64 (step_of x)).
Proof. intros H. apply step_range in H. exists (step_of x). split; auto. apply grid_f64_value; auto. Qed.
