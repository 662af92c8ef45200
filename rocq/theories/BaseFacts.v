(** Lemmas about the base vocabulary. *)
From Coq Require Import ZArith List Bool Strings.Byte Strings.String Lia ZifyBool.
From Verif Require Import Base.
Import ListNotations.
Open Scope Z_scope.

Definition I64 (z : Z) : Prop := -9223372036854775808 <= z <= 9223372036854775807.
Definition I32 (z : Z) : Prop := -2147483648 <= z <= 2147483647.
Definition U32 (z : Z) : Prop := 0 <= z < 4294967296.
Definition U64 (z : Z) : Prop := 0 <= z < 18446744073709551616.

Ltac zl := unfold in_i64, in_i32, wrap64, wrap32, two64, two63, two32, two31,
  min_i64, max_i64, min_i32, max_i32, I64, I32, U32, U64 in *;
  Z.to_euclidean_division_equations; lia.

(** split the visible conjunctions only *)
Ltac sconj := lazymatch goal with |- _ /\ _ => split; sconj | _ => idtac end.

Lemma b2z_range b : 0 <= b2z b < 256.
Proof. destruct b; vm_compute; split; congruence. Qed.

Lemma z2b_b2z b : z2b (b2z b) = b.
Proof. destruct b; reflexivity. Qed.

Lemma b2z_z2b z : b2z (z2b z) = z mod 256.
Proof.
  unfold z2b.
  assert (H : 0 <= z mod 256 < 256) by (apply Z.mod_pos_bound; lia).
  destruct (Byte.of_N (Z.to_N (z mod 256))) eqn:E.
  - unfold b2z. apply Byte.to_of_N in E. rewrite E. rewrite Z2N.id; lia.
  - apply Byte.of_N_None_iff in E. lia.
Qed.

Lemma zlen_nonneg {A} (l : list A) : 0 <= zlen l.
Proof. unfold zlen; lia. Qed.
Lemma zlen_app {A} (a b : list A) : zlen (a ++ b) = zlen a + zlen b.
Proof. unfold zlen; rewrite app_length; lia. Qed.
Lemma zlen_cons {A} (a : A) l : zlen (a :: l) = zlen l + 1.
Proof. unfold zlen; cbn [List.length]; lia. Qed.
Lemma zlen_nil {A} : zlen (@nil A) = 0.
Proof. reflexivity. Qed.

Lemma take_exact_app a r : take_exact (zlen a) (a ++ r) = Some (a, r).
Proof.
  unfold take_exact. pose proof (zlen_nonneg a). pose proof (zlen_nonneg r).
  rewrite zlen_app.
  destruct (zlen a <? 0) eqn:E1; [lia|].
  destruct (zlen a + zlen r <? zlen a) eqn:E2; [lia|].
  unfold zlen. rewrite Nat2Z.id.
  rewrite firstn_app, Nat.sub_diag, firstn_all, firstn_O, app_nil_r.
  rewrite skipn_app, Nat.sub_diag, skipn_all. reflexivity.
Qed.

Lemma index_nth {A} (l : list A) i a :
  index l i = Ok a <-> 0 <= i /\ nth_error l (Z.to_nat i) = Some a.
Proof.
  unfold index. split.
  - destruct (i <? 0) eqn:E1; [discriminate|].
    destruct (zlen l <=? i); [discriminate|].
    destruct (nth_error l (Z.to_nat i)); [|discriminate].
    intros [= ->]. split; [lia|reflexivity].
  - intros [H1 H2]. destruct (i <? 0) eqn:E1; [lia|].
    destruct (zlen l <=? i) eqn:E2.
    + assert (nth_error l (Z.to_nat i) <> None) by congruence.
      apply nth_error_Some in H. unfold zlen in E2. lia.
    + rewrite H2. reflexivity.
Qed.

Lemma bytes_eqb_eq a b : bytes_eqb a b = true <-> a = b.
Proof.
  revert b; induction a as [|x a IH]; destruct b as [|y b]; cbn; split; try congruence.
  - rewrite andb_true_iff. intros [H1 H2]. apply Byte.byte_dec_bl in H1. apply IH in H2. congruence.
  - intros [= -> ->]. rewrite andb_true_iff. split; [apply Byte.byte_dec_lb; reflexivity|apply IH; reflexivity].
Qed.
Lemma bytes_eqb_refl a : bytes_eqb a a = true.
Proof. apply bytes_eqb_eq; reflexivity. Qed.
Lemma bytes_eqb_neq a b : bytes_eqb a b = false <-> a <> b.
Proof.
  rewrite <- bytes_eqb_eq. destruct (bytes_eqb a b); split; congruence.
Qed.
Definition bytes_dec (a b : bytes) : {a = b} + {a <> b}.
Proof. decide equality. apply Byte.byte_eq_dec. Defined.

Lemma in_i64_iff z : in_i64 z = true <-> I64 z.
Proof. zl. Qed.
Lemma in_i32_iff z : in_i32 z = true <-> I32 z.
Proof. zl. Qed.
Lemma wrap64_id z : I64 z -> wrap64 z = z.
Proof. intros; zl. Qed.
Lemma wrap32_id z : I32 z -> wrap32 z = z.
Proof. intros; zl. Qed.
Lemma wrap64_range z : I64 (wrap64 z).
Proof. zl. Qed.
Lemma wrap32_range z : I32 (wrap32 z).
Proof. zl. Qed.
(** wrapping subtraction followed by wrapping addition gives the value back *)
Lemma wrap64_sub_add a b : I64 a -> wrap64 (b + wrap64 (a - b)) = a.
Proof. intros; zl. Qed.
Lemma wrap32_sub_add a b : I32 a -> wrap32 (b + wrap32 (a - b)) = a.
Proof. intros; zl. Qed.

Lemma arith64_ok m z : I64 z -> arith64 m z = Ok z.
Proof. intros H. unfold arith64. apply in_i64_iff in H. rewrite H. reflexivity. Qed.
Lemma arith32_ok m z : I32 z -> arith32 m z = Ok z.
Proof. intros H. unfold arith32. apply in_i32_iff in H. rewrite H. reflexivity. Qed.
Lemma arith64_wrapping z : arith64 Wrapping z = Ok (wrap64 z).
Proof.
  unfold arith64. destruct (in_i64 z) eqn:E; [|reflexivity].
  apply in_i64_iff in E. rewrite wrap64_id; auto.
Qed.
Lemma arith32_wrapping z : arith32 Wrapping z = Ok (wrap32 z).
Proof.
  unfold arith32. destruct (in_i32 z) eqn:E; [|reflexivity].
  apply in_i32_iff in E. rewrite wrap32_id; auto.
Qed.
(** a difference computed in either mode can be added back in the same mode *)
Lemma arith64_delta m a b d :
  I64 a -> I64 b -> arith64 m (a - b) = Ok d -> I64 d /\ arith64 m (b + d) = Ok a.
Proof.
  intros Ha Hb H. unfold arith64 in H. destruct (in_i64 (a - b)) eqn:E.
  - injection H as <-. apply in_i64_iff in E. split; [exact E|].
    replace (b + (a - b)) with a by lia. apply arith64_ok; auto.
  - destruct m; [discriminate|]. injection H as <-. split; [apply wrap64_range|].
    rewrite arith64_wrapping, wrap64_sub_add; auto.
Qed.
Lemma arith32_delta m a b d :
  I32 a -> I32 b -> arith32 m (a - b) = Ok d -> I32 d /\ arith32 m (b + d) = Ok a.
Proof.
  intros Ha Hb H. unfold arith32 in H. destruct (in_i32 (a - b)) eqn:E.
  - injection H as <-. apply in_i32_iff in E. split; [exact E|].
    replace (b + (a - b)) with a by lia. apply arith32_ok; auto.
  - destruct m; [discriminate|]. injection H as <-. split; [apply wrap32_range|].
    rewrite arith32_wrapping, wrap32_sub_add; auto.
Qed.

Lemma bind_ok {A B} (x : res A) (f : A -> res B) b :
  bind x f = Ok b -> exists a, x = Ok a /\ f a = Ok b.
Proof. destruct x; cbn; try discriminate. eauto. Qed.

Lemma mapM_app {A B} (f : A -> res B) l1 l2 :
  mapM f (l1 ++ l2) = bind (mapM f l1) (fun a => bind (mapM f l2) (fun b => Ok (a ++ b))).
Proof.
  induction l1 as [|x l1 IH]; cbn.
  - destruct (mapM f l2); reflexivity.
  - destruct (f x); cbn; auto. rewrite IH.
    destruct (mapM f l1); cbn; auto. destruct (mapM f l2); cbn; auto.
Qed.
Lemma mapM_ok_map {A B} (f : A -> res B) (g : A -> B) l :
  Forall (fun x => f x = Ok (g x)) l -> mapM f l = Ok (map g l).
Proof.
  induction 1; cbn; auto. rewrite H, IHForall. reflexivity.
Qed.
