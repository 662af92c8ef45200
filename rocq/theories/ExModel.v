(** Non-vacuity for PropModel. *)
From Coq Require Import ZArith List Bool Strings.Byte Strings.String Reals Lia Lra.
From Coq Require Import Floats.SpecFloat.
From Verif Require Import Base BaseFacts Types FloatFacts Block BlockFacts Spec SpecFacts ModelSpec Model2 ModelFacts ExBlock PropModel.
Import ListNotations.
Open Scope Z_scope.

(** C22: three elements in order *)
Example ex_order : element_cmp (ENode ex_node1) (EWay ex_way) = Lt /\ element_cmp (EWay ex_way) (ERelation ex_rel) = Lt /\
  not_sentinel (ENode ex_node1) /\ not_sentinel (EWay ex_way) /\ not_sentinel (ERelation ex_rel).
Proof. repeat split; discriminate. Qed.

(** C26: boxes, one with an infinite bound *)
Lemma number_Z z : Z.abs z <= 1000 -> number (f_of_Z z).
Proof.
  intros H. destruct (f_of_Z_ok z ltac:(lia)) as (V & F & _). split; auto. intros E. rewrite E in F. discriminate.
Qed.
Definition ex_a : bbox := BBox (f_of_Z (-3)) (f_of_Z 35) (f_of_Z 14) (f_of_Z 36).
Definition ex_b : bbox := BBox (f_of_Z 2) (f_of_Z (-35)) (S754_infinity false) (f_of_Z 0).
Example ex_a_ok : box_ok ex_a. Proof. unfold box_ok, ex_a; cbn [bb_left bb_right bb_top bb_bottom]. sconj; apply number_Z; lia. Qed.
Example ex_b_ok : box_ok ex_b.
Proof. unfold box_ok, ex_b; cbn [bb_left bb_right bb_top bb_bottom]. sconj; try (apply number_Z; lia). split; [reflexivity|discriminate]. Qed.
Example ex_merge : bb_merge ex_a ex_b = BBox (f_of_Z (-3)) (f_of_Z (-35)) (S754_infinity false) (f_of_Z 36).
Proof. vm_compute. reflexivity. Qed.

(** C49: a parser for short integers, accepted and refused strings *)
Definition ex_digit (b : byte) : option Z := let z := b2z b in if (48 <=? z) && (z <=? 57) then Some (z - 48) else None.
Fixpoint ex_digits (s : bytes) (a : Z) : option Z :=
  match s with [] => Some a | b :: r => match ex_digit b with Some d => ex_digits r (Z.min 100000 (10 * a + d)) | None => None end end.
Definition ex_parse (s : bytes) : option f64 :=
  match s with
  | [] => None
  | b :: r => if Byte.eqb b x2d then (match r with [] => None | _ => option_map (fun z => f_of_Z (- z)) (ex_digits r 0) end)
              else if bytes_eqb s (str "NaN") then Some S754_nan
              else option_map f_of_Z (ex_digits s 0)
  end.
Lemma ex_digits_bound s : forall a z, 0 <= a <= 100000 -> ex_digits s a = Some z -> 0 <= z <= 100000.
Proof.
  induction s as [|b r IH]; cbn; intros a z A H; [injection H as <-; lia|].
  unfold ex_digit in H. destruct ((48 <=? b2z b) && (b2z b <=? 57)) eqn:E; [|discriminate].
  eapply IH; [|exact H]. lia.
Qed.
Example ex_parse_valid x f : ex_parse x = Some f -> f_valid f.
Proof.
  destruct x as [|b r]; [discriminate|]. unfold ex_parse. destruct (Byte.eqb b x2d).
  - destruct r as [|c r]; [discriminate|]. destruct (ex_digits (c :: r) 0) as [z|] eqn:E; [|discriminate].
    intros [= <-]. apply ex_digits_bound in E; [|lia]. apply f_of_Z_ok. lia.
  - destruct (bytes_eqb (b :: r) (str "NaN")); [intros [= <-]; reflexivity|].
    destruct (ex_digits (b :: r) 0) as [z|] eqn:E; [|discriminate].
    intros [= <-]. apply ex_digits_bound in E; [|lia]. apply f_of_Z_ok. lia.
Qed.
Example ex_from_str : bb_from_str ex_parse (str "-3, 35 ,14,36") = Ok ex_a /\
  bb_from_str ex_parse (str "-3,35,14,36,7,x") = Ok ex_a /\
  bb_from_str ex_parse (str "-181,35,14,36") = Err /\ bb_from_str ex_parse (str "NaN,35,14,36") = Err /\
  bb_from_str ex_parse (str "1,2,3") = Err.
Proof. vm_compute. auto. Qed.
