(** Facts for C84: rows whose columns contain TABs. *)
From Coq Require Import ZArith List Bool Strings.Byte Strings.String Lia Permutation.
From Verif Require Import Base BaseFacts Types WireSpec WireFacts ApidbText ApidbSpec ApidbTextFacts DumpSpec ApidbWrite ApidbWriteFacts Model2 ApidbRead DumpReadSpec RoundSpec
  ApidbReadFacts JoinFacts ReaderFacts RoundFacts PropDump PropLimits NameSpec.
Import ListNotations.
Local Notation length := List.length.
Local Notation concat := List.concat.
Open Scope Z_scope.

(** ** UTF-8 around a TAB *)
Lemma char_tab c : scalar c -> In 9 (utf8_char c) -> utf8_char c = [9].
Proof.
  unfold scalar, utf8_char. intros S. destruct (c <? 128) eqn:E1; [intros [->|[]]; auto|].
  destruct (c <? 2048) eqn:E2; [|destruct (c <? 65536) eqn:E3]; cbn [In]; intros H; exfalso.
  - assert (0 <= c / 64) by (apply Z.div_pos; lia). pose proof (Z.mod_pos_bound c 64). lia.
  - assert (0 <= c / 4096) by (apply Z.div_pos; lia). pose proof (Z.mod_pos_bound c 64). pose proof (Z.mod_pos_bound (c / 64) 64). lia.
  - assert (0 <= c / 262144) by (apply Z.div_pos; lia). pose proof (Z.mod_pos_bound c 64). pose proof (Z.mod_pos_bound (c / 64) 64). pose proof (Z.mod_pos_bound (c / 4096) 64). lia.
Qed.
Lemma app_eq_split {A} (p r a : list A) x b : p ++ r = a ++ x :: b -> (exists a', a = p ++ a' /\ r = a' ++ x :: b) \/ (exists q, p = a ++ x :: q /\ b = q ++ r).
Proof.
  revert a. induction p as [|y p IH]; intros a E; [left; exists a; auto|]. destruct a as [|z a]; cbn in E.
  - injection E as -> <-. right. exists p. auto.
  - injection E as -> E. destruct (IH a E) as [(a' & -> & R)|(q & -> & R)]; [left; exists a'|right; exists q]; auto.
Qed.
Lemma chars_tab cs : Forall scalar cs -> forall a b, flat_map utf8_char cs = a ++ 9 :: b -> exists c1 c2, cs = c1 ++ 9 :: c2 /\ a = flat_map utf8_char c1 /\ b = flat_map utf8_char c2.
Proof.
  induction 1 as [|c cs S F IH]; cbn [flat_map]; intros a b E; [destruct a; discriminate|]. apply app_eq_split in E as [(a' & -> & E)|(q & E & ->)].
  - destruct (IH _ _ E) as (c1 & c2 & -> & -> & ->). exists (c :: c1), c2. auto.
  - assert (utf8_char c = [9]) as C by (apply char_tab; auto; rewrite E; apply in_app_iff; right; left; auto). rewrite C in E.
    destruct a as [|z a]; [|destruct a; discriminate]. injection E as <-. exists [], cs. cbn [flat_map app]. split; auto. f_equal.
    unfold utf8_char in C. destruct (c <? 128); [congruence|]. destruct (c <? 2048); [discriminate|]. destruct (c <? 65536); discriminate.
Qed.
Lemma utf8_tab a b : utf8_ok (a ++ x09 :: b) = true -> utf8_ok a = true /\ utf8_ok b = true.
Proof.
  intros U. apply utf8_ok_spec in U as (cs & F & E). rewrite map_app in E. cbn [map] in E. change (b2z x09) with 9 in E. symmetry in E.
  destruct (chars_tab cs F _ _ E) as (c1 & c2 & -> & A & B). apply Forall_app in F as (F1 & F2). inversion F2; subst.
  split; apply utf8_ok_spec; [exists c1|exists c2]; auto.
Qed.

(** ** Splitting *)
Lemma split_app a b : split_byte x09 (a ++ x09 :: b) = split_byte x09 a ++ split_byte x09 b.
Proof.
  induction a as [|c a IH]; cbn [app split_byte].
  - rewrite beqb_refl. reflexivity.
  - destruct (Byte.eqb c x09); [rewrite IH; reflexivity|]. rewrite IH.
    destruct (split_byte x09 a) as [|p ps] eqn:E; [|reflexivity]. exfalso. clear -E. destruct a as [|b a]; cbn in E; [discriminate|]. destruct (Byte.eqb b x09); [discriminate|]. destruct (split_byte x09 a); discriminate.
Qed.
Lemma split_one s : ~ In x09 s -> split_byte x09 s = [s].
Proof.
  induction s as [|c s IH]; intros N; cbn [split_byte]; auto. rewrite beqb_neq by (intros ->; apply N; left; auto). rewrite IH by (intros X; apply N; right; auto). reflexivity.
Qed.
(** the pieces: the first one is the text before the first TAB, and there is one more than there are TABs *)
Lemma tab_cases s : ~ In x09 s \/ exists a b, ~ In x09 a /\ s = a ++ x09 :: b.
Proof.
  induction s as [|c s IH]; [left; intros []|]. destruct (Byte.byte_eq_dec c x09) as [->|N].
  - right. exists [], s. split; [intros []|auto].
  - destruct IH as [H|(a & b & H & ->)]; [left; intros [X|X]; congruence|right; exists (c :: a), b; split; [intros [X|X]; congruence|auto]].
Qed.
Lemma split_head s : exists p ps, split_byte x09 s = p :: ps /\ cut_at_tab s p.
Proof.
  destruct (tab_cases s) as [N|(a & b & N & ->)].
  - exists s, []. rewrite split_one by auto. split; auto. split; auto.
  - exists a, (split_byte x09 b). rewrite split_app, (split_one a) by auto. split; auto. split; eauto.
Qed.
Lemma cut_unique s p q : cut_at_tab s p -> cut_at_tab s q -> p = q.
Proof.
  intros (N1 & H1) (N2 & H2). destruct H1 as [->|(r1 & ->)], H2 as [E|(r2 & E)]; auto.
  - exfalso. apply N1. rewrite E. apply in_app_iff. right; left; auto.
  - exfalso. apply N2. rewrite <- E. apply in_app_iff. right; left; auto.
  - revert q N2 E. induction p as [|c p IH]; intros [|d q] N2 E; cbn in E; auto.
    + injection E as <- _. exfalso. apply N2. left; auto.
    + injection E as -> _. exfalso. apply N1. left; auto.
    + injection E as -> E. f_equal. apply IH; auto; intros X; [apply N1|apply N2]; right; auto.
Qed.
Lemma split_length s : length (split_byte x09 s) = S (tabs s).
Proof.
  unfold tabs. induction s as [|c s IH]; cbn [split_byte count_occ]; auto. destruct (Byte.byte_eq_dec c x09) as [->|N].
  - rewrite beqb_refl. cbn [length]. rewrite IH. reflexivity.
  - rewrite beqb_neq by auto. destruct (split_byte x09 s) as [|p ps] eqn:E; [discriminate|]. cbn [length] in *. exact IH.
Qed.
Lemma split_last c : copy_line (split_byte x09 c) (c ++ [x0a]).
Proof.
  assert (forall n c, (length c <= n)%nat -> copy_line (split_byte x09 c) (c ++ [x0a])) as H; [|apply (H (length c)); auto].
  clear. induction n as [|n IH]; intros c L; (destruct (tab_cases c) as [N|(a & b & N & ->)]; [rewrite split_one by auto; constructor|]).
  - rewrite app_length in L. cbn in L. lia.
  - rewrite split_app, (split_one a) by auto. cbn [app]. rewrite <- app_assoc. cbn [app]. constructor. apply IH. rewrite app_length in L. cbn in L. lia.
Qed.
Lemma split_more cols l : copy_line cols l -> forall c, copy_line (split_byte x09 c ++ cols) (c ++ x09 :: l).
Proof.
  intros CL. assert (forall n c, (length c <= n)%nat -> copy_line (split_byte x09 c ++ cols) (c ++ x09 :: l)) as H; [|intros c; apply (H (length c)); auto].
  induction n as [|n IH]; intros c L; (destruct (tab_cases c) as [N|(a & b & N & ->)]; [rewrite split_one by auto; constructor; auto|]).
  - rewrite app_length in L. cbn in L. lia.
  - rewrite split_app, (split_one a) by auto. cbn [app]. rewrite <- app_assoc. cbn [app]. constructor. apply IH. rewrite app_length in L. cbn in L. lia.
Qed.
Lemma split_line cols l : copy_line cols l -> copy_line (flat_map (split_byte x09) cols) l.
Proof. induction 1 as [c|c cols l H IH]; cbn [flat_map]; [rewrite app_nil_r; apply split_last|apply split_more; auto]. Qed.
Lemma split_clean s : one_line s -> Forall clean (split_byte x09 s).
Proof.
  assert (forall n s, (length s <= n)%nat -> one_line s -> Forall clean (split_byte x09 s)) as H; [|apply (H (length s)); auto].
  clear. induction n as [|n IH]; intros s L (U & N1 & N2); (destruct (tab_cases s) as [N|(a & b & N & ->)]; [rewrite split_one by auto; constructor; auto; split; auto|]).
  - rewrite app_length in L. cbn in L. lia.
  - rewrite split_app, (split_one a) by auto. cbn [app]. apply utf8_tab in U as (U1 & U2). constructor.
    + split; auto. split; auto. split; intros X; [apply N1|apply N2]; apply in_app_iff; auto.
    + apply IH; [rewrite app_length in L; cbn in L; lia|]. split; auto. split; intros X; [apply N1|apply N2]; apply in_app_iff; right; right; auto.
Qed.
Lemma clean_line s : clean s -> one_line s. Proof. intros (A & B & C & D). split; auto. Qed.
Lemma clean_split s : clean s -> split_byte x09 s = [s]. Proof. intros (A & B & _). apply split_one; auto. Qed.

(** ** What the reader makes of a users row *)
Lemma users_def file : table_def_new T_users file (schema T_users) = Ok (TableDef file (seq 0 29) [(1%nat, FInteger)]).
Proof. reflexivity. Qed.
Lemma create_user_inv line u : create_user (seq 0 29) line = Ok u ->
  let c k := nth k (columns line) [] in
  parse_i64 (c 1%nat) = Some (ur_id u) /\ ur_name u = c 4%nat /\
  Forall (fun k => parse_sql_bool (c k) <> None) [5; 11; 17; 20; 25]%nat /\ parse_i16 (c 9%nat) <> None /\ parse_status (c 15%nat) <> None /\
  parse_format (c 21%nat) <> None /\ Forall (fun k => parse_i32 (c k) <> None) [22; 23; 24]%nat.
Proof.
  unfold create_user. intros E. apply bind_ok in E as (all & A & E). cbv zeta in *.
  assert (all = map (fun k => nth k (columns line) []) (seq 0 29)) as ->.
  { revert A. generalize (columns line) as cs. intros cs. clear. cbn [seq].
    assert (forall ks l, incl ks (seq 0 29) -> res_map (col (seq 0 29) cs) ks = Ok l -> l = map (fun k => nth k cs []) ks) as H.
    { induction ks as [|k ks IH]; cbn [res_map]; intros l I A; [injection A as <-; reflexivity|].
      apply bind_ok in A as (x & X & A). apply bind_ok in A as (xs & XS & A). injection A as <-. cbn [map]. f_equal; [|apply IH; auto; intros y Y; apply I; right; auto].
      unfold col in X. assert (nth_error (seq 0 29) k = Some k) as N.
      { assert (k < 29)%nat as B by (apply (fun H => proj2 (proj1 (in_seq 29 0 k) H)); apply I; left; auto).
        rewrite nth_error_nth' with (d := 0%nat) by (rewrite seq_length; lia). rewrite seq_nth by lia. reflexivity. }
      rewrite N in X. apply unwrap_ok in X. symmetry. apply nth_error_nth; auto. }
    apply H. intros x; auto. }
  cbn [seq map nth_error unwrap bind] in E.
  apply bind_ok in E as (id & I & E). apply unwrap_ok in I.
  repeat (let x := fresh "x" in let X := fresh "X" in apply bind_ok in E as (x & X & E); apply unwrap_ok in X). injection E as <-. cbn [ur_id ur_name].
  sconj; auto; try congruence; repeat (apply Forall_cons; [congruence|]); apply Forall_nil.
Qed.
Lemma create_user_or fs line : (exists u, create_user fs line = Ok u) \/ create_user fs line = Panic.
Proof.
  unfold create_user.
  assert (forall cs ks, (exists l, res_map (col fs cs) ks = Ok l) \/ res_map (col fs cs) ks = Panic) as H.
  { intros cs ks. induction ks as [|k ks IH]; cbn [res_map]; eauto. unfold col at 1 3. destruct (nth_error fs k); cbn [bind]; auto. destruct (nth_error cs n); cbn [unwrap bind]; auto.
    destruct IH as [(l & ->)| ->]; cbn [bind]; eauto. }
  destruct (H (columns line) (seq 0 29)) as [(l & ->)| ->]; cbn [bind]; auto.
  repeat match goal with |- context [unwrap ?x] => destruct x; cbn [unwrap bind]; auto end. eauto.
Qed.
(** texts of one kind are not of another *)
Lemma bool_is s : parse_sql_bool s <> None -> s = str "t" \/ s = str "f".
Proof.
  unfold parse_sql_bool. destruct (bytes_eqb s (str "t")) eqn:E; [apply bytes_eqb_eq in E; auto|]. destruct (bytes_eqb s (str "f")) eqn:F; [apply bytes_eqb_eq in F; auto|]. intros H. exfalso. auto.
Qed.
Lemma bool_not_i16 s : parse_sql_bool s <> None -> parse_i16 s = None.
Proof. intros H. apply bool_is in H as [->| ->]; reflexivity. Qed.
Lemma bool_not_i32 s : parse_sql_bool s <> None -> parse_i32 s = None.
Proof. intros H. apply bool_is in H as [->| ->]; reflexivity. Qed.
Lemma bool_not_status s : parse_sql_bool s <> None -> parse_status s = None.
Proof. intros H. apply bool_is in H as [->| ->]; reflexivity. Qed.
Lemma bool_not_format s : parse_sql_bool s <> None -> parse_format s = None.
Proof. intros H. apply bool_is in H as [->| ->]; reflexivity. Qed.
Lemma int_not_bool s z : plain s z -> I32 z -> parse_sql_bool s = None.
Proof.
  intros P R. destruct (parse_sql_bool s) as [b|] eqn:E; auto. exfalso. assert (parse_sql_bool s <> None) as N by congruence. apply bool_not_i32 in N.
  unfold parse_i32 in N. rewrite (parse_plain _ _ _ _ P) in N; [discriminate|exact R].
Qed.
Lemma int_not_status s z : plain s z -> I32 z -> parse_status s = None.
Proof.
  intros P R. unfold parse_status. destruct (existsb _ _) eqn:E; auto. exfalso. apply existsb_exists in E as (x & I & E). apply bytes_eqb_eq in E. subst x.
  assert (parse_i32 s = Some z) as N by (apply parse_plain; auto). cbn [In] in I. decompose [or] I; try contradiction; subst s; discriminate N.
Qed.
Lemma int_not_format s z : plain s z -> I32 z -> parse_format s = None.
Proof.
  intros P R. unfold parse_format. destruct (existsb _ _) eqn:E; auto. exfalso. apply existsb_exists in E as (x & I & E). apply bytes_eqb_eq in E. subst x.
  assert (parse_i32 s = Some z) as N by (apply parse_plain; auto). cbn [In] in I. decompose [or] I; try contradiction; subst s; discriminate N.
Qed.
(** the columns of a users row as the reader sees them *)
Definition seen (email d time name a b c n1 n2 n3 : bytes) : list bytes :=
  [email; d; str "00000000000000000000000000000000"; time] ++ split_byte x09 name ++ [str "t"] ++ split_byte x09 name ++
  [a; b; c; str "00000000"; str "f"; str "\N"; str "\N"; str "\N"; str "pending"; str "\N"; str "f"; str "\N"; str "\N"; str "f"; str "markdown"; n1; n2; n3; str "f"; str "\N"; str "\N"; str "\N"].
Ltac conflict := match goal with
  | H : parse_sql_bool ?s <> None, P : plain ?s _ |- _ => exact (H (int_not_bool _ _ P ltac:(red; lia)))
  | H : parse_status ?s <> None, P : plain ?s _ |- _ => exact (H (int_not_status _ _ P ltac:(red; lia)))
  | H : parse_format ?s <> None, P : plain ?s _ |- _ => exact (H (int_not_format _ _ P ltac:(red; lia)))
  | B : parse_sql_bool ?s <> None, H : parse_i16 ?s <> None |- _ => exact (H (bool_not_i16 _ B))
  | B : parse_sql_bool ?s <> None, H : parse_i32 ?s <> None |- _ => exact (H (bool_not_i32 _ B))
  | B : parse_sql_bool ?s <> None, H : parse_status ?s <> None |- _ => exact (H (bool_not_status _ B))
  | B : parse_sql_bool ?s <> None, H : parse_format ?s <> None |- _ => exact (H (bool_not_format _ B))
  | H : ?x <> None |- _ => exact (H eq_refl)
  end.
Lemma never_read line email d time name a b c n1 n2 n3 u : columns line = seen email d time name a b c n1 n2 n3 ->
  plain a 0 -> plain b 0 -> plain c 3 -> plain n1 0 -> plain n2 0 -> plain n3 0 -> never (tabs name) -> create_user (seq 0 29) line <> Ok u.
Proof.
  intros C PA PB PC P1 P2 P3 NV E. apply create_user_inv in E as (_ & _ & B & H & S & F & N). rewrite C in *. unfold seen in *. clear C.
  pose proof (split_length name) as L. revert L NV. generalize (tabs name) as k. intros k L NV.
  inversion B as [|? ? B1 B']; subst. inversion B' as [|? ? B2 B'']; subst. inversion B'' as [|? ? B3 B3']; subst. inversion B3' as [|? ? B4 B4']; subst. inversion B4' as [|? ? B5 _]; subst.
  inversion N as [|? ? N1 N']; subst. inversion N' as [|? ? N2 N'']; subst. inversion N'' as [|? ? N3 _]; subst. clear B B' B'' B3' B4' N N' N''.
  revert L B1 B2 B3 B4 B5 H S F N1 N2 N3. generalize (split_byte x09 name) as ps. intros ps L.
  do 21 (destruct ps as [|? ps]; [cbn [length] in L; first [exfalso; unfold never in NV; lia|cbn [app nth]; intros; conflict]|]).
  exfalso. unfold never in NV. cbn [length] in L. lia.
Qed.
