(** Crates that meet the assumptions made about the escaping, unescaping and sorting crates, so that these
    assumptions are consistent. *)
From Coq Require Import ZArith List Bool Strings.Byte Strings.String Lia Permutation.
From Verif Require Import Base BaseFacts Types Model2 ApidbText ApidbSpec ApidbTextFacts DumpSpec ApidbWrite ApidbWriteFacts ApidbRead DumpReadSpec ApidbReadFacts ReaderFacts RoundSpec.
Import ListNotations.
Local Notation length := List.length.
Local Notation concat := List.concat.
Open Scope Z_scope.

(** ** Escaping: backslash, TAB, LF and CR *)
Definition escape1 (b : byte) : bytes :=
  match b with x5c => [x5c; x5c] | x09 => [x5c; x74] | x0a => [x5c; x6e] | x0d => [x5c; x72] | _ => [b] end.
Definition ex_escape (s : bytes) : bytes := flat_map escape1 s.
Fixpoint ex_unescape (s : bytes) : option bytes :=
  match s with
  | [] => Some []
  | x5c :: c :: r =>
    match (match c with x5c => Some x5c | x74 => Some x09 | x6e => Some x0a | x72 => Some x0d | _ => None end), ex_unescape r with
    | Some b, Some t => Some (b :: t) | _, _ => None end
  | b :: r => match ex_unescape r with Some t => Some (b :: t) | None => None end
  end.
Lemma ex_unescape_escape s : ex_unescape (ex_escape s) = Some s.
Proof.
  induction s as [|b s IH]; [reflexivity|]. change (ex_escape (b :: s)) with (escape1 b ++ ex_escape s).
  destruct b; cbn [escape1 app]; cbn [ex_unescape]; rewrite IH; reflexivity.
Qed.
Lemma escape1_high b : 128 <= b2z b -> escape1 b = [b].
Proof. destruct b; intros H; try reflexivity; vm_compute in H; congruence. Qed.
Lemma escape1_low b s : b2z b < 128 -> utf8_ok (escape1 b ++ s) = utf8_ok s.
Proof.
  intros H. destruct b; try reflexivity; exfalso; vm_compute in H; discriminate.
Qed.
Lemma escape_utf8 : forall n s, (length s <= n)%nat -> utf8_ok s = true -> utf8_ok (ex_escape s) = true.
Proof.
  induction n as [|n IH]; intros s L U; [destruct s; [reflexivity|cbn in L; lia]|]. destruct s as [|b0 r0]; [reflexivity|].
  change (ex_escape (b0 :: r0)) with (escape1 b0 ++ ex_escape r0). destruct (Z.ltb_spec (b2z b0) 128) as [A|A].
  - rewrite escape1_low by auto. rewrite utf8_ascii_cons in U by auto. apply IH; auto. cbn in L. lia.
  - rewrite escape1_high by auto. cbn [app]. cbn [utf8_ok] in U. replace (b2z b0 <? 128) with false in U by (symmetry; apply Z.ltb_ge; auto).
    destruct r0 as [|b1 r1]; [discriminate|].
    assert (128 <= b2z b1) as H1.
    { repeat match type of U with (if ?c then _ else _) = true => destruct c end; rewrite ?andb_true_iff in U; try (destruct U as (U & _); rewrite ?andb_true_iff in U; lia).
      destruct r1 as [|b2 r2]; [discriminate|].
      repeat match type of U with (if ?c then _ else _) = true => destruct c end; rewrite ?andb_true_iff in U; rewrite ?Z.leb_le in U; try lia.
      destruct r2 as [|b3 r3]; [discriminate|].
      repeat match type of U with (if ?c then _ else _) = true => destruct c end; rewrite ?andb_true_iff in U; rewrite ?Z.leb_le in U; try lia. }
    change (ex_escape (b1 :: r1)) with (escape1 b1 ++ ex_escape r1). rewrite (escape1_high b1 H1). cbn [app].
    cbn [utf8_ok]. replace (b2z b0 <? 128) with false by (symmetry; apply Z.ltb_ge; auto).
    destruct ((194 <=? b2z b0) && (b2z b0 <=? 223)) eqn:C2.
    + apply andb_true_iff in U as (U1 & U2). rewrite U1. apply IH; auto. cbn in L. lia.
    + destruct r1 as [|b2 r2]; [discriminate|].
      assert (128 <= b2z b2) as H2.
      { repeat match type of U with (if ?c then _ else _) = true => destruct c end; rewrite ?andb_true_iff in U; rewrite ?Z.leb_le in U; try lia.
        destruct r2 as [|b3 r3]; [discriminate|].
        repeat match type of U with (if ?c then _ else _) = true => destruct c end; rewrite ?andb_true_iff in U; rewrite ?Z.leb_le in U; try lia. }
      change (ex_escape (b2 :: r2)) with (escape1 b2 ++ ex_escape r2). rewrite (escape1_high b2 H2). cbn [app].
      repeat match goal with |- (if ?c then _ else _) = true => destruct c end.
      1-4: rewrite !andb_true_iff in U |- *; split; [tauto|apply IH; [cbn in L; lia|tauto]].
      destruct r2 as [|b3 r3]; [discriminate|].
      assert (128 <= b2z b3) as H3.
      { repeat match type of U with (if ?c then _ else _) = true => destruct c end; rewrite ?andb_true_iff in U; rewrite ?Z.leb_le in U; try lia. }
      change (ex_escape (b3 :: r3)) with (escape1 b3 ++ ex_escape r3). rewrite (escape1_high b3 H3). cbn [app].
      repeat match goal with |- (if ?c then _ else _) = true => destruct c end; auto.
      all: rewrite !andb_true_iff in U |- *; split; [tauto|apply IH; [cbn in L; lia|tauto]].
Qed.
Lemma ex_escapes : escapes ex_escape ex_unescape.
Proof.
  intros s U. split; [|left; apply ex_unescape_escape]. unfold clean. sconj.
  - eapply escape_utf8; eauto.
  - intros I. apply in_flat_map in I as (b & _ & J). destruct b; cbn in J; intuition discriminate.
  - intros I. apply in_flat_map in I as (b & _ & J). destruct b; cbn in J; intuition discriminate.
  - intros I. apply in_flat_map in I as (b & _ & J). destruct b; cbn in J; intuition discriminate.
Qed.

(** ** Sorting: by the key, strings by their bytes *)
Record total {A} (c : A -> A -> comparison) : Prop := Total {
  t_eq : forall a b, c a b = Eq <-> a = b; t_opp : forall a b, c b a = CompOpp (c a b); t_trans : forall a b d, c a b = Lt -> c b d = Lt -> c a d = Lt }.
Fixpoint lex {A} (c : A -> A -> comparison) (a b : list A) : comparison :=
  match a, b with
  | [], [] => Eq | [], _ => Lt | _, [] => Gt
  | x :: a', y :: b' => match c x y with Eq => lex c a' b' | r => r end
  end.
Lemma lex_total {A} (c : A -> A -> comparison) : total c -> total (lex c).
Proof.
  intros [E O T]. constructor.
  - induction a as [|x a IH]; intros [|y b]; cbn; try (split; congruence). destruct (c x y) eqn:C.
    + apply E in C. subst. rewrite IH. split; [congruence|intros H; injection H; auto].
    + split; [congruence|]. intros H. injection H as -> ->. rewrite (proj2 (E y y) eq_refl) in C. discriminate.
    + split; [congruence|]. intros H. injection H as -> ->. rewrite (proj2 (E y y) eq_refl) in C. discriminate.
  - induction a as [|x a IH]; intros [|y b]; cbn; auto. rewrite (O x y). destruct (c x y); cbn; auto.
  - induction a as [|x a IH]; intros [|y b] [|z d]; cbn; try congruence. destruct (c x y) eqn:C1, (c y z) eqn:C2; try congruence.
    + apply E in C1. subst. rewrite C2. apply IH.
    + apply E in C1. subst. rewrite C2. auto.
    + apply E in C2. subst. rewrite C1. auto.
    + rewrite (T x y z); auto.
Qed.
Lemma z_total : total Z.compare.
Proof.
  constructor; [apply Z.compare_eq_iff|apply Z.compare_antisym|]. intros a b d. rewrite !Z.compare_lt_iff. lia.
Qed.
Definition key_cmp : list (list Z) -> list (list Z) -> comparison := lex (lex Z.compare).
Lemma key_total : total key_cmp. Proof. apply lex_total, lex_total, z_total. Qed.
Definition key_of (key : list (nat * ftype)) (cols : list bytes) : list (list Z) :=
  map (fun f => match snd f with
    | FInteger => [match parse_i64 (nth (fst f) cols []) with Some z => z | None => 0 end]
    | FString => map b2z (nth (fst f) cols []) end) key.
Section Insert.
Context {A : Type} (k : A -> list (list Z)).
Fixpoint insert_by (x : A) (l : list A) : list A :=
  match l with [] => [x] | y :: r => match key_cmp (k x) (k y) with Gt => y :: insert_by x r | _ => x :: l end end.
Definition sort_by (l : list A) : list A := fold_right insert_by [] l.
Lemma insert_by_perm x l : Permutation (x :: l) (insert_by x l).
Proof. induction l as [|y l IH]; cbn; auto. destruct (key_cmp _ _); auto. rewrite perm_swap. constructor. exact IH. Qed.
Lemma sort_by_perm l : Permutation l (sort_by l).
Proof. induction l as [|x l IH]; cbn; auto. rewrite <- insert_by_perm. constructor. exact IH. Qed.
Definition before (a b : A) : Prop := key_cmp (k a) (k b) <> Gt.
Lemma before_trans a b d : before a b -> before b d -> before a d.
Proof.
  unfold before. intros H1 H2 H3. destruct key_total as [E O T]. destruct (key_cmp (k a) (k b)) eqn:C1; [|clear H1|congruence].
  - apply E in C1. rewrite C1 in H3. congruence.
  - destruct (key_cmp (k b) (k d)) eqn:C2; [|clear H2|congruence].
    + apply E in C2. rewrite <- C2 in H3. congruence.
    + rewrite (T _ _ _ C1 C2) in H3. discriminate.
Qed.
Lemma insert_by_ordered x l : ordered before l -> ordered before (insert_by x l).
Proof.
  induction l as [|y l IH]; cbn [insert_by]; intros O; [cbn; auto|]. destruct O as (F & O). destruct (key_cmp (k x) (k y)) eqn:C.
  - split; [|split; auto]. assert (before x y) as B by (unfold before; congruence). constructor; auto. eapply Forall_impl; [|exact F]. intros z. apply before_trans; auto.
  - split; [|split; auto]. assert (before x y) as B by (unfold before; congruence). constructor; auto. eapply Forall_impl; [|exact F]. intros z. apply before_trans; auto.
  - split; auto. eapply Permutation_Forall; [apply insert_by_perm|]. constructor; auto. unfold before. destruct key_total as [E Op T]. rewrite Op, C. discriminate.
Qed.
Lemma sort_by_ordered l : ordered before (sort_by l).
Proof. induction l as [|x l IH]; cbn [sort_by fold_right]; [exact I|]. apply insert_by_ordered; auto. Qed.
End Insert.
Lemma before_key_le key a b : keyed key a -> keyed key b -> key_cmp (key_of key a) (key_of key b) <> Gt -> key_le key a b.
Proof.
  induction key as [|(i & ty) key IH]; intros K1 K2 H; [exact I|]. inversion K1 as [|? ? (_ & X1) K1']; subst. inversion K2 as [|? ? (_ & X2) K2']; subst. cbn [fst snd] in *.
  unfold key_cmp in *. destruct ty; cbn [key_of map lex fst snd] in H.
  - destruct (X1 eq_refl) as (x & Rx & Px). destruct (X2 eq_refl) as (y & Ry & Py). exists x, y. split; auto. split; auto.
    rewrite (parse_int64 x), (parse_int64 y) in H by (split; auto). destruct (Z.compare_spec x y) as [->|L|G].
    + right. split; auto.
    + left; auto.
    + congruence.
  - intros E. rewrite E in H. rewrite (proj2 (t_eq _ (lex_total _ z_total) _ _) eq_refl) in H. apply IH; auto.
Qed.
Definition ex_sort (key : list (nat * ftype)) (file : bytes) : res bytes :=
  Ok (concat (sort_by (fun l => key_of key (columns l)) (filter data_line (lines_of file)))).
Lemma lines_blank n : lines_of (repeat x0a n) = repeat [x0a] n.
Proof. induction n as [|n IH]; [reflexivity|]. cbn [repeat lines_of]. change (Byte.eqb x0a x0a) with true. cbv iota. rewrite IH. reflexivity. Qed.
Lemma lines_of_lines rows lines s : Forall2 copy_line rows lines -> Forall clean_row rows -> lines_of (concat lines ++ s) = lines ++ lines_of s.
Proof.
  intros F C. induction F as [|r l rows lines H F IH]; [reflexivity|]. inversion C as [|? ? (C1 & _) C2]; subst. cbn [concat]. rewrite <- app_assoc.
  apply copy_line_app in H as (t & -> & ->). rewrite <- app_assoc. cbn [app]. rewrite lines_of_line by (apply join_no_lf, clean_cols_lf; auto). rewrite IH by auto. reflexivity.
Qed.
Lemma ex_sorts : sorts ex_sort.
Proof.
  intros key rows file (lines & blank & F & ->) C K. unfold ex_sort.
  assert (filter data_line (lines_of (concat lines ++ str "\." ++ [x0a] ++ repeat x0a blank)) = lines) as E.
  { rewrite (lines_of_lines rows) by auto. change (str "\." ++ [x0a] ++ repeat x0a blank) with ([x5c; x2e] ++ x0a :: repeat x0a blank).
    rewrite lines_of_line by (cbn; intuition discriminate). rewrite lines_blank, filter_app. cbn [filter]. change (data_line ([x5c; x2e] ++ [x0a])) with false. cbv iota.
    replace (filter data_line (repeat [x0a] blank)) with (@nil bytes) by (clear; induction blank; auto). rewrite app_nil_r. clear K.
    induction F as [|r l rows lines H F IH]; [reflexivity|]. inversion C; subst. cbn [filter]. rewrite (data_line_ok r l) by auto. f_equal. auto. }
  rewrite E. clear E blank.
  assert (Forall2 (fun r l => copy_line r l /\ columns l = r) rows lines) as F'.
  { clear K. induction F as [|r l rows lines H F IH]; constructor; inversion C as [|? ? (C1 & _) C2]; subst; auto. split; auto. apply columns_line; auto. }
  assert (rows = map columns lines) as -> by (clear - F'; induction F' as [|r l rows lines (_ & H) F IH]; cbn; congruence).
  set (sl := sort_by (fun l => key_of key (columns l)) lines). pose proof (sort_by_perm (fun l => key_of key (columns l)) lines) as P. fold sl in P.
  exists (map columns sl), sl. split; [apply Permutation_map; auto|]. split; [|split; [reflexivity|]].
  - assert (Forall (fun l => copy_line (columns l) l) lines) as FL.
    { clear - F'. remember (map columns lines) as rows eqn:E. clear E. induction F' as [|r l rows lines (H & <-) F IH]; constructor; auto. }
    assert (Forall (fun l => copy_line (columns l) l) sl) as FS by (eapply Permutation_Forall; eauto). clear - FS. induction FS; cbn; constructor; auto.
  - apply ordered_map. eapply ordered_impl; [|eapply Permutation_Forall; [exact P|apply Forall_map; exact K]|apply (sort_by_ordered (fun l => key_of key (columns l)))].
    cbn beta. intros a b A B H. apply before_key_le; auto.
Qed.
