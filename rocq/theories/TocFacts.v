(** Facts about the table of contents of a dump. *)
From Coq Require Import ZArith List Bool Strings.Byte Strings.String Lia.
From Verif Require Import Base BaseFacts Types ApidbText ApidbWrite ApidbWriteFacts ApidbRead DumpReadSpec Model2 ModelFacts ApidbReadFacts.
Import ListNotations.
Local Notation length := List.length.
Local Notation concat := List.concat.
Open Scope Z_scope.

Lemma prefix_cut (a p s r : bytes) : a ++ r = p ++ s -> (length p <= length a)%nat -> exists v, a = p ++ v.
Proof.
  revert a. induction p as [|x p IH]; intros a E L; [exists a; auto|]. destruct a as [|y a]; cbn in L; [lia|]. cbn in E. injection E as -> E.
  destruct (IH a E ltac:(lia)) as (v & ->). exists v. reflexivity.
Qed.
Lemma free_tail p c a : free p (c :: a) -> free p a.
Proof. intros F u v E. apply (F (c :: u) v). cbn. f_equal. exact E. Qed.
Lemma absent_tail p c a : absent p (c :: a) -> absent p a.
Proof. intros F u v E. apply (F (c :: u) v). cbn. f_equal. exact E. Qed.
Lemma find_free p a r : p <> [] -> free p a -> forall before, find p before (a ++ p ++ r) = Some (rev a ++ before, p ++ r).
Proof.
  intros NE. induction a as [|c a IH]; intros F before.
  - cbn [app rev]. destruct p as [|x p]; [congruence|]. cbn [app find]. replace (starts_with _ _) with true; auto.
    symmetry. apply starts_with_spec. eexists. reflexivity.
  - cbn [app find]. replace (starts_with p (c :: a ++ p ++ r)) with false.
    + rewrite IH by (eapply free_tail; eauto). cbn [rev]. rewrite <- app_assoc. reflexivity.
    + symmetry. destruct (starts_with _ _) eqn:E; auto. exfalso. apply starts_with_spec in E as (s & E).
      change (c :: a ++ p ++ r) with ((c :: a) ++ p ++ r) in E. rewrite app_assoc in E.
      destruct (prefix_cut _ _ _ _ E) as (v & V); [rewrite app_length; lia|]. pose proof (F [] v V) as ->.
      apply (f_equal (@length byte)) in V. rewrite !app_length in V. cbn in V. lia.
Qed.
Lemma find_absent p a : absent p a -> forall before, find p before a = None.
Proof.
  induction a as [|c a IH]; intros F before; cbn [find]; auto. replace (starts_with p (c :: a)) with false.
  - apply IH. eapply absent_tail; eauto.
  - symmetry. destruct (starts_with _ _) eqn:E; auto. apply starts_with_spec in E as (r & E). destruct (F [] r E).
Qed.
Lemma advance_app p : forall before r, advance (length p) before (p ++ r) = (rev p ++ before, r).
Proof. induction p as [|c p IH]; intros before r; [cbn; destruct r; reflexivity|]. cbn. rewrite IH. cbn [rev]. rewrite <- app_assoc. reflexivity. Qed.
Lemma advance_app_n n p before r : n = length p -> advance n before (p ++ r) = (rev p ++ before, r).
Proof. intros ->. apply advance_app. Qed.
Lemma take_while_app (p : byte -> bool) a r : Forall (fun b => p b = true) a -> match r with [] => True | b :: _ => p b = false end -> take_while p (a ++ r) = a.
Proof.
  induction a as [|c a IH]; intros F H; cbn [app].
  - destruct r as [|b r]; auto. cbn. rewrite H. reflexivity.
  - inversion F as [|? ? F1 F2]; subst. cbn. rewrite F1, IH; auto.
Qed.
Lemma entry_step def name s r fuel before f : toc_entry def name s -> free (str "COPY ") f ->
  exists b7, toc_entries (S fuel) before (f ++ s ++ r) =
    (rest <- toc_entries fuel b7 (match r with [] => [] | _ :: t => t end) ;; Ok ((def, name) :: rest)).
Proof.
  intros E F. destruct E as [def g number F1 ND G F2 U]. cbn [toc_entries].
  rewrite <- !app_assoc. rewrite find_free; [|discriminate|exact F].
  rewrite (advance_app_n 5 (str "COPY ")) by reflexivity.
  rewrite find_free; [|discriminate|exact F1]. rewrite !app_length.
  replace (firstn _ _) with def.
  2:{ replace (_ - _)%nat with (length def + 0)%nat by (cbn [length]; lia). rewrite firstn_app_2. cbn [firstn]. rewrite app_nil_r. reflexivity. }
  rewrite (advance_app_n 11 (str " FROM stdin")) by reflexivity.
  rewrite (app_assoc g), find_free; [|discriminate|exact F2].
  rewrite U. rewrite (advance_app_n 4 (str ".dat")) by reflexivity.
  replace (rev (take_while is_digit _)) with number.
  - set (b6 := rev (str ".dat") ++ _). clearbody b6. destruct r as [|c r]; cbn [advance]; eexists; reflexivity.
  - rewrite rev_app_distr, <- app_assoc. rewrite take_while_app, rev_involutive; auto.
    + apply Forall_rev; auto.
    + destruct g as [|c g] using rev_ind; [reflexivity|]. rewrite rev_unit. cbn [app]. eapply G. reflexivity.
Qed.
Lemma toc_ok entries toc : toc_text entries toc -> forall fuel before, (length toc < fuel)%nat ->
  toc_entries fuel before toc = Ok entries /\ toc_entries fuel before (match toc with [] => [] | _ :: t => t end) = Ok entries.
Proof.
  induction 1 as [f A|f def name s entries r NE F E T IH]; intros fuel before L; (destruct fuel as [|fuel]; [lia|]).
  - split; cbn [toc_entries]; rewrite find_absent; auto. destruct f; [exact A|]. eapply absent_tail; eauto.
  - assert (forall f, free (str "COPY ") f -> (length f + length r < fuel)%nat -> toc_entries (S fuel) before (f ++ s ++ r) = Ok ((def, name) :: entries)) as K.
    { intros f' F' L'. destruct (entry_step _ _ _ r fuel before f' E F') as (b7 & ->). destruct (IH fuel b7 ltac:(lia)) as (_ & ->). reflexivity. }
    assert (0 < length s)%nat as LS by (destruct E; cbn; lia).
    rewrite !app_length in L. split; [apply K; auto; lia|].
    destruct f as [|c f]; [congruence|]. cbn [app]. apply K; [eapply free_tail; eauto|cbn in L; lia].
Qed.
Lemma toc_strings entries toc : toc_text entries toc -> get_table_def_strings toc = Ok entries.
Proof. intros T. apply (toc_ok _ _ T). lia. Qed.

(** ** headers *)
Lemma split_comma_none c s : ~ In x2c c -> split_comma (c ++ str ", " ++ s) = c :: split_comma s.
Proof.
  induction c as [|b c IH]; intros N.
  - reflexivity.
  - cbn [app]. change (split_comma (b :: c ++ str ", " ++ s)) with
      (match strip_prefix (str ", ") (b :: c ++ str ", " ++ s), (c ++ str ", " ++ s) with
       | Some _, _ :: r' => [] :: split_comma r'
       | _, _ => match split_comma (c ++ str ", " ++ s) with p :: ps => (b :: p) :: ps | [] => [[b]] end end).
    rewrite IH by (intros I; apply N; right; auto).
    pose proof (strip_prefix_spec (str ", ") (b :: c ++ str ", " ++ s)) as P. destruct (strip_prefix _ _) as [r|]; auto.
    injection P as -> _. exfalso. apply N. left; auto.
Qed.
Lemma split_comma_last c : ~ In x2c c -> split_comma c = [c].
Proof.
  induction c as [|b c IH]; intros N; [reflexivity|].
  change (split_comma (b :: c)) with
      (match strip_prefix (str ", ") (b :: c), c with
       | Some _, _ :: r' => [] :: split_comma r'
       | _, _ => match split_comma c with p :: ps => (b :: p) :: ps | [] => [[b]] end end).
  rewrite IH by (intros I; apply N; right; auto).
  pose proof (strip_prefix_spec (str ", ") (b :: c)) as P. destruct (strip_prefix _ _) as [r|]; auto.
  injection P as -> _. exfalso. apply N. left; auto.
Qed.
Lemma split_comma_ok cols s : comma_separated cols s -> Forall (fun c => ~ In x2c c) cols -> split_comma s = cols.
Proof.
  induction 1 as [c|c cs s H IH]; intros F; inversion F; subst; [apply split_comma_last; auto|]. rewrite split_comma_none, IH; auto.
Qed.
Lemma split_space_ok name r : ~ In x20 name -> split_space (name ++ x20 :: r) = Some (name, r).
Proof.
  induction name as [|b name IH]; intros N; cbn [app split_space]; [rewrite beqb_refl; auto|].
  rewrite beqb_neq by (intros ->; apply N; left; auto). rewrite IH; auto. intros I; apply N; right; auto.
Qed.
Lemma comma_ne cols s : comma_separated cols s -> Forall (fun c => c <> [] /\ ~ In x2c c /\ ~ In x0a c) cols -> s <> [] /\ ~ In x0a s.
Proof.
  induction 1 as [c|c cs s H IH]; intros F; inversion F as [|? ? (F1 & F2 & F3) F']; subst; [auto|]. destruct (IH F') as (_ & N).
  split; [destruct c; [congruence|discriminate]|]. intros I. apply in_app_iff in I as [I|I]; auto.
  apply in_app_iff in I as [I|I]; [cbn in I; intuition discriminate|auto].
Qed.
Lemma parse_header name cols def : table_header name cols def -> parse_def def = Some (name, cols).
Proof.
  intros (NE & NS & F & s & C & ->). destruct (comma_ne _ _ C F) as (NE' & NL).
  change (str " (" ++ s ++ str ")") with (x20 :: x28 :: s ++ [x29]). unfold parse_def. rewrite split_space_ok by auto.
  destruct name as [|n0 name]; [congruence|]. rewrite beqb_refl. rewrite rev_unit.
  destruct (rev s) as [|m0 m] eqn:R; [apply (f_equal (@rev byte)) in R; rewrite rev_involutive in R; cbn in R; congruence|].
  assert (existsb (Byte.eqb x0a) (m0 :: m) = false) as X.
  { destruct (existsb _ _) eqn:E; auto. exfalso. apply existsb_exists in E as (x & I & E). apply Byte.byte_dec_bl in E. subst x.
    rewrite <- R in I. apply in_rev in I. auto. }
  assert (rev (m0 :: m) = s) as Y by (rewrite <- R; apply rev_involutive).
  rewrite beqb_refl, X, Y. cbn [andb negb]. f_equal. f_equal. apply split_comma_ok; auto. revert F. apply Forall_impl. intros c (_ & P & _). exact P.
Qed.
