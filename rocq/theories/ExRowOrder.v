(** Non-vacuity for C77: texts by their bytes. *)
From Coq Require Import ZArith List Bool Strings.Byte Strings.String Lia Permutation.
From Verif Require Import Base BaseFacts Types Model2 ApidbText ApidbSpec CalendarFacts ApidbTextFacts TileFacts DumpSpec ApidbWrite ApidbWriteFacts PropApidbWrite ApidbRead DumpReadSpec
  FileFormat ApidbReadFacts TocFacts JoinFacts ReaderFacts PropApidbRead PropDump RoundSpec RoundFacts PropRound PropRoundTrip PropLimits ExTools TocData PropToc ExApidb RowOrderSpec PropRowOrder.
Import ListNotations.
Local Notation length := List.length.
Local Notation concat := List.concat.
Open Scope Z_scope.

Definition bytewise (a b : bytes) : Prop := lex Z.compare (map b2z a) (map b2z b) = Lt.
Lemma b2z_injective a b : map b2z a = map b2z b -> a = b.
Proof.
  revert b. induction a as [|x a IH]; intros [|y b] E; try discriminate; [reflexivity|]. cbn [map] in E. injection E as E1 E2. f_equal; [|auto].
  rewrite <- (z2b_b2z x), <- (z2b_b2z y). congruence.
Qed.
Lemma bytewise_order : text_order bytewise.
Proof.
  pose proof (lex_total _ z_total) as [E O T]. unfold bytewise. split; [|split].
  - intros a H. rewrite (proj2 (E _ _) eq_refl) in H. discriminate.
  - intros a b c. apply T.
  - intros a b. destruct (lex Z.compare (map b2z a) (map b2z b)) eqn:C; auto.
    + apply E, b2z_injective in C. auto.
    + right; right. rewrite O, C. reflexivity.
Qed.
Lemma before_row_le key a b : keyed key a -> keyed key b -> key_cmp (key_of key a) (key_of key b) <> Gt -> row_le bytewise key a b.
Proof.
  induction key as [|(i & ty) key IH]; intros K1 K2 H; [exact I|]. inversion K1 as [|? ? (_ & X1) K1']; subst. inversion K2 as [|? ? (_ & X2) K2']; subst. cbn [fst snd] in *.
  unfold key_cmp in *. destruct ty; cbn [key_of map lex fst snd] in H.
  - destruct (X1 eq_refl) as (x & Rx & Px). destruct (X2 eq_refl) as (y & Ry & Py). exists x, y. split; auto. split; auto.
    rewrite (parse_int64 x), (parse_int64 y) in H by (split; auto). destruct (Z.compare_spec x y) as [->|L|G].
    + right. split; auto.
    + left; auto.
    + congruence.
  - cbn [row_le]. unfold bytewise at 1. destruct (lex Z.compare (map b2z (nth i a [])) (map b2z (nth i b []))) eqn:C.
    + right. apply (t_eq _ (lex_total _ z_total)) in C. apply b2z_injective in C. split; auto.
    + left. reflexivity.
    + congruence.
Qed.
Lemma ex_sorts_by : sorts_by bytewise ex_sort.
Proof.
  intros key rows file (lines & blank & F & ->) C K. unfold ex_sort.
  assert (filter data_line (lines_of (concat lines ++ str "\." ++ [x0a] ++ repeat x0a blank)) = lines) as E.
  { rewrite (lines_of_lines rows) by auto. change (str "\." ++ [x0a] ++ repeat x0a blank) with ([x5c; x2e] ++ x0a :: repeat x0a blank).
    rewrite lines_of_line by (cbn; intuition discriminate). rewrite lines_blank, filter_app. cbn [filter]. change (data_line ([x5c; x2e] ++ [x0a])) with false. cbv iota.
    replace (filter data_line (repeat [x0a] blank)) with (@nil bytes) by (clear; induction blank; auto). rewrite app_nil_r. clear K.
    induction F as [|r l rows lines H F IH]; [reflexivity|]. inversion C; subst. cbn [filter]. rewrite (data_line_ok r l) by auto. f_equal. auto. }
  rewrite E. clear E blank.
  assert (Forall2 (fun r l => copy_line r l /\ columns l = r) rows lines) as F'.
  { clear K. induction F as [|r l rows lines H F IH]; constructor; inversion C as [|? ? (C1 & _) C2]; subst; auto. split; auto. apply columns_line; auto. }
  assert (rows = map columns lines) as -> by (clear - F'; induction F' as [|r l rows lines (_ & H) F IH]; cbn; congruence).
  set (sl := sort_by (fun l => key_of key (columns l)) lines). pose proof (sort_by_perm (fun l => key_of key (columns l)) lines) as P. fold sl in P.
  exists (map columns sl), sl. split; [apply Permutation_map; auto|]. split; [|split; [reflexivity|]].
  - assert (Forall (fun l => copy_line (columns l) l) lines) as FL.
    { clear - F'. remember (map columns lines) as rows eqn:E. clear E. induction F' as [|r l rows lines (H & <-) F IH]; constructor; auto. }
    assert (Forall (fun l => copy_line (columns l) l) sl) as FS by (eapply Permutation_Forall; eauto). clear - FS. induction FS; cbn; constructor; auto.
  - apply ordered_map. eapply ordered_impl; [|eapply Permutation_Forall; [exact P|apply Forall_map; exact K]|apply (sort_by_ordered (fun l => key_of key (columns l)))].
    cbn beta. intros a b A B H. apply before_row_le; auto.
Qed.

(** the tags "name", "amenity" come back as "amenity", "name"; the members of the relation come back by id *)
Example ex_sorted_back : exists rd k s l,
  ApidbRead.reader_new ex_sort (ex_directory (match ApidbWrite.dump ex_escape ex_order ex_clock ex_lib ex_stream with Ok w => files w | _ => fun _ => [] end)) = Ok rd /\
  ApidbRead.elements ex_unescape rd = Ok (k, s) /\ run (element_next k) s l Ended /\
  (exists x, In (ENode x) l /\ n_id x = 1 /\ n_version x = 1 /\ n_tags x = [Tag (str "amenity") (str "pub"); Tag (str "name") odd_text]) /\
  (exists x, In (ERelation x) l /\ r_members x = [Member MNode 3 odd_text; Member MNode 9 (str "b"); Member MWay 5 []]).
Proof.
  destruct ex_dump as (w & W). rewrite W.
  destruct (C77_order _ bytewise_order _ ex_sorts_by _ _ _ _ _ ex_any_order _ _ _ W ex_readable (ex_directory_ok w))
    as (rd & k & s & nodes & ways & rels & A & B & C & (ns & P1 & O1 & E1) & _ & (rs & P3 & O3 & E3)).
  assert (forall T (R : T -> element -> Prop) (xs : list T) (ys : list element) a, Forall2 R xs ys -> In a xs -> exists e, In e ys /\ R a e) as FI.
  { intros T R xs ys e F. induction F as [|a b xs ys H F IH]; intros J; [destruct J|]. destruct J as [<-|J]; [exists b; split; auto; left; auto|].
    destruct (IH J) as (a' & J1 & J2). exists a'. split; auto. right; auto. }
  exists rd, k, s. eexists. split; [exact A|]. split; [exact B|]. split; [exact C|]. split.
  - destruct (FI _ _ _ _ ex_n1 E1) as (e & IE & (uid & name & tags & _ & _ & PT & OT & ->)).
    { eapply Permutation_in; [apply Permutation_sym, P1|]. cbn. auto. }
    eexists. split; [apply in_app_iff; left; exact IE|]. split; [reflexivity|]. split; [reflexivity|]. cbn [n_tags].
    apply (proj2 (tags_kept bytewise bytewise_order ex_escape tags [Tag (str "amenity") (str "pub"); Tag (str "name") odd_text]
      ltac:(repeat constructor; cbn; intuition discriminate) ltac:(eapply perm_trans; [exact PT|apply perm_swap]) OT)).
    cbn [ordered]. split; [|split; [constructor|exact I]]. constructor; [left; vm_compute; reflexivity|constructor].
  - destruct (FI _ _ _ _ ex_r E3) as (e & IE & (uid & name & members & tags & _ & _ & PM & OM & _ & _ & ->)).
    { eapply Permutation_in; [apply Permutation_sym, P3|]. cbn. auto. }
    eexists. split; [rewrite !in_app_iff; do 4 right; left; exact IE|]. cbn [r_members].
    apply (proj2 (members_kept bytewise bytewise_order ex_escape members [Member MNode 3 odd_text; Member MNode 9 (str "b"); Member MWay 5 []]
      ltac:(eapply perm_trans; [exact PM|apply perm_swap]) OM)).
    cbn [ordered]. split; [|split; [|split; [constructor|exact I]]]; repeat apply Forall_cons; try apply Forall_nil.
    + right. split; [reflexivity|]. left. cbn. lia.
    + left. vm_compute. reflexivity.
    + left. vm_compute. reflexivity.
Qed.
(** a way before a relation: they change places *)
Example ex_way_relation : ~ ordered (member_before bytewise ex_escape) [Member MWay 1 []; Member MRelation 2 []].
Proof.
  cbn [ordered]. intros (F & _). inversion F as [|? ? H _]; subst. destruct H as [H|(H & _)]; [|discriminate H]. revert H. vm_compute. discriminate.
Qed.
