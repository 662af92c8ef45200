(** Facts about the sequential writer. *)
From Coq Require Import ZArith List Bool Lia Strings.Byte Strings.String.
From Verif Require Import Base BaseFacts Types Proto ProtoFacts Block BlockFacts BlockRead FileFormat FileFacts.
Import ListNotations.
Local Notation length := List.length.
Local Notation concat := List.concat.
Open Scope Z_scope.

(** a stream without its sentinels *)
Definition no_sentinels (es : list element) : list element := filter (fun e => negb (is_sentinel e)) es.

(** the accumulator alone: the blocks it hands out while a stream is added *)
Fixpoint acc_run (a : accumulator) (es : list element) : res (list (list element) * accumulator) :=
  match es with
  | [] => Ok ([], a)
  | e :: r =>
    '(o, a1) <- acc_add a e ;;
    '(bs, a2) <- acc_run a1 r ;;
    Ok (match o with Some b => b :: bs | None => bs end, a2)
  end.

Lemma serialize_data_index m c k i j es : fblock_serialize m c k (FData i es) = fblock_serialize m c k (FData j es).
Proof. reflexivity. Qed.

Definition ser_block m c k (b : list element) (hb : bytes * bytes) : Prop := fblock_serialize m c k (FData 0 b) = Ok hb.

Lemma write_all_spec m c es : forall w w', write_all m c w es = Ok w' ->
  exists bs hbs, acc_run (wr_acc w) es = Ok (bs, wr_acc w') /\ Forall2 (ser_block m c (wr_comp w)) bs hbs /\
    wr_file w' = wr_file w ++ flat_map write_blob hbs /\ wr_comp w' = wr_comp w.
Proof.
  induction es as [|e es IH]; intros w w' H.
  - injection H as <-. exists [], []. cbn. rewrite app_nil_r. auto.
  - cbn [write_all] in H. bok H w1 E. unfold write_element in E. bok E p A. destruct p as [o a].
    cbn [acc_run]. rewrite A. cbn [bind]. destruct o as [b|].
    + unfold write_elements, write_file_block in E. bok E hb S. injection E as <-.
      destruct (IH _ _ H) as (bs & hbs & R & F & X & C). cbn [wr_acc wr_comp wr_file] in *. rewrite R. cbn [bind].
      exists (b :: bs), (hb :: hbs). sconj; auto. cbn. rewrite X, <- app_assoc. reflexivity.
    + injection E as <-. destruct (IH _ _ H) as (bs & hbs & R & F & X & C). cbn [wr_acc wr_comp wr_file] in *. rewrite R. cbn [bind].
      exists bs, hbs. auto.
Qed.
Lemma write_all_complete m c es : forall w bs a hbs, acc_run (wr_acc w) es = Ok (bs, a) ->
  Forall2 (ser_block m c (wr_comp w)) bs hbs -> exists w', write_all m c w es = Ok w' /\ wr_acc w' = a /\ wr_comp w' = wr_comp w.
Proof.
  induction es as [|e es IH]; intros w bs a hbs R F; cbn [acc_run write_all] in *.
  - injection R as <- <-. eauto.
  - bok R p A. destruct p as [o a1]. bok R p R'. destruct p as [bs' a2]. injection R as <- <-.
    unfold write_element. rewrite A. cbn [bind]. destruct o as [b|].
    + inversion F; subst. unfold write_elements, write_file_block. cbn [wr_comp].
      match goal with X : ser_block _ _ _ _ _ |- _ => unfold ser_block in X; rewrite (serialize_data_index _ _ _ _ 0), X end. cbn [bind].
      edestruct IH as (w' & ? & ? & ?); [| |eauto]; cbn [wr_acc wr_comp]; eauto.
    + cbn [bind]. edestruct IH as (w' & ? & ? & ?); [| |eauto]; cbn [wr_acc wr_comp]; eauto.
Qed.
(** serialization never reports an error: it succeeds or (overflow checks) panics *)
Lemma stb_add_ne m b s : stb_add m b s <> Err.
Proof. unfold stb_add. destruct (assoc _ _); [discriminate|]. apply bind_ne; [apply arith32_ne|discriminate]. Qed.
Ltac nee := repeat (apply bind_ne; [first [apply arith32_ne|apply arith64_ne|apply stb_add_ne|auto]|];
   let x := fresh in intros x; repeat match goal with p : (_ * _)%type |- _ => destruct p end); try discriminate.
Lemma add_tags_ne m ts : forall b, add_tags m b ts <> Err.
Proof. induction ts; cbn; intros; [discriminate|]. nee. Qed.
Lemma deltas_ne m l : forall x, deltas m x l <> Err.
Proof. induction l; cbn; intros; [discriminate|]. nee. Qed.
Lemma add_members_ne m l : forall x b, add_members m x b l <> Err.
Proof. induction l; cbn; intros; [discriminate|]. nee. Qed.
Lemma data_serialize_ne m es : osm_data_serialize m es <> Err.
Proof.
  pose proof (add_tags_ne m) as T. pose proof (deltas_ne m) as D. pose proof (add_members_ne m) as M.
  unfold osm_data_serialize, build_block. apply bind_ne; [|discriminate]. apply bind_ne; [|discriminate].
  generalize (BState None None None stb_new). induction es as [|e es IH]; intros s; cbn; [discriminate|].
  apply bind_ne; auto. unfold ser_step. destruct e.
  - destruct (bs_dense s).
    + apply bind_ne; [|intros []; discriminate]. unfold dgb_add. nee.
      match goal with |- match ?x with _ => _ end <> _ => destruct x as [? [[]|]] end; discriminate.
    + apply bind_ne; [|intros []; discriminate]. unfold dgb_new. nee.
  - apply bind_ne; [|intros []; discriminate]. unfold way_convert. nee.
  - apply bind_ne; [|intros []; discriminate]. unfold relation_convert. nee.
  - discriminate.
Qed.
Lemma serialize_not_err m c k b : fblock_serialize m c k b <> Err.
Proof.
  destruct b as [i inf|i es]; [rewrite serialize_header; cbn; congruence|]. rewrite serialize_data.
  apply bind_ne; [apply data_serialize_ne|discriminate].
Qed.

(** the writer panics when the accumulator does *)
Lemma write_all_panic m c es : forall w, acc_run (wr_acc w) es = Panic -> write_all m c w es = Panic.
Proof.
  induction es as [|e es IH]; intros w R; cbn [acc_run write_all] in *; [discriminate|].
  unfold write_element. destruct (acc_add (wr_acc w) e) as [[o a1]| |] eqn:A; cbn [bind] in *; [|discriminate|reflexivity].
  assert (R' : acc_run a1 es = Panic). { destruct (acc_run a1 es) as [[]| |]; cbn in R; congruence. }
  destruct o as [b|].
  - unfold write_elements, write_file_block. destruct (fblock_serialize _ _ _ _) eqn:S; cbn [bind]; [apply IH; auto|destruct (serialize_not_err _ _ _ _ S)|reflexivity].
  - apply IH; auto.
Qed.
Definition kind_of_state (st : acc_state) : element -> bool :=
  match st with ANodes => is_node | AWays => is_way | ARelations => is_relation end.
Definition acc_inv (a : accumulator) : Prop :=
  zlen (acc_elements a) < 8000 /\ Forall (fun e => kind_of_state (acc_st a) e = true) (acc_elements a).
(** all elements of one type *)
Definition one_type (b : list element) : Prop := exists st, Forall (fun e => kind_of_state st e = true) b.
Definition block_shape (b : list element) : Prop := zlen b <= 8000 /\ one_type b.

Lemma acc_push_spec a e o a' : acc_inv a -> kind_of_state (acc_st a) e = true -> acc_push a e = (o, a') ->
  acc_inv a' /\ (match o with Some b => b | None => [] end) ++ acc_elements a' = acc_elements a ++ [e] /\
  acc_st a' = acc_st a /\ match o with Some b => block_shape b | None => True end.
Proof.
  intros [L K] Ke H. unfold acc_push in H. assert (F : Forall (fun e => kind_of_state (acc_st a) e = true) (acc_elements a ++ [e])) by (apply Forall_app; auto).
  destruct (zlen (acc_elements a ++ [e]) =? acc_block_size) eqn:E; injection H as <- <-; cbn [acc_elements acc_st]; unfold acc_inv; cbn [acc_elements acc_st].
  - rewrite app_nil_r. sconj; auto. reflexivity. split; [unfold acc_block_size in E; lia|]. exists (acc_st a). auto.
  - sconj; auto. rewrite zlen_app, zlen_cons in *. change (zlen (@nil element)) with 0 in *. unfold acc_block_size in E. lia.
Qed.
Lemma acc_add_spec a e o a' : acc_inv a -> acc_add a e = Ok (o, a') ->
  acc_inv a' /\ (match o with Some b => b | None => [] end) ++ acc_elements a' = acc_elements a ++ no_sentinels [e] /\
  match o with Some b => block_shape b | None => True end.
Proof.
  intros I H.
  assert (PU : kind_of_state (acc_st a) e = true -> Ok (acc_push a e) = Ok (o, a') ->
     acc_inv a' /\ (match o with Some b => b | None => [] end) ++ acc_elements a' = acc_elements a ++ [e] /\ match o with Some b => block_shape b | None => True end).
  { intros K X. injection X as X. destruct (acc_push_spec _ _ _ _ I K X) as (? & ? & _ & ?). auto. }
  assert (SW : forall st, kind_of_state st e = true ->
     Ok (Some (acc_elements a), snd (acc_push (Acc [] st (acc_index a + 1)) e)) = Ok (o, a') ->
     acc_inv a' /\ (match o with Some b => b | None => [] end) ++ acc_elements a' = acc_elements a ++ [e] /\ match o with Some b => block_shape b | None => True end).
  { intros st K X. assert (Eo : o = Some (acc_elements a)) by congruence.
    assert (Ea : a' = Acc [e] st (acc_index a + 1)) by (injection X as _ <-; reflexivity).
    rewrite Eo, Ea. clear X. unfold acc_inv. cbn [acc_elements acc_st]. sconj; auto.
    - reflexivity.
    - destruct I as [L K']. split; [lia|]. eexists; eauto. }
  destruct a as [es st ix]. unfold acc_add in H.
  destruct st, e; cbn [acc_st acc_elements acc_index] in *; try discriminate; unfold no_sentinels; cbn [filter is_sentinel negb]; auto;
  try (apply (SW AWays); auto; fail); try (apply (SW ARelations); auto; fail).
  all: injection H as <- <-; rewrite app_nil_r; auto.
Qed.

Lemma acc_run_spec es : forall a bs a', acc_inv a -> acc_run a es = Ok (bs, a') ->
  acc_inv a' /\ concat bs ++ acc_elements a' = acc_elements a ++ no_sentinels es /\ Forall block_shape bs.
Proof.
  induction es as [|e es IH]; intros a bs a' I H; cbn [acc_run] in H.
  - injection H as <- <-. cbn. rewrite app_nil_r. auto.
  - bok H p A. destruct p as [o a1]. bok H p R. destruct p as [bs' a2]. injection H as <- <-.
    destruct (acc_add_spec _ _ _ _ I A) as (I1 & X & S). destruct (IH _ _ _ I1 R) as (I2 & Y & F).
    split; [exact I2|]. split.
    + replace (no_sentinels (e :: es)) with (no_sentinels [e] ++ no_sentinels es) by (cbn; destruct (negb (is_sentinel e)); reflexivity).
      rewrite app_assoc, <- X, <- app_assoc, <- Y. destruct o; cbn; rewrite ?app_assoc; reflexivity.
    + destruct o; auto.
Qed.

(** which streams the accumulator accepts *)
Definition all (k : element -> bool) (l : list element) : Prop := Forall (fun e => k e = true) l.
Definition accepts (st : acc_state) (l : list element) : Prop :=
  match st with
  | ARelations => all is_relation l
  | AWays => exists ws rs, l = ws ++ rs /\ all is_way ws /\ all is_relation rs
  | ANodes => exists ns ws rs, l = ns ++ ws ++ rs /\ all is_node ns /\ all is_way ws /\ all is_relation rs /\ (rs <> [] -> ws <> [])
  end.
Lemma acc_add_total a e : match acc_add a e with
  | Ok (o, a') => True | Panic => True | Err => False end.
Proof. unfold acc_add. destruct (acc_st a), e; auto; destruct (acc_push _ _); auto. Qed.
Lemma acc_push_st a e : acc_st (snd (acc_push a e)) = acc_st a.
Proof. unfold acc_push. destruct (_ =? _); reflexivity. Qed.

Lemma acc_run_accepts es : forall a, (exists r, acc_run a es = Ok r) <-> accepts (acc_st a) (no_sentinels es).
Proof.
  induction es as [|e es IH]; intros a.
  - cbn. split; [|eauto]. intros _. destruct (acc_st a); cbn; unfold all.
    + exists [], [], []. sconj; auto.
    + exists [], []. sconj; auto.
    + constructor.
  - cbn [acc_run]. assert (X : (exists r, acc_run a (e :: es) = Ok r) <-> exists o a1, acc_add a e = Ok (o, a1) /\ accepts (acc_st a1) (no_sentinels es)).
    { cbn [acc_run]. split.
      - intros (r & H). bok H p A. destruct p as [o a1]. bok H p R. exists o, a1. split; auto. apply IH. eauto.
      - intros (o & a1 & A & B). apply IH in B. destruct B as ([bs a2] & B). rewrite A. cbn [bind]. rewrite B. cbn. eauto. }
    cbn [acc_run] in X. rewrite X. clear X IH. unfold no_sentinels. destruct e as [n|w|r|]; cbn [filter is_sentinel negb]; set (l := filter _ es); clearbody l.
    + unfold acc_add. destruct (acc_st a) eqn:S; cbn [accepts].
      * destruct (acc_push a (ENode n)) as [o1 a1] eqn:P. assert (S1 : acc_st a1 = ANodes) by (rewrite <- S, <- (acc_push_st a (ENode n)), P; reflexivity).
        split.
        -- intros (o & a2 & [= <- <-] & H). rewrite S1 in H. destruct H as (ns & ws & rs & -> & ? & ? & ? & ?).
           exists (ENode n :: ns), ws, rs. sconj; auto. constructor; auto.
        -- intros (ns & ws & rs & E & N & W & R & X). exists o1, a1. split; auto. rewrite S1.
           destruct ns as [|x ns]; [destruct ws as [|x ws]; [destruct rs as [|x rs]|]|]; cbn in E; try discriminate.
           ++ exfalso. apply X; congruence.
           ++ injection E as <- ->. inversion W. discriminate.
           ++ injection E as <- ->. inversion N; subst. exists ns, ws, rs. auto.
      * split; [intros (? & ? & [=] & _)|]. intros (ws & rs & E & W & R). destruct ws as [|x ws]; [destruct rs as [|x rs]|]; cbn in E; try discriminate; injection E as <- ->; [inversion R|inversion W]; discriminate.
      * split; [intros (? & ? & [=] & _)|]. intros H; inversion H; discriminate.
    + unfold acc_add. destruct (acc_st a) eqn:S; cbn [accepts].
      * destruct (acc_push (Acc [] AWays (acc_index a + 1)) (EWay w)) as [o1 a1] eqn:P.
        assert (S1 : acc_st a1 = AWays) by (change a1 with (snd (o1, a1)); rewrite <- P, acc_push_st; reflexivity). cbn [snd].
        split.
        -- intros (o & a2 & [= <- <-] & H). rewrite S1 in H. destruct H as (ws & rs & -> & ? & ?).
           exists [], (EWay w :: ws), rs. sconj; auto; try constructor; auto. congruence.
        -- intros (ns & ws & rs & E & N & W & R & X). eexists _, a1. split; [reflexivity|]. rewrite S1.
           destruct ns as [|x ns]; [destruct ws as [|x ws]; [destruct rs as [|x rs]|]|]; cbn in E; try discriminate.
           ++ exfalso. apply X; congruence.
           ++ injection E as <- ->. inversion W; subst. exists ws, rs. auto.
           ++ injection E as <- ->. inversion N. discriminate.
      * destruct (acc_push a (EWay w)) as [o1 a1] eqn:P. assert (S1 : acc_st a1 = AWays) by (rewrite <- S, <- (acc_push_st a (EWay w)), P; reflexivity).
        split.
        -- intros (o & a2 & [= <- <-] & H). rewrite S1 in H. destruct H as (ws & rs & -> & ? & ?).
           exists (EWay w :: ws), rs. sconj; auto. constructor; auto.
        -- intros (ws & rs & E & W & R). exists o1, a1. split; auto. rewrite S1.
           destruct ws as [|x ws]; [destruct rs as [|x rs]|]; cbn in E; try discriminate; injection E as <- ->; [inversion R; discriminate|].
           inversion W; subst. exists ws, rs. auto.
      * split; [intros (? & ? & [=] & _)|]. intros H; inversion H; discriminate.
    + unfold acc_add. destruct (acc_st a) eqn:S; cbn [accepts].
      * split; [intros (? & ? & [=] & _)|]. intros (ns & ws & rs & E & N & W & R & X).
        destruct ns as [|x ns]; [destruct ws as [|x ws]; [destruct rs as [|x rs]|]|]; cbn in E; try discriminate.
        -- exfalso. apply X; congruence.
        -- injection E as <- ->. inversion W. discriminate.
        -- injection E as <- ->. inversion N. discriminate.
      * destruct (acc_push (Acc [] ARelations (acc_index a + 1)) (ERelation r)) as [o1 a1] eqn:P.
        assert (S1 : acc_st a1 = ARelations) by (change a1 with (snd (o1, a1)); rewrite <- P, acc_push_st; reflexivity). cbn [snd].
        split.
        -- intros (o & a2 & [= <- <-] & H). rewrite S1 in H. exists [], (ERelation r :: l). sconj; auto; constructor; auto.
        -- intros (ws & rs & E & W & R). eexists _, a1. split; [reflexivity|]. rewrite S1. cbn.
           destruct ws as [|x ws]; [destruct rs as [|x rs]|]; cbn in E; try discriminate; injection E as <- ->; [inversion R; auto|inversion W; discriminate].
      * destruct (acc_push a (ERelation r)) as [o1 a1] eqn:P. assert (S1 : acc_st a1 = ARelations) by (rewrite <- S, <- (acc_push_st a (ERelation r)), P; reflexivity).
        split.
        -- intros (o & a2 & [= <- <-] & H). rewrite S1 in H. constructor; auto.
        -- intros H. exists o1, a1. split; auto. rewrite S1. inversion H; auto.
    + unfold acc_add. split.
      * intros (o & a1 & H & R). destruct (acc_st a) eqn:S; injection H as <- <-; rewrite S in *; auto.
      * intros R. exists None, a. split; auto. destruct (acc_st a); reflexivity.
Qed.
