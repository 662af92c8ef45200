(** Facts about opening a dump. *)
From Coq Require Import ZArith List Bool Strings.Byte Strings.String Lia Permutation.
From Verif Require Import Base BaseFacts Types ApidbText ApidbSpec ApidbTextFacts DumpSpec ApidbWrite ApidbWriteFacts ApidbRead DumpReadSpec ApidbReadFacts TocFacts JoinFacts.
Import ListNotations.
Local Notation length := List.length.
Local Notation concat := List.concat.
Open Scope Z_scope.

(** ** names of tables and columns *)
Definition inclb (a b : list bytes) : bool := forallb (fun x => existsb (bytes_eqb x) b) a.
Lemma inclb_ok a b : inclb a b = true -> incl a b.
Proof.
  intros H x I. unfold inclb in H. rewrite forallb_forall in H. specialize (H x I). apply existsb_exists in H as (y & J & E).
  apply bytes_eqb_eq in E. subst. auto.
Qed.
Lemma needs_fields t : In t read_tables -> incl (field_names t) (needs t) /\ incl (map fst (key_names t)) (needs t).
Proof.
  assert (forallb (fun t => inclb (field_names t) (needs t) && inclb (map fst (key_names t)) (needs t)) read_tables = true) as H by (vm_compute; reflexivity).
  intros I. rewrite forallb_forall in H. specialize (H t I). apply andb_true_iff in H as (H1 & H2). split; apply inclb_ok; auto.
Qed.
Lemma table_name_inj a b : In a read_tables -> In b read_tables -> table_name a = table_name b -> a = b.
Proof.
  assert (forallb (fun a => forallb (fun b => negb (bytes_eqb (table_name a) (table_name b)) || table_eqb a b) read_tables) read_tables = true) as H
    by (vm_compute; reflexivity).
  intros A B E. rewrite forallb_forall in H. specialize (H a A). rewrite forallb_forall in H. specialize (H b B). rewrite E, bytes_eqb_refl in H.
  cbn in H. apply table_eqb_eq; auto.
Qed.
Lemma of_interest_spec name t : of_interest name = Some t <-> In t read_tables /\ name = table_name t.
Proof.
  unfold of_interest. split.
  - intros H. apply List.find_some in H as (I & E). apply bytes_eqb_eq in E. auto.
  - intros (I & ->). destruct (List.find _ read_tables) as [t'|] eqn:E.
    + apply List.find_some in E as (I' & E). apply bytes_eqb_eq in E. f_equal. apply table_name_inj; auto.
    + eapply List.find_none in E; [|exact I]. cbn in E. rewrite bytes_eqb_refl in E. discriminate.
Qed.

(** ** sort keys *)
Fixpoint name_key_le (kn : list (bytes * ftype)) (a b : bytes -> bytes) : Prop :=
  match kn with
  | [] => True
  | (n, FInteger) :: r => exists x y, plain (a n) x /\ plain (b n) y /\ (x < y \/ x = y /\ name_key_le r a b)
  | (n, FString) :: r => a n = b n -> name_key_le r a b
  end.
Definition name_keyed (kn : list (bytes * ftype)) (w : bytes -> bytes) : Prop :=
  Forall (fun k => snd k = FInteger -> exists z, I64 z /\ plain (w (fst k)) z) kn.
Lemma key_ok cols kn : incl (map fst kn) cols -> exists ks, res_map (fun k => i <- field_index cols (fst k) ;; Ok (i, snd k)) kn = Ok ks /\
  (forall a b, key_le ks (map a cols) (map b cols) <-> name_key_le kn a b) /\
  (forall w, name_keyed kn w -> keyed ks (map w cols)).
Proof.
  induction kn as [|(n, ty) kn IH]; intros I.
  - exists []. split; auto. split; [intros; tauto|]. intros w _. constructor.
  - destruct IH as (ks & E & K1 & K2); [intros x X; apply I; right; auto|].
    destruct (field_index_ok n cols) as (i & E1 & _ & LT & N); [apply I; left; auto|].
    exists ((i, ty) :: ks). cbn [res_map fst snd]. rewrite E1. cbn [bind]. rewrite E. cbn [bind]. split; auto. split.
    + intros a b. cbn [key_le name_key_le]. destruct (N a) as (_ & ->). destruct (N b) as (_ & ->). destruct ty.
      * split; intros (x & y & P & Q & [H|(H & R)]); exists x, y; split; auto; split; auto; right; split; auto; apply K1; auto.
      * split; intros H Q; apply K1; auto.
    + intros w H. inversion H as [|? ? H1 H2]; subst. constructor; [|apply K2; auto]. cbn [fst snd] in *. rewrite map_length. split; auto.
      intros T. destruct (N w) as (_ & ->). auto.
Qed.
Lemma table_def_ok t file cols : In t read_tables -> incl (needs t) cols -> exists fs ks,
  table_def_new t file cols = Ok (TableDef file fs ks) /\ fields_of t cols fs /\
  (forall a b, key_le ks (map a cols) (map b cols) <-> name_key_le (key_names t) a b) /\
  (forall w, name_keyed (key_names t) w -> keyed ks (map w cols)).
Proof.
  intros I N. destruct (needs_fields t I) as (F & K).
  destruct (fields_ok cols (field_names t)) as (fs & E & FO); [intros x X; auto|].
  destruct (key_ok cols (key_names t)) as (ks & E' & K1 & K2); [intros x X; auto|].
  exists fs, ks. unfold table_def_new. rewrite E. cbn [bind]. rewrite E'. cbn [bind]. sconj; auto; apply K1.
Qed.

(** ** rows *)
Lemma Forall2_impl2 {A B} (P Q : A -> B -> Prop) l l' : (forall a b, P a b -> Q a b) -> Forall2 P l l' -> Forall2 Q l l'.
Proof. induction 2; constructor; auto. Qed.
Lemma Forall2_pairs {A B} (P : A -> B -> Prop) l l' : Forall2 P l l' -> exists ps, l = map fst ps /\ l' = map snd ps /\ Forall (fun p => P (fst p) (snd p)) ps.
Proof.
  induction 1 as [|a b l l' H F (ps & -> & -> & X)]; [exists []; auto|]. exists ((a, b) :: ps). sconj; auto.
Qed.
Lemma ordered_map {A B} (f : A -> B) le l : ordered le (map f l) <-> ordered (fun a b => le (f a) (f b)) l.
Proof. induction l as [|a l IH]; cbn; [tauto|]. rewrite Forall_map, IH. tauto. Qed.
Lemma ordered_impl {A} (P : A -> Prop) (le le' : A -> A -> Prop) l : (forall a b, P a -> P b -> le a b -> le' a b) -> Forall P l -> ordered le l -> ordered le' l.
Proof.
  intros H. induction l as [|a l IH]; intros F O; [exact I|]. inversion F as [|? ? F1 F2]; subst. destruct O as (O1 & O2). split; [|auto].
  rewrite Forall_forall in *. intros b J. apply H; auto.
Qed.

Section Tables.
Variable sort_file : list (nat * ftype) -> bytes -> res bytes.
Hypothesis SORTS : sorts sort_file.
Variable dir : bytes -> option bytes.

(** the rows of a table as the reader finds them *)
Definition table_rows {R} (t : table) (says : R -> row_of -> Prop) (rs : list R) (fs : list nat) (lines : list bytes) : Prop :=
  exists cols (prs : list (R * row_of)), fields_of t cols fs /\ Permutation rs (map fst prs) /\
    Forall2 (fun p l => says (fst p) (snd p) /\ columns l = map (snd p) cols /\ data_line l = true) prs lines /\
    ordered (fun p q => name_key_le (key_names t) (snd p) (snd q)) prs.
Definition sorted_table (cat : catalogue) (t : table) (d : table_def) (sorted : bytes) : Prop :=
  (exists cols, In (table_name t, cols, td_file d) cat /\ table_def_new t (td_file d) cols = Ok d) /\
  (exists data, dir (td_file d) = Some data /\ sort_file (td_key d) data = Ok sorted).

Lemma table_opens {R} cat t (says : R -> row_of -> Prop) rs : In t read_tables ->
  (forall r w, says r w -> name_keyed (key_names t) w) -> table_holds dir cat t says rs ->
  exists d sorted, sorted_table cat t d sorted /\ table_rows t says rs (td_fields d) (lines_of sorted).
Proof.
  intros I KY (cols & file & data & rows & IN & NE & DF & SY & CL & CF).
  destruct (table_def_ok t file cols I NE) as (fs & ks & DEF & FO & K1 & K2).
  destruct (Forall2_pairs _ _ _ SY) as (ps & -> & -> & SY'). clear SY. rename SY' into SY. rewrite map_map in CL, CF.
  destruct (SORTS ks _ data CF CL) as (rows' & lines' & P & CP & SO & OR).
  { apply Forall_map. revert SY. apply Forall_impl. intros p H. apply K2. exact (KY _ _ H). }
  destruct (Permutation_map_inv _ _ (Permutation_sym P)) as (ps' & -> & P').
  exists (TableDef file fs ks), (concat lines'). split.
  - split; [exists cols; auto|exists data; auto].
  - assert (Forall (fun p => says (fst p) (snd p)) ps') as SY' by (eapply Permutation_Forall; eauto).
    assert (Forall clean_row (map (fun x : R * row_of => map (snd x) cols) ps')) as CL' by (eapply Permutation_Forall; [apply Permutation_map; exact P'|exact CL]).
    cbn [td_fields]. rewrite (lines_of_concat _ _ CP CL').
    exists cols, ps'. sconj; auto.
    + apply Permutation_map; auto.
    + clear - CP SY' CL'. revert lines' CP. induction ps' as [|p ps IH]; intros lines CP; inversion CP as [|? l ? ls C1 C2]; subst; constructor.
      * inversion SY'; subst. inversion CL' as [|? ? C3 C4]; subst. sconj; auto; [apply columns_line; [exact C1|exact (proj1 C3)]|eapply data_line_ok; eauto].
      * inversion SY'; subst. inversion CL'; subst. apply IH; auto.
    + apply (proj1 (ordered_map (fun x : R * row_of => map (snd x) cols) _ _)) in OR. eapply ordered_impl with (P := fun _ => True); [|apply Forall_forall; auto|exact OR]. intros a b _ _. apply K1.
Qed.

(** ** the definitions *)
Lemma defs_ok cat entries : Forall2 (fun e p => table_header (fst (fst e)) (snd (fst e)) (fst p) /\ snd e = snd p) cat entries ->
  NoDup (map (fun e => fst (fst e)) cat) ->
  (forall t cols file, In t read_tables -> In (table_name t, cols, file) cat -> exists d, table_def_new t file cols = Ok d) ->
  forall acc, NoDup (map fst acc) -> (forall t, In t (map fst acc) -> In t read_tables /\ ~ In (table_name t) (map (fun e => fst (fst e)) cat)) ->
  exists defs, table_defs entries acc = Ok defs /\ NoDup (map fst defs) /\
    (forall t d, In (t, d) defs <-> In (t, d) acc \/ (In t read_tables /\ exists cols file, In (table_name t, cols, file) cat /\ table_def_new t file cols = Ok d)).
Proof.
  induction 1 as [|((name, cols), file) (def, file') cat entries (H & E) F IH]; intros ND OKD acc NA DA.
  - exists acc. cbn [table_defs]. sconj; auto. intros t d. split; [auto|]. intros [A|(_ & c & f & [] & _)]. auto.
  - cbn [fst snd] in *. subst file'. cbn [map fst] in ND. inversion ND as [|? ? ND1 ND2]; subst.
    cbn [table_defs]. rewrite (parse_header _ _ _ H). cbn [unwrap bind].
    destruct (of_interest name) as [t|] eqn:OI.
    + apply of_interest_spec in OI as (TI & ->).
      destruct (OKD t cols file TI) as (d & D); [left; auto|]. rewrite D. cbn [bind].
      assert (put_table t d acc = (t, d) :: acc) as PT.
      { unfold put_table. f_equal. assert (~ In t (map fst acc)) as NI by (intros X; apply DA in X as (_ & X); apply X; left; auto).
        clear - NI. induction acc as [|(t', v) acc IH]; auto. cbn. destruct (table_eqb t' t) eqn:E; cbn.
        - apply table_eqb_eq in E. subst. destruct NI. left; auto.
        - f_equal. apply IH. intros X; apply NI; right; auto. }
      rewrite PT. destruct (IH ND2) with (acc := (t, d) :: acc) as (defs & DE & NDE & INE).
      * intros t' c' f' I1 I2. apply (OKD t' c' f' I1). right; exact I2.
      * cbn. constructor; auto. intros X; apply DA in X as (_ & X); apply X; left; auto.
      * cbn. intros t' [<-|X]; [auto|]. apply DA in X as (X1 & X2). split; [auto|]. intros Y. apply X2. right; auto.
      * exists defs. sconj; auto. intros t' d'. rewrite INE. cbn [In]. split.
        -- intros [[X|X]|(X1 & c & f & X2 & X3)]; auto.
           ++ injection X as <- <-. right. split; auto. exists cols, file. auto.
           ++ right. split; auto. exists c, f. auto.
        -- intros [X|(X1 & c & f & [X2|X2] & X3)]; auto.
           ++ injection X2 as X2 <- <-. apply table_name_inj in X2; auto. subst. left. left. congruence.
           ++ right. split; auto. exists c, f. auto.
    + destruct (IH ND2) with (acc := acc) as (defs & DE & NDE & INE); auto.
      * intros t' c' f' I1 I2. apply (OKD t' c' f' I1). right; exact I2.
      * intros t X. apply DA in X as (X1 & X2). split; auto. intros Y. apply X2. right; auto.
      * exists defs. sconj; auto. intros t' d'. rewrite INE. split.
        -- intros [X|(X1 & c & f & X2 & X3)]; auto. right. split; auto. exists c, f. split; auto. right; auto.
        -- intros [X|(X1 & c & f & [X2|X2] & X3)]; auto.
           ++ exfalso. injection X2 as -> -> ->. assert (of_interest (table_name t') = Some t') as X by (apply of_interest_spec; auto). congruence.
           ++ right. split; auto. exists c, f. auto.
Qed.
Lemma res_map_all {A B} (f : A -> res B) l : (forall a, In a l -> exists b, f a = Ok b) -> exists bs, res_map f l = Ok bs /\ Forall2 (fun a b => f a = Ok b) l bs.
Proof.
  induction l as [|a l IH]; intros H; [exists []; auto|]. destruct (H a (or_introl eq_refl)) as (b & E). destruct IH as (bs & E' & F); [intros; apply H; right; auto|].
  exists (b :: bs). cbn. rewrite E. cbn. rewrite E'. auto.
Qed.
Lemma get_table_In {V} (l : list (table * V)) t v : NoDup (map fst l) -> In (t, v) l -> get_table t l = Some v.
Proof.
  induction l as [|(t', v') l IH]; intros N I; [destruct I|]. cbn in N. inversion N as [|? ? N1 N2]; subst. cbn. destruct I as [E|I].
  - injection E as -> ->. rewrite table_eqb_refl. reflexivity.
  - destruct (table_eqb t' t) eqn:E; auto. apply table_eqb_eq in E. subst. exfalso. apply N1. apply in_map_iff. exists (t, v). auto.
Qed.
Lemma reader_opens toc entries cat : dir (str "toc.dat") = Some toc -> toc_text entries toc -> NoDup (map (fun e => fst (fst e)) cat) ->
  Forall2 (fun e p => table_header (fst (fst e)) (snd (fst e)) (fst p) /\ snd e = snd p) cat entries ->
  (forall t, In t read_tables -> exists d sorted, sorted_table cat t d sorted) ->
  exists rd, reader_new sort_file dir = Ok rd /\
    forall t d sorted, In t read_tables -> sorted_table cat t d sorted -> open_table rd t = Ok (td_fields d, lines_of sorted).
Proof.
  intros DT TT ND F2 ALL.
  assert (forall n c1 f1 c2 f2, In (n, c1, f1) cat -> In (n, c2, f2) cat -> c1 = c2 /\ f1 = f2) as UNI.
  { clear - ND. induction cat as [|((n0, c0), f0) cat IH]; intros n c1 f1 c2 f2 I1 I2; [destruct I1|]. cbn in ND. inversion ND as [|? ? N1 N2]; subst.
    assert (forall c f, In (n0, c, f) cat -> False) as NO.
    { intros c f I. apply N1. apply in_map_iff. exists (n0, c, f). auto. }
    destruct I1 as [E1|I1], I2 as [E2|I2].
    - injection E1 as <- <- <-. injection E2 as <- <-. auto.
    - injection E1 as <- <- <-. destruct (NO _ _ I2).
    - injection E2 as <- <- <-. destruct (NO _ _ I1).
    - eapply IH; eauto. }
  destruct (defs_ok cat entries F2 ND) with (acc := @nil (table * table_def)) as (defs & DE & NDE & INE).
  - intros t cols file TI IN. destruct (ALL t TI) as (d & sorted & (c & I1 & D) & _). destruct (UNI _ _ _ _ _ IN I1) as (-> & ->). eauto.
  - constructor.
  - intros t [].
  - destruct (res_map_all (fun p : table * table_def => data <- of_option (dir (td_file (snd p))) ;; sorted <- sort_file (td_key (snd p)) data ;;
                    Ok (fst p, (snd p, sorted))) defs) as (rd & RD & F).
    { intros (t, d) I. cbn [fst snd]. apply INE in I as [[]|(TI & cols & file & I1 & D)].
      destruct (ALL t TI) as (d' & sorted & (c & I1' & D') & (data & E1 & E2)). destruct (UNI _ _ _ _ _ I1 I1') as (-> & ->). rewrite D in D'. injection D' as <-.
      rewrite E1. cbn [of_option bind]. rewrite E2. cbn [bind]. eauto. }
    exists rd. split.
    + unfold reader_new. rewrite DT. cbn [of_option bind]. rewrite (toc_strings _ _ TT). cbn [bind]. rewrite DE. cbn [bind]. exact RD.
    + intros t d sorted TI ((cols & I1 & D) & (data & E1 & E2)).
      assert (In (t, d) defs) as ID by (apply INE; right; split; auto; exists cols, (td_file d); auto).
      unfold open_table. rewrite (get_table_In rd t (d, sorted)); auto.
      * assert (map fst rd = map fst defs) as ->; auto. clear - F. induction F as [|p q ps qs H F IH]; auto. cbn. rewrite IH. f_equal.
        destruct (dir (td_file (snd p))) as [x|]; cbn [of_option bind] in H; [|discriminate]. destruct (sort_file _ x); cbn [bind] in H; [|discriminate..]. injection H as <-. reflexivity.
      * clear - F ID E1 E2. induction F as [|p q ps qs H F IH]; [destruct ID|]. destruct ID as [->|ID]; [left|right; auto].
        cbn [fst snd] in H. rewrite E1 in H. cbn [of_option bind] in H. rewrite E2 in H. cbn [bind] in H. congruence.
Qed.
End Tables.
