(** C54: the table of contents shipped with the dump writer describes exactly the files it writes. *)
From Coq Require Import ZArith List Bool Strings.Byte Strings.String Lia.
From Verif Require Import Base BaseFacts Types Model2 ApidbText ApidbSpec DumpSpec ApidbWrite ApidbRead DumpReadSpec ApidbReadFacts TocFacts ReaderFacts RoundSpec PropDump TocData.
Import ListNotations.
Local Notation length := List.length.
Local Notation concat := List.concat.
Open Scope Z_scope.

(** ** The file *)
Fixpoint unpack (n : nat) (z : Z) (acc : bytes) : bytes :=
  match n with
  | O => acc
  | S k => unpack k (Z.shiftr z 8) (z2b (Z.land z 255) :: acc)
  end.
(** write/toc.rs 6, 9-13 and writer.rs 545-553: the file toc.dat of every dump *)
Definition shipped_toc : bytes := fold_right (unpack 64) (unpack toc_last_length toc_last []) toc_words.
(** Columns of the other tables that get rows, as in the comments of DumpSpec *)
Definition current_schema : list (table * list bytes) :=
  [(T_current_nodes, [str "id"; str "latitude"; str "longitude"; str "changeset_id"; str "visible"; str """timestamp"""; str "tile"; str "version"]);
   (T_current_node_tags, [str "node_id"; str "k"; str "v"]);
   (T_current_ways, [str "id"; str "changeset_id"; str """timestamp"""; str "visible"; str "version"]);
   (T_current_way_tags, [str "way_id"; str "k"; str "v"]);
   (T_current_way_nodes, [str "way_id"; str "node_id"; str "sequence_id"]);
   (T_current_relations, [str "id"; str "changeset_id"; str """timestamp"""; str "visible"; str "version"]);
   (T_current_relation_tags, [str "relation_id"; str "k"; str "v"]);
   (T_current_relation_members, [str "relation_id"; str "member_type"; str "member_id"; str "member_role"; str "sequence_id"]);
   (T_changeset_tags, [str "changeset_id"; str "k"; str "v"])].

(** ** Checking *)
(** the text before and after the first [p] *)
Fixpoint cut (p s : bytes) : option (bytes * bytes) :=
  match strip_prefix p s with
  | Some r => Some ([], r)
  | None => match s with [] => None | b :: s' => match cut p s' with Some (a, r) => Some (b :: a, r) | None => None end end
  end.
Lemma strip_ok p s r : strip_prefix p s = Some r <-> s = p ++ r.
Proof.
  revert s. induction p as [|b p IH]; intros s; cbn.
  - split; [intros E; injection E as <-; auto|intros ->; auto].
  - destruct s as [|c s]; [split; discriminate|]. destruct (Byte.eqb b c) eqn:E.
    + apply Byte.byte_dec_bl in E. subst. rewrite IH. split; [intros ->; auto|intros X; injection X; auto].
    + split; [discriminate|]. intros X. injection X as -> _. rewrite beqb_refl in E. discriminate.
Qed.
Lemma cut_ok p s a r : p <> [] -> cut p s = Some (a, r) -> s = a ++ p ++ r /\ free p a.
Proof.
  intros NE. revert a. induction s as [|b s IH]; intros a; cbn [cut].
  - destruct (strip_prefix p []) as [t|] eqn:E; [|discriminate]. apply strip_ok in E. destruct p; [congruence|discriminate].
  - destruct (strip_prefix p (b :: s)) as [t|] eqn:E.
    + intros X. injection X as <- <-. apply strip_ok in E. split; [exact E|]. intros u v H. apply (f_equal (@List.length byte)) in H. rewrite !app_length in H. cbn in H.
      destruct v; [reflexivity|cbn in H; lia].
    + destruct (cut p s) as [(a', r')|]; [|discriminate]. intros X. injection X as <- <-. destruct (IH a' eq_refl) as (H1 & H2). split; [cbn; congruence|].
      intros [|c u] v H.
      * exfalso. cbn [app] in H. assert (strip_prefix p (b :: s) = Some (v ++ r')) as Y; [|congruence]. apply strip_ok. rewrite H1. cbn [app] in H.
        rewrite app_assoc. change (b :: (a' ++ p) ++ r') with ((b :: a' ++ p) ++ r'). rewrite H, <- app_assoc. reflexivity.
      * cbn [app] in H. injection H as <- H. eapply H2; eauto.
Qed.
Lemma cut_none p s : cut p s = None -> absent p s.
Proof.
  induction s as [|b s IH]; cbn [cut]; intros H u v E.
  - destruct (strip_prefix p []) as [t|] eqn:X; [discriminate|]. destruct u; [|discriminate]. cbn in E. rewrite (proj2 (strip_ok _ _ _) E) in X. discriminate.
  - destruct (strip_prefix p (b :: s)) as [t|] eqn:X; [discriminate|]. destruct (cut p s) as [(a', r')|]; [discriminate|].
    destruct u as [|c u]; cbn [app] in E.
    + rewrite (proj2 (strip_ok _ _ _) E) in X. discriminate.
    + injection E as -> E. eapply IH; eauto.
Qed.
(** the digits at the end of [s] *)
Definition cut_digits (s : bytes) : bytes * bytes :=
  let n := take_while is_digit (rev s) in (firstn (length s - length n) s, rev n).
Definition bytes_neb (a : bytes) : bool := match a with [] => false | _ => true end.
Fixpoint read_toc (fuel : nat) (s : bytes) : option (list (bytes * bytes)) :=
  match fuel with
  | O => None
  | S fuel' =>
    match cut (str "COPY ") s with
    | None => Some []
    | Some (f, r1) =>
      match cut (str " FROM stdin") r1 with
      | None => None
      | Some (def, r2) =>
        match cut (str ".dat") r2 with
        | None => None
        | Some (gn, r3) =>
          let '(g, number) := cut_digits gn in
          if bytes_neb f && utf8_ok def && bytes_eqb gn (g ++ number) && forallb is_digit number && negb (is_digit (last g x00)) then
            match read_toc fuel' r3 with Some es => Some ((def, number ++ str ".dat") :: es) | None => None end
          else None
        end
      end
    end
  end.
Lemma read_toc_ok fuel : forall s es, read_toc fuel s = Some es -> toc_text es s.
Proof.
  induction fuel as [|fuel IH]; intros s es; [discriminate|]. cbn [read_toc]. destruct (cut (str "COPY ") s) as [(f, r1)|] eqn:C1.
  2:{ intros E. injection E as <-. constructor. apply cut_none; auto. }
  destruct (cut (str " FROM stdin") r1) as [(def, r2)|] eqn:C2; [|discriminate].
  destruct (cut (str ".dat") r2) as [(gn, r3)|] eqn:C3; [|discriminate].
  destruct (cut_digits gn) as (g, number). destruct (_ && _) eqn:B; [|discriminate].
  repeat (apply andb_true_iff in B as (B & ?)). destruct (read_toc fuel r3) as [es'|] eqn:R; [|discriminate]. intros E. injection E as <-.
  apply cut_ok in C1 as (-> & F1); [|discriminate]. apply cut_ok in C2 as (-> & F2); [|discriminate]. apply cut_ok in C3 as (-> & F3); [|discriminate].
  assert (gn = g ++ number) as -> by (apply bytes_eqb_eq; auto).
  replace (f ++ str "COPY " ++ def ++ str " FROM stdin" ++ (g ++ number) ++ str ".dat" ++ r3)
    with (f ++ (str "COPY " ++ def ++ str " FROM stdin" ++ g ++ number ++ str ".dat") ++ r3) by (repeat rewrite <- app_assoc; reflexivity).
  constructor; auto.
  - destruct f; [discriminate|congruence].
  - constructor; auto.
    + apply Forall_forall. apply forallb_forall; auto.
    + intros g' c ->. rewrite last_last in H. destruct (is_digit c); [discriminate|reflexivity].
Qed.
(** ** Headers *)
Fixpoint commas (cols : list bytes) : bytes :=
  match cols with [] => [] | [c] => c | c :: r => c ++ str ", " ++ commas r end.
Lemma commas_ok cols : cols <> [] -> comma_separated cols (commas cols).
Proof.
  induction cols as [|c cols IH]; [congruence|]. intros _. destruct cols as [|d r]; [constructor|]. apply (more_names c (d :: r)). apply IH. discriminate.
Qed.
Definition header_ok (name : bytes) (cols : list bytes) (def : bytes) : bool :=
  bytes_neb name && negb (existsb (Byte.eqb x20) name) && match cols with [] => false | _ => true end &&
  forallb (fun c => bytes_neb c && negb (existsb (Byte.eqb x2c) c) && negb (existsb (Byte.eqb x0a) c)) cols &&
  bytes_eqb def (name ++ str " (" ++ commas cols ++ str ")").
Lemma not_in_b b l : negb (existsb (Byte.eqb b) l) = true -> ~ In b l.
Proof. intros H I. rewrite (proj2 (existsb_exists _ _)) in H; [discriminate|]. exists b. split; auto. apply beqb_refl. Qed.
Lemma neb_ok a : bytes_neb a = true -> a <> []. Proof. destruct a; [discriminate|congruence]. Qed.
Lemma header_ok_ok name cols def : header_ok name cols def = true -> table_header name cols def.
Proof.
  unfold header_ok. rewrite !andb_true_iff. intros ((((A & B) & C) & D) & E). unfold table_header. sconj.
  - apply neb_ok; auto.
  - apply not_in_b; auto.
  - apply Forall_forall. intros c I. rewrite forallb_forall in D. specialize (D c I). rewrite !andb_true_iff in D. destruct D as ((D1 & D2) & D3).
    split; [apply neb_ok; auto|split; apply not_in_b; auto].
  - exists (commas cols). split; [apply commas_ok; destruct cols; congruence|]. apply bytes_eqb_eq; auto.
Qed.
Definition entry_ok (p : bytes * bytes) : option (bytes * list bytes * bytes) :=
  match parse_def (fst p) with
  | Some (name, cols) => if header_ok name cols (fst p) then Some (name, cols, snd p) else None
  | None => None
  end.
Fixpoint all_some {A B} (f : A -> option B) (l : list A) : option (list B) :=
  match l with
  | [] => Some []
  | a :: r => match f a, all_some f r with Some b, Some bs => Some (b :: bs) | _, _ => None end
  end.
Lemma catalogue_ok entries cat : all_some entry_ok entries = Some cat ->
  Forall2 (fun e p => table_header (fst (fst e)) (snd (fst e)) (fst p) /\ snd e = snd p) cat entries.
Proof.
  revert cat. induction entries as [|p r IH]; cbn [all_some]; intros cat.
  - intros E. injection E as <-. constructor.
  - destruct (entry_ok p) as [e|] eqn:E; [|discriminate]. destruct (all_some entry_ok r) as [es|]; [|discriminate]. intros X. injection X as <-. constructor; auto.
    unfold entry_ok in E. destruct (parse_def (fst p)) as [(name, cols)|]; [|discriminate]. destruct (header_ok name cols (fst p)) eqn:H; [|discriminate].
    injection E as <-. split; [apply header_ok_ok; exact H|reflexivity].
Qed.
Fixpoint distinct (l : list bytes) : bool :=
  match l with [] => true | a :: r => negb (existsb (bytes_eqb a) r) && distinct r end.
Lemma distinct_ok l : distinct l = true -> NoDup l.
Proof.
  induction l as [|a l IH]; cbn; constructor; apply andb_true_iff in H as (H1 & H2); auto. intros I.
  rewrite (proj2 (existsb_exists _ _)) in H1; [discriminate|]. exists a. split; auto. apply bytes_eqb_refl.
Qed.
Fixpoint list_eqb (a b : list bytes) : bool :=
  match a, b with
  | [], [] => true
  | x :: a', y :: b' => bytes_eqb x y && list_eqb a' b'
  | _, _ => false
  end.
Lemma list_eqb_eq a b : list_eqb a b = true -> a = b.
Proof.
  revert b. induction a as [|x a IH]; intros [|y b]; cbn; try discriminate; auto. intros H. apply andb_true_iff in H as (H1 & H2). apply bytes_eqb_eq in H1. f_equal; auto.
Qed.
Definition listed (cat : catalogue) (t : table) (cols : list bytes) : bool :=
  existsb (fun e => bytes_eqb (fst (fst e)) (table_name t) && list_eqb (snd (fst e)) cols && bytes_eqb (snd e) (table_file t)) cat.
Lemma listed_ok cat t cols : listed cat t cols = true -> In (table_name t, cols, table_file t) cat.
Proof.
  unfold listed. rewrite existsb_exists. intros (((n, c), f) & I & H). cbn [fst snd] in H. rewrite !andb_true_iff in H. destruct H as ((H1 & H2) & H3).
  apply bytes_eqb_eq in H1. apply list_eqb_eq in H2. apply bytes_eqb_eq in H3. subst. exact I.
Qed.
Definition or_nil {A} (o : option (list A)) : list A := match o with Some l => l | None => [] end.
Definition is_some {A} (o : option A) : bool := match o with Some _ => true | None => false end.
Lemma or_nil_some {A} (o : option (list A)) : is_some o = true -> o = Some (or_nil o).
Proof. destruct o; [reflexivity|discriminate]. Qed.
Definition the_entries : list (bytes * bytes) := or_nil (read_toc 60 shipped_toc).
Definition the_catalogue : catalogue := or_nil (all_some entry_ok the_entries).
Lemma the_toc : toc_text the_entries shipped_toc.
Proof. apply (read_toc_ok 60). apply (or_nil_some (read_toc 60 shipped_toc)). vm_cast_no_check (eq_refl true). Qed.
Lemma the_headers : Forall2 (fun e p => table_header (fst (fst e)) (snd (fst e)) (fst p) /\ snd e = snd p) the_catalogue the_entries.
Proof. apply catalogue_ok. apply (or_nil_some (all_some entry_ok the_entries)). vm_cast_no_check (eq_refl true). Qed.

(** C54: the shipped toc.dat lists every table once, each of the 53 tables the writer creates with the name of
    its data file, and the tables that get rows with exactly the columns of those rows; the reader accepts it. *)
Theorem C54_shipped_toc :
  describes shipped_toc /\
  exists entries (cat : catalogue), get_table_def_strings shipped_toc = Ok entries /\
    Forall2 (fun e p => parse_def (fst p) = Some (fst e) /\ snd e = snd p) cat entries /\
    NoDup (map (fun e => fst (fst e)) cat) /\ NoDup (map snd cat) /\
    (forall t, exists cols, In (table_name t, cols, table_file t) cat) /\ length cat = 53%nat /\
    (forall t, In t object_tables -> In (table_name t, schema t, table_file t) cat) /\
    Forall (fun p => In (table_name (fst p), snd p, table_file (fst p)) cat) current_schema.
Proof.
  assert (forall t, In t object_tables -> In (table_name t, schema t, table_file t) the_catalogue) as OT.
  { assert (forallb (fun t => listed the_catalogue t (schema t)) object_tables = true) as H by (vm_cast_no_check (eq_refl true)).
    intros t I. rewrite forallb_forall in H. apply listed_ok; auto. }
  assert (NoDup (map (fun e => fst (fst e)) the_catalogue)) as ND by (apply distinct_ok; vm_cast_no_check (eq_refl true)).
  assert (NoDup (map snd the_catalogue)) as ND2 by (apply distinct_ok; vm_cast_no_check (eq_refl true)).
  assert (forallb (fun t => existsb (fun e => bytes_eqb (fst (fst e)) (table_name t) && bytes_eqb (snd e) (table_file t)) the_catalogue) all_tables = true) as AL by (vm_cast_no_check (eq_refl true)).
  assert ((length the_catalogue =? 53)%nat = true) as LEN by (vm_cast_no_check (eq_refl true)).
  assert (forallb (fun p => listed the_catalogue (fst p) (snd p)) current_schema = true) as CS by (vm_cast_no_check (eq_refl true)).
  pose proof the_toc as TT. pose proof the_headers as TH.
  generalize dependent the_catalogue. generalize dependent the_entries. intros entries TT cat OT ND ND2 AL LEN CS TH.
  split; exists entries, cat; sconj; auto.
  - apply toc_strings; auto.
  - eapply Forall2_weaken; [|exact TH]. intros ((n, c), f) p (H & E). split; auto. apply parse_header in H. exact H.
  - intros t. rewrite forallb_forall in AL. assert (In t all_tables) as I by (destruct t; cbn; tauto). specialize (AL t I).
    apply existsb_exists in AL as (((n, c), f) & J & H). cbn [fst snd] in H. apply andb_true_iff in H as (H1 & H2). apply bytes_eqb_eq in H1. apply bytes_eqb_eq in H2. subst. eauto.
  - apply Nat.eqb_eq; auto.
  - apply Forall_forall. intros p I. rewrite forallb_forall in CS. apply listed_ok; auto.
Qed.
