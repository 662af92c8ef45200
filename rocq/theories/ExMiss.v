(** Non-vacuity of C83: directories with tables of contents that list only some tables. *)
From Coq Require Import ZArith List Bool Strings.Byte Strings.String Lia Permutation.
From Verif Require Import Base BaseFacts Types ApidbText ApidbSpec ApidbTextFacts DumpSpec ApidbWrite ApidbWriteFacts ApidbRead DumpReadSpec FileFormat
  ApidbReadFacts TocFacts JoinFacts ReaderFacts PropApidbRead RoundSpec ExTools TocData PropToc ExApidb MissSpec PropMiss.
Import ListNotations.
Local Notation length := List.length.
Open Scope Z_scope.

Definition toc_line (t : table) (cols : list bytes) : bytes := str ".COPY " ++ table_name t ++ str " (" ++ commas cols ++ str ") FROM stdin; " ++ table_file t.
Definition small_toc (ts : list (table * list bytes)) : bytes := List.concat (map (fun p => toc_line (fst p) (snd p)) ts).
Definition small_cat (ts : list (table * list bytes)) : catalogue := map (fun p => (table_name (fst p), snd p, table_file (fst p))) ts.
Definition no_rows : bytes := str "\." ++ [x0a].
Definition small_dir (ts : list (table * list bytes)) (name : bytes) : option bytes :=
  if bytes_eqb name (str "toc.dat") then Some (small_toc ts) else if existsb (fun p => bytes_eqb (table_file (fst p)) name) ts then Some no_rows else None.
Definition toc_check (ts : list (table * list bytes)) : bool :=
  match read_toc 20 (small_toc ts) with
  | Some es => match all_some entry_ok es with
               | Some cat => (Nat.eqb (length cat) (length ts) && forallb (fun q => let '((n, c, f), p) := q in bytes_eqb n (table_name (fst p)) && PropToc.list_eqb c (snd p) && bytes_eqb f (table_file (fst p))) (combine cat ts) && distinct (map (fun e => fst (fst e)) cat))%bool
               | None => false end
  | None => false end.
Lemma toc_check_ok ts : toc_check ts = true -> catalogued (small_dir ts) (small_cat ts).
Proof.
  unfold toc_check. destruct (read_toc 20 (small_toc ts)) as [es|] eqn:R; [|discriminate]. destruct (all_some entry_ok es) as [cat|] eqn:A; [|discriminate]. intros H.
  apply andb_prop in H as (H & D). apply andb_prop in H as (L & F). apply Nat.eqb_eq in L.
  assert (cat = small_cat ts) as <-.
  { clear - L F. revert ts L F. induction cat as [|((n, c), f) cat IH]; intros [|p ts] L F; try discriminate L; auto. cbn [combine forallb] in F. apply andb_prop in F as (F1 & F2). apply andb_prop in F1 as (F1 & F3). apply andb_prop in F1 as (F1 & F4).
    apply bytes_eqb_eq in F1, F3. apply PropToc.list_eqb_eq in F4. subst. cbn. f_equal. apply IH; auto. }
  exists (small_toc ts), es. split; [reflexivity|]. split; [eapply read_toc_ok; eauto|]. split; [apply distinct_ok; auto|]. apply catalogue_ok. exact A.
Qed.
Definition empty_dump : dump := Dump [] [] [] [] [] [] [] [] [] [].
Lemma small_holds ts t {R} (says : R -> row_of -> Prop) : table_file t <> str "toc.dat" -> (exists cols, In (t, cols) ts /\ incl (needs t) cols) -> table_holds (small_dir ts) (small_cat ts) t says [].
Proof.
  intros NT (cols & I & N). exists cols, (table_file t), no_rows, []. cbn [map]. split; [|split; [exact N|split; [|split; [constructor|split; [constructor|]]]]].
  - unfold small_cat. apply in_map_iff. exists (t, cols). auto.
  - unfold small_dir. destruct (bytes_eqb (table_file t) (str "toc.dat")) eqn:E; [apply bytes_eqb_eq in E; destruct (NT E)|].
    replace (existsb _ ts) with true; auto. symmetry. apply existsb_exists. exists (t, cols). split; auto. apply bytes_eqb_refl.
  - exists [], 0%nat. split; [constructor|reflexivity].
Qed.
Lemma small_listed ts t : In t ten -> Forall (fun p => In (fst p) ten) ts -> MissSpec.listed (small_cat ts) t -> exists cols, In (t, cols) ts.
Proof.
  intros T TS (cols & file & I). unfold small_cat in I. apply in_map_iff in I as ((t', c) & E & I). cbn [fst snd] in E. injection E as E <- <-. rewrite Forall_forall in TS.
  apply table_name_inj in E; [|exact (TS _ I)|exact T]. subst t'. eauto.
Qed.
Lemma file_names t : In t ten -> table_file t <> str "toc.dat".
Proof.
  assert (forallb (fun t => negb (bytes_eqb (table_file t) (str "toc.dat"))) ten = true) as H by (vm_compute; reflexivity). rewrite forallb_forall in H. intros T E. specialize (H t T). rewrite E, bytes_eqb_refl in H. discriminate H.
Qed.
Lemma small_in_order ts : Forall (fun p => In (fst p) ten /\ incl (needs (fst p)) (snd p)) ts -> forall t, In t ten -> MissSpec.listed (small_cat ts) t -> in_order ex_unescape (small_dir ts) (small_cat ts) empty_dump t.
Proof.
  intros F t T L. assert (TS : Forall (fun p => In (fst p) ten) ts) by (revert F; apply Forall_impl; intros p (A & _); exact A).
  destruct (small_listed ts t T TS L) as (cols & I). assert (N : incl (needs t) cols) by (rewrite Forall_forall in F; exact (proj2 (F _ I))). pose proof (file_names t T) as NT.
  assert (H : forall R (says : R -> row_of -> Prop), table_holds (small_dir ts) (small_cat ts) t says []) by (intros; apply small_holds; eauto).
  cbn in T. repeat (destruct T as [<-|T]; [apply H|]). destruct T.
Qed.
Definition with_needs (ts : list table) : list (table * list bytes) := map (fun t => (t, needs t)) ts.
Lemma with_needs_ok ts : incl ts ten -> Forall (fun p => In (fst p) ten /\ incl (needs (fst p)) (snd p)) (with_needs ts).
Proof. intros I. unfold with_needs. apply Forall_map. rewrite Forall_forall. intros t T. cbn [fst snd]. split; [exact (I t T)|apply incl_refl]. Qed.

(** only the nodes and their tags: the reader opens and the iterator panics *)
Example ex_nodes_only : exists rd, ApidbRead.reader_new ex_sort (small_dir (with_needs [T_nodes; T_node_tags])) = Ok rd /\ ApidbRead.elements ex_unescape rd = Panic.
Proof.
  destruct (C83_missing_table ex_unescape ex_sort ex_sorts (small_dir (with_needs [T_nodes; T_node_tags])) (small_cat (with_needs [T_nodes; T_node_tags])) empty_dump) as (rd & RD & P & _).
  - apply toc_check_ok. vm_compute. reflexivity.
  - apply small_in_order, with_needs_ok. intros t [<-|[<-|[]]]; cbn; tauto.
  - exists rd. split; auto. apply P. intros L. apply small_listed in L as (c & L); [|cbn; tauto|repeat constructor; cbn; tauto]. cbn in L. intuition discriminate.
Qed.
(** with users and changesets too: an error *)
Example ex_no_ways : exists rd, ApidbRead.reader_new ex_sort (small_dir (with_needs [T_nodes; T_node_tags; T_users; T_changesets])) = Ok rd /\ ApidbRead.elements ex_unescape rd = Err.
Proof.
  destruct (C83_missing_table ex_unescape ex_sort ex_sorts (small_dir (with_needs [T_nodes; T_node_tags; T_users; T_changesets])) (small_cat (with_needs [T_nodes; T_node_tags; T_users; T_changesets])) empty_dump) as (rd & RD & _ & _ & E & _).
  - apply toc_check_ok. vm_compute. reflexivity.
  - apply small_in_order, with_needs_ok. intros t [<-|[<-|[<-|[<-|[]]]]]; cbn; tauto.
  - exists rd. split; auto. apply E with (t := T_ways).
    + eexists _, _. right. right. left. reflexivity.
    + eexists _, _. right. right. right. left. reflexivity.
    + cbn; tauto.
    + intros L. apply small_listed in L as (c & L); [|cbn; tauto|repeat constructor; cbn; tauto]. cbn in L. intuition discriminate.
Qed.
(** all ten, without rows *)
Example ex_all_ten : exists rd k s, ApidbRead.reader_new ex_sort (small_dir (with_needs ten)) = Ok rd /\ ApidbRead.elements ex_unescape rd = Ok (k, s).
Proof.
  destruct (C83_missing_table ex_unescape ex_sort ex_sorts (small_dir (with_needs ten)) (small_cat (with_needs ten)) empty_dump) as (rd & RD & _ & _ & _ & E).
  - apply toc_check_ok. vm_compute. reflexivity.
  - apply small_in_order, with_needs_ok. apply incl_refl.
  - destruct E as (k & s & E); [|eauto]. intros t T. exists (needs t), (table_file t). unfold small_cat, with_needs. rewrite map_map. apply in_map_iff. exists t. auto.
Qed.
(** a table of contents that lists a table without one of its columns *)
Example ex_no_version : ApidbRead.reader_new ex_sort (small_dir [(T_node_tags, [str "node_id"; str "k"; str "v"])]) = Err.
Proof.
  apply (C83_missing_column ex_sort _ (small_cat [(T_node_tags, [str "node_id"; str "k"; str "v"])]) T_node_tags [str "node_id"; str "k"; str "v"] (table_file T_node_tags) (str "version")).
  - apply toc_check_ok. vm_compute. reflexivity.
  - cbn; tauto.
  - left. reflexivity.
  - cbn; tauto.
  - cbn. intuition discriminate.
Qed.
(** a table whose file is not there *)
Definition without (name : bytes) (dir : bytes -> option bytes) (n : bytes) : option bytes := if bytes_eqb n name then None else dir n.
Example ex_no_data : ApidbRead.reader_new ex_sort (without (table_file T_ways) (small_dir (with_needs [T_ways]))) = Err.
Proof.
  apply (C83_missing_file ex_unescape ex_sort ex_sorts _ (small_cat (with_needs [T_ways])) empty_dump).
  - destruct (toc_check_ok (with_needs [T_ways])) as (toc & es & A & B); [vm_compute; reflexivity|]. exists toc, es. split; [|exact B].
    rewrite <- A. unfold without. replace (bytes_eqb (str "toc.dat") (table_file T_ways)) with false; [reflexivity|vm_compute; reflexivity].
  - intros t cols file T [I|[]]. cbn [with_needs map fst snd] in I. injection I as I <- <-. apply (table_name_inj T_ways t) in I; [|cbn; tauto|exact T]. subst t. split; [apply incl_refl|]. left. unfold without. rewrite bytes_eqb_refl. reflexivity.
  - exists T_ways, (needs T_ways), (table_file T_ways). split; [cbn; tauto|]. split; [left; reflexivity|]. unfold without. rewrite bytes_eqb_refl. reflexivity.
Qed.
