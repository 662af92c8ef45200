(** Non-vacuity of C93: a small dump with NULLs, once where they do not matter, once in a changeset, once in a node. *)
From Coq Require Import ZArith List Bool Strings.Byte Strings.String Lia Permutation.
From Verif Require Import Base BaseFacts Types ApidbText ApidbSpec ApidbTextFacts DumpSpec ApidbWrite ApidbWriteFacts ApidbRead DumpReadSpec FileFormat
  ApidbReadFacts TocFacts ReaderFacts MissSpec PropMiss FieldSpec PropFields NullSpec PropNull ExTools ExMiss.
Import ListNotations.
Local Notation length := List.length.
Local Notation concat := List.concat.
Open Scope Z_scope.

Definition cells : Type := list (string * string).
Definition row_from (l : cells) : row_of := fun c => match List.find (fun p => bytes_eqb (str (fst p)) c) l with Some p => str (snd p) | None => str "\N" end.
Definition table_data (t : table) (rows : list row_of) : bytes := concat (map (fun w => row (map w (needs t))) rows) ++ str "\." ++ [x0a].
Definition rows_dir (rows : table -> list row_of) (name : bytes) : option bytes :=
  if bytes_eqb name (str "toc.dat") then Some (small_toc (with_needs ten)) else
  match List.find (fun t => bytes_eqb (table_file t) name) ten with Some t => Some (table_data t (rows t)) | None => None end.
Definition row_check (t : table) (w : row_of) : bool :=
  forallb (fun c => utf8_ok c && negb (existsb (fun b => Byte.eqb b x09 || Byte.eqb b x0a || Byte.eqb b x0d) c)) (map w (needs t)) &&
  match needs t with c :: _ :: _ => negb (starts_with (str "\.") (w c)) | _ => false end &&
  forallb (fun c => match parse_i64 (w c) with Some z => bytes_eqb (w c) (show_int z) | None => false end) (number_columns t).
Lemma row_check_ok t w : row_check t w = true -> clean_row (map w (needs t)) /\ Forall (fun c => exists z, int64 z (w c)) (number_columns t).
Proof.
  unfold row_check. rewrite !andb_true_iff. intros ((A & B) & C). split.
  - split; [|split].
    + rewrite forallb_forall in A. apply Forall_forall. intros c I. specialize (A c I). apply andb_true_iff in A as (A1 & A2). apply negb_true_iff in A2.
      assert (N : forall b, In b c -> Byte.eqb b x09 || Byte.eqb b x0a || Byte.eqb b x0d = false).
      { intros b J. destruct (_ || _ || _)%bool eqn:E; auto. assert (X : existsb (fun b => Byte.eqb b x09 || Byte.eqb b x0a || Byte.eqb b x0d) c = true) by (apply existsb_exists; exists b; auto). congruence. }
      split; auto. split; [|split]; intros J; specialize (N _ J); discriminate N.
    + destruct (needs t) as [|a [|b l]]; try discriminate B. cbn. lia.
    + destruct (needs t) as [|a [|b l]]; try discriminate B. intros s r E. cbn [map] in E. injection E as E _. rewrite E in B. unfold starts_with in B. cbn in B. discriminate B.
  - rewrite forallb_forall in C. apply Forall_forall. intros c I. specialize (C c I). destruct (parse_i64 (w c)) as [z|] eqn:E; [|discriminate C]. apply bytes_eqb_eq in C. exists z. split; [|rewrite C; apply show_int_plain].
    apply reads_i64_iff in E. unfold I64, min_i64, max_i64. destruct E as [s v N L|s v N L|s v N L]; lia.
Qed.
Lemma rows_text rows : (forall t, In t ten -> forallb (row_check t) (rows t) = true) -> forall t, In t ten -> text_table (rows_dir rows) (small_cat (with_needs ten)) t (rows t).
Proof.
  intros H t T. specialize (H t T). rewrite forallb_forall in H. exists (needs t), (table_file t), (table_data t (rows t)), (rows t).
  split; [apply in_map_iff; exists (t, needs t); split; [reflexivity|apply in_map_iff; exists t; auto]|]. split; [apply incl_refl|].
  split.
  { unfold rows_dir. destruct (bytes_eqb (table_file t) (str "toc.dat")) eqn:E; [apply bytes_eqb_eq in E; destruct (file_names t T E)|].
    assert (F : List.find (fun t' => bytes_eqb (table_file t') (table_file t)) ten = Some t) by (clear - T; cbn in T; repeat (destruct T as [<- |T]; [vm_compute; reflexivity|]); destruct T). rewrite F. reflexivity. }
  split; [clear - H; induction (rows t) as [|w l IH]; [constructor|]; constructor; [split; auto; apply row_check_ok, H; left; auto|apply IH; intros; apply H; right; auto]|].
  split; [apply Forall_map, Forall_forall; intros w I; apply row_check_ok; auto|].
  exists (map (fun w => row (map w (needs t))) (rows t)), 0%nat. split; [|reflexivity]. clear - T. induction (rows t) as [|w l IH]; [constructor|]. cbn [map]. constructor; auto. apply row_copy_line.
  intros E. cbn in T. repeat (destruct T as [<- |T]; [discriminate E|]). destruct T.
Qed.
Lemma rows_catalogued rows : catalogued (rows_dir rows) (small_cat (with_needs ten)).
Proof.
  destruct (toc_check_ok (with_needs ten)) as (toc & es & D & X); [vm_compute; reflexivity|]. exists toc, es. split; [|exact X]. unfold rows_dir. unfold small_dir in D.
  destruct (bytes_eqb (str "toc.dat") (str "toc.dat")) eqn:E; [exact D|rewrite bytes_eqb_refl in E; discriminate E].
Qed.

(** ** The dumps *)
Definition user_cells : cells := [("id", "7"); ("creation_time", "2020-09-13 12:26:40"); ("display_name", "ann"); ("home_zoom", "3"); ("data_public", "t"); ("email_valid", "f"); ("consider_pd", "f"); ("terms_seen", "f");
  ("image_use_gravatar", "f"); ("changesets_count", "0"); ("traces_count", "0"); ("diary_entries_count", "0"); ("status", "active"); ("description_format", "markdown")]%string.
Definition changeset_cells (min_lat : string) : cells := [("id", "10"); ("user_id", "7"); ("created_at", "2020-09-13 12:26:40"); ("min_lat", min_lat); ("max_lat", "1"); ("min_lon", "0"); ("max_lon", "1"); ("closed_at", "2020-09-13 13:26:40"); ("num_changes", "1")]%string.
Definition node_cells (id time : string) : cells := [("node_id", id); ("latitude", "515000000"); ("longitude", "-1"); ("changeset_id", "10"); ("visible", "t"); ("""timestamp""", time); ("tile", "3"); ("version", "1")]%string.
Definition some_rows (min_lat time : string) (t : table) : list row_of :=
  match t with
  | T_users => [row_from user_cells]
  | T_changesets => [row_from (changeset_cells min_lat)]
  | T_nodes => [row_from (node_cells "2" time); row_from (node_cells "1" "2020-09-13 12:26:40.5")]
  | _ => []
  end.
Definition a_time : string := "2020-09-13 12:26:40"%string.
Definition null : string := "\N"%string.
Lemma some_check min_lat time : (forallb (fun t => forallb (row_check t) (some_rows min_lat time t)) ten = true) -> forall t, In t ten -> text_table (rows_dir (some_rows min_lat time)) (small_cat (with_needs ten)) t (some_rows min_lat time t).
Proof. intros H. apply rows_text. rewrite forallb_forall in H. exact H. Qed.
Ltac fits_ := match goal with
  | |- fits reads_i64 ?w ?c => let v := eval vm_compute in (parse_i64 (w (str c))) in match v with Some ?z => exists z; apply reads_i64_iff; vm_compute; reflexivity end
  | |- fits reads_i32 ?w ?c => let v := eval vm_compute in (parse_i32 (w (str c))) in match v with Some ?z => exists z; apply reads_i32_iff; vm_compute; reflexivity end
  | |- fits reads_i16 ?w ?c => let v := eval vm_compute in (parse_i16 (w (str c))) in match v with Some ?z => exists z; apply reads_i16_iff; vm_compute; reflexivity end
  | |- fits reads_bool ?w ?c => let v := eval vm_compute in (parse_sql_bool (w (str c))) in match v with Some ?z => exists z; apply C75_booleans; vm_compute; reflexivity end
  | |- fits reads_time ?w ?c => let v := eval vm_compute in (parse_sql_time (w (str c))) in match v with Some ?z => exists z; apply C75_times; vm_compute; reflexivity end
  | |- one_of _ _ _ => unfold one_of; vm_compute; tauto
  end.
Ltac readable_ := cbn [readable_row]; sconj; repeat first [fits_|apply Forall_cons|apply Forall_nil].
Lemma user_readable : readable_row T_users (row_from user_cells). Proof. readable_. Qed.
Lemma changeset_readable : readable_row T_changesets (row_from (changeset_cells "-5")). Proof. readable_. Qed.
Lemma node_readable id time : In id ["1"; "2"]%string -> In time [a_time; "2020-09-13 12:26:40.5"%string] -> readable_row T_nodes (row_from (node_cells id time)).
Proof. intros [<- |[<- |[]]] [<- |[<- |[]]]; readable_. Qed.
Lemma refers_one c d w w' z : parse_i64 (w (str c)) = Some z -> parse_i64 (w' (str d)) = Some z -> refers w c [w'] d.
Proof. intros A B. exists z, w'. split; [left; auto|]. split; apply reads_i64_iff; auto. Qed.
(** email, home_lat, redaction_id and others are NULL; the nodes are out of order in the file *)
Example ex_nulls_allowed : exists rd k s es, ApidbRead.reader_new ex_sort (rows_dir (some_rows "-5" a_time)) = Ok rd /\ ApidbRead.elements ex_unescape rd = Ok (k, s) /\ run (element_next k) s es Ended.
Proof.
  apply (C93_no_panic ex_unescape ex_sort ex_sorts (rows_dir (some_rows "-5" a_time)) (small_cat (with_needs ten)) (some_rows "-5" a_time)); [apply rows_catalogued|apply some_check; vm_compute; reflexivity| | |].
  - intros t w T I. destruct t; cbn [some_rows In] in I; try contradiction; first [destruct I as [<- |[]]; first [exact changeset_readable|exact user_readable]|destruct I as [<- |[<- |[]]]; apply node_readable; cbn; auto].
  - intros t n w B I. destruct t; try discriminate B; cbn [some_rows In] in I; try contradiction. destruct I as [<- |[<- |[]]]; apply (refers_one _ _ _ _ 10); vm_compute; reflexivity.
  - intros w [<- |[]]. apply (refers_one _ _ _ _ 7); vm_compute; reflexivity.
Qed.
(** a changeset without a bounding box, as an empty changeset has none *)
Example ex_null_changeset : exists rd, ApidbRead.reader_new ex_sort (rows_dir (some_rows null a_time)) = Ok rd /\ ApidbRead.elements ex_unescape rd = Panic.
Proof.
  destruct (C93_opening ex_unescape ex_sort ex_sorts (rows_dir (some_rows null a_time)) (small_cat (with_needs ten)) (some_rows null a_time)) as (rd & RD & H); [apply rows_catalogued|apply some_check; vm_compute; reflexivity|].
  exists rd. split; auto. destruct (ApidbRead.elements ex_unescape rd) as [p| |]; auto; [|destruct H]. exfalso.
  apply (C93_null T_changesets "min_lat" (row_from (changeset_cells null))); [cbn; tauto|vm_compute; reflexivity|]. apply H; cbn; tauto.
Qed.
(** a node without a time: elements() works and the iteration panics among the nodes *)
Example ex_null_node : exists rd k s es, ApidbRead.reader_new ex_sort (rows_dir (some_rows "-5" null)) = Ok rd /\ ApidbRead.elements ex_unescape rd = Ok (k, s) /\ run (element_next k) s es Panicked /\ sentinels es = 0%nat.
Proof.
  assert (C := rows_catalogued (some_rows "-5" null)). assert (T := some_check "-5" null eq_refl).
  destruct (C93_opening ex_unescape ex_sort ex_sorts _ _ _ C T) as (rd & RD & H). exists rd. destruct (ApidbRead.elements ex_unescape rd) as [(k, s)| |] eqn:EL; [|destruct H|].
  - destruct (PropDump.C42_stream_shape _ _ _ _ EL) as (es & o & R & _). exists k, s, es.
    destruct (C93_objects ex_unescape ex_sort ex_sorts _ _ _ T_nodes 0%nat (row_from (node_cells "2" null)) rd k s es o C T RD EL R) as (-> & L); [reflexivity|left; reflexivity| |].
    + intros (R1 & _). revert R1. apply (C93_null T_nodes """timestamp"""); [cbn; tauto|vm_compute; reflexivity].
    + split; auto. split; auto. split; auto. lia.
  - exfalso. destruct H as (t & w & [<- |[<- |[]]] & [<- |[]] & N); apply N; [exact user_readable|exact changeset_readable].
Qed.
