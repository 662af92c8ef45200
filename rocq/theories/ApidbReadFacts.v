(** Facts about the dump reader: lines, columns, rows, joins. *)
From Coq Require Import ZArith List Bool Strings.Byte Strings.String Lia Permutation.
From Verif Require Import Base BaseFacts Types ApidbText ApidbSpec CalendarFacts ApidbTextFacts DumpSpec ApidbWrite ApidbWriteFacts ApidbRead DumpReadSpec Model2 ModelFacts.
Import ListNotations.
Local Notation length := List.length.
Local Notation concat := List.concat.
Open Scope Z_scope.

(** ** UTF-8 *)
Lemma utf8_app a b : utf8_ok a = true -> utf8_ok b = true -> utf8_ok (a ++ b) = true.
Proof.
  intros A B. remember (length a) as n eqn:E. revert a A E. induction n as [n IH] using lt_wf_ind. intros a A E.
  destruct a as [|b0 r0]; [exact B|]. cbn [app utf8_ok] in *. destruct (b2z b0 <? 128).
  { eapply IH; [|exact A|reflexivity]. subst n. cbn. lia. }
  destruct r0 as [|b1 r1]; [discriminate|]. cbn [app] in *. destruct (_ && _).
  { apply andb_true_iff in A as (A1 & A2). rewrite A1. eapply IH; [|exact A2|reflexivity]. subst n. cbn. lia. }
  destruct r1 as [|b2 r2]; [discriminate|]. cbn [app] in *.
  assert (forall x, (x && utf8_ok r2 = true -> x && utf8_ok (r2 ++ b) = true)) as R2.
  { intros x H. apply andb_true_iff in H as (-> & H). eapply IH; [|exact H|reflexivity]. subst n. cbn. lia. }
  destruct (b2z b0 =? 224); [apply R2; auto|]. destruct (_ && _); [apply R2; auto|]. destruct (b2z b0 =? 237); [apply R2; auto|].
  destruct (_ && _); [apply R2; auto|]. destruct r2 as [|b3 r3]; [discriminate|]. cbn [app].
  assert (forall x, (x && utf8_ok r3 = true -> x && utf8_ok (r3 ++ b) = true)) as R3.
  { intros x H. apply andb_true_iff in H as (-> & H). eapply IH; [|exact H|reflexivity]. subst n. cbn. lia. }
  destruct (b2z b0 =? 240); [apply R3; auto|]. destruct (_ && _); [apply R3; auto|]. destruct (b2z b0 =? 244); [apply R3; auto|]. discriminate.
Qed.

(** ** lines *)
Lemma copy_line_app cols s : copy_line cols s -> exists t, s = t ++ [x0a] /\ t = join_cols cols.
Proof.
  intros H. apply copy_line_row in H. subst. unfold row. eexists. split; reflexivity.
Qed.
Lemma join_no_lf cols : Forall (fun c => ~ In x0a c) cols -> ~ In x0a (join_cols cols).
Proof.
  induction cols as [|c cols IH]; intros F; [intros []|]. inversion F as [|? ? F1 F2]; subst. destruct cols as [|d r]; [auto|].
  change (join_cols (c :: d :: r)) with (c ++ x09 :: join_cols (d :: r)). intros I. apply in_app_iff in I as [I|[I|I]]; [auto|discriminate|].
  apply IH in I; auto.
Qed.
Lemma beqb_refl b : Byte.eqb b b = true. Proof. apply Byte.byte_dec_lb. reflexivity. Qed.
Lemma beqb_neq a b : a <> b -> Byte.eqb a b = false.
Proof. intros N. destruct (Byte.eqb a b) eqn:E; auto. apply Byte.byte_dec_bl in E. congruence. Qed.
Lemma lines_of_line t s : ~ In x0a t -> lines_of (t ++ x0a :: s) = (t ++ [x0a]) :: lines_of s.
Proof.
  induction t as [|b t IH]; intros N; cbn [app lines_of].
  - rewrite beqb_refl. reflexivity.
  - rewrite beqb_neq by (intros ->; apply N; left; auto). rewrite IH by (intros I; apply N; right; auto). reflexivity.
Qed.
Lemma clean_cols_lf cols : Forall clean cols -> Forall (fun c => ~ In x0a c) cols.
Proof. apply Forall_impl. unfold clean. tauto. Qed.
Lemma lines_of_concat rows lines : Forall2 copy_line rows lines -> Forall clean_row rows -> lines_of (concat lines) = lines.
Proof.
  induction 1 as [|c l rows lines H F IH]; intros C; [reflexivity|]. inversion C as [|? ? (C1 & _) C2]; subst.
  destruct (copy_line_app _ _ H) as (t & -> & ->). cbn [concat]. rewrite <- app_assoc. cbn [app].
  rewrite lines_of_line by (apply join_no_lf, clean_cols_lf; auto). rewrite IH; auto.
Qed.
Lemma join_flat c r : join_cols (c :: r) = c ++ flat_map (fun p => x09 :: p) r.
Proof.
  revert c. induction r as [|d r IH]; intros c; [cbn; rewrite app_nil_r; reflexivity|].
  change (join_cols (c :: d :: r)) with (c ++ x09 :: join_cols (d :: r)). rewrite IH. reflexivity.
Qed.
Lemma drop_lf_no s : ~ In x0a s -> drop_lf s = s.
Proof. destruct s as [|b s]; auto. intros N. cbn. rewrite beqb_neq; auto. intros ->. apply N. left; auto. Qed.
Lemma columns_line cols l : copy_line cols l -> Forall clean cols -> columns l = cols.
Proof.
  intros H C. destruct (copy_line_app _ _ H) as (t & -> & ->). unfold columns. rewrite rev_unit. cbn [drop_lf]. rewrite beqb_refl.
  rewrite drop_lf_no, rev_involutive.
  2:{ intros I. apply in_rev in I. revert I. apply join_no_lf, clean_cols_lf; auto. }
  destruct cols as [|c r]; [inversion H|]. rewrite join_flat. apply split_unique. eapply Forall_impl; [|exact C]. unfold clean. tauto.
Qed.
Lemma starts_with_spec p s : starts_with p s = true <-> exists r, s = p ++ r.
Proof.
  unfold starts_with. pose proof (strip_prefix_spec p s) as H. destruct (strip_prefix p s) as [r|].
  - split; [eauto|auto].
  - split; [discriminate|]. intros (r & E). destruct (H r E).
Qed.
Lemma join_utf8 cols : Forall clean cols -> utf8_ok (join_cols cols) = true.
Proof.
  induction cols as [|c cols IH]; intros F; [reflexivity|]. inversion F as [|? ? (F1 & _) F2]; subst. destruct cols as [|d r]; [exact F1|].
  change (join_cols (c :: d :: r)) with (c ++ x09 :: join_cols (d :: r)). apply utf8_app; [exact F1|].
  rewrite utf8_ascii_cons by (vm_compute; reflexivity). apply IH; exact F2.
Qed.
Lemma data_line_ok cols l : copy_line cols l -> clean_row cols -> data_line l = true.
Proof.
  intros H (C & L & NM). destruct (copy_line_app _ _ H) as (t & -> & ->). destruct cols as [|c [|d r]]; cbn in L; try lia.
  change (join_cols (c :: d :: r)) with (c ++ x09 :: join_cols (d :: r)).
  unfold data_line. rewrite !andb_true_iff, !negb_true_iff. sconj.
  - apply utf8_app; [|reflexivity]. apply (join_utf8 (c :: d :: r)); auto.
  - destruct (starts_with _ _) eqn:E; auto. exfalso. apply starts_with_spec in E as (s & E).
    destruct c as [|b0 [|b1 c]]; cbn in E.
    + discriminate.
    + injection E as -> E. discriminate.
    + injection E as -> -> E. apply (NM c (d :: r)). reflexivity.
  - destruct (starts_with _ _) eqn:E; auto. exfalso. apply starts_with_spec in E as (s & E).
    destruct c as [|b0 c]; cbn in E; [discriminate|]. injection E as -> E. inversion C as [|? ? (_ & _ & C1 & _) _]. apply C1. left; auto.
Qed.

(** ** columns by name *)
Lemma bytes_eqb_eq a b : bytes_eqb a b = true <-> a = b.
Proof.
  revert b. induction a as [|x a IH]; intros [|y b]; cbn; split; try discriminate; auto.
  - intros H. apply andb_true_iff in H as (H1 & H2). apply Byte.byte_dec_bl in H1. apply IH in H2. congruence.
  - intros E; injection E as <- <-. rewrite beqb_refl. apply IH. reflexivity.
Qed.
Lemma bytes_eqb_refl a : bytes_eqb a a = true. Proof. apply bytes_eqb_eq. reflexivity. Qed.
Lemma position_spec v cols : In v cols -> exists i, position v cols = Some i /\ nth_error cols i = Some v /\ (i < length cols)%nat.
Proof.
  induction cols as [|a cols IH]; intros I; [destruct I|]. cbn. destruct (bytes_eqb a v) eqn:E.
  - apply bytes_eqb_eq in E. subst. exists 0%nat. sconj; auto. lia.
  - destruct I as [->|I]; [rewrite bytes_eqb_refl in E; discriminate|]. destruct (IH I) as (i & P & N & L). exists (S i). rewrite P. sconj; auto. lia.
Qed.
Lemma field_index_ok v cols : In v cols -> exists i, field_index cols v = Ok i /\ position v cols = Some i /\ (i < length cols)%nat /\
  forall w : bytes -> bytes, nth_error (map w cols) i = Some (w v) /\ nth i (map w cols) [] = w v.
Proof.
  intros I. destruct (position_spec _ _ I) as (i & P & N & L). exists i. unfold field_index. rewrite P. sconj; auto; intros w.
  assert (nth_error (map w cols) i = Some (w v)) as E by (erewrite map_nth_error; eauto). split; auto. apply nth_error_nth; auto.
Qed.
Lemma fields_ok cols : forall names, incl names cols -> exists fs, res_map (field_index cols) names = Ok fs /\
  forall k v, nth_error names k = Some v -> forall w : bytes -> bytes, col fs (map w cols) k = Ok (w v).
Proof.
  induction names as [|v names IH]; intros I.
  - exists []. split; auto. intros [|k] v E; discriminate.
  - destruct IH as (fs & E & F); [intros x X; apply I; right; auto|]. destruct (field_index_ok v cols) as (i & E1 & _ & _ & N); [apply I; left; auto|].
    exists (i :: fs). cbn [res_map]. rewrite E1. cbn [bind]. rewrite E. cbn [bind]. split; auto.
    intros [|k] u U w; cbn in U.
    + injection U as ->. unfold col. cbn [nth_error]. destruct (N w) as (-> & _). reflexivity.
    + unfold col. cbn [nth_error]. apply (F k u U w).
Qed.

(** ** values *)
Lemma decimal_unique s n : decimal s n -> forall s', decimal s' n -> zlen s = zlen s' -> s = s'.
Proof.
  induction 1 as [|s n d D IH R]; intros s' D' L.
  - destruct s'; auto. rewrite zlen_cons in L. change (zlen (@nil byte)) with 0 in L. pose proof (zlen_nonneg s'). lia.
  - inversion D' as [E|s1 n1 d1 D1 R1 E E1].
    + subst s'. rewrite zlen_app in L. change (zlen [z2b (48 + d)]) with 1 in L. change (zlen (@nil byte)) with 0 in L. pose proof (zlen_nonneg s). lia.
    + subst s'. rewrite !zlen_app in L. change (zlen [z2b (48 + d)]) with 1 in L. change (zlen [z2b (48 + d1)]) with 1 in L.
      assert (n1 = n /\ d1 = d) as (-> & ->) by lia. f_equal. apply IH; auto. lia.
Qed.
Lemma padded_unique k s s' n : padded k s n -> padded k s' n -> s = s'.
Proof. intros (D & L) (D' & L'). eapply decimal_unique; eauto. congruence. Qed.
Lemma sql_text_year t a : sql_text t a -> four_digit_year t.
Proof.
  intros (day & h & mi & se & y & m & d & ty & tm & td & th & tmi & tse & T & H & M & S & C & PY & _).
  apply calendar_iff in C. symmetry in C. apply year_of_day in C. destruct PY as (D & L).
  pose proof (decimal_nonneg _ _ D). pose proof (decimal_len _ _ D) as LT. rewrite L in LT. change (10 ^ 4) with 10000 in LT.
  pose proof (year_start_mono 0 y ltac:(lia)) as A. pose proof (year_start_mono (y + 1) 10000 ltac:(lia)) as B.
  change (year_start 0) with 0 in A. change (year_start 10000) with 3652425 in B. unfold four_digit_year. lia.
Qed.
Lemma sql_text_unique t a b : sql_text t a -> sql_text t b -> a = b.
Proof.
  intros (day & h & mi & se & y & m & d & ty & tm & td & th & tmi & tse & T & H & M & S & C & P1 & P2 & P3 & P4 & P5 & P6 & ->)
         (day' & h' & mi' & se' & y' & m' & d' & ty' & tm' & td' & th' & tmi' & tse' & T' & H' & M' & S' & C' & Q1 & Q2 & Q3 & Q4 & Q5 & Q6 & ->).
  assert (day' = day /\ h' = h /\ mi' = mi /\ se' = se) as (-> & -> & -> & ->) by lia.
  apply calendar_iff in C, C'. rewrite <- C in C'. injection C' as -> -> ->.
  repeat match goal with
  | A : padded ?k ?s ?n, B : padded ?k ?s' ?n |- _ => pose proof (padded_unique _ _ _ _ A B); subst s'; clear B
  end. reflexivity.
Qed.
Lemma sql_text_show t a : sql_text t a -> a = show_seconds t.
Proof. intros H. eapply sql_text_unique; [exact H|]. apply show_seconds_sql. eapply sql_text_year; eauto. Qed.
Lemma parse_time_text t s : time_text t s -> parse_sql_time s = Some t.
Proof.
  intros (a & A & H). pose proof (sql_text_year _ _ A) as Y. apply sql_text_show in A. subst a.
  assert (chrono_seconds (fst t) = true) as Ch.
  { unfold chrono_seconds, min_seconds, max_seconds. unfold four_digit_year in Y. apply andb_true_iff. split; apply Z.leb_le; lia. }
  destruct t as (sec, ns). cbn [fst snd] in *. destruct H as [(-> & ->)|(f & k & v & -> & K & (D & L) & ->)].
  - rewrite <- (app_nil_r (show_seconds _)). apply parse_show_seconds; auto.
  - change (str "." ++ f) with (x2e :: f). apply parse_show_seconds; auto.
    cbn [scan_fraction]. rewrite beqb_refl. rewrite <- (app_nil_r f) at 1. rewrite (scan_number_app 9 f [] v D); auto.
    + cbn [skip_digits]. change (zlen (@nil byte)) with 0. rewrite L. replace (k - 0) with k by lia. reflexivity.
    + intros ->. change (zlen (@nil byte)) with 0 in L. lia.
    + unfold zlen in L. lia.
Qed.
Lemma parse_bool_text b s : bool_text b s -> parse_sql_bool s = Some b.
Proof. unfold bool_text. intros ->. destruct b; reflexivity. Qed.
Lemma parse_int64 z s : int64 z s -> parse_i64 s = Some z.
Proof. intros (R & P). apply parse_plain; [exact P|exact R]. Qed.
Lemma parse_int32 z s : int32 z s -> parse_i32 s = Some z.
Proof. intros (R & P). apply parse_plain; [exact P|exact R]. Qed.
Lemma parse_nullable z s : nullable z s -> parse_i32 s = z.
Proof. destruct z as [z|]; cbn [nullable]; intros H; [apply parse_int32; auto|]. subst. reflexivity. Qed.
Lemma unescaped_of u c s : text_of u c s -> unescaped u c = s.
Proof. unfold unescaped. intros [H|(H & ->)]; rewrite H; auto. Qed.

(** ** rows *)
Section Rows.
Variable unescape : bytes -> option bytes.
(** the fields of table [t] in a file whose columns are [cols] *)
Definition fields_of (t : table) (cols : list bytes) (fs : list nat) : Prop :=
  forall k v, nth_error (field_names t) k = Some v -> forall w : bytes -> bytes, col fs (map w cols) k = Ok (w v).
Section One.
Variables (cols : list bytes) (w : bytes -> bytes) (line : bytes).
Hypothesis CL : columns line = map w cols.
Ltac cols_ F := repeat (match goal with |- context [col ?fs (map w cols) ?k] => erewrite (F k _ eq_refl w) end; cbn [bind]).
Ltac vals := repeat match goal with
  | H : int64 ?z ?s |- context [parse_i64 ?s] => rewrite (parse_int64 _ _ H)
  | H : int32 ?z ?s |- context [parse_i32 ?s] => rewrite (parse_int32 _ _ H)
  | H : nullable ?z ?s |- context [parse_i32 ?s] => rewrite (parse_nullable _ _ H)
  | H : time_text ?z ?s |- context [parse_sql_time ?s] => rewrite (parse_time_text _ _ H)
  | H : bool_text ?z ?s |- context [parse_sql_bool ?s] => rewrite (parse_bool_text _ _ H)
  | H : text_of _ ?s ?z |- context [unescaped _ ?s] => rewrite (unescaped_of _ _ _ H)
  end; cbn [unwrap bind].
Lemma create_node_ok fs r : fields_of T_nodes cols fs -> node_says r w -> create_node fs line = Ok r.
Proof.
  intros F (H1 & H2 & H3 & H4 & H5 & H6 & H7 & H8 & H9). unfold create_node. rewrite CL. cols_ F. vals. destruct r; reflexivity.
Qed.
Lemma create_node_tag_ok fs r : fields_of T_node_tags cols fs -> tag_says unescape (str "node_id") r w -> create_node_tag unescape fs line = Ok r.
Proof. intros F (H1 & H2 & H3 & H4). unfold create_node_tag. rewrite CL. cols_ F. vals. destruct r; reflexivity. Qed.
Lemma create_way_tag_ok fs r : fields_of T_way_tags cols fs -> tag_says unescape (str "way_id") r w -> create_tag unescape fs line = Ok r.
Proof. intros F (H1 & H2 & H3 & H4). unfold create_tag. rewrite CL. cols_ F. vals. destruct r; reflexivity. Qed.
Lemma create_relation_tag_ok fs r : fields_of T_relation_tags cols fs -> tag_says unescape (str "relation_id") r w -> create_tag unescape fs line = Ok r.
Proof. intros F (H1 & H2 & H3 & H4). unfold create_tag. rewrite CL. cols_ F. vals. destruct r; reflexivity. Qed.
Lemma create_way_ok fs r : fields_of T_ways cols fs -> obj_says (str "way_id") r w -> create_obj fs line = Ok r.
Proof. intros F (H1 & H2 & H3 & H4 & H5 & H6). unfold create_obj. rewrite CL. cols_ F. vals. destruct r; reflexivity. Qed.
Lemma create_relation_ok fs r : fields_of T_relations cols fs -> obj_says (str "relation_id") r w -> create_obj fs line = Ok r.
Proof. intros F (H1 & H2 & H3 & H4 & H5 & H6). unfold create_obj. rewrite CL. cols_ F. vals. destruct r; reflexivity. Qed.
Lemma create_way_node_ok fs r : fields_of T_way_nodes cols fs -> way_node_says r w -> create_way_node fs line = Ok r.
Proof. intros F (H1 & H2 & H3 & H4). unfold create_way_node. rewrite CL. cols_ F. vals. destruct r; reflexivity. Qed.
Lemma create_member_ok fs r : fields_of T_relation_members cols fs -> member_says unescape r w -> create_relation_member unescape fs line = Ok r.
Proof.
  intros F (H1 & H2 & H3 & H4 & H5 & H6). unfold create_relation_member. rewrite CL. cols_ F. rewrite H2. vals.
  replace (parse_member_type (kind (mr_type r))) with (Some (mr_type r)) by (destruct (mr_type r); reflexivity). vals. destruct r; reflexivity.
Qed.
Lemma create_changeset_ok fs r : fields_of T_changesets cols fs -> changeset_says r w -> create_changeset fs line = Ok r.
Proof.
  intros F (H1 & H2 & H3 & H4 & H5 & H6 & H7 & H8 & H9). unfold create_changeset. rewrite CL. cols_ F. vals. destruct r; reflexivity.
Qed.
Lemma in_existsb s l : In s l -> existsb (bytes_eqb s) l = true.
Proof. intros I. apply existsb_exists. exists s. split; auto. apply bytes_eqb_refl. Qed.
Lemma create_user_ok fs r : fields_of T_users cols fs -> user_says r w -> create_user fs line = Ok r.
Proof.
  intros F (H1 & H2 & (t & H3) & (z & Z1 & Z2) & B & N & S & G). unfold create_user. rewrite CL.
  assert (res_map (col fs (map w cols)) (seq 0 29) = Ok (map w (field_names T_users))) as ->.
  { cbn [seq res_map]. cols_ F. reflexivity. }
  cbn [bind]. cbn [field_names map]. cbn [nth_error unwrap bind].
  inversion B as [|? ? (b1 & B1) B']; subst. inversion B' as [|? ? (b2 & B2) B'']; subst. inversion B'' as [|? ? (b3 & B3) B3']; subst.
  inversion B3' as [|? ? (b4 & B4) B4']; subst. inversion B4' as [|? ? (b5 & B5) _]; subst.
  inversion N as [|? ? (n1 & N1) N']; subst. inversion N' as [|? ? (n2 & N2) N'']; subst. inversion N'' as [|? ? (n3 & N3) _]; subst.
  vals. unfold parse_i16. rewrite (parse_plain _ _ _ _ Z2 Z1). cbn [unwrap bind].
  unfold parse_status, parse_format. rewrite (in_existsb _ _ S), (in_existsb _ _ G). cbn [unwrap bind]. vals. rewrite H2. destruct r; reflexivity.
Qed.
End One.
End Rows.
