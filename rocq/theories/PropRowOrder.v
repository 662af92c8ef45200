(** Property C77: in which order tags and members come back from a dump. *)
From Coq Require Import ZArith List Bool Strings.Byte Strings.String Lia Permutation.
From Verif Require Import Base BaseFacts Types ApidbText ApidbSpec ApidbTextFacts DumpSpec ApidbWrite ApidbWriteFacts PropApidbWrite ApidbRead DumpReadSpec FileFormat
  ApidbReadFacts TocFacts JoinFacts ReaderFacts PropApidbRead PropDump RoundSpec RoundFacts PropRound PropRoundTrip PropLimits ResolveSpec PropResolve RowOrderSpec.
Import ListNotations.
Local Notation length := List.length.
Local Notation concat := List.concat.
Open Scope Z_scope.

Section Order.
Variable before : bytes -> bytes -> Prop.
Hypothesis TO : text_order before.
Variable sort_file : list (nat * ftype) -> bytes -> res bytes.
Hypothesis SORTS : sorts_by before sort_file.

(** ** keys by column names *)
Fixpoint name_row_le (kn : list (bytes * ftype)) (a b : bytes -> bytes) : Prop :=
  match kn with
  | [] => True
  | (n, FInteger) :: r => exists x y, plain (a n) x /\ plain (b n) y /\ (x < y \/ x = y /\ name_row_le r a b)
  | (n, FString) :: r => before (a n) (b n) \/ a n = b n /\ name_row_le r a b
  end.
Lemma name_row_le_weak kn a b : name_row_le kn a b -> name_key_le kn a b.
Proof.
  induction kn as [|(n, ty) kn IH]; [auto|]. destruct ty; cbn [name_row_le name_key_le].
  - intros (x & y & P & Q & [H|(H & R)]); exists x, y; auto 10.
  - intros [H|(H & R)] E; [rewrite E in H; destruct (proj1 TO _ H)|auto].
Qed.
Lemma row_le_weak key a b : row_le before key a b -> key_le key a b.
Proof.
  induction key as [|(n, ty) kn IH]; [auto|]. destruct ty; cbn [row_le key_le].
  - intros (x & y & P & Q & [H|(H & R)]); exists x, y; auto 10.
  - intros [H|(H & R)] E; [rewrite E in H; destruct (proj1 TO _ H)|auto].
Qed.
Lemma sorts_by_sorts : sorts sort_file.
Proof.
  intros key rows file CF CL KY. destruct (SORTS key rows file CF CL KY) as (rows' & lines' & P & CP & SO & OR). exists rows', lines'. sconj; auto.
  eapply ordered_weaken; [|exact OR]. apply row_le_weak.
Qed.
Lemma key_by cols kn : incl (map fst kn) cols -> exists ks, res_map (fun k => i <- field_index cols (fst k) ;; Ok (i, snd k)) kn = Ok ks /\
  (forall a b, row_le before ks (map a cols) (map b cols) -> name_row_le kn a b).
Proof.
  induction kn as [|(n, ty) kn IH]; intros I.
  - exists []. split; auto.
  - destruct IH as (ks & E & K1); [intros x X; apply I; right; auto|].
    destruct (field_index_ok n cols) as (i & E1 & _ & LT & N); [apply I; left; auto|].
    exists ((i, ty) :: ks). cbn [res_map fst snd]. rewrite E1. cbn [bind]. rewrite E. cbn [bind]. split; auto.
    intros a b. cbn [row_le name_row_le]. destruct (N a) as (_ & ->). destruct (N b) as (_ & ->). destruct ty.
    + intros (x & y & P & Q & [H|(H & R)]); exists x, y; auto 10.
    + intros [H|(H & R)]; auto.
Qed.
Lemma table_def_by t file cols : In t read_tables -> incl (needs t) cols -> exists fs ks,
  table_def_new t file cols = Ok (TableDef file fs ks) /\ fields_of t cols fs /\
  (forall a b, row_le before ks (map a cols) (map b cols) -> name_row_le (key_names t) a b) /\
  (forall w, name_keyed (key_names t) w -> keyed ks (map w cols)).
Proof.
  intros I N. destruct (table_def_ok t file cols I N) as (fs & ks & E & FO & K1 & K2).
  destruct (needs_fields t I) as (F & K). destruct (key_by cols (key_names t)) as (ks' & E' & K'); [intros x X; auto|].
  exists fs, ks. sconj; auto. assert (ks' = ks) as ->; [|exact K'].
  unfold table_def_new in E. destruct (res_map (field_index cols) (field_names t)) as [fs'| |]; cbn [bind] in E; try discriminate E. rewrite E' in E. cbn [bind] in E. injection E as _ ->. reflexivity.
Qed.

Section Tables.
Variable dir : bytes -> option bytes.
Definition table_rows_by {R} (t : table) (says : R -> row_of -> Prop) (rs : list R) (fs : list nat) (lines : list bytes) : Prop :=
  exists cols (prs : list (R * row_of)), fields_of t cols fs /\ Permutation rs (map fst prs) /\
    Forall2 (fun p l => says (fst p) (snd p) /\ columns l = map (snd p) cols /\ data_line l = true) prs lines /\
    ordered (fun p q => name_row_le (key_names t) (snd p) (snd q)) prs.
Lemma table_opens_by {R} cat t (says : R -> row_of -> Prop) rs : In t read_tables ->
  (forall r w, says r w -> name_keyed (key_names t) w) -> table_holds dir cat t says rs ->
  exists d sorted, sorted_table sort_file dir cat t d sorted /\ table_rows_by t says rs (td_fields d) (lines_of sorted).
Proof.
  intros I KY (cols & file & data & rows & IN & NE & DF & SY & CL & CF).
  destruct (table_def_by t file cols I NE) as (fs & ks & DEF & FO & K1 & K2).
  destruct (Forall2_pairs _ _ _ SY) as (ps & -> & -> & SY'). clear SY. rename SY' into SY. rewrite map_map in CL, CF.
  destruct (SORTS ks _ data CF CL) as (rows' & lines' & P & CP & SO & OR).
  { apply Forall_map. revert SY. apply Forall_impl. intros p H. apply K2. exact (KY _ _ H). }
  destruct (Permutation_map_inv _ _ (Permutation_sym P)) as (ps' & -> & P').
  exists (TableDef file fs ks), (concat lines'). split.
  - split; [exists cols; auto|exists data; auto].
  - assert (Forall (fun p => says (fst p) (snd p)) ps') as SY' by (eapply Permutation_Forall; eauto).
    assert (Forall clean_row (map (fun x : R * row_of => map (snd x) cols) ps')) as CL' by (eapply Permutation_Forall; [apply Permutation_map; exact P'|exact CL]).
    cbn [td_fields]. rewrite (lines_of_concat _ _ CP CL').
    exists cols, ps'. sconj; auto.
    + apply Permutation_map; auto.
    + clear - CP SY' CL'. revert lines' CP. induction ps' as [|p ps IH]; intros lines CP; inversion CP as [|? l ? ls C1 C2]; subst; constructor.
      * inversion SY'; subst. inversion CL' as [|? ? C3 C4]; subst. sconj; auto; [apply columns_line; [exact C1|exact (proj1 C3)]|eapply data_line_ok; eauto].
      * inversion SY'; subst. inversion CL'; subst. apply IH; auto.
    + apply (proj1 (ordered_map (fun x : R * row_of => map (snd x) cols) _ _)) in OR. eapply ordered_impl with (P := fun _ => True); [|apply Forall_forall; auto|exact OR]. intros a b _ _. apply K1.
Qed.
End Tables.
Lemma rows_parse_by {R} t (says : R -> row_of -> Prop) rs fs lines create (le : R -> R -> Prop) : table_rows_by t says rs fs lines ->
  (forall cols w line r, columns line = map w cols -> fields_of t cols fs -> says r w -> create line = Ok r) ->
  (forall r w r' w', says r w -> says r' w' -> name_row_le (key_names t) w w' -> le r r') ->
  exists rs', Permutation rs rs' /\ parses create lines rs' /\ ordered le rs'.
Proof.
  intros (cols & prs & F & P & R2 & O) C L. exists (map fst prs). split; auto. split.
  - clear O P. induction R2 as [|p l ps ls (H1 & H2 & H3) R2 IH]; cbn; constructor; auto. split; auto. eapply C; eauto.
  - apply ordered_map. eapply ordered_impl with (P := fun p => says (fst p) (snd p)); [|clear - R2; induction R2; constructor; tauto|exact O].
    intros a b A B N. eapply L; eauto.
Qed.

(** ** rows with their texts *)
Variables (esc : bytes -> bytes) (unescape : bytes -> option bytes).
Definition tag_shows (idc : bytes) (r : tag_rec) (w : row_of) : Prop := tag_says unescape idc r w /\ w (str "k") = esc (tr_k r).
Definition member_shows (r : member_rec) (w : row_of) : Prop := member_says unescape r w /\ w (str "member_role") = esc (mr_role r).
Definition tag_by (r r' : tag_rec) : Prop := ~ key_lt (tag_key r') (tag_key r) /\
  (tag_key r = tag_key r' -> before (esc (tr_k r)) (esc (tr_k r')) \/ esc (tr_k r) = esc (tr_k r')).
Definition member_by (r r' : member_rec) : Prop := ~ key_lt (member_key r') (member_key r) /\
  (member_key r = member_key r' -> before (kind (mr_type r)) (kind (mr_type r')) \/
   (mr_type r = mr_type r' /\ (mr_id r < mr_id r' \/ (mr_id r = mr_id r' /\ (before (esc (mr_role r)) (esc (mr_role r')) \/ esc (mr_role r) = esc (mr_role r')))))).
Lemma tag_by_ok t idc r w r' w' : key_names t = [(idc, FInteger); (str "version", FInteger); (str "k", FString)] ->
  tag_shows idc r w -> tag_shows idc r' w' -> name_row_le (key_names t) w w' -> tag_by r r'.
Proof.
  intros KN (S & K) (S' & K') H. split; [eapply tag_le; eauto; apply name_row_le_weak; exact H|]. intros E. rewrite KN in H.
  destruct S as ((A1 & A2) & (B1 & B2) & _), S' as ((A1' & A2') & (B1' & B2') & _). injection E as E1 E2.
  cbn [name_row_le] in H. destruct H as (x & y & X & Y & H). pu. destruct H as [H|(_ & x2 & y2 & X2 & Y2 & H)]; [lia|]. pu. destruct H as [H|(_ & H)]; [lia|].
  rewrite K, K' in H. tauto.
Qed.
Lemma kind_inj a b : kind a = kind b -> a = b.
Proof. destruct a, b; intros H; try reflexivity; exfalso; revert H; vm_compute; discriminate. Qed.
Lemma member_by_ok r w r' w' : member_shows r w -> member_shows r' w' -> name_row_le (key_names T_relation_members) w w' -> member_by r r'.
Proof.
  intros (S & K) (S' & K') H. split; [eapply member_le; eauto; apply name_row_le_weak; exact H|]. intros E.
  destruct S as ((A1 & A2) & T & (B1 & B2) & _ & (C1 & C2) & (D1 & D2)), S' as ((A1' & A2') & T' & (B1' & B2') & _ & (C1' & C2') & (D1' & D2')). injection E as E1 E2.
  cbn [key_names name_row_le] in H. destruct H as (x & y & X & Y & H). pu. destruct H as [H|(_ & x2 & y2 & X2 & Y2 & H)]; [lia|]. pu. destruct H as [H|(_ & H)]; [lia|].
  rewrite T, T', K, K' in H. destruct H as [H|(TE & x3 & y3 & X3 & Y3 & H)]; [auto|]. apply kind_inj in TE. pu. right. split; auto. destruct H as [H|(H & H2)]; [auto|]. right. split; auto. tauto.
Qed.
Definition own_tags_by (all : list tag_rec) (k : Z * Z) (ts : list tag_rec) : Prop :=
  Permutation ts (of_key tag_key k all) /\ ordered (fun a b => before (esc (tr_k a)) (esc (tr_k b)) \/ esc (tr_k a) = esc (tr_k b)) ts.
Definition own_members_by (all : list member_rec) (k : Z * Z) (ms : list member_rec) : Prop :=
  Permutation ms (of_key member_key k all) /\ ordered (fun r r' => before (kind (mr_type r)) (kind (mr_type r')) \/
   (mr_type r = mr_type r' /\ (mr_id r < mr_id r' \/ (mr_id r = mr_id r' /\ (before (esc (mr_role r)) (esc (mr_role r')) \/ esc (mr_role r) = esc (mr_role r')))))) ms.
Lemma own_tags_by_ok all ds : Permutation all ds -> ordered tag_by ds -> forall k, own_tags_by all k (of_key tag_key k ds).
Proof.
  intros P O k. split; [apply of_key_perm, Permutation_sym; auto|].
  eapply ordered_impl with (P := fun r => tag_key r = k); [|apply Forall_forall; intros x; apply in_of_key|apply ordered_filter; exact O].
  intros a b A B (_ & H). apply H. congruence.
Qed.
Lemma own_members_by_ok all ds : Permutation all ds -> ordered member_by ds -> forall k, own_members_by all k (of_key member_key k ds).
Proof.
  intros P O k. split; [apply of_key_perm, Permutation_sym; auto|].
  eapply ordered_impl with (P := fun r => member_key r = k); [|apply Forall_forall; intros x; apply in_of_key|apply ordered_filter; exact O].
  intros a b A B (_ & H). apply H. congruence.
Qed.

(** ** what the writer writes *)
Lemma node_tag_shown id v k x cols : I64 id -> I32 v -> survives esc unescape k -> survives esc unescape x ->
  Forall2 (shows esc) [VInt id; VInt v; VEscaped k; VEscaped x] cols -> row_ok T_node_tags (tag_shows (str "node_id")) (TagRec id v k x) cols.
Proof.
  intros I1 I2 K X F. destruct (node_tag_ok esc unescape id v k x cols I1 I2 K X F) as (A & B & C). split; [exact A|]. split; [|exact C]. split; [exact B|].
  shown. cbn [shows] in *. subst. cells. reflexivity.
Qed.
Lemma way_tag_shown id v k x cols : I64 id -> I32 v -> survives esc unescape k -> survives esc unescape x ->
  Forall2 (shows esc) [VInt id; VEscaped k; VEscaped x; VInt v] cols -> row_ok T_way_tags (tag_shows (str "way_id")) (TagRec id v k x) cols.
Proof.
  intros I1 I2 K X F. destruct (way_tag_ok esc unescape id v k x cols I1 I2 K X F) as (A & B & C). split; [exact A|]. split; [|exact C]. split; [exact B|].
  shown. cbn [shows] in *. subst. cells. reflexivity.
Qed.
Lemma relation_tag_shown id v k x cols : I64 id -> I32 v -> survives esc unescape k -> survives esc unescape x ->
  Forall2 (shows esc) [VInt id; VEscaped k; VEscaped x; VInt v] cols -> row_ok T_relation_tags (tag_shows (str "relation_id")) (TagRec id v k x) cols.
Proof.
  intros I1 I2 K X F. destruct (relation_tag_ok esc unescape id v k x cols I1 I2 K X F) as (A & B & C). split; [exact A|]. split; [|exact C]. split; [exact B|].
  shown. cbn [shows] in *. subst. cells. reflexivity.
Qed.
Lemma member_shown id m v q cols : I64 id -> I64 (m_id m) -> survives esc unescape (m_role m) -> I32 v -> I64 q ->
  Forall2 (shows esc) [VInt id; VText (kind_text m); VInt (m_id m); VEscaped (m_role m); VInt v; VInt q] cols ->
  row_ok T_relation_members member_shows (MemberRec id (m_type m) (m_id m) (m_role m) v q) cols.
Proof.
  intros I1 I2 K X Y F. destruct (member_ok esc unescape id m v q cols I1 I2 K X Y F) as (A & B & C). split; [exact A|]. split; [|exact C]. split; [exact B|].
  shown. cbn [shows] in *. subst. cells. reflexivity.
Qed.
Lemma node_tags_shown n : storable esc unescape (ENode n) -> reads_as esc T_node_tags (tag_shows (str "node_id")) (tag_records (n_id n) (n_version n) (n_tags n)) (node_tag_rows n).
Proof.
  intros (I1 & I2 & _ & _ & _ & _ & _ & T). apply Forall2_map_both. intros t I cols F. unfold storable_tags in T. rewrite Forall_forall in T.
  destruct (T t I). eapply node_tag_shown; eauto.
Qed.
Lemma way_tags_shown w : storable esc unescape (EWay w) -> reads_as esc T_way_tags (tag_shows (str "way_id")) (tag_records (w_id w) (w_version w) (w_tags w)) (way_tag_rows w).
Proof.
  intros (I1 & I2 & _ & _ & _ & _ & _ & T). apply Forall2_map_both. intros t I cols F. unfold storable_tags in T. rewrite Forall_forall in T.
  destruct (T t I). eapply way_tag_shown; eauto.
Qed.
Lemma relation_tags_shown w : storable esc unescape (ERelation w) -> reads_as esc T_relation_tags (tag_shows (str "relation_id")) (tag_records (r_id w) (r_version w) (r_tags w)) (relation_tag_rows w).
Proof.
  intros (I1 & I2 & _ & _ & _ & _ & _ & T). apply Forall2_map_both. intros t I cols F. unfold storable_tags in T. rewrite Forall_forall in T.
  destruct (T t I). eapply relation_tag_shown; eauto.
Qed.
Lemma members_shown w : storable esc unescape (ERelation w) -> reads_as esc T_relation_members member_shows (member_records w) (relation_member_rows w).
Proof.
  intros (I1 & I2 & _ & _ & R & L & _ & _). apply Forall2_map_both. intros (i, a) I cols F. apply positions_range in I as (I3 & I4); auto. cbn [fst snd] in *.
  rewrite Forall_forall in R. destruct (R a I4). eapply member_shown; eauto.
Qed.

(** ** reading it back *)
Lemma as_i32_same z v : as_i32 z v -> I32 z -> v = z.
Proof. intros (R & (k & E)) R'. unfold I32 in *. change (2 ^ 32) with 4294967296 in E. lia. Qed.
Lemma resolved_author d i : resolved d -> (exists r, i = ANode r /\ In r (d_nodes d)) \/ (exists r, i = AWay r /\ In r (d_ways d)) \/ (exists r, i = ARelation r /\ In r (d_relations d)) \/ i = AMark -> ~ unknown_author d i.
Proof.
  intros (RC & RU & _) H (c & E & U).
  assert (In c (map cr_id (d_changesets d))) as I.
  { rewrite Forall_forall in RC. apply RC. rewrite map_app, !in_app_iff.
    destruct H as [(r & -> & H)|[(r & -> & H)|[(r & -> & H)| ->]]]; cbn [changeset_of] in E; try discriminate E; injection E as <-; [left|right; left|right; right]; apply in_map; exact H. }
  apply in_map_iff in I as (cr & <- & I). assert (In (cr_user cr) (map ur_id (d_users d))) as J by (apply RU, in_map; auto). apply in_map_iff in J as (u & J1 & J2).
  apply (U (cr_user cr) (ur_name u)). exists cr, u. sconj; auto.
Qed.
Lemma Forall2_split3 {A B} (R : A -> B -> Prop) a b c l : Forall2 R (a ++ b ++ c) l -> exists x y z, l = x ++ y ++ z /\ Forall2 R a x /\ Forall2 R b y /\ Forall2 R c z.
Proof.
  intros F. apply Forall2_app_inv_l in F as (x & l' & F1 & F & ->). apply Forall2_app_inv_l in F as (y & z & F2 & F3 & ->). exists x, y, z. auto.
Qed.
Lemma no_orphan {R} (key : R -> Z * Z) rs objects own k l : incl (map key rs) objects -> until_orphan key rs objects own k l -> own rs k l.
Proof. intros I (_ & H). apply H. intros (r & J & N & _). apply N, I, in_map. exact J. Qed.

Variables (hash_order : forall V, list (Z * V) -> list (Z * V)) (clock : nat -> Z) (lib : bytes).
Hypothesis HO : any_order hash_order.

Lemma survives_inj a b : survives esc unescape a -> survives esc unescape b -> esc a = esc b -> a = b.
Proof. intros (_ & [A|(A & A')]) (_ & [B|(B & B')]) E; rewrite E in *; congruence. Qed.
Lemma tags_by_back id v ts l : storable_tags esc unescape ts -> Permutation l (tag_records id v ts) ->
  ordered (fun a b => before (esc (tr_k a)) (esc (tr_k b)) \/ esc (tr_k a) = esc (tr_k b)) l -> ordered (tag_before before esc) (map as_tag l).
Proof.
  intros ST P O. apply ordered_map. assert (Forall (fun r => survives esc unescape (tr_k r)) l) as S.
  { eapply Permutation_Forall; [apply Permutation_sym, P|]. apply Forall_map. eapply Forall_impl; [|exact ST]. intros t (A & _). exact A. }
  eapply ordered_impl; [|exact S|exact O]. intros a b A B [H|H]; [left; exact H|right]. apply survives_inj; auto.
Qed.
Lemma members_by_back r l : Forall (fun m => I64 (m_id m) /\ survives esc unescape (m_role m)) (r_members r) -> Permutation l (member_records r) ->
  ordered (fun a b => before (kind (mr_type a)) (kind (mr_type b)) \/
   (mr_type a = mr_type b /\ (mr_id a < mr_id b \/ (mr_id a = mr_id b /\ (before (esc (mr_role a)) (esc (mr_role b)) \/ esc (mr_role a) = esc (mr_role b)))))) l ->
  Permutation (map as_member l) (r_members r) /\ ordered (member_before before esc) (map as_member l).
Proof.
  intros ST P O. assert (Permutation (map as_member l) (r_members r)) as PM.
  { eapply perm_trans; [apply Permutation_map, P|]. unfold member_records. rewrite map_map.
    replace (map _ (positions (r_members r))) with (map snd (positions (r_members r))); [rewrite positions_snd; auto|]. apply map_ext. intros (i, (a, b, c)). reflexivity. }
  split; [exact PM|]. apply ordered_map.
  assert (Forall (fun m => survives esc unescape (mr_role m)) l) as S.
  { assert (Forall (fun m => survives esc unescape (m_role m)) (map as_member l)) as S by (eapply Permutation_Forall; [apply Permutation_sym, PM|]; eapply Forall_impl; [|exact ST]; intros m (_ & A); exact A).
    rewrite Forall_map in S. exact S. }
  eapply ordered_impl; [|exact S|exact O]. intros a b A B [H|(H1 & [H2|(H2 & [H3|H3])])]; unfold member_before; cbn [as_member m_type m_id m_role]; auto 6.
  right. split; auto. right. split; auto. right. apply survives_inj; auto.
Qed.

(** C77: as C53, with the order of tags and members: tags by their escaped keys, members by type name, id and escaped role *)
Theorem C77_order es w dir : ApidbWrite.dump esc hash_order clock lib es = Ok w -> readable esc unescape clock es -> directory w dir ->
  exists rd k s nodes ways relations,
    ApidbRead.reader_new sort_file dir = Ok rd /\ ApidbRead.elements unescape rd = Ok (k, s) /\
    run (element_next k) s (nodes ++ [ESentinel] ++ ways ++ [ESentinel] ++ relations ++ [ESentinel]) Ended /\
    (exists ns, Permutation ns (nodes_in es) /\ ordered (fun a b => key_lt (n_id a, n_version a) (n_id b, n_version b)) ns /\
       Forall2 (node_sorted before esc es) ns nodes) /\
    (exists ws, Permutation ws (ways_in es) /\ ordered (fun a b => key_lt (w_id a, w_version a) (w_id b, w_version b)) ws /\
       Forall2 (way_sorted before esc es) ws ways) /\
    (exists rs, Permutation rs (relations_in es) /\ ordered (fun a b => key_lt (r_id a, r_version a) (r_id b, r_version b)) rs /\
       Forall2 (relation_sorted before esc es) rs relations).
Proof.
  intros D RB DIR. destruct (written_dump_tables esc unescape hash_order clock lib HO es w dir D RB DIR) as (us0 & cs0 & n & _ & PK & FK & RE & AU & TS).
  destruct DIR as ((toc & DT & entries & cat & TT & ND & F2 & IC) & DF). destruct (TS dir cat IC) as (H1 & _ & H3 & H4 & _ & H6 & _ & _ & H9 & H10).
  specialize (H1 (DF _)). specialize (H3 (DF _)). specialize (H4 (DF _)). specialize (H6 (DF _)). specialize (H9 (DF _)). specialize (H10 (DF _)).
  destruct (C35_history_tables esc hash_order clock lib HO es w D) as (_ & G2 & _ & G5 & _ & _ & G8 & G7 & _).
  destruct RB as (ST & (DN & DW & DR) & CU & CK). rewrite Forall_forall in ST.
  assert (forall x, In x (nodes_in es) -> storable esc unescape (ENode x)) as SN by (intros x I; apply ST, in_nodes; auto).
  assert (forall x, In x (ways_in es) -> storable esc unescape (EWay x)) as SW by (intros x I; apply ST, in_ways; auto).
  assert (forall x, In x (relations_in es) -> storable esc unescape (ERelation x)) as SR by (intros x I; apply ST, in_relations; auto).
  set (d := written clock es us0 cs0 n) in *.
  assert (table_holds dir cat T_node_tags (tag_shows (str "node_id")) (d_node_tags d)) as H2.
  { eapply holds_table; [cbn; tauto| |exact G2|apply IC; cbn; tauto|apply DF]. apply Forall2_flat. intros x I. apply node_tags_shown; auto. }
  assert (table_holds dir cat T_way_tags (tag_shows (str "way_id")) (d_way_tags d)) as H5.
  { eapply holds_table; [cbn; tauto| |exact G5|apply IC; cbn; tauto|apply DF]. apply Forall2_flat. intros x I. apply way_tags_shown; auto. }
  assert (table_holds dir cat T_relation_members member_shows (d_members d)) as H7.
  { eapply holds_table; [cbn; tauto| |exact G7|apply IC; cbn; tauto|apply DF]. apply Forall2_flat. intros x I. apply members_shown; auto. }
  assert (table_holds dir cat T_relation_tags (tag_shows (str "relation_id")) (d_relation_tags d)) as H8.
  { eapply holds_table; [cbn; tauto| |exact G8|apply IC; cbn; tauto|apply DF]. apply Forall2_flat. intros x I. apply relation_tags_shown; auto. }
  clear G2 G5 G7 G8 TS.
  assert (forall t, In t [T_nodes; T_node_tags; T_ways; T_way_nodes; T_way_tags; T_relations; T_relation_members; T_relation_tags; T_changesets; T_users] -> In t read_tables) as RT by auto.
  pose proof sorts_by_sorts as SO.
  apply (table_opens sort_file SO dir) in H1 as (d1 & s1 & S1 & R1); [|apply RT; cbn; tauto|apply node_keyed].
  apply (table_opens_by dir) in H2 as (d2 & s2 & S2 & R2); [|apply RT; cbn; tauto|intros r0 w0 (X & _); eapply tag_keyed; eauto; reflexivity].
  apply (table_opens sort_file SO dir) in H3 as (d3 & s3 & S3 & R3); [|apply RT; cbn; tauto|intros; eapply obj_keyed; eauto; reflexivity].
  apply (table_opens sort_file SO dir) in H4 as (d4 & s4 & S4 & R4); [|apply RT; cbn; tauto|apply way_node_keyed].
  apply (table_opens_by dir) in H5 as (d5 & s5 & S5 & R5); [|apply RT; cbn; tauto|intros r0 w0 (X & _); eapply tag_keyed; eauto; reflexivity].
  apply (table_opens sort_file SO dir) in H6 as (d6 & s6 & S6 & R6); [|apply RT; cbn; tauto|intros; eapply obj_keyed; eauto; reflexivity].
  apply (table_opens_by dir) in H7 as (d7 & s7 & S7 & R7); [|apply RT; cbn; tauto|intros r0 w0 (X & _); eapply member_keyed; eauto].
  apply (table_opens_by dir) in H8 as (d8 & s8 & S8 & R8); [|apply RT; cbn; tauto|intros r0 w0 (X & _); eapply tag_keyed; eauto; reflexivity].
  apply (table_opens sort_file SO dir) in H9 as (d9 & s9 & S9 & R9); [|apply RT; cbn; tauto|intros; eapply changeset_keyed; eauto].
  apply (table_opens sort_file SO dir) in H10 as (d10 & s10 & S10 & R10); [|apply RT; cbn; tauto|intros; eapply user_keyed; eauto].
  apply rows_parse with (create := create_node (td_fields d1)) (le := fun a b => ~ key_lt (node_key b) (node_key a)) in R1 as (ns & P1 & Q1 & L1);
    [|intros; eapply create_node_ok; eauto|apply node_le].
  apply rows_parse_by with (create := create_node_tag unescape (td_fields d2)) (le := tag_by) in R2 as (nts & P2 & Q2 & L2);
    [|intros c0 w0 l0 r0 X1 X2 (X3 & _); eapply create_node_tag_ok; eauto|intros; eapply tag_by_ok; eauto; reflexivity].
  apply rows_parse with (create := create_obj (td_fields d3)) (le := fun a b => ~ key_lt (obj_key b) (obj_key a)) in R3 as (ws & P3 & Q3 & L3);
    [|intros; eapply create_way_ok; eauto|intros; eapply obj_le; eauto; reflexivity].
  apply rows_parse with (create := create_way_node (td_fields d4)) (le := way_node_order) in R4 as (wns & P4 & Q4 & L4);
    [|intros; eapply create_way_node_ok; eauto|intros; eapply way_node_le; eauto].
  apply rows_parse_by with (create := create_tag unescape (td_fields d5)) (le := tag_by) in R5 as (wts & P5 & Q5 & L5);
    [|intros c0 w0 l0 r0 X1 X2 (X3 & _); eapply create_way_tag_ok; eauto|intros; eapply tag_by_ok; eauto; reflexivity].
  apply rows_parse with (create := create_obj (td_fields d6)) (le := fun a b => ~ key_lt (obj_key b) (obj_key a)) in R6 as (rs & P6 & Q6 & L6);
    [|intros; eapply create_relation_ok; eauto|intros; eapply obj_le; eauto; reflexivity].
  apply rows_parse_by with (create := create_relation_member unescape (td_fields d7)) (le := member_by) in R7 as (ms & P7 & Q7 & L7);
    [|intros c0 w0 l0 r0 X1 X2 (X3 & _); eapply create_member_ok; eauto|intros; eapply member_by_ok; eauto].
  apply rows_parse_by with (create := create_tag unescape (td_fields d8)) (le := tag_by) in R8 as (rts & P8 & Q8 & L8);
    [|intros c0 w0 l0 r0 X1 X2 (X3 & _); eapply create_relation_tag_ok; eauto|intros; eapply tag_by_ok; eauto; reflexivity].
  apply rows_parse with (create := create_changeset (td_fields d9)) (le := fun _ _ => True) in R9 as (cs & P9 & Q9 & _);
    [|intros; eapply create_changeset_ok; eauto|auto].
  apply rows_parse with (create := create_user (td_fields d10)) (le := fun _ _ => True) in R10 as (us & P10 & Q10 & _);
    [|intros; eapply create_user_ok; eauto|auto].
  pose proof PK as (K1 & K2 & K3 & K4 & K5).
  assert (ordered (fun a b => key_lt (node_key a) (node_key b)) ns) as N1.
  { apply strict_order; auto. eapply Permutation_NoDup; [apply Permutation_map; exact P1|auto]. }
  assert (ordered (fun a b => key_lt (obj_key a) (obj_key b)) ws) as N3.
  { apply strict_order; auto. eapply Permutation_NoDup; [apply Permutation_map; exact P3|auto]. }
  assert (ordered (fun a b => key_lt (obj_key a) (obj_key b)) rs) as N6.
  { apply strict_order; auto. eapply Permutation_NoDup; [apply Permutation_map; exact P6|auto]. }
  destruct (reading_core unescape sort_file dir d toc entries cat
    (until_orphan tag_key (d_node_tags d) (map node_key (d_nodes d)) own_tags_by) (until_orphan tag_key (d_way_tags d) (map obj_key (d_ways d)) own_tags_by)
    (until_orphan tag_key (d_relation_tags d) (map obj_key (d_relations d)) own_tags_by) (nodes_of_way d) (until_orphan member_key (d_members d) (map obj_key (d_relations d)) own_members_by)
    d1 s1 d2 s2 d3 s3 d4 s4 d5 s5 d6 s6 d7 s7 d8 s8 d9 s9 d10 s10 ns nts ws wns wts rs ms rts cs us) as (rd & k & s & l & o & A & B & C & E); auto.
  - eapply ordered_weaken; [|exact L2]; intros a b (X & _); exact X.
  - eapply ordered_weaken; [|exact L4]; intros a b (X & _); exact X.
  - eapply ordered_weaken; [|exact L5]; intros a b (X & _); exact X.
  - eapply ordered_weaken; [|exact L7]; intros a b (X & _); exact X.
  - eapply ordered_weaken; [|exact L8]; intros a b (X & _); exact X.
  - intros o. apply join_until; auto. apply own_tags_by_ok; auto.
  - intros o. apply join_until; auto. apply own_nodes_ok; auto.
  - intros o. apply join_until; auto. apply own_tags_by_ok; auto.
  - intros o. apply join_until; auto. apply own_members_by_ok; auto.
  - intros o. apply join_until; auto. apply own_tags_by_ok; auto.
  - destruct E as [(-> & E)|(-> & bf & i & af & EI & _ & UN)].
    2:{ exfalso. revert UN. apply resolved_author; auto. assert (In i (map ANode ns ++ [AMark] ++ map AWay ws ++ [AMark] ++ map ARelation rs ++ [AMark])) as I by (rewrite EI; apply in_elt).
        rewrite !in_app_iff, !in_map_iff in I. cbn [In] in I.
        destruct I as [(r & <- & I)|[[<-|[]]|[(r & <- & I)|[[<-|[]]|[(r & <- & I)|[<-|[]]]]]]]; auto.
        - left. exists r. split; auto. eapply Permutation_in; [apply Permutation_sym, P1|exact I].
        - right; left. exists r. split; auto. eapply Permutation_in; [apply Permutation_sym, P3|exact I].
        - right; right; left. exists r. split; auto. eapply Permutation_in; [apply Permutation_sym, P6|exact I]. }
    apply Forall2_split3 in E as (nodes & m1 & l' & -> & E1 & EM1 & E). apply Forall2_split3 in E as (ways & m2 & l'' & -> & E2 & EM2 & E).
    apply Forall2_app_inv_l in E as (rels & m3 & E3 & EM3 & ->).
    assert (forall m, Forall2 (item_with d (until_orphan tag_key (d_node_tags d) (map node_key (d_nodes d)) own_tags_by) (until_orphan tag_key (d_way_tags d) (map obj_key (d_ways d)) own_tags_by)
      (until_orphan tag_key (d_relation_tags d) (map obj_key (d_relations d)) own_tags_by) (nodes_of_way d) (until_orphan member_key (d_members d) (map obj_key (d_relations d)) own_members_by)) [AMark] m -> m = [ESentinel]) as MK.
    { intros m F. inversion F as [|? e ? r X Y]; subst. inversion Y; subst. cbn [item_with] in X. subst. reflexivity. }
    apply MK in EM1, EM2, EM3. subst m1 m2 m3. clear MK.
    exists rd, k, s, nodes, ways, rels. split; auto. split; auto. split; auto.
    destruct FK as (FK1 & FK2 & FK3 & FK4 & FK5). destruct RE as (RC & RU & RV & R32). rewrite Forall_forall in RV.
    assert (forall c uid name, author d c uid name -> I32 uid) as AI.
    { intros c uid name (cr & u & I1 & _ & _ & <- & _). rewrite Forall_forall in R32. apply R32, in_map. exact I1. }
    assert (forall x, In x (nodes_in es) -> I32 (n_version x)) as VN by (intros x I; apply SN in I; cbn [storable] in I; tauto).
    assert (forall x, In x (ways_in es) -> I32 (w_version x)) as VW by (intros x I; apply SW in I; cbn [storable] in I; tauto).
    assert (forall x, In x (relations_in es) -> I32 (r_version x)) as VR by (intros x I; apply SR in I; cbn [storable] in I; tauto).
    apply (proj1 (Forall2_map_l _ _ _ _)) in E1. apply (proj1 (Forall2_map_l _ _ _ _)) in E2. apply (proj1 (Forall2_map_l _ _ _ _)) in E3.
    change (d_nodes d) with (map node_record (nodes_in es)) in P1. change (d_ways d) with (map way_record (ways_in es)) in P3. change (d_relations d) with (map relation_record (relations_in es)) in P6.
    split; [|split].
    + apply Permutation_sym, Permutation_map_inv in P1 as (xs & -> & P1). apply Permutation_sym in P1. exists xs. split; [exact P1|]. split; [exact (proj1 (ordered_map _ _ _) N1)|].
      eapply Forall2_in; [|exact (proj1 (Forall2_map_l _ _ _ _) E1)]. intros x e I (uid & name & ts & v & u & H1 & H2 & H3 & H4 & ->).
      assert (In x (nodes_in es)) as IX by (eapply Permutation_in; eauto). apply as_i32_same in H3; [|apply VN; exact IX]. apply as_i32_same in H4; [|eapply AI; eauto]. subst v u.
      destruct (AU _ _ _ H1) as (M1 & M2). apply no_orphan in H2 as (H2 & H2'); [|exact FK1]. change (node_key (node_record x)) with (n_id x, n_version x) in H2.
      change (d_node_tags d) with (flat_map (fun x => tag_records (n_id x) (n_version x) (n_tags x)) (nodes_in es)) in H2.
      rewrite (of_key_flat (fun x => (n_id x, n_version x)) tag_key (fun x => tag_records (n_id x) (n_version x) (n_tags x)) (nodes_in es) x) in H2;
          [|exact DN|exact IX|intros; apply tag_records_key].
      exists uid, name, (map as_tag ts). split; [exact M1|]. split; [exact M2|]. split; [eapply tags_back; eauto|]. split; [eapply tags_by_back; eauto; apply SN in IX; cbn [storable] in IX; tauto|].
      unfold node_record. cbn [nr_id nr_lat nr_lon nr_changeset nr_visible nr_time nr_version]. rewrite millis_back. reflexivity.
    + apply Permutation_sym, Permutation_map_inv in P3 as (xs & -> & P3). apply Permutation_sym in P3. exists xs. split; [exact P3|]. split; [exact (proj1 (ordered_map _ _ _) N3)|].
      eapply Forall2_in; [|exact (proj1 (Forall2_map_l _ _ _ _) E2)]. intros x e I (uid & name & xn & ts & v & u & H1 & H5 & H2 & H3 & H4 & ->).
      assert (In x (ways_in es)) as IX by (eapply Permutation_in; eauto). apply as_i32_same in H3; [|apply VW; exact IX]. apply as_i32_same in H4; [|eapply AI; eauto]. subst v u.
      destruct (AU _ _ _ H1) as (M1 & M2). apply no_orphan in H2 as (H2 & H2'); [|exact FK2]. apply no_orphan in H5 as (H5 & H5'); [|exact FK3]. change (obj_key (way_record x)) with (w_id x, w_version x) in H2, H5.
      change (d_way_tags d) with (flat_map (fun x => tag_records (w_id x) (w_version x) (w_tags x)) (ways_in es)) in H2. change (d_way_nodes d) with (flat_map way_node_records (ways_in es)) in H5.
      rewrite (of_key_flat (fun x => (w_id x, w_version x)) tag_key (fun x => tag_records (w_id x) (w_version x) (w_tags x)) (ways_in es) x) in H2;
          [|exact DW|exact IX|intros; apply tag_records_key].
      rewrite (of_key_flat (fun x => (w_id x, w_version x)) way_node_key way_node_records (ways_in es) x) in H5;
          [|exact DW|exact IX|intros; apply Forall_map, Forall_forall; intros; reflexivity].
      exists uid, name, (map as_tag ts). split; [exact M1|]. split; [exact M2|]. split; [eapply tags_back; eauto|]. split; [eapply tags_by_back; eauto; apply SW in IX; cbn [storable] in IX; tauto|].
      rewrite (way_nodes_back x xn H5 H5'). unfold way_record. cbn [or_id or_changeset or_time or_version or_visible]. rewrite millis_back. reflexivity.
    + apply Permutation_sym, Permutation_map_inv in P6 as (xs & -> & P6). apply Permutation_sym in P6. exists xs. split; [exact P6|]. split; [exact (proj1 (ordered_map _ _ _) N6)|].
      eapply Forall2_in; [|exact (proj1 (Forall2_map_l _ _ _ _) E3)]. intros x e I (uid & name & xm & ts & v & u & H1 & H5 & H2 & H3 & H4 & ->).
      assert (In x (relations_in es)) as IX by (eapply Permutation_in; eauto). apply as_i32_same in H3; [|apply VR; exact IX]. apply as_i32_same in H4; [|eapply AI; eauto]. subst v u.
      destruct (AU _ _ _ H1) as (M1 & M2). apply no_orphan in H2 as (H2 & H2'); [|exact FK4]. apply no_orphan in H5 as (H5 & H5'); [|exact FK5]. change (obj_key (relation_record x)) with (r_id x, r_version x) in H2, H5.
      change (d_relation_tags d) with (flat_map (fun x => tag_records (r_id x) (r_version x) (r_tags x)) (relations_in es)) in H2. change (d_members d) with (flat_map member_records (relations_in es)) in H5.
      rewrite (of_key_flat (fun x => (r_id x, r_version x)) tag_key (fun x => tag_records (r_id x) (r_version x) (r_tags x)) (relations_in es) x) in H2;
          [|exact DR|exact IX|intros; apply tag_records_key].
      rewrite (of_key_flat (fun x => (r_id x, r_version x)) member_key member_records (relations_in es) x) in H5;
          [|exact DR|exact IX|intros; apply Forall_map, Forall_forall; intros; reflexivity].
      assert (storable esc unescape (ERelation x)) as SX by (apply SR; exact IX). cbn [storable] in SX.
      destruct (members_by_back x xm) as (B1 & B2); [tauto|exact H5|exact H5'|].
      exists uid, name, (map as_member xm), (map as_tag ts). split; [exact M1|]. split; [exact M2|]. split; [exact B1|]. split; [exact B2|]. split; [eapply tags_back; eauto|].
      split; [eapply tags_by_back; eauto; tauto|].
      unfold relation_record. cbn [or_id or_changeset or_time or_version or_visible]. rewrite millis_back. reflexivity.
Qed.

(** ** when the order is kept *)
Lemma perm_antisym {A} (le : A -> A -> Prop) l m : (forall a b, In a l -> In b l -> le a b -> le b a -> a = b) -> Permutation l m -> ordered le l -> ordered le m -> l = m.
Proof.
  revert m. induction l as [|a l IH]; intros m AS P O1 O2; [apply Permutation_nil in P; auto|].
  destruct m as [|b m]; [apply Permutation_sym, Permutation_nil in P; discriminate|]. destruct O1 as (F1 & O1), O2 as (F2 & O2). rewrite Forall_forall in F1, F2.
  assert (a = b) as ->.
  { assert (In b (a :: l)) as I1 by (eapply Permutation_in; [apply Permutation_sym, P|left; reflexivity]). assert (In a (b :: m)) as I2 by (eapply Permutation_in; [exact P|left; reflexivity]).
    destruct I1 as [I1|I1]; [exact I1|]. destruct I2 as [I2|I2]; [symmetry; exact I2|]. apply AS; [left; reflexivity|right; exact I1|apply F1, I1|apply F2, I2]. }
  f_equal. apply IH; auto; [intros; apply AS; auto; right; auto|]. eapply Permutation_cons_inv; eauto.
Qed.
Lemma before_asym a b : before a b -> before b a -> False.
Proof. destruct TO as (IR & TR & _). intros A B. apply (IR a). eapply TR; eauto. Qed.
Lemma member_before_antisym a b : member_before before esc a b -> member_before before esc b a -> a = b.
Proof.
  destruct a as [t1 i1 r1], b as [t2 i2 r2]. unfold member_before. cbn [m_type m_id m_role].
  intros [A|(A1 & A)] [B|(B1 & B)].
  - destruct (before_asym _ _ A B).
  - rewrite B1 in A. destruct (proj1 TO _ A).
  - rewrite A1 in B. destruct (proj1 TO _ B).
  - subst t2. destruct A as [A|(A2 & A)], B as [B|(B2 & B)]; try lia. subst i2. destruct A as [A|A], B as [B|B]; try congruence.
    destruct (before_asym _ _ A B).
Qed.
Lemma tag_before_antisym a b : tag_before before esc a b -> tag_before before esc b a -> t_k a = t_k b.
Proof. intros [A|A] [B|B]; auto. destruct (before_asym _ _ A B). Qed.
Lemma members_kept l m : Permutation l m -> ordered (member_before before esc) l -> (l = m <-> ordered (member_before before esc) m).
Proof.
  intros P O. split; [intros <-; exact O|]. intros O2. apply (perm_antisym (member_before before esc)); auto. intros a b _ _. apply member_before_antisym.
Qed.
Lemma tags_kept l m : NoDup (map t_k m) -> Permutation l m -> ordered (tag_before before esc) l -> (l = m <-> ordered (tag_before before esc) m).
Proof.
  intros ND P O. split; [intros <-; exact O|]. intros O2. apply (perm_antisym (tag_before before esc)); auto. intros a b I1 I2 A B. pose proof (tag_before_antisym _ _ A B) as E.
  assert (NoDup (map t_k l)) as N by (eapply Permutation_NoDup; [apply Permutation_map, Permutation_sym, P|exact ND]). clear - N I1 I2 E.
  induction l as [|x l IH]; [destruct I1|]. cbn in N. inversion N as [|? ? N1 N2]; subst. destruct I1 as [->|I1], I2 as [->|I2]; auto.
  - destruct N1. rewrite E. apply in_map; auto.
  - destruct N1. rewrite <- E. apply in_map; auto.
Qed.
Lemma NoDup_key_eq {A B} (f : A -> B) l a b : NoDup (map f l) -> In a l -> In b l -> f a = f b -> a = b.
Proof.
  induction l as [|x l IH]; intros N I1 I2 E; [destruct I1|]. cbn in N. inversion N as [|? ? N1 N2]; subst. destruct I1 as [->|I1], I2 as [->|I2]; auto.
  - destruct N1. rewrite E. apply in_map; auto.
  - destruct N1. rewrite <- E. apply in_map; auto.
Qed.

(** C77: members come back as they were written exactly if they were written in that order; so do tags with distinct keys *)
Theorem C77_kept es w dir rd k s l o : ApidbWrite.dump esc hash_order clock lib es = Ok w -> readable esc unescape clock es -> directory w dir ->
  ApidbRead.reader_new sort_file dir = Ok rd -> ApidbRead.elements unescape rd = Ok (k, s) -> run (element_next k) s l o ->
  forall x y, In x es -> In y l -> same_object x y ->
    (forall r r', x = ERelation r -> y = ERelation r' -> (r_members r' = r_members r <-> ordered (member_before before esc) (r_members r))) /\
    (NoDup (map t_k (tags_in x)) -> (tags_in y = tags_in x <-> ordered (tag_before before esc) (tags_in x))).
Proof.
  intros D RB DIR A B C x y IX IY SO. pose proof RB as (_ & (DN & DW & DR) & _ & _).
  destruct (C77_order es w dir D RB DIR) as (rd' & k' & s' & nodes & ways & rels & A' & B' & C' & (ns & P1 & O1 & E1) & (ws & P2 & O2 & E2) & (rs & P3 & O3 & E3)).
  rewrite A in A'. injection A' as <-. rewrite B in B'. injection B' as <- <-. destruct (run_unique _ _ _ _ C' _ _ C) as (-> & ->).
  assert (forall T (R : T -> element -> Prop) (xs : list T) (ys : list element) e, Forall2 R xs ys -> In e ys -> exists a, In a xs /\ R a e) as FI.
  { intros T R xs ys e F. induction F as [|a b xs ys H F IH]; intros J; [destruct J|]. destruct J as [<-|J]; [exists a; split; auto; left; auto|].
    destruct (IH J) as (a' & J1 & J2). exists a'. split; auto. right; auto. }
  rewrite !in_app_iff in IY. cbn [In] in IY.
  destruct IY as [IY|[[<-|[]]|[IY|[[<-|[]]|[IY|[<-|[]]]]]]]; try (destruct x; destruct SO).
  - destruct (FI _ _ _ _ _ E1 IY) as (a & IA & (uid & name & tags & _ & _ & PT & OT & ->)). destruct x as [x|x|x|]; try exact (False_ind _ SO). cbn [same_object n_id n_version] in SO.
    assert (x = a) as ->.
    { apply (NoDup_key_eq (fun n => (n_id n, n_version n)) (nodes_in es)); auto; [apply in_nodes; auto|eapply Permutation_in; eauto|destruct SO; congruence]. }
    split; [intros; discriminate|]. intros ND. cbn [tags_in n_tags] in *. apply tags_kept; auto.
  - destruct (FI _ _ _ _ _ E2 IY) as (a & IA & (uid & name & tags & _ & _ & PT & OT & ->)). destruct x as [x|x|x|]; try exact (False_ind _ SO). cbn [same_object w_id w_version] in SO.
    assert (x = a) as ->.
    { apply (NoDup_key_eq (fun n => (w_id n, w_version n)) (ways_in es)); auto; [apply in_ways; auto|eapply Permutation_in; eauto|destruct SO; congruence]. }
    split; [intros; discriminate|]. intros ND. cbn [tags_in w_tags] in *. apply tags_kept; auto.
  - destruct (FI _ _ _ _ _ E3 IY) as (a & IA & (uid & name & members & tags & _ & _ & PM & OM & PT & OT & ->)). destruct x as [x|x|x|]; try exact (False_ind _ SO). cbn [same_object r_id r_version] in SO.
    assert (x = a) as ->.
    { apply (NoDup_key_eq (fun n => (r_id n, r_version n)) (relations_in es)); auto; [apply in_relations; auto|eapply Permutation_in; eauto|destruct SO; congruence]. }
    split.
    + intros r r' E E'. injection E as <-. injection E' as <-. cbn [r_members]. apply members_kept; auto.
    + intros ND. cbn [tags_in r_tags] in *. apply tags_kept; auto.
Qed.
End Order.
