(** Facts for writing a dump and reading it back: rows. *)
From Coq Require Import ZArith List Bool Strings.Byte Strings.String Lia Permutation.
From Verif Require Import Base BaseFacts Types ApidbText ApidbSpec CalendarFacts ApidbTextFacts TileFacts DumpSpec ApidbWrite ApidbWriteFacts ApidbRead DumpReadSpec
  ApidbReadFacts TocFacts JoinFacts ReaderFacts RoundSpec.
Import ListNotations.
Local Notation length := List.length.
Local Notation concat := List.concat.
Open Scope Z_scope.

(** ** clean text *)
Lemma plain_clean s : plain_text s -> clean s.
Proof. intros P. unfold clean. sconj; [apply utf8_plain; auto|eapply plain_no; eauto; apply not_tab|eapply plain_no; eauto; apply not_lf|eapply plain_no; eauto; apply not_cr]. Qed.
Lemma int_clean s z : plain s z -> clean s. Proof. intros P. eapply plain_clean, plain_text_int, P. Qed.
Lemma padded_text k s n : padded k s n -> plain_text s. Proof. intros (D & _). apply digits_plain. eapply decimal_digits; eauto. Qed.
Lemma sql_text_plain t s : sql_text t s -> plain_text s.
Proof.
  intros (day & h & mi & se & y & m & d & ty & tm & td & th & tmi & tse & _ & _ & _ & _ & _ & A & B & C & D & E & F & ->).
  repeat (apply plain_app; split); try (eapply padded_text; eassumption); apply plainb_ok; reflexivity.
Qed.
Lemma time_clean t s : time_text t s -> clean s.
Proof.
  intros (a & A & [(-> & _)|(f & k & v & -> & _ & P & _)]); apply plain_clean; [eapply sql_text_plain; eauto|].
  repeat (apply plain_app; split); [eapply sql_text_plain; eauto|apply plainb_ok; reflexivity|eapply padded_text; eauto].
Qed.
Lemma str_clean s : plainb s = true -> clean s. Proof. intros P. apply plain_clean, plainb_ok, P. Qed.
Lemma clean_app a b : clean a -> clean b -> clean (a ++ b).
Proof. intros (A1 & A2 & A3 & A4) (B1 & B2 & B3 & B4). unfold clean. sconj; [apply utf8_app; auto|..]; intros I; apply in_app_iff in I; tauto. Qed.
Lemma plain_head c z : plain c z -> exists b r, c = b :: r /\ (is_digit b = true \/ b = x2d).
Proof.
  intros [(A & D & N & _)|(A & r & -> & D & _)].
  - destruct c as [|b r]; [congruence|]. exists b, r. split; auto. left. apply decimal_digits in D. inversion D; auto.
  - exists x2d, r. auto.
Qed.
Lemma plain_marker c z s r rest : plain c z -> c :: rest <> (str "\." ++ s) :: r.
Proof.
  intros P E. injection E as E _. destruct (plain_head _ _ P) as (b & t & -> & [D|D]).
  - cbn in E. injection E as -> _. discriminate D.
  - subst. discriminate E.
Qed.

(** ** values as the reader wants them *)
Lemma shows_time esc t s : four_digit_year (t / 1000) -> shows esc (VTime t) s -> time_text (t / 1000, 0) s.
Proof. intros F H. exists s. split; [apply H; auto|]. left. auto. Qed.
Lemma shows_micros esc t s : four_digit_year (t / 1000000) -> shows esc (VMicros t) s -> time_text (time_record t) s.
Proof.
  intros F H. destruct (H F) as (a & b & -> & A & B). exists a. split; auto. right. exists b, 6, (t mod 1000000). sconj; auto; try lia.
  cbn. lia.
Qed.
Lemma shows_bool esc b s : shows esc (VBool b) s -> bool_text b s. Proof. intros ->. reflexivity. Qed.
Lemma bool_clean b s : bool_text b s -> clean s. Proof. intros ->. apply str_clean. destruct b; reflexivity. Qed.
Lemma tile_range la lo : I64 (calculate_tile la lo).
Proof. destruct (tile_interleaved la lo) as (H & _). red. lia. Qed.

(** ** a row as a function of the column name *)
Definition cell (names cols : list bytes) (name : bytes) : bytes :=
  match position name names with Some i => nth i cols [] | None => [] end.
Ltac cells := repeat match goal with |- context [cell ?s ?c ?n] => let v := eval vm_compute in (cell s c n) in change (cell s c n) with v end.
Ltac shown := repeat match goal with
  | H : Forall2 (shows _) (_ :: _) _ |- _ => inversion H; subst; clear H
  | H : Forall2 (shows _) [] _ |- _ => inversion H; subst; clear H
  end.

(** what a row of table [t] must satisfy to be read as [r] *)
Definition row_ok {R} (t : table) (says : R -> row_of -> Prop) (r : R) (cols : list bytes) : Prop :=
  map (cell (schema t) cols) (schema t) = cols /\ says r (cell (schema t) cols) /\ clean_row cols.

Section Rows.
Variables (esc : bytes -> bytes) (unescape : bytes -> option bytes).
Local Notation storable := (storable esc unescape).
Ltac cleans := repeat (apply Forall_cons; [first
    [ eapply int_clean; eassumption | eapply bool_clean; reflexivity | eapply time_clean; eassumption | apply str_clean; reflexivity
    | match goal with H : survives _ _ _ |- _ => exact (proj1 H) end | assumption ] |]); try apply Forall_nil.
Ltac marker := intros ? ?; eapply plain_marker; eassumption.
Ltac row_clean := split; [cleans|split; [cbn; lia|marker]].
Ltac ints := match goal with |- int64 _ _ => split; [|assumption] | |- int32 _ _ => split; [|assumption] end.

Lemma node_row_ok n cols : storable (ENode n) -> Forall2 (shows esc) (node_row n) cols -> row_ok T_nodes node_says (node_record n) cols.
Proof.
  intros (I1 & I2 & I3 & I4 & I5 & I6 & I7 & I8) F. unfold node_row in F. shown.
  match goal with H : shows esc (VTime _) _ |- _ => apply shows_time in H; [|assumption] end. cbn [shows] in *. subst.
  split; [reflexivity|]. split.
  - unfold node_says. cells. unfold node_record. cbn [nr_id nr_lat nr_lon nr_changeset nr_visible nr_time nr_tile nr_version nr_redaction].
    sconj; try ints; auto; try (red; lia); try apply tile_range; try reflexivity; destruct I2; red; lia.
  - row_clean.
Qed.
Ltac i64 := match goal with H : I32 ?x |- I64 ?x => destruct H; red; lia end.
Lemma way_row_ok w cols : storable (EWay w) -> Forall2 (shows esc) (way_row w) cols -> row_ok T_ways (obj_says (str "way_id")) (way_record w) cols.
Proof.
  intros (I1 & I2 & I3 & I4 & I5 & I6 & I7 & I8) F. unfold way_row in F. shown.
  match goal with H : shows esc (VTime _) _ |- _ => apply shows_time in H; [|assumption] end. cbn [shows] in *. subst.
  split; [reflexivity|]. split.
  - unfold obj_says. cells. unfold way_record. cbn [or_id or_changeset or_time or_version or_visible or_redaction].
    sconj; try ints; auto; try reflexivity; i64.
  - row_clean.
Qed.
Lemma relation_row_ok w cols : storable (ERelation w) -> Forall2 (shows esc) (relation_row w) cols -> row_ok T_relations (obj_says (str "relation_id")) (relation_record w) cols.
Proof.
  intros (I1 & I2 & I3 & I4 & I5 & I6 & I7 & I8) F. unfold relation_row in F. shown.
  match goal with H : shows esc (VTime _) _ |- _ => apply shows_time in H; [|assumption] end. cbn [shows] in *. subst.
  split; [reflexivity|]. split.
  - unfold obj_says. cells. unfold relation_record. cbn [or_id or_changeset or_time or_version or_visible or_redaction].
    sconj; try ints; auto; try reflexivity; i64.
  - row_clean.
Qed.
Lemma node_tag_ok id v k x cols : I64 id -> I32 v -> survives esc unescape k -> survives esc unescape x ->
  Forall2 (shows esc) [VInt id; VInt v; VEscaped k; VEscaped x] cols -> row_ok T_node_tags (tag_says unescape (str "node_id")) (TagRec id v k x) cols.
Proof.
  intros I1 I2 K X F. shown. cbn [shows] in *. subst. split; [reflexivity|]. split.
  - unfold tag_says. cells. cbn [tr_id tr_version tr_k tr_v]. sconj; try ints; auto; try i64; match goal with H : survives _ _ _ |- _ => exact (proj2 H) end.
  - row_clean.
Qed.
Lemma way_tag_ok id v k x cols : I64 id -> I32 v -> survives esc unescape k -> survives esc unescape x ->
  Forall2 (shows esc) [VInt id; VEscaped k; VEscaped x; VInt v] cols -> row_ok T_way_tags (tag_says unescape (str "way_id")) (TagRec id v k x) cols.
Proof.
  intros I1 I2 K X F. shown. cbn [shows] in *. subst. split; [reflexivity|]. split.
  - unfold tag_says. cells. cbn [tr_id tr_version tr_k tr_v]. sconj; try ints; auto; try i64; match goal with H : survives _ _ _ |- _ => exact (proj2 H) end.
  - row_clean.
Qed.
Lemma relation_tag_ok id v k x cols : I64 id -> I32 v -> survives esc unescape k -> survives esc unescape x ->
  Forall2 (shows esc) [VInt id; VEscaped k; VEscaped x; VInt v] cols -> row_ok T_relation_tags (tag_says unescape (str "relation_id")) (TagRec id v k x) cols.
Proof.
  intros I1 I2 K X F. shown. cbn [shows] in *. subst. split; [reflexivity|]. split.
  - unfold tag_says. cells. cbn [tr_id tr_version tr_k tr_v]. sconj; try ints; auto; try i64; match goal with H : survives _ _ _ |- _ => exact (proj2 H) end.
  - row_clean.
Qed.
Lemma way_node_ok id n v q cols : I64 id -> I64 n -> I32 v -> I64 q ->
  Forall2 (shows esc) [VInt id; VInt n; VInt v; VInt q] cols -> row_ok T_way_nodes way_node_says (WayNodeRec id n v q) cols.
Proof.
  intros I1 I2 I3 I4 F. shown. cbn [shows] in *. split; [reflexivity|]. split.
  - unfold way_node_says. cells. cbn [wn_way wn_node wn_version wn_seq]. sconj; try ints; auto; i64.
  - row_clean.
Qed.
Lemma kind_clean m : clean (kind_text m). Proof. apply str_clean. unfold kind_text. destruct (m_type m); reflexivity. Qed.
Lemma member_ok id m v q cols : I64 id -> I64 (m_id m) -> survives esc unescape (m_role m) -> I32 v -> I64 q ->
  Forall2 (shows esc) [VInt id; VText (kind_text m); VInt (m_id m); VEscaped (m_role m); VInt v; VInt q] cols ->
  row_ok T_relation_members (member_says unescape) (MemberRec id (m_type m) (m_id m) (m_role m) v q) cols.
Proof.
  intros I1 I2 RO I3 I4 F. shown. cbn [shows] in *. subst. pose proof (kind_clean m). split; [reflexivity|]. split.
  - unfold member_says. cells. cbn [mr_relation mr_type mr_id mr_role mr_version mr_seq]. sconj; try ints; auto; try i64. match goal with H : survives _ _ _ |- _ => exact (proj2 H) end.
  - row_clean.
Qed.
Lemma changeset_ok now id uid cols : I64 id -> I32 uid -> four_digit_year (now / 1000000) ->
  Forall2 (shows esc) (changeset_row now id uid) cols -> row_ok T_changesets changeset_says (changeset_record now id uid) cols.
Proof.
  intros I1 I2 T F. unfold changeset_row in F. shown.
  repeat match goal with H : shows esc (VMicros _) _ |- _ => apply shows_micros in H; [|assumption] end. cbn [shows] in *.
  split; [reflexivity|]. split.
  - unfold changeset_says. cells. unfold changeset_record. cbn [cr_id cr_user cr_created cr_min_lat cr_max_lat cr_min_lon cr_max_lon cr_closed cr_num].
    sconj; try ints; auto; try (red; lia); i64.
  - row_clean.
Qed.
Lemma email_clean d z : plain d z -> clean (str "osm-admin-user-" ++ d ++ str "@example.com").
Proof. intros P. repeat apply clean_app; try (apply str_clean; reflexivity). eapply int_clean; eauto. Qed.
Lemma user_ok d now uid name cols : plain d uid -> I32 uid -> clean name -> four_digit_year (now / 1000000) ->
  Forall2 (shows esc) (user_row (str "osm-admin-user-" ++ d ++ str "@example.com") now uid name) cols ->
  row_ok T_users user_says (UserRec uid name) cols.
Proof.
  intros P I1 N T F. pose proof (email_clean _ _ P) as EC. set (email := str "osm-admin-user-" ++ d ++ str "@example.com") in *.
  unfold user_row in F. shown.
  repeat match goal with H : shows esc (VMicros _) _ |- _ => apply shows_micros in H; [|assumption] end. cbn [shows] in *. subst.
  split; [reflexivity|]. split.
  - unfold user_says. cells. cbn [ur_id ur_name]. sconj; try ints; auto; try i64.
    + eexists. eassumption.
    + exists 3. split; [lia|assumption].
    + repeat apply Forall_cons; try apply Forall_nil; cells; [exists true|exists false..]; reflexivity.
    + repeat apply Forall_cons; try apply Forall_nil; cells; exists 0; (split; [red; lia|assumption]).
    + left. reflexivity.
    + right. left. reflexivity.
  - split; [cleans|split; [cbn; lia|]]. intros s r E. injection E as E _. discriminate E.
Qed.
End Rows.
