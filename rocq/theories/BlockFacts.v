(** Round trip of one OSMData block. *)
From Coq Require Import ZArith List Bool Strings.Byte Strings.String Lia ZifyBool.
From Verif Require Import Base BaseFacts Types Proto ProtoFacts Block.
Import ListNotations.
Open Scope Z_scope.
Local Notation length := List.length.

(** ** small facts *)

Lemma arith64_range m z d : arith64 m z = Ok d -> I64 d.
Proof.
  unfold arith64. destruct (in_i64 z) eqn:E.
  - intros [= <-]. apply in_i64_iff; auto.
  - destruct m; [discriminate|]. intros [= <-]. apply wrap64_range.
Qed.
Lemma arith32_range m z d : arith32 m z = Ok d -> I32 d.
Proof.
  unfold arith32. destruct (in_i32 z) eqn:E.
  - intros [= <-]. apply in_i32_iff; auto.
  - destruct m; [discriminate|]. intros [= <-]. apply wrap32_range.
Qed.

Lemma clamp_range lo hi z : lo <= hi -> lo <= clamp lo hi z <= hi.
Proof. intros. unfold clamp. destruct (z <? lo) eqn:?, (hi <? z) eqn:?; lia. Qed.
Lemma f_int_range mag lo hi x : lo <= 0 <= hi -> lo <= f_int mag lo hi x <= hi.
Proof. intros. destruct x as [|[]| |]; cbn; try lia. apply clamp_range; lia. Qed.
Lemma enc_coord_range g o x : I64 (enc_coord g o x).
Proof. apply f_int_range. unfold min_i64, max_i64; lia. Qed.

Lemma I64_0 : I64 0.
Proof. unfold I64; lia. Qed.

Definition ext (t t' : list bytes) : Prop := exists l, t' = t ++ l.
Lemma ext_refl t : ext t t.
Proof. exists []. rewrite app_nil_r; reflexivity. Qed.
Lemma ext_trans a b c : ext a b -> ext b c -> ext a c.
Proof. intros [x ->] [y ->]. exists (x ++ y). rewrite app_assoc. reflexivity. Qed.
Lemma ext_len a b : ext a b -> zlen a <= zlen b.
Proof. intros [x ->]. rewrite zlen_app. pose proof (zlen_nonneg x). lia. Qed.
Lemma ext_index a b i s : ext a b -> index a i = Ok s -> index b i = Ok s.
Proof.
  intros [x ->] H. apply index_nth in H. destruct H as [H1 H2]. apply index_nth. split; auto.
  rewrite nth_error_app1; auto. apply nth_error_Some. congruence.
Qed.

(** ** string table *)

Record stb_inv (b : stb) : Prop := {
  si_zero : nth_error (stb_table b) 0 = Some [];
  si_idx : forall s i, assoc s (stb_index b) = Some i -> 1 <= i /\ index (stb_table b) i = Ok s;
  si_all : forall i s, (1 <= i)%nat -> nth_error (stb_table b) i = Some s -> assoc s (stb_index b) = Some (Z.of_nat i) }.

Lemma stb_new_inv : stb_inv stb_new.
Proof.
  split; cbn; auto; try discriminate.
  intros [|[|i]] s H; cbn; try discriminate. lia.
Qed.

Lemma index_app_last {A} (l : list A) a : index (l ++ [a]) (zlen l) = Ok a.
Proof.
  apply index_nth. split; [apply zlen_nonneg|]. unfold zlen. rewrite Nat2Z.id.
  rewrite nth_error_app2, Nat.sub_diag by lia. reflexivity.
Qed.

Definition fits (b : stb) : Prop := zlen (stb_table b) <= 2147483647.

Lemma stb_add_spec m b s i b' : stb_inv b -> stb_add m b s = Ok (i, b') -> fits b' ->
  stb_inv b' /\ ext (stb_table b) (stb_table b') /\ 1 <= i <= 2147483647 /\ index (stb_table b') i = Ok s /\
  assoc s (stb_index b') = Some i.
Proof.
  intros [Z0 I1 I2] H F. unfold stb_add in H. destruct (assoc s (stb_index b)) as [j|] eqn:E.
  - injection H as <- <-. destruct (I1 _ _ E) as [A B]. split; [split; auto|].
    split; [apply ext_refl|]. split; [|auto]. split; [lia|].
    apply index_nth in B. destruct B as [_ B].
    assert (Z.to_nat j < length (stb_table b))%nat by (apply nth_error_Some; congruence).
    unfold fits, zlen in F. lia.
  - apply bind_ok in H. destruct H as (j & Hj & H). injection H as <- <-.
    unfold fits in F. cbn [stb_table] in F.
    assert (Hpos : 1 <= zlen (stb_table b)).
    { unfold zlen. destruct (stb_table b); [discriminate|cbn; lia]. }
    rewrite zlen_app in F. change (zlen [s]) with 1 in F.
    rewrite zlen_app in Hj. change (zlen [s]) with 1 in Hj.
    rewrite wrap32_id in Hj by (unfold I32; lia).
    rewrite arith32_ok in Hj by (unfold I32; lia).
    injection Hj as <-. replace (zlen (stb_table b) + 1 - 1) with (zlen (stb_table b)) by lia.
    cbn [stb_table stb_index].
    assert (Hx : ext (stb_table b) (stb_table b ++ [s])) by (eexists; reflexivity).
    split; [split|split; [exact Hx|split; [lia|split]]].
    + cbn [stb_table]. rewrite nth_error_app1; auto. destruct (stb_table b); [discriminate|cbn; lia].
    + cbn. intros s' i'. destruct (bytes_eqb s' s) eqn:E2.
      * intros [= <-]. apply bytes_eqb_eq in E2. subst. split; [lia|apply index_app_last].
      * intros H. destruct (I1 _ _ H) as [A B]. split; auto. eapply ext_index; eauto.
    + cbn. intros n s' Hn Hs. destruct (Nat.eq_dec n (length (stb_table b))) as [->|Hne].
      * rewrite nth_error_app2, Nat.sub_diag in Hs by lia. cbn in Hs. injection Hs as <-.
        rewrite bytes_eqb_refl. reflexivity.
      * assert (n < length (stb_table b ++ [s]))%nat by (apply nth_error_Some; congruence).
        rewrite app_length in H; cbn in H.
        rewrite nth_error_app1 in Hs by lia.
        specialize (I2 _ _ Hn Hs). destruct (bytes_eqb s' s) eqn:E2; auto.
        apply bytes_eqb_eq in E2. congruence.
    + apply index_app_last.
    + cbn. rewrite bytes_eqb_refl. reflexivity.
Qed.

Lemma stb_add_ext m b s i b' : stb_add m b s = Ok (i, b') -> ext (stb_table b) (stb_table b').
Proof.
  unfold stb_add. destruct (assoc s (stb_index b)).
  - intros [= <- <-]. apply ext_refl.
  - intros H. apply bind_ok in H. destruct H as (j & Hj & H). injection H as <- <-. eexists; reflexivity.
Qed.
Lemma stb_add_utf8 m b s i b' : stb_add m b s = Ok (i, b') -> is_utf8 s -> Forall is_utf8 (stb_table b) ->
  Forall is_utf8 (stb_table b').
Proof.
  unfold stb_add. destruct (assoc s (stb_index b)).
  - intros [= <- <-]; auto.
  - intros H Hs Hb. apply bind_ok in H. destruct H as (j & Hj & H). injection H as <- <-.
    cbn. apply Forall_app; auto.
Qed.
Lemma stb_add_len m b s i b' : stb_add m b s = Ok (i, b') -> zlen (stb_table b') <= zlen (stb_table b) + 1.
Proof.
  unfold stb_add. destruct (assoc s (stb_index b)).
  - intros [= <- <-]. lia.
  - intros H. apply bind_ok in H. destruct H as (j & Hj & H). injection H as <- <-.
    cbn. rewrite zlen_app. change (zlen [s]) with 1. lia.
Qed.
Lemma stb_add_total b s : exists i b', stb_add Wrapping b s = Ok (i, b').
Proof.
  unfold stb_add. destruct (assoc s (stb_index b)); [eauto|]. rewrite arith32_wrapping. cbn. eauto.
Qed.

Definition tag_utf8 (t : tag) : Prop := is_utf8 (t_k t) /\ is_utf8 (t_v t).

Ltac bd H := let a := fresh "a" in let E := fresh "E" in
  apply bind_ok in H; destruct H as (a & E & H); try (destruct a as [? ?]).

Lemma add_tags_ext m ts : forall b l b', add_tags m b ts = Ok (l, b') -> ext (stb_table b) (stb_table b').
Proof.
  induction ts as [|t ts IH]; cbn; intros b l b' H.
  - injection H as <- <-. apply ext_refl.
  - apply bind_ok in H; destruct H as ([k b1] & E1 & H).
    apply bind_ok in H; destruct H as ([v b2] & E2 & H).
    apply bind_ok in H; destruct H as ([l3 b3] & E3 & H). injection H as <- <-.
    eapply ext_trans; [eapply stb_add_ext; eauto|]. eapply ext_trans; [eapply stb_add_ext; eauto|]. eauto.
Qed.

Lemma fits_ext b b' : ext (stb_table b) (stb_table b') -> fits b' -> fits b.
Proof. intros H F. apply ext_len in H. unfold fits in *; lia. Qed.

Definition resolves (t : list bytes) (p : Z * Z) (g : tag) : Prop :=
  1 <= fst p <= 2147483647 /\ 1 <= snd p <= 2147483647 /\
  index t (fst p) = Ok (t_k g) /\ index t (snd p) = Ok (t_v g).
Lemma resolves_ext t t' p g : ext t t' -> resolves t p g -> resolves t' p g.
Proof. intros H (A & B & C & D). repeat split; auto; try lia; eapply ext_index; eauto. Qed.
Lemma resolves_ext_all t t' l ts : ext t t' -> Forall2 (resolves t) l ts -> Forall2 (resolves t') l ts.
Proof. intros H. induction 1; constructor; auto. eapply resolves_ext; eauto. Qed.

Lemma add_tags_spec m ts : forall b l b', stb_inv b -> add_tags m b ts = Ok (l, b') -> fits b' ->
  stb_inv b' /\ Forall2 (resolves (stb_table b')) l ts.
Proof.
  induction ts as [|t ts IH]; cbn; intros b l b' I H F.
  - injection H as <- <-. split; auto.
  - apply bind_ok in H; destruct H as ([k b1] & E1 & H).
    apply bind_ok in H; destruct H as ([v b2] & E2 & H).
    apply bind_ok in H; destruct H as ([l3 b3] & E3 & H). injection H as <- <-.
    pose proof (add_tags_ext _ _ _ _ _ E3) as X3.
    pose proof (fits_ext _ _ X3 F) as F2. pose proof (stb_add_ext _ _ _ _ _ E2) as X2.
    pose proof (fits_ext _ _ X2 F2) as F1.
    destruct (stb_add_spec _ _ _ _ _ I E1 F1) as (I1 & _ & R1 & D1 & _).
    destruct (stb_add_spec _ _ _ _ _ I1 E2 F2) as (I2 & _ & R2 & D2 & _).
    destruct (IH _ _ _ I2 E3 F) as (I3 & G). split; auto. constructor; auto.
    repeat split; cbn; try lia.
    + eapply ext_index; [|eapply ext_index; eauto]. auto.
    + eapply ext_index; eauto.
Qed.

Lemma add_tags_utf8 m ts : forall b l b', add_tags m b ts = Ok (l, b') -> Forall tag_utf8 ts ->
  Forall is_utf8 (stb_table b) -> Forall is_utf8 (stb_table b').
Proof.
  induction ts as [|t ts IH]; cbn; intros b l b' H U V.
  - injection H as <- <-; auto.
  - apply bind_ok in H; destruct H as ([k b1] & E1 & H).
    apply bind_ok in H; destruct H as ([v b2] & E2 & H).
    apply bind_ok in H; destruct H as ([l3 b3] & E3 & H). injection H as <- <-.
    inversion U as [|? ? [U1 U2] U3]; subst.
    eapply IH; eauto. eapply stb_add_utf8; eauto. eapply stb_add_utf8; eauto.
Qed.
Lemma add_tags_len m ts : forall b l b', add_tags m b ts = Ok (l, b') ->
  zlen (stb_table b') <= zlen (stb_table b) + 2 * zlen ts.
Proof.
  induction ts as [|t ts IH]; cbn [add_tags]; intros b l b' H.
  - injection H as <- <-. unfold zlen; cbn; lia.
  - apply bind_ok in H; destruct H as ([k b1] & E1 & H).
    apply bind_ok in H; destruct H as ([v b2] & E2 & H).
    apply bind_ok in H; destruct H as ([l3 b3] & E3 & H). injection H as <- <-.
    apply stb_add_len in E1, E2. apply IH in E3. rewrite zlen_cons. lia.
Qed.
Lemma add_tags_total ts : forall b, exists l b', add_tags Wrapping b ts = Ok (l, b').
Proof.
  induction ts as [|t ts IH]; cbn; intros b; [eauto|].
  destruct (stb_add_total b (t_k t)) as (k & b1 & ->). cbn.
  destruct (stb_add_total b1 (t_v t)) as (v & b2 & ->). cbn.
  destruct (IH b2) as (l & b3 & ->). cbn. eauto.
Qed.

(** ** dense rows *)

Record row := Row { ro_id : Z; ro_la : Z; ro_lo : Z; ro_ts : Z; ro_cs : Z; ro_ui : Z; ro_si : Z; ro_vi : bool; ro_ve : Z }.
Definition rows_dense (rs : list row) (kv : list Z) : dense :=
  Dense (map ro_id rs)
    (Some (DenseInfo (map ro_ve rs) (map ro_ts rs) (map ro_cs rs) (map ro_ui rs) (map ro_si rs) (map ro_vi rs)))
    (map ro_la rs) (map ro_lo rs) kv.

Definition read_row (m : mode) (st : list bytes) (r : row) (s : dstate) : res (node * dstate) :=
  read_dense_one m st 100 1000 0 0 (rows_dense [r] []) 0 (ro_id r) s.
Fixpoint read_rows (m : mode) (st : list bytes) (rs : list row) (s : dstate) : res (list node * dstate) :=
  match rs with
  | [] => Ok ([], s)
  | r :: t => ' (n, s1) <- read_row m st r s ;; ' (ns, s2) <- read_rows m st t s1 ;; Ok (n :: ns, s2)
  end.

Lemma index_map_at {A B} (f : A -> B) pre r post :
  index (map f (pre ++ r :: post)) (zlen pre) = index (map f [r]) 0.
Proof.
  change (index (map f [r]) 0) with (Ok (f r)). apply index_nth. split; [apply zlen_nonneg|].
  unfold zlen. rewrite Nat2Z.id, map_app, nth_error_app2, map_length, Nat.sub_diag by (rewrite map_length; lia).
  reflexivity.
Qed.

Lemma read_dense_one_at m st pre r post kv idd s :
  read_dense_one m st 100 1000 0 0 (rows_dense (pre ++ r :: post) kv) (zlen pre) idd s =
  read_dense_one m st 100 1000 0 0 (rows_dense [r] []) 0 idd s.
Proof.
  unfold read_dense_one. cbn [rows_dense d_lat d_lon d_info di_timestamp di_changeset di_uid di_user_sid di_visible di_version].
  rewrite !index_map_at.
  replace (zlen pre <? zlen (map ro_vi (pre ++ r :: post))) with true.
  - replace (0 <? zlen (map ro_vi [r])) with true by reflexivity. reflexivity.
  - symmetry. apply Z.ltb_lt. unfold zlen. rewrite map_length, app_length. cbn. lia.
Qed.

Lemma read_dense_loop_rows m st rs : forall pre kv s,
  read_dense_loop m st 100 1000 0 0 (rows_dense (pre ++ rs) kv) (zlen pre) (map ro_id rs) s =
  (' (ns, _) <- read_rows m st rs s ;; Ok ns).
Proof.
  induction rs as [|r rs IH]; intros pre kv s; cbn [map read_dense_loop read_rows].
  - reflexivity.
  - rewrite read_dense_one_at. unfold read_row.
    destruct (read_dense_one m st 100 1000 0 0 (rows_dense [r] []) 0 (ro_id r) s) as [[n s1]| |]; cbn [bind]; auto.
    replace (zlen pre + 1) with (zlen (pre ++ [r])) by (rewrite zlen_app; reflexivity).
    replace (pre ++ r :: rs) with ((pre ++ [r]) ++ rs) by (rewrite <- app_assoc; reflexivity).
    rewrite IH. destruct (read_rows m st rs s1) as [[ns s2]| |]; reflexivity.
Qed.

Lemma read_dense_rows m st rs kv :
  read_dense m st 100 1000 0 0 (Some (rows_dense rs kv)) =
  (' (ns, _) <- read_rows m st rs (DState 0 0 0 0 0 0 0 0 true kv) ;; Ok ns).
Proof. apply (read_dense_loop_rows m st rs []). Qed.

Lemma read_rows_app m st a b s :
  read_rows m st (a ++ b) s =
  (' (ns, s1) <- read_rows m st a s ;; ' (ns', s2) <- read_rows m st b s1 ;; Ok (ns ++ ns', s2)).
Proof.
  revert s; induction a as [|r a IH]; intros s; cbn.
  - destruct (read_rows m st b s) as [[]| |]; reflexivity.
  - destruct (read_row m st r s) as [[n s1]| |]; cbn; auto. rewrite IH.
    destruct (read_rows m st a s1) as [[ns s2]| |]; cbn; auto.
    destruct (read_rows m st b s2) as [[ns' s3]| |]; cbn; auto.
Qed.

Lemma read_kv_rt st l ts rest : Forall2 (resolves st) l ts -> read_kv st (kv_list l ++ rest) = Ok (ts, rest).
Proof.
  unfold kv_list. induction 1 as [|p g l ts (A & B & C & D) H IH]; cbn [flat_map app read_kv].
  - reflexivity.
  - destruct (fst p =? 0) eqn:E; [lia|]. rewrite C, D. cbn [bind].
    rewrite IH. cbn. destruct g; reflexivity.
Qed.

(** ** what a write followed by a read does to an element *)

(** the f64 the reader assigns to grid step [k] (100 nanodegrees) *)
Definition grid_f64 (k : Z) : f64 := fdiv (f_of_Z (100 * k)) (f_of_Z 1000000000).
(** the grid step the writer stores for a coordinate *)
Definition step_of (x : f64) : Z := enc_coord 100 0 x.
Definition norm_coord (c : coordinate) : coordinate :=
  Coordinate (grid_f64 (step_of (lat c))) (grid_f64 (step_of (lon c))).
(** milliseconds truncated (toward zero) to whole seconds *)
Definition norm_ts (t : Z) : Z := Z.quot t 1000 * 1000.

Definition norm_node (n : node) : node :=
  Node (n_id n) (n_version n) (norm_coord (n_coord n)) (norm_ts (n_timestamp n)) (n_changeset n)
       (n_uid n) (n_user n) (n_visible n) (n_tags n).
Definition norm_way (w : way) : way :=
  Way (w_id w) (w_version w) (norm_ts (w_timestamp w)) (w_changeset w) (w_uid w) (w_user w) (w_visible w)
      (w_refs w) (w_tags w).
Definition norm_relation (r : relation) : relation :=
  Relation (r_id r) (r_version r) (norm_ts (r_timestamp r)) (r_changeset r) (r_uid r) (r_user r) (r_visible r)
      (r_members r) (r_tags r).
Definition norm (e : element) : element :=
  match e with
  | ENode n => ENode (norm_node n) | EWay w => EWay (norm_way w)
  | ERelation r => ERelation (norm_relation r) | ESentinel => ESentinel
  end.

(** values a Rust program can hold in these types *)
Definition wf_node (n : node) : Prop :=
  I64 (n_id n) /\ I32 (n_version n) /\ I64 (n_timestamp n) /\ I64 (n_changeset n) /\ I32 (n_uid n) /\
  is_utf8 (n_user n) /\ Forall tag_utf8 (n_tags n).
Definition wf_way (w : way) : Prop :=
  I64 (w_id w) /\ I32 (w_version w) /\ I64 (w_timestamp w) /\ I64 (w_changeset w) /\ I32 (w_uid w) /\
  is_utf8 (w_user w) /\ Forall I64 (w_refs w) /\ Forall tag_utf8 (w_tags w).
Definition wf_member (m : member) : Prop := I64 (m_id m) /\ is_utf8 (m_role m).
Definition wf_relation (r : relation) : Prop :=
  I64 (r_id r) /\ I32 (r_version r) /\ I64 (r_timestamp r) /\ I64 (r_changeset r) /\ I32 (r_uid r) /\
  is_utf8 (r_user r) /\ Forall wf_member (r_members r) /\ Forall tag_utf8 (r_tags r).
Definition wf_element (e : element) : Prop :=
  match e with ENode n => wf_node n | EWay w => wf_way w | ERelation r => wf_relation r | ESentinel => True end.
(** the stored step times the granularity fits an i64 *)
Definition step_fits (c : coordinate) : Prop := I64 (100 * step_of (lat c)) /\ I64 (100 * step_of (lon c)).
Definition coord_fits (e : element) : Prop := match e with ENode n => step_fits (n_coord n) | _ => True end.

Lemma norm_ts_range t : I64 t -> I64 (norm_ts t).
Proof. unfold norm_ts, I64. intros. pose proof (Z.quot_rem t 1000 ltac:(lia)). pose proof (Z.rem_bound_abs t 1000 ltac:(lia)).
  destruct (Z.le_gt_cases 0 t).
  - pose proof (Z.quot_pos t 1000 ltac:(lia) ltac:(lia)). pose proof (Z.rem_nonneg t 1000 ltac:(lia) ltac:(lia)). lia.
  - pose proof (Z.rem_nonpos t 1000 ltac:(lia) ltac:(lia)). 
    pose proof (Z.quot_opp_l t 1000 ltac:(lia)). pose proof (Z.quot_pos (-t) 1000 ltac:(lia) ltac:(lia)). lia.
Qed.
Lemma quot_range t : I64 t -> -9223372036854776 <= Z.quot t 1000 <= 9223372036854776.
Proof.
  intros H. apply norm_ts_range in H. unfold norm_ts, I64 in H. lia.
Qed.
Lemma quot_I64 t : I64 t -> I64 (Z.quot t 1000).
Proof. intros H. apply quot_range in H. unfold I64. lia. Qed.

Lemma dec_coord_step m k : I64 (100 * k) -> dec_coord m 100 0 k = Ok (grid_f64 k).
Proof.
  intros H. unfold dec_coord. rewrite arith64_ok by auto. cbn [bind]. rewrite arith64_ok by auto. reflexivity.
Qed.

(** reading the row written for a node when the previous values agree *)
Lemma read_row_rt m st n l rest s did dla dlo dts dcs dui dsid sid :
  wf_node n -> step_fits (n_coord n) ->
  arith64 m (ds_id s + did) = Ok (n_id n) ->
  arith64 m (ds_lat s + dla) = Ok (step_of (lat (n_coord n))) ->
  arith64 m (ds_lon s + dlo) = Ok (step_of (lon (n_coord n))) ->
  arith64 m (ds_ts_acc s + dts) = Ok (Z.quot (n_timestamp n) 1000) ->
  arith64 m (ds_cs s + dcs) = Ok (n_changeset n) ->
  arith32 m (ds_uid s + dui) = Ok (n_uid n) ->
  arith32 m (ds_sid s + dsid) = Ok sid ->
  index st sid = Ok (n_user n) ->
  Forall2 (resolves st) l (n_tags n) ->
  ds_kv s = kv_list l ++ rest ->
  read_row m st (Row did dla dlo dts dcs dui dsid (n_visible n) (n_version n)) s =
  Ok (norm_node n, DState (n_id n) (step_of (lat (n_coord n))) (step_of (lon (n_coord n)))
        (Z.quot (n_timestamp n) 1000) (norm_ts (n_timestamp n)) (n_changeset n) (n_uid n) sid (n_visible n) rest).
Proof.
  intros (W1 & W2 & W3 & W4 & W5 & W6 & W7) [S1 S2] H1 H2 H3 H4 H5 H6 H7 H8 H9 H10.
  unfold read_row, read_dense_one.
  cbn [ro_id rows_dense map d_lat d_lon d_info di_timestamp di_changeset di_uid di_user_sid di_visible di_version
       ro_la ro_lo ro_ts ro_cs ro_ui ro_si ro_vi ro_ve].
  assert (IX : forall A (a : A), index [a] 0 = Ok a) by reflexivity. rewrite !IX.
  rewrite H1. cbn [bind]. rewrite H2. cbn [bind]. rewrite H3. cbn [bind]. rewrite H4. cbn [bind].
  rewrite (arith64_ok m (Z.quot (n_timestamp n) 1000 * 1000)) by (apply norm_ts_range; auto). cbn [bind].
  rewrite H5. cbn [bind]. rewrite H6. cbn [bind]. rewrite H7. cbn [bind].
  change (0 <? zlen [n_visible n]) with true. cbn iota. cbn [bind]. rewrite H8. cbn [bind].
  rewrite H10, (read_kv_rt _ _ _ _ H9). cbn [bind].
  rewrite !dec_coord_step by auto. cbn [bind]. reflexivity.
Qed.

Definition row_ok (r : row) : Prop :=
  I64 (ro_id r) /\ I64 (ro_la r) /\ I64 (ro_lo r) /\ I64 (ro_ts r) /\ I64 (ro_cs r) /\ I32 (ro_ui r) /\
  I32 (ro_si r) /\ I32 (ro_ve r).

(** state of the dense builder after the nodes [ns] with string table [t] *)
Definition dense_inv (m : mode) (t : list bytes) (d : dgb) (ns : list node) : Prop :=
  db_granularity d = 100 /\ db_date d = 1000 /\ db_lat_off d = 0 /\ db_lon_off d = 0 /\
  I64 (db_last_id d) /\ I64 (db_last_lat d) /\ I64 (db_last_lon d) /\
  -9223372036854776 <= db_last_ts d <= 9223372036854776 /\
  I64 (db_last_cs d) /\ I32 (db_last_uid d) /\ 1 <= db_last_sid d <= 2147483647 /\
  exists rs kv ts vis, db_dense d = rows_dense rs kv /\ Forall row_ok rs /\ Forall I32 kv /\
    forall t' rest, ext t t' ->
      read_rows m t' rs (DState 0 0 0 0 0 0 0 0 true (kv ++ rest)) =
      Ok (map norm_node ns,
          DState (db_last_id d) (db_last_lat d) (db_last_lon d) (db_last_ts d) ts (db_last_cs d)
                 (db_last_uid d) (db_last_sid d) vis rest).

Lemma dense_inv_ext m t t' d ns : ext t t' -> dense_inv m t d ns -> dense_inv m t' d ns.
Proof.
  intros X (A1 & A2 & A3 & A4 & A5 & A6 & A7 & A8 & A9 & A10 & A11 & rs & kv & ts & vis & B1 & B2 & B3 & B4).
  do 11 (split; [assumption|]). exists rs, kv, ts, vis. repeat split; auto.
  intros. apply B4. eapply ext_trans; eauto.
Qed.

Lemma kv_list_I32 t l ts : Forall2 (resolves t) l ts -> Forall I32 (kv_list l).
Proof.
  unfold kv_list. induction 1 as [|p g l ts (A & B & _) H IH]; cbn.
  - constructor; [unfold I32; lia|constructor].
  - repeat constructor; cbn; try lia. exact IH.
Qed.

Lemma dgb_new_inv m n b d b' : stb_inv b -> wf_node n -> step_fits (n_coord n) ->
  dgb_new m 100 1000 0 0 n b = Ok (d, b') -> fits b' ->
  stb_inv b' /\ ext (stb_table b) (stb_table b') /\ dense_inv m (stb_table b') d [n].
Proof.
  intros I W S H F. unfold dgb_new in H.
  apply bind_ok in H; destruct H as ([sid b1] & E1 & H).
  apply bind_ok in H; destruct H as ([tg b2] & E2 & H). injection H as <- <-.
  pose proof (add_tags_ext _ _ _ _ _ E2) as X2. pose proof (fits_ext _ _ X2 F) as F1.
  destruct (stb_add_spec _ _ _ _ _ I E1 F1) as (I1 & X1 & R1 & D1 & _).
  destruct (add_tags_spec _ _ _ _ _ I1 E2 F) as (I2 & G2).
  split; auto. split; [eapply ext_trans; eauto|].
  pose proof W as (W1 & W2 & W3 & W4 & W5 & W6 & W7).
  unfold dense_inv. cbn [db_granularity db_date db_lat_off db_lon_off db_last_id db_last_lat db_last_lon db_last_ts
    db_last_cs db_last_uid db_last_sid db_dense].
  repeat (split; [first [reflexivity | apply enc_coord_range | assumption | apply quot_range; assumption | lia]|]).
  exists [Row (n_id n) (step_of (lat (n_coord n))) (step_of (lon (n_coord n))) (Z.quot (n_timestamp n) 1000)
              (n_changeset n) (n_uid n) sid (n_visible n) (n_version n)], (kv_list tg),
     (norm_ts (n_timestamp n)), (n_visible n).
  split; [reflexivity|]. split; [|split].
  - constructor; [|constructor]. unfold row_ok; cbn. 
    sconj; try apply enc_coord_range; auto; try apply quot_I64; auto; unfold I32 in *; lia.
  - eapply kv_list_I32; eauto.
  - intros t' rest X. cbn [read_rows].
    rewrite (read_row_rt m t' n tg rest _ _ _ _ _ _ _ _ sid); auto;
      try (cbn; first [apply arith64_ok | apply arith32_ok]; auto; first [apply enc_coord_range | apply quot_I64; auto | unfold I32; lia]).
    + eapply ext_index; [|exact D1]. eapply ext_trans; eauto.
    + eapply resolves_ext_all; eauto.
Qed.

Lemma dgb_add_inv m n b d ns d' b' : stb_inv b -> wf_node n -> step_fits (n_coord n) ->
  dense_inv m (stb_table b) d ns ->
  dgb_add m d n b = Ok (d', b') -> fits b' ->
  stb_inv b' /\ ext (stb_table b) (stb_table b') /\ dense_inv m (stb_table b') d' (ns ++ [n]).
Proof.
  intros I W S D H F.
  destruct D as (A1 & A2 & A3 & A4 & A5 & A6 & A7 & A8 & A9 & A10 & A11 & rs & kv & ts & vis & B1 & B2 & B3 & B4).
  unfold dgb_add in H. rewrite A1, A2, A3, A4 in H. fold (step_of (lat (n_coord n))) in H. fold (step_of (lon (n_coord n))) in H.
  apply bind_ok in H; destruct H as (did & Eid & H).
  apply bind_ok in H; destruct H as (dlo & Elo & H).
  apply bind_ok in H; destruct H as (dla & Ela & H).
  apply bind_ok in H; destruct H as (dts & Ets & H).
  apply bind_ok in H; destruct H as (dui & Eui & H).
  apply bind_ok in H; destruct H as (dcs & Ecs & H).
  apply bind_ok in H; destruct H as ([sid b1] & E1 & H).
  apply bind_ok in H; destruct H as (dsid & Esid & H).
  apply bind_ok in H; destruct H as ([tg b2] & E2 & H).
  rewrite B1 in H. cbn [rows_dense] in H. injection H as <- <-.
  pose proof (add_tags_ext _ _ _ _ _ E2) as X2. pose proof (fits_ext _ _ X2 F) as F1.
  destruct (stb_add_spec _ _ _ _ _ I E1 F1) as (I1 & X1 & R1 & D1 & _).
  destruct (add_tags_spec _ _ _ _ _ I1 E2 F) as (I2 & G2).
  assert (X : ext (stb_table b) (stb_table b2)) by (eapply ext_trans; eauto).
  split; auto. split; auto.
  pose proof W as (W1 & W2 & W3 & W4 & W5 & W6 & W7).
  pose proof (quot_range _ W3) as Q.
  unfold dense_inv. cbn [db_granularity db_date db_lat_off db_lon_off db_last_id db_last_lat db_last_lon db_last_ts
    db_last_cs db_last_uid db_last_sid db_dense].
  repeat (split; [first [reflexivity | apply enc_coord_range | assumption | lia]|]).
  exists (rs ++ [Row did dla dlo dts dcs dui dsid (n_visible n) (n_version n)]), (kv ++ kv_list tg),
     (norm_ts (n_timestamp n)), (n_visible n).
  split; [|split; [|split]].
  - unfold rows_dense. rewrite !map_app. reflexivity.
  - apply Forall_app; split; auto. constructor; [|constructor]. unfold row_ok; cbn.
    sconj; eauto using arith64_range, arith32_range;
     try (eapply arith64_range; eauto; fail); try (eapply arith32_range; eauto; fail); unfold I32 in *; lia.
  - apply Forall_app; split; auto. eapply kv_list_I32; eauto.
  - intros t' rest X'. rewrite read_rows_app, <- app_assoc, B4 by (eapply ext_trans; eauto).
    cbn [bind read_rows].
    rewrite (read_row_rt m t' n tg rest _ _ _ _ _ _ _ _ sid); auto; cbn [ds_id ds_lat ds_lon ds_ts_acc ds_cs ds_uid ds_sid ds_kv].
    + cbn [bind]. rewrite map_app. reflexivity.
    + eapply arith64_delta; eauto.
    + eapply arith64_delta; eauto; apply enc_coord_range.
    + eapply arith64_delta; eauto; apply enc_coord_range.
    + eapply arith64_delta; eauto; unfold I64; lia.
    + eapply arith64_delta; eauto.
    + eapply arith32_delta; eauto.
    + eapply arith32_delta; eauto; unfold I32; lia.
    + eapply ext_index; [|exact D1]. eapply ext_trans; eauto.
    + eapply resolves_ext_all; eauto.
Qed.

(** ** ways and relations *)

Lemma deltas_sums m l : forall last ds, I64 last -> Forall I64 l -> deltas m last l = Ok ds ->
  Forall I64 ds /\ sums m last ds = Ok l.
Proof.
  induction l as [|x l IH]; intros last ds Hl H E; cbn in E.
  - injection E as <-. split; auto.
  - inversion H; subst. apply bind_ok in E; destruct E as (d & E1 & E).
    apply bind_ok in E; destruct E as (r & E2 & E). injection E as <-.
    destruct (arith64_delta _ _ _ _ H2 Hl E1) as [A B]. destruct (IH _ _ H2 H3 E2) as [C D].
    split; [constructor; auto|]. cbn. rewrite B. cbn. rewrite D. reflexivity.
Qed.

Lemma read_tags_rt st l ts : Forall2 (resolves st) l ts ->
  forall pre, read_tags st (zlen pre) (map (fun p => fst p mod two32) l)
     (pre ++ map (fun p => snd p mod two32) l) = Ok ts.
Proof.
  induction 1 as [|p g l ts (A & B & C & D) H IH]; intros pre; cbn [map read_tags]; auto.
  rewrite !Z.mod_small by (unfold two32; lia). rewrite C. cbn [bind].
  replace (index (pre ++ snd p :: map (fun p0 => snd p0 mod two32) l) (zlen pre)) with (Ok (snd p)).
  - cbn [bind]. rewrite D. cbn [bind].
    replace (zlen pre + 1) with (zlen (pre ++ [snd p])) by (rewrite zlen_app; reflexivity).
    replace (pre ++ snd p :: map (fun p0 => snd p0 mod two32) l) with ((pre ++ [snd p]) ++ map (fun p0 => snd p0 mod two32) l)
      by (rewrite <- app_assoc; reflexivity).
    rewrite IH. cbn. destruct g; reflexivity.
  - symmetry. apply index_nth. split; [apply zlen_nonneg|]. unfold zlen. rewrite Nat2Z.id, nth_error_app2, Nat.sub_diag by lia. reflexivity.
Qed.

Lemma u32_map {A} (f : A -> Z) l : Forall U32 (map (fun p => f p mod two32) l).
Proof.
  apply Forall_forall. intros x H. apply in_map_iff in H. destruct H as (y & <- & _).
  unfold U32. change 4294967296 with two32. apply Z.mod_pos_bound. unfold two32; lia.
Qed.

Definition way_enc (m : mode) (t : list bytes) (p : pway) (w : way) : Prop :=
  pway_ok p /\ forall t', ext t t' -> read_way m t' 1000 p = Ok (norm_way w).
Definition rel_enc (m : mode) (t : list bytes) (p : prelation) (r : relation) : Prop :=
  prelation_ok p /\ forall t', ext t t' -> read_relation m t' 1000 p = Ok (norm_relation r).

Lemma way_convert_spec m w b p b' : stb_inv b -> wf_way w -> way_convert m 1000 w b = Ok (p, b') -> fits b' ->
  stb_inv b' /\ ext (stb_table b) (stb_table b') /\ way_enc m (stb_table b') p w.
Proof.
  intros I (W1 & W2 & W3 & W4 & W5 & W6 & W7 & W8) H F. unfold way_convert in H.
  apply bind_ok in H; destruct H as (ds & Ed & H).
  apply bind_ok in H; destruct H as ([tg b1] & E1 & H).
  apply bind_ok in H; destruct H as ([sid b2] & E2 & H). injection H as <- <-.
  pose proof (stb_add_ext _ _ _ _ _ E2) as X2. pose proof (fits_ext _ _ X2 F) as F1.
  pose proof (add_tags_ext _ _ _ _ _ E1) as X1.
  destruct (add_tags_spec _ _ _ _ _ I E1 F1) as (I1 & G1).
  destruct (stb_add_spec _ _ _ _ _ I1 E2 F) as (I2 & _ & R2 & D2 & _).
  destruct (deltas_sums _ _ _ _ I64_0 W7 Ed) as [Q1 Q2].
  split; auto. split; [eapply ext_trans; eauto|]. split.
  - unfold pway_ok, info_ok; cbn. sconj; auto using u32_map, quot_I64.
    rewrite Z.mod_small by (unfold two32; lia); unfold U32; lia.
  - intros t' X. unfold read_way. cbn [pw_info pw_refs pw_keys pw_vals pw_id read_info or_default i_timestamp i_user_sid i_changeset i_uid i_visible i_version].
    rewrite arith64_ok by (apply norm_ts_range; auto). cbn [bind].
    rewrite Z.mod_small by (unfold two32; lia).
    rewrite (ext_index _ _ _ _ X D2). cbn [bind]. rewrite Q2. cbn [bind].
    pose proof (read_tags_rt t' tg (w_tags w)) as RT.
    specialize (RT ltac:(eapply resolves_ext_all; [|exact G1]; eapply ext_trans; eauto) []).
    cbn [zlen List.length Z.of_nat app] in RT. rewrite RT. reflexivity.
Qed.

Definition mem_res (t : list bytes) (sid : Z) (x : member) : Prop := 1 <= sid <= 2147483647 /\ index t sid = Ok (m_role x).

Lemma add_members_ext m ms : forall last b rs ds ts b', add_members m last b ms = Ok (rs, ds, ts, b') -> ext (stb_table b) (stb_table b').
Proof.
  induction ms as [|x ms IH]; cbn; intros last b rs ds ts b' H.
  - injection H as <- <- <- <-. apply ext_refl.
  - apply bind_ok in H; destruct H as ([role b1] & E1 & H).
    apply bind_ok in H; destruct H as (d & E2 & H).
    apply bind_ok in H; destruct H as ([[[rs1 ds1] ts1] b2] & E3 & H). injection H as <- <- <- <-.
    eapply ext_trans; [eapply stb_add_ext; eauto|eauto].
Qed.

Lemma add_members_spec m ms : forall last b rs ds ts b', stb_inv b -> I64 last -> Forall wf_member ms ->
  add_members m last b ms = Ok (rs, ds, ts, b') -> fits b' ->
  stb_inv b' /\ Forall2 (mem_res (stb_table b')) rs ms /\ Forall I64 ds /\ sums m last ds = Ok (map m_id ms) /\
  ts = map (fun x => mtype_z (m_type x)) ms.
Proof.
  induction ms as [|x ms IH]; cbn; intros last b rs ds ts b' I L W H F.
  - injection H as <- <- <- <-. sconj; auto.
  - apply bind_ok in H; destruct H as ([role b1] & E1 & H).
    apply bind_ok in H; destruct H as (d & E2 & H).
    apply bind_ok in H; destruct H as ([[[rs1 ds1] ts1] b2] & E3 & H). injection H as <- <- <- <-.
    inversion W as [|? ? [W1 W2] W3]; subst.
    pose proof (add_members_ext _ _ _ _ _ _ _ _ E3) as X. pose proof (fits_ext _ _ X F) as F1.
    destruct (stb_add_spec _ _ _ _ _ I E1 F1) as (I1 & _ & R1 & D1 & _).
    destruct (arith64_delta _ _ _ _ W1 L E2) as [A B].
    destruct (IH _ _ _ _ _ _ I1 W1 W3 E3 F) as (I2 & G & P & Q & ->).
    split; auto. split; [constructor; auto; split; auto; eapply ext_index; eauto|].
    split; [constructor; auto|]. split; [|reflexivity]. cbn. rewrite B. cbn. rewrite Q. reflexivity.
Qed.

Lemma mem_res_ext t t' rs ms : ext t t' -> Forall2 (mem_res t) rs ms -> Forall2 (mem_res t') rs ms.
Proof. intros X. induction 1 as [|? ? ? ? [A B] H IH]; constructor; auto. split; auto. eapply ext_index; eauto. Qed.

Lemma index_at {A} (pre : list A) a post : index (pre ++ a :: post) (zlen pre) = Ok a.
Proof.
  apply index_nth. split; [apply zlen_nonneg|]. unfold zlen. rewrite Nat2Z.id, nth_error_app2, Nat.sub_diag by lia. reflexivity.
Qed.

Lemma read_members_rt m t p rs ms : Forall2 (mem_res t) rs ms ->
  forall ds last pre1 pre2, zlen pre1 = zlen pre2 ->
  pr_roles p = pre1 ++ rs -> pr_types p = pre2 ++ map (fun x => mtype_z (m_type x)) ms ->
  sums m last ds = Ok (map m_id ms) ->
  read_members m t p (zlen pre1) last ds = Ok ms.
Proof.
  induction 1 as [|sid x rs ms [A B] H IH]; intros ds last pre1 pre2 Hz Hr Ht Hs.
  - destruct ds; [reflexivity|]. cbn in Hs. apply bind_ok in Hs. destruct Hs as (y & _ & Hs).
    apply bind_ok in Hs. destruct Hs as (zs & _ & Hs). discriminate.
  - destruct ds as [|d ds]; [discriminate|]. cbn in Hs. apply bind_ok in Hs. destruct Hs as (y & E1 & Hs).
    apply bind_ok in Hs. destruct Hs as (z & E2 & Hs). injection Hs as Hy Hz2. rewrite Hz2 in E2. clear Hz2 z.
    cbn [read_members]. rewrite E1. cbn [bind]. rewrite Hr, index_at. cbn [bind]. rewrite B. cbn [bind].
    cbn [map] in Ht. rewrite Hz, Ht, index_at. cbn [bind].
    replace (mtype_of_z (mtype_z (m_type x))) with (Some (m_type x)) by (destruct (m_type x); reflexivity).
    cbn [unwrap bind].
    replace (zlen pre2 + 1) with (zlen (pre1 ++ [sid])) by (rewrite zlen_app, Hz; reflexivity).
    rewrite (IH ds y (pre1 ++ [sid]) (pre2 ++ [mtype_z (m_type x)])).
    + cbn. rewrite Hy. destruct x; reflexivity.
    + rewrite !zlen_app, Hz. reflexivity.
    + rewrite <- app_assoc. exact Hr.
    + rewrite <- app_assoc. exact Ht.
    + exact E2.
Qed.

Lemma relation_convert_spec m r b p b' : stb_inv b -> wf_relation r -> relation_convert m 1000 r b = Ok (p, b') -> fits b' ->
  stb_inv b' /\ ext (stb_table b) (stb_table b') /\ rel_enc m (stb_table b') p r.
Proof.
  intros I (W1 & W2 & W3 & W4 & W5 & W6 & W7 & W8) H F. unfold relation_convert in H.
  apply bind_ok in H; destruct H as ([[[rs ds] ts] b1] & Em & H).
  apply bind_ok in H; destruct H as ([tg b2] & E1 & H).
  apply bind_ok in H; destruct H as ([sid b3] & E2 & H). injection H as <- <-.
  pose proof (stb_add_ext _ _ _ _ _ E2) as X3. pose proof (fits_ext _ _ X3 F) as F2.
  pose proof (add_tags_ext _ _ _ _ _ E1) as X2. pose proof (fits_ext _ _ X2 F2) as F1.
  pose proof (add_members_ext _ _ _ _ _ _ _ _ Em) as X1.
  destruct (add_members_spec _ _ _ _ _ _ _ _ I I64_0 W7 Em F1) as (I1 & G1 & P1 & P2 & ->).
  destruct (add_tags_spec _ _ _ _ _ I1 E1 F2) as (I2 & G2).
  destruct (stb_add_spec _ _ _ _ _ I2 E2 F) as (I3 & _ & R2 & D2 & _).
  split; auto. split; [eapply ext_trans; [eauto|eapply ext_trans; eauto]|]. split.
  - unfold prelation_ok, info_ok; cbn. sconj; auto using u32_map, quot_I64.
    + rewrite Z.mod_small by (unfold two32; lia); unfold U32; lia.
    + clear - G1. induction G1 as [|? ? ? ? [A _]]; constructor; auto. unfold I32; lia.
    + clear. induction (r_members r) as [|x l IH]; cbn; constructor; auto. destruct (m_type x); cbn; unfold I32; lia.
  - intros t' X. unfold read_relation. cbn [pr_info pr_memids pr_keys pr_vals pr_id read_info or_default i_timestamp i_user_sid i_changeset i_uid i_visible i_version].
    rewrite arith64_ok by (apply norm_ts_range; auto). cbn [bind].
    rewrite Z.mod_small by (unfold two32; lia).
    rewrite (ext_index _ _ _ _ X D2). cbn [bind].
    assert (Y2 : ext (stb_table b2) t') by (eapply ext_trans; eauto).
    assert (Y1 : ext (stb_table b1) t') by (eapply ext_trans; eauto).
    match goal with |- context [read_members m t' ?q 0 0 ds] =>
      pose proof (read_members_rt m t' q rs (r_members r) (mem_res_ext _ _ _ _ Y1 G1) ds 0 [] [] eq_refl eq_refl eq_refl P2) as RM end.
    cbn [zlen List.length Z.of_nat] in RM. rewrite RM. cbn [bind].
    pose proof (read_tags_rt t' tg (r_tags r) (resolves_ext_all _ _ _ _ Y2 G2) []) as RT.
    cbn [zlen List.length Z.of_nat app] in RT. rewrite RT. reflexivity.
Qed.

(** ** the element loop *)

Definition nodes_of (es : list element) : list node := flat_map (fun e => match e with ENode n => [n] | _ => [] end) es.
Definition ways_of (es : list element) : list way := flat_map (fun e => match e with EWay n => [n] | _ => [] end) es.
Definition relations_of (es : list element) : list relation := flat_map (fun e => match e with ERelation n => [n] | _ => [] end) es.

Record loop_inv (m : mode) (s : bstate) (es : list element) : Prop := {
  li_st : stb_inv (bs_st s);
  li_utf : Forall is_utf8 (stb_table (bs_st s));
  li_dense : match bs_dense s with
             | None => nodes_of es = []
             | Some d => dense_inv m (stb_table (bs_st s)) d (nodes_of es) /\ nodes_of es <> []
             end;
  li_ways : match bs_ways s with
            | None => ways_of es = []
            | Some l => Forall2 (way_enc m (stb_table (bs_st s))) l (ways_of es) /\ ways_of es <> []
            end;
  li_rels : match bs_rels s with
            | None => relations_of es = []
            | Some l => Forall2 (rel_enc m (stb_table (bs_st s))) l (relations_of es) /\ relations_of es <> []
            end }.

Lemma way_enc_ext m t t' l ws : ext t t' -> Forall2 (way_enc m t) l ws -> Forall2 (way_enc m t') l ws.
Proof. intros X. induction 1 as [|? ? ? ? [A B] H IH]; constructor; auto. split; auto. intros. apply B. eapply ext_trans; eauto. Qed.
Lemma rel_enc_ext m t t' l ws : ext t t' -> Forall2 (rel_enc m t) l ws -> Forall2 (rel_enc m t') l ws.
Proof. intros X. induction 1 as [|? ? ? ? [A B] H IH]; constructor; auto. split; auto. intros. apply B. eapply ext_trans; eauto. Qed.

Lemma add_members_utf8 m ms : forall last b rs ds ts b', add_members m last b ms = Ok (rs, ds, ts, b') ->
  Forall wf_member ms -> Forall is_utf8 (stb_table b) -> Forall is_utf8 (stb_table b').
Proof.
  induction ms as [|x ms IH]; cbn; intros last b rs ds ts b' H W U.
  - injection H as <- <- <- <-; auto.
  - apply bind_ok in H; destruct H as ([role b1] & E1 & H).
    apply bind_ok in H; destruct H as (d & E2 & H).
    apply bind_ok in H; destruct H as ([[[rs1 ds1] ts1] b2] & E3 & H). injection H as <- <- <- <-.
    inversion W as [|? ? [W1 W2] W3]; subst. eapply IH; eauto. eapply stb_add_utf8; eauto.
Qed.

Lemma ser_step_ext m s e s' : ser_step m s e = Ok s' -> ext (stb_table (bs_st s)) (stb_table (bs_st s')).
Proof.
  destruct e as [n|w|r|]; cbn.
  - destruct (bs_dense s) as [d|]; intros H; apply bind_ok in H; destruct H as ([d' b'] & E & H); injection H as <-; cbn.
    + unfold dgb_add in E. do 6 (apply bind_ok in E; destruct E as (? & _ & E)).
      apply bind_ok in E; destruct E as ([sid b1] & E1 & E). apply bind_ok in E; destruct E as (? & _ & E).
      apply bind_ok in E; destruct E as ([tg b2] & E2 & E).
      destruct (db_dense d) as [? [[]|] ? ? ?]; [|discriminate]. injection E as <- <-.
      eapply ext_trans; [eapply stb_add_ext; eauto|eapply add_tags_ext; eauto].
    + unfold dgb_new in E. apply bind_ok in E; destruct E as ([sid b1] & E1 & E).
      apply bind_ok in E; destruct E as ([tg b2] & E2 & E). injection E as <- <-.
      eapply ext_trans; [eapply stb_add_ext; eauto|eapply add_tags_ext; eauto].
  - intros H; apply bind_ok in H; destruct H as ([p b'] & E & H); injection H as <-; cbn.
    unfold way_convert in E. apply bind_ok in E; destruct E as (? & _ & E).
    apply bind_ok in E; destruct E as ([tg b1] & E1 & E).
    apply bind_ok in E; destruct E as ([sid b2] & E2 & E). injection E as <- <-.
    eapply ext_trans; [eapply add_tags_ext; eauto|eapply stb_add_ext; eauto].
  - intros H; apply bind_ok in H; destruct H as ([p b'] & E & H); injection H as <-; cbn.
    unfold relation_convert in E. apply bind_ok in E; destruct E as ([[[rs ds] ts] b0] & E0 & E).
    apply bind_ok in E; destruct E as ([tg b1] & E1 & E).
    apply bind_ok in E; destruct E as ([sid b2] & E2 & E). injection E as <- <-.
    eapply ext_trans; [eapply add_members_ext; eauto|].
    eapply ext_trans; [eapply add_tags_ext; eauto|eapply stb_add_ext; eauto].
  - intros [= <-]. apply ext_refl.
Qed.

Lemma ser_step_utf8 m s e s' : ser_step m s e = Ok s' -> wf_element e ->
  Forall is_utf8 (stb_table (bs_st s)) -> Forall is_utf8 (stb_table (bs_st s')).
Proof.
  destruct e as [n|w|r|]; cbn.
  - destruct (bs_dense s) as [d|]; intros H (_ & _ & _ & _ & _ & W6 & W7) U; apply bind_ok in H; destruct H as ([d' b'] & E & H); injection H as <-; cbn.
    + unfold dgb_add in E. do 6 (apply bind_ok in E; destruct E as (? & _ & E)).
      apply bind_ok in E; destruct E as ([sid b1] & E1 & E). apply bind_ok in E; destruct E as (? & _ & E).
      apply bind_ok in E; destruct E as ([tg b2] & E2 & E).
      destruct (db_dense d) as [? [[]|] ? ? ?]; [|discriminate]. injection E as <- <-.
      eapply add_tags_utf8; eauto. eapply stb_add_utf8; eauto.
    + unfold dgb_new in E. apply bind_ok in E; destruct E as ([sid b1] & E1 & E).
      apply bind_ok in E; destruct E as ([tg b2] & E2 & E). injection E as <- <-.
      eapply add_tags_utf8; eauto. eapply stb_add_utf8; eauto.
  - intros H (_ & _ & _ & _ & _ & W6 & _ & W7) U; apply bind_ok in H; destruct H as ([p b'] & E & H); injection H as <-; cbn.
    unfold way_convert in E. apply bind_ok in E; destruct E as (? & _ & E).
    apply bind_ok in E; destruct E as ([tg b1] & E1 & E).
    apply bind_ok in E; destruct E as ([sid b2] & E2 & E). injection E as <- <-.
    eapply stb_add_utf8; eauto. eapply add_tags_utf8; eauto.
  - intros H (_ & _ & _ & _ & _ & W6 & W8 & W7) U; apply bind_ok in H; destruct H as ([p b'] & E & H); injection H as <-; cbn.
    unfold relation_convert in E. apply bind_ok in E; destruct E as ([[[rs ds] ts] b0] & E0 & E).
    apply bind_ok in E; destruct E as ([tg b1] & E1 & E).
    apply bind_ok in E; destruct E as ([sid b2] & E2 & E). injection E as <- <-.
    eapply stb_add_utf8; eauto. eapply add_tags_utf8; eauto. eapply add_members_utf8; eauto.
  - intros [= <-]; auto.
Qed.

Lemma nodes_of_app a b : nodes_of (a ++ b) = nodes_of a ++ nodes_of b.
Proof. apply flat_map_app. Qed.
Lemma ways_of_app a b : ways_of (a ++ b) = ways_of a ++ ways_of b.
Proof. apply flat_map_app. Qed.
Lemma relations_of_app a b : relations_of (a ++ b) = relations_of a ++ relations_of b.
Proof. apply flat_map_app. Qed.

Lemma app_ne {A} (l : list A) a : l ++ [a] <> [].
Proof. destruct l; discriminate. Qed.

Lemma ser_step_inv m s e s' es : loop_inv m s es -> wf_element e -> coord_fits e ->
  ser_step m s e = Ok s' -> fits (bs_st s') -> loop_inv m s' (es ++ [e]).
Proof.
  intros [L1 L2 L3 L4 L5] W C H F.
  pose proof (ser_step_utf8 _ _ _ _ H W L2) as U.
  pose proof (ser_step_ext _ _ _ _ H) as X.
  destruct e as [n|w|r|]; cbn in H.
  - assert (K : stb_inv (bs_st s') /\ bs_ways s' = bs_ways s /\ bs_rels s' = bs_rels s /\
      exists d, bs_dense s' = Some d /\ dense_inv m (stb_table (bs_st s')) d (nodes_of es ++ [n])).
    { destruct (bs_dense s) as [d|] eqn:Ed.
      - apply bind_ok in H; destruct H as ([d' b'] & E & H); injection H as <-; cbn in *.
        destruct L3 as [L3 _]. destruct (dgb_add_inv _ _ _ _ _ _ _ L1 W C L3 E F) as (A & B & D). eauto 8.
      - apply bind_ok in H; destruct H as ([d' b'] & E & H); injection H as <-; cbn in *.
        destruct (dgb_new_inv _ _ _ _ _ L1 W C E F) as (A & B & D). rewrite L3. cbn. eauto 8. }
    destruct K as (K1 & K2 & K3 & d & K4 & K5).
    split; auto; rewrite ?nodes_of_app, ?ways_of_app, ?relations_of_app; cbn [nodes_of ways_of relations_of flat_map app]; rewrite ?app_nil_r.
    + rewrite K4. split; auto. apply app_ne.
    + rewrite K2. destruct (bs_ways s); auto. destruct L4; split; auto. eapply way_enc_ext; eauto.
    + rewrite K3. destruct (bs_rels s); auto. destruct L5; split; auto. eapply rel_enc_ext; eauto.
  - apply bind_ok in H; destruct H as ([p b'] & E & H); injection H as <-; cbn [bs_st bs_dense bs_ways bs_rels] in *.
    destruct (way_convert_spec _ _ _ _ _ L1 W E F) as (A & B & D).
    split; auto; cbn [bs_st bs_dense bs_ways bs_rels]; rewrite ?nodes_of_app, ?ways_of_app, ?relations_of_app; cbn [nodes_of ways_of relations_of flat_map app]; rewrite ?app_nil_r.
    + destruct (bs_dense s); auto. destruct L3; split; auto. eapply dense_inv_ext; eauto.
    + split; [|apply app_ne]. destruct (bs_ways s) as [l|].
      * destruct L4 as [L4 _]. apply Forall2_app; auto. eapply way_enc_ext; eauto.
      * rewrite L4. cbn. auto.
    + destruct (bs_rels s); auto. destruct L5; split; auto. eapply rel_enc_ext; eauto.
  - apply bind_ok in H; destruct H as ([p b'] & E & H); injection H as <-; cbn [bs_st bs_dense bs_ways bs_rels] in *.
    destruct (relation_convert_spec _ _ _ _ _ L1 W E F) as (A & B & D).
    split; auto; cbn [bs_st bs_dense bs_ways bs_rels]; rewrite ?nodes_of_app, ?ways_of_app, ?relations_of_app; cbn [nodes_of ways_of relations_of flat_map app]; rewrite ?app_nil_r.
    + destruct (bs_dense s); auto. destruct L3; split; auto. eapply dense_inv_ext; eauto.
    + destruct (bs_ways s); auto. destruct L4; split; auto. eapply way_enc_ext; eauto.
    + split; [|apply app_ne]. destruct (bs_rels s) as [l|].
      * destruct L5 as [L5 _]. apply Forall2_app; auto. eapply rel_enc_ext; eauto.
      * rewrite L5. cbn. auto.
  - injection H as <-. split; auto; rewrite ?nodes_of_app, ?ways_of_app, ?relations_of_app; cbn; rewrite ?app_nil_r; auto.
Qed.

Lemma ser_loop_ext m es : forall s s', ser_loop m s es = Ok s' -> ext (stb_table (bs_st s)) (stb_table (bs_st s')).
Proof.
  induction es as [|e es IH]; cbn; intros s s' H.
  - injection H as <-. apply ext_refl.
  - apply bind_ok in H; destruct H as (s1 & E & H). eapply ext_trans; [eapply ser_step_ext; eauto|eauto].
Qed.

Lemma ser_loop_inv m es : forall done s s', loop_inv m s done -> Forall wf_element es -> Forall coord_fits es ->
  ser_loop m s es = Ok s' -> fits (bs_st s') -> loop_inv m s' (done ++ es).
Proof.
  induction es as [|e es IH]; cbn; intros done s s' L W C H F.
  - injection H as <-. rewrite app_nil_r. auto.
  - apply bind_ok in H; destruct H as (s1 & E & H). inversion W; inversion C; subst.
    assert (F1 : fits (bs_st s1)) by (eapply fits_ext; [eapply ser_loop_ext; eauto|auto]).
    replace (done ++ e :: es) with ((done ++ [e]) ++ es) by (rewrite <- app_assoc; reflexivity).
    eapply IH; eauto. eapply ser_step_inv; eauto.
Qed.

(** ** strings handed to the table *)

Definition strings_of (e : element) : list bytes :=
  match e with
  | ENode n => n_user n :: flat_map (fun t => [t_k t; t_v t]) (n_tags n)
  | EWay w => w_user w :: flat_map (fun t => [t_k t; t_v t]) (w_tags w)
  | ERelation r => r_user r :: map m_role (r_members r) ++ flat_map (fun t => [t_k t; t_v t]) (r_tags r)
  | ESentinel => []
  end.

Lemma zlen_flat2 {A B} (f g : A -> B) l : zlen (flat_map (fun t => [f t; g t]) l) = 2 * zlen l.
Proof. induction l; cbn [flat_map]; auto. rewrite zlen_app, IHl. change (zlen [f a; g a]) with 2. rewrite zlen_cons. lia. Qed.
Lemma zlen_map {A B} (f : A -> B) l : zlen (map f l) = zlen l.
Proof. unfold zlen. rewrite map_length. reflexivity. Qed.

Lemma add_members_len m ms : forall last b rs ds ts b', add_members m last b ms = Ok (rs, ds, ts, b') ->
  zlen (stb_table b') <= zlen (stb_table b) + zlen ms.
Proof.
  induction ms as [|x ms IH]; cbn [add_members]; intros last b rs ds ts b' H.
  - injection H as <- <- <- <-. unfold zlen; cbn; lia.
  - apply bind_ok in H; destruct H as ([role b1] & E1 & H).
    apply bind_ok in H; destruct H as (d & E2 & H).
    apply bind_ok in H; destruct H as ([[[rs1 ds1] ts1] b2] & E3 & H). injection H as <- <- <- <-.
    apply stb_add_len in E1. apply IH in E3. rewrite zlen_cons. lia.
Qed.

Lemma ser_step_len m s e s' : ser_step m s e = Ok s' ->
  zlen (stb_table (bs_st s')) <= zlen (stb_table (bs_st s)) + zlen (strings_of e).
Proof.
  destruct e as [n|w|r|]; cbn [ser_step strings_of]; rewrite ?zlen_cons, ?zlen_app, ?zlen_flat2, ?zlen_map.
  - destruct (bs_dense s) as [d|]; intros H; apply bind_ok in H; destruct H as ([d' b'] & E & H); injection H as <-; cbn.
    + unfold dgb_add in E. do 6 (apply bind_ok in E; destruct E as (? & _ & E)).
      apply bind_ok in E; destruct E as ([sid b1] & E1 & E). apply bind_ok in E; destruct E as (? & _ & E).
      apply bind_ok in E; destruct E as ([tg b2] & E2 & E).
      destruct (db_dense d) as [? [[]|] ? ? ?]; [|discriminate]. injection E as <- <-.
      apply stb_add_len in E1. apply add_tags_len in E2. lia.
    + unfold dgb_new in E. apply bind_ok in E; destruct E as ([sid b1] & E1 & E).
      apply bind_ok in E; destruct E as ([tg b2] & E2 & E). injection E as <- <-.
      apply stb_add_len in E1. apply add_tags_len in E2. lia.
  - intros H; apply bind_ok in H; destruct H as ([p b'] & E & H); injection H as <-; cbn.
    unfold way_convert in E. apply bind_ok in E; destruct E as (? & _ & E).
    apply bind_ok in E; destruct E as ([tg b1] & E1 & E).
    apply bind_ok in E; destruct E as ([sid b2] & E2 & E). injection E as <- <-.
    apply add_tags_len in E1. apply stb_add_len in E2. lia.
  - intros H; apply bind_ok in H; destruct H as ([p b'] & E & H); injection H as <-; cbn.
    unfold relation_convert in E. apply bind_ok in E; destruct E as ([[[rs ds] ts] b0] & E0 & E).
    apply bind_ok in E; destruct E as ([tg b1] & E1 & E).
    apply bind_ok in E; destruct E as ([sid b2] & E2 & E). injection E as <- <-.
    apply add_members_len in E0. apply add_tags_len in E1. apply stb_add_len in E2. lia.
  - intros [= <-]. unfold zlen; cbn; lia.
Qed.
Lemma ser_loop_len m es : forall s s', ser_loop m s es = Ok s' ->
  zlen (stb_table (bs_st s')) <= zlen (stb_table (bs_st s)) + zlen (flat_map strings_of es).
Proof.
  induction es as [|e es IH]; cbn [ser_loop flat_map]; intros s s' H.
  - injection H as <-. unfold zlen; cbn; lia.
  - apply bind_ok in H; destruct H as (s1 & E & H). apply ser_step_len in E. apply IH in H.
    rewrite zlen_app. lia.
Qed.

(** ** the block round trip *)

(** what survives: the nodes, or if there are none the ways, or else the relations *)
Definition survivors (es : list element) : list element :=
  match nodes_of es with
  | _ :: _ => map ENode (nodes_of es)
  | [] => match ways_of es with
          | _ :: _ => map EWay (ways_of es)
          | [] => map ERelation (relations_of es)
          end
  end.

Definition block_input_ok (es : list element) : Prop :=
  Forall wf_element es /\ Forall coord_fits es.

Lemma mapM_Forall2 {A B C} (f : A -> res C) (g : B -> C) l l' :
  Forall2 (fun a b => f a = Ok (g b)) l l' -> mapM f l = Ok (map g l').
Proof. induction 1; cbn; auto. rewrite H, IHForall2. reflexivity. Qed.

Lemma read_strings_ok l : Forall is_utf8 l -> read_strings l = Ok l.
Proof. unfold read_strings. induction 1; cbn; auto. rewrite H. cbn. rewrite IHForall. reflexivity. Qed.

Lemma build_block_rt m es b : block_input_ok es -> build_block m es = Ok b -> zlen (pb_strings b) <= 2147483647 ->
  pblock_ok b /\ read_block m b = Ok (map norm (survivors es)).
Proof.
  intros (W & C) H S. unfold build_block in H. apply bind_ok in H. destruct H as (s & E & H).
  injection H as <-.
  assert (F : fits (bs_st s)) by exact S. clear S.
  assert (L : loop_inv m s es).
  { apply (ser_loop_inv m es [] _ _) in E; auto. split; cbn; auto using stb_new_inv.
    constructor; [reflexivity|constructor]. }
  destruct L as [L1 L2 L3 L4 L5]. unfold stb_build, survivors.
  assert (P0 : I32 100 /\ I64 0 /\ I32 1000) by (unfold I32, I64; lia).
  destruct P0 as (P1 & P2 & P3).
  assert (Q : forall g els, pgroup_ok g -> read_group m (stb_table (bs_st s)) 100 1000 0 0 g = Ok els ->
     pblock_ok (PBlock (stb_table (bs_st s)) [g] (Some 100) (Some 0) (Some 0) (Some 1000)) /\
     read_block m (PBlock (stb_table (bs_st s)) [g] (Some 100) (Some 0) (Some 0) (Some 1000)) = Ok els).
  { intros g els G R. split.
    - repeat split; cbn; auto; try lia; apply P1 || apply P2 || apply P3.
    - unfold read_block. cbn [pb_strings pb_groups pb_granularity pb_date_granularity pb_lat_offset pb_lon_offset or_default].
      rewrite read_strings_ok by auto. cbn [bind mapM]. rewrite R. cbn. rewrite app_nil_r. reflexivity. }
  destruct (bs_dense s) as [d|].
  - destruct L3 as [D N]. destruct (nodes_of es) as [|n0 ns0] eqn:En; [congruence|]. rewrite <- En in *. clear En.
    apply Q.
    + destruct D as (A1 & A2 & A3 & A4 & A5 & A6 & A7 & A8 & A9 & A10 & A11 & rs & kv & ts & vis & B1 & B2 & B3 & B4).
      unfold pgroup_ok; cbn. sconj; auto. rewrite B1. unfold rows_dense, dense_ok, dense_info_ok; cbn.
      assert (M : forall (P : Z -> Prop) f, (forall r, row_ok r -> P (f r)) -> Forall P (map f rs)).
      { intros P f Hf. clear - Hf B2. induction B2; cbn; constructor; auto. }
      unfold row_ok in M. sconj; auto; apply M; intuition.
    + destruct D as (A1 & A2 & A3 & A4 & A5 & A6 & A7 & A8 & A9 & A10 & A11 & rs & kv & ts & vis & B1 & B2 & B3 & B4).
      unfold read_group. cbn [g_dense g_nodes g_ways g_relations g_changesets mapM].
      rewrite B1, read_dense_rows. specialize (B4 _ [] (ext_refl _)). rewrite app_nil_r in B4. rewrite B4. cbn.
      rewrite app_nil_r, !map_map. reflexivity.
  - rewrite L3. destruct (bs_ways s) as [l|].
    + destruct L4 as [D N]. destruct (ways_of es) as [|n0 ns0] eqn:En; [congruence|]. rewrite <- En in *. clear En. apply Q.
      * repeat split; cbn; auto. clear - D. induction D as [|? ? ? ? [A _]]; constructor; auto.
      * unfold read_group. cbn [g_dense g_nodes g_ways g_relations g_changesets mapM read_dense bind].
        rewrite (mapM_Forall2 _ norm_way _ (ways_of es)).
        -- cbn. rewrite !map_map. f_equal. rewrite app_nil_r. reflexivity.
        -- clear - D. induction D as [|? ? ? ? [_ A]]; constructor; auto. apply A, ext_refl.
    + rewrite L4. destruct (bs_rels s) as [l|].
      * destruct L5 as [D N]. apply Q.
        -- repeat split; cbn; auto. clear - D. induction D as [|? ? ? ? [A _]]; constructor; auto.
        -- unfold read_group. cbn [g_dense g_nodes g_ways g_relations g_changesets mapM read_dense bind].
           rewrite (mapM_Forall2 _ norm_relation _ (relations_of es)).
           ++ cbn. rewrite !map_map. reflexivity.
           ++ clear - D. induction D as [|? ? ? ? [_ A]]; constructor; auto. apply A, ext_refl.
      * rewrite L5. apply Q; [repeat split; cbn; auto|reflexivity].
Qed.

(** every string table entry takes at least one byte of the block *)
Lemma strings_in_block b : zlen (pb_strings b) <= zlen (pblock_encode b).
Proof.
  assert (A : zlen (pb_strings b) <= zlen (enc_fields (string_table_fields (pb_strings b)))).
  { unfold zlen. pose proof (enc_fields_length (string_table_fields (pb_strings b))) as H.
    assert (E : length (string_table_fields (pb_strings b)) = length (pb_strings b)) by apply map_length. lia. }
  assert (B : zlen (enc_fields (string_table_fields (pb_strings b))) <= zlen (pblock_encode b)).
  { unfold pblock_encode. apply (in_fields_len 1). left. reflexivity. }
  lia.
Qed.

Theorem block_rt m es bs : block_input_ok es -> osm_data_serialize m es = Ok bs -> zlen bs <= 2147483647 ->
  osm_data_new m bs = Ok (map norm (survivors es)).
Proof.
  intros W H L. unfold osm_data_serialize in H. apply bind_ok in H. destruct H as (b & E & H). injection H as <-.
  pose proof (strings_in_block b) as SL.
  destruct (build_block_rt _ _ _ W E ltac:(lia)) as [P R]. unfold osm_data_new.
  rewrite pblock_rt by (auto; unfold two64; lia). exact R.
Qed.

(** release builds never panic while writing *)
Lemma deltas_total l : forall last, exists ds, deltas Wrapping last l = Ok ds.
Proof.
  induction l as [|x l IH]; cbn; intros; eauto. rewrite arith64_wrapping. cbn. destruct (IH x) as [ds ->]. cbn; eauto.
Qed.
Lemma add_members_total ms : forall last b, exists rs ds ts b', add_members Wrapping last b ms = Ok (rs, ds, ts, b').
Proof.
  induction ms as [|x ms IH]; cbn; intros; eauto 6.
  destruct (stb_add_total b (m_role x)) as (i & b1 & ->). cbn. rewrite arith64_wrapping. cbn.
  destruct (IH (m_id x) b1) as (rs & ds & ts & b2 & ->). cbn. eauto 6.
Qed.
Definition dense_shape (s : bstate) : Prop :=
  match bs_dense s with Some d => exists i, d_info (db_dense d) = Some i | None => True end.
Lemma ser_step_total s e : dense_shape s -> exists s', ser_step Wrapping s e = Ok s' /\ dense_shape s'.
Proof.
  intros D. destruct e as [n|w|r|]; cbn.
  - destruct (bs_dense s) as [d|] eqn:Ed.
    + unfold dgb_add. rewrite !arith64_wrapping, !arith32_wrapping. cbn [bind].
      destruct (stb_add_total (bs_st s) (n_user n)) as (i & b1 & ->). cbn [bind]. rewrite arith32_wrapping. cbn [bind].
      destruct (add_tags_total (n_tags n) b1) as (l & b2 & ->). cbn [bind].
      unfold dense_shape in D. rewrite Ed in D. destruct D as [i0 D].
      destruct (db_dense d) as [? oi ? ? ?]. cbn in D. subst. destruct i0. cbn. eexists. split; [reflexivity|].
      unfold dense_shape; cbn. eauto.
    + unfold dgb_new. destruct (stb_add_total (bs_st s) (n_user n)) as (i & b1 & ->). cbn [bind].
      destruct (add_tags_total (n_tags n) b1) as (l & b2 & ->). cbn. eexists. split; [reflexivity|]. unfold dense_shape; cbn. eauto.
  - unfold way_convert. destruct (deltas_total (w_refs w) 0) as (ds & ->). cbn [bind].
    destruct (add_tags_total (w_tags w) (bs_st s)) as (l & b2 & ->). cbn [bind].
    destruct (stb_add_total b2 (w_user w)) as (i & b1 & ->). cbn. eexists. split; [reflexivity|]. exact D.
  - unfold relation_convert. destruct (add_members_total (r_members r) 0 (bs_st s)) as (rs & ds & ts & b0 & ->). cbn [bind].
    destruct (add_tags_total (r_tags r) b0) as (l & b2 & ->). cbn [bind].
    destruct (stb_add_total b2 (r_user r)) as (i & b1 & ->). cbn. eexists. split; [reflexivity|]. exact D.
  - eauto.
Qed.
Lemma serialize_total es : exists bs, osm_data_serialize Wrapping es = Ok bs.
Proof.
  assert (H : forall s, dense_shape s -> exists s', ser_loop Wrapping s es = Ok s').
  { induction es as [|e l IH]; cbn; intros s D; eauto.
    destruct (ser_step_total s e D) as (s' & -> & D'). cbn. auto. }
  destruct (H (BState None None None stb_new) I) as [s E].
  unfold osm_data_serialize, build_block. rewrite E. cbn. eauto.
Qed.
