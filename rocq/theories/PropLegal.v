(** C67: whatever bytes a file consists of, what the reader yields are legal values of the data model. *)
From Coq Require Import ZArith List Bool Lia Strings.Byte Strings.String Reals Lra.
From Verif Require Import Base BaseFacts Types Proto ProtoFacts Block BlockFacts FloatFacts FileFormat FileFacts Spec FileSpec FormatSpec BlockRead ModelSpec Model2 ModelFacts
  ParallelSpec ParallelReadFacts PropBlock PropFile WireSpec WireFacts WireMsg PropWire.
Import ListNotations.
Local Notation length := List.length.
Local Notation concat := List.concat.
Open Scope Z_scope.

(** a legal element: not a sentinel, integers in the range of their type, strings UTF-8 texts, coordinates finite
    numbers of at most 2^63 nanodegrees *)
Definition legal_coordinate (p : coordinate) : Prop :=
  f_valid (lat p) /\ f_finite (lat p) /\ (Rabs (f2r (lat p)) <= 9223372037)%R /\
  f_valid (lon p) /\ f_finite (lon p) /\ (Rabs (f2r (lon p)) <= 9223372037)%R.
Definition text_tag (t : tag) : Prop := utf8_text (t_k t) /\ utf8_text (t_v t).
Definition i64 (z : Z) : Prop := -9223372036854775808 <= z <= 9223372036854775807.
Definition i32 (z : Z) : Prop := -2147483648 <= z <= 2147483647.
Definition legal (e : element) : Prop :=
  match e with
  | ENode n => i64 (n_id n) /\ i32 (n_version n) /\ i64 (n_timestamp n) /\ i64 (n_changeset n) /\ i32 (n_uid n) /\
      utf8_text (n_user n) /\ Forall text_tag (n_tags n) /\ legal_coordinate (n_coord n)
  | EWay w => i64 (w_id w) /\ i32 (w_version w) /\ i64 (w_timestamp w) /\ i64 (w_changeset w) /\ i32 (w_uid w) /\
      utf8_text (w_user w) /\ Forall text_tag (w_tags w) /\ Forall i64 (w_refs w)
  | ERelation r => i64 (r_id r) /\ i32 (r_version r) /\ i64 (r_timestamp r) /\ i64 (r_changeset r) /\ i32 (r_uid r) /\
      utf8_text (r_user r) /\ Forall text_tag (r_tags r) /\ Forall (fun x => i64 (m_id x) /\ utf8_text (m_role x)) (r_members r)
  | ESentinel => False
  end.
Definition legal_opt {A} (P : A -> Prop) (o : option A) : Prop := forall x, o = Some x -> P x.
Definition legal_edge (x : f64) : Prop := f_valid x /\ f_finite x /\ (Rabs (f2r x) <= 9223372037)%R.
Definition legal_info (i : file_info) : Prop :=
  Forall utf8_text (fi_required i) /\ Forall utf8_text (fi_optional i) /\ legal_opt utf8_text (fi_program i) /\
  legal_opt utf8_text (fi_source i) /\ legal_opt i64 (fi_ts i) /\ legal_opt i64 (fi_seq i) /\ legal_opt utf8_text (fi_url i) /\
  legal_opt (fun b => legal_edge (bb_left b) /\ legal_edge (bb_bottom b) /\ legal_edge (bb_right b) /\ legal_edge (bb_top b)) (fi_bbox i).

(** ** ranges of the decoded numbers *)
Lemma message_varints bs fs : message bs fs -> forall num u, In (num, WVarint u) fs -> 0 <= u < 18446744073709551616.
Proof.
  induction 1 as [|f num v r fs F M IH]; intros num' u I; [destruct I|]. destruct I as [E|I]; [|eauto].
  injection E as -> ->. inversion F; subst. destruct H3 as (_ & _ & R). exact R.
Qed.
Lemma occ_in num fs v : In v (occurrences num fs) -> In (num, v) fs.
Proof.
  unfold occurrences. rewrite in_map_iff. intros ((n, w) & <- & I). apply filter_In in I. destruct I as (I & E). cbn in *. apply Z.eqb_eq in E. subst. auto.
Qed.
Lemma last_opt_in {A} (l : list A) a : last_opt l = Some a -> In a l.
Proof. unfold last_opt. destruct (rev l) as [|x r] eqn:E; [discriminate|]. intros [= <-]. apply in_rev. rewrite E. left; auto. Qed.
Section Ranges.
  Context {A : Type} (conv : Z -> A -> Prop) (P : A -> Prop).
  Hypothesis CP : forall u a, 0 <= u < 18446744073709551616 -> conv u a -> P a.
  Lemma opt_range bs fs num o : message bs fs -> opt_scalar conv num fs o -> legal_opt P o.
  Proof.
    intros M (us & E & L) x ->. destruct (last_opt us) as [u|] eqn:EL; [|destruct L]. apply (CP u); auto.
    apply last_opt_in in EL. apply (message_varints _ _ M num). apply occ_in. rewrite E. apply in_map. auto.
  Qed.
  Lemma req_range bs fs num d a : message bs fs -> P d -> req_scalar conv num fs d a -> P a.
  Proof. intros M D (o & O & ->). pose proof (opt_range _ _ _ _ M O) as L. destruct o; auto. Qed.
  Lemma rep_range bs fs num l : message bs fs -> rep_scalar conv num fs l -> Forall P l.
  Proof.
    intros M (ls & F & ->). assert (I : forall v, In v (occurrences num fs) -> In (num, v) fs) by (intros; apply occ_in; auto).
    revert I. induction F as [|v l vs ls S F IH]; intros I; cbn; [constructor|]. apply Forall_app. split; [|apply IH; intros; apply I; right; auto].
    destruct S as [u a C|bss us l V C].
    - constructor; [|constructor]. apply (CP u); auto. apply (message_varints _ _ M num). apply I. left; auto.
    - clear - V C CP. revert l C. induction V as [|b u bss us (_ & _ & R) V IH]; intros l C; inversion C; subst; constructor; eauto.
  Qed.
End Ranges.
Lemma int64_r u z : 0 <= u < 18446744073709551616 -> is_int64 u z -> i64 z. Proof. intros _ (R & _). exact R. Qed.
Lemma int32_r u z : 0 <= u < 18446744073709551616 -> is_int32 u z -> i32 z. Proof. intros _ (R & _). exact R. Qed.
Lemma sint64_r u z : 0 <= u < 18446744073709551616 -> is_sint64 u z -> i64 z. Proof. unfold i64. intros R [(A & B)|(A & B)]; lia. Qed.
Lemma strings_ok num fs l : rep_string num fs l -> Forall utf8_text l. Proof. intros (_ & H). exact H. Qed.
Lemma opt_string_ok num fs o : opt_string num fs o -> legal_opt utf8_text o.
Proof. intros (bs & _ & F & ->) x E. apply last_opt_in in E. rewrite Forall_forall in F. auto. Qed.

Definition info_legal (i : info) : Prop :=
  legal_opt i32 (i_version i) /\ legal_opt i64 (i_timestamp i) /\ legal_opt i64 (i_changeset i) /\ legal_opt i32 (i_uid i).
Lemma info_is_legal bs i : info_is bs i -> info_legal i.
Proof.
  intros (fs & M & A & B & C & D & _). unfold info_legal. sconj.
  - eapply opt_range; [exact int32_r|exact M|exact A].
  - eapply opt_range; [exact int64_r|exact M|exact B].
  - eapply opt_range; [exact int64_r|exact M|exact C].
  - eapply opt_range; [exact int32_r|exact M|exact D].
Qed.
Lemma opt_msg_some {M} (means : bytes -> M -> Prop) (P : M -> Prop) num fs o : (forall b m, means b m -> P m) -> opt_msg means num fs o -> legal_opt P o.
Proof. intros K (bs & _ & _ & H) x ->. destruct bs; [destruct H|]. eauto. Qed.
Lemma rep_msg_all {M} (means : bytes -> M -> Prop) (P : M -> Prop) num fs l : (forall b m, means b m -> P m) -> rep_msg means num fs l -> Forall P l.
Proof. intros K (bs & _ & H). induction H; constructor; eauto. Qed.
Lemma zero64 : i64 0. Proof. unfold i64. lia. Qed.
Definition node_legal (p : pnode) : Prop := i64 (pn_id p) /\ legal_opt info_legal (pn_info p).
Definition way_legal (p : pway) : Prop := i64 (pw_id p) /\ legal_opt info_legal (pw_info p).
Definition relation_legal (p : prelation) : Prop := i64 (pr_id p) /\ legal_opt info_legal (pr_info p).
Definition dense_legal (d : dense) : Prop := legal_opt (fun i => Forall i32 (di_version i)) (d_info d).
Definition group_legal (g : pgroup) : Prop :=
  Forall node_legal (g_nodes g) /\ legal_opt dense_legal (g_dense g) /\ Forall way_legal (g_ways g) /\ Forall relation_legal (g_relations g).
Lemma node_is_legal bs p : node_is bs p -> node_legal p.
Proof. intros (fs & M & A & _ & _ & B & _). split; [eapply req_range; [exact sint64_r|exact M|exact zero64|exact A]|eapply opt_msg_some; [exact info_is_legal|exact B]]. Qed.
Lemma way_is_legal bs p : way_is bs p -> way_legal p.
Proof. intros (fs & M & A & _ & _ & B & _). split; [eapply req_range; [exact int64_r|exact M|exact zero64|exact A]|eapply opt_msg_some; [exact info_is_legal|exact B]]. Qed.
Lemma relation_is_legal bs p : relation_is bs p -> relation_legal p.
Proof. intros (fs & M & A & _ & _ & B & _). split; [eapply req_range; [exact int64_r|exact M|exact zero64|exact A]|eapply opt_msg_some; [exact info_is_legal|exact B]]. Qed.
Lemma dense_is_legal bs d : dense_is bs d -> dense_legal d.
Proof.
  intros (fs & M & _ & B & _). eapply opt_msg_some; [|exact B]. intros b i (fs' & M' & V & _). eapply rep_range; [exact int32_r|exact M'|exact V].
Qed.
Lemma group_is_legal bs g : group_is bs g -> group_legal g.
Proof.
  intros (fs & M & A & B & C & D & _). unfold group_legal. sconj.
  - eapply rep_msg_all; [exact node_is_legal|exact A].
  - eapply opt_msg_some; [exact dense_is_legal|exact B].
  - eapply rep_msg_all; [exact way_is_legal|exact C].
  - eapply rep_msg_all; [exact relation_is_legal|exact D].
Qed.

(** ** coordinates *)
Lemma nano_legal z : i64 z -> legal_edge (fdiv (f_of_Z z) (f_of_Z 1000000000)).
Proof.
  intros I. destruct (f_of_Z_64 z I) as [Fz Bz]. pose proof (f_of_Z_ok 1000000000 ltac:(lia)) as F9.
  assert (Q : (Rabs (rnd (IZR z) / 1000000000) <= 9223372037)%R).
  { unfold Rdiv. rewrite Rabs_mult, (Rabs_pos_eq (/ 1000000000)) by lra. apply Rle_trans with (9223372036854775808 * / 1000000000)%R; [|lra].
    apply Rmult_le_compat_r; [lra|exact Bz]. }
  assert (N : (Rabs (rnd (IZR z) / 1000000000) <= Raux.bpow Zaux.radix2 1023)%R) by (apply small_1023; lra).
  destruct (fdiv_ok _ _ _ _ Fz F9 ltac:(lra) N) as (V & F & E). split; [exact V|]. split; [exact F|]. rewrite E.
  rewrite <- (rnd_int 9223372037) by lia. apply Generic_fmt.abs_round_le_generic; auto with typeclass_instances.
  - apply BinarySingleNaN.fexp_correct; reflexivity.
  - rewrite (rnd_int 9223372037) by lia. rewrite <- (rnd_int 9223372037) by lia. apply Generic_fmt.generic_format_round; auto with typeclass_instances.
    apply BinarySingleNaN.fexp_correct; reflexivity.
  - rewrite (rnd_int 9223372037) by lia. exact Q.
Qed.
Lemma degrees_legal g o x v : degrees_of g o x v -> legal_edge v.
Proof. intros (z & [I _] & ->). apply nano_legal. exact I. Qed.

(** ** elements *)
Lemma entry_text st i s : Forall utf8_text st -> entry st i s -> utf8_text s.
Proof. intros F (_ & E). apply nth_error_In in E. rewrite Forall_forall in F. auto. Qed.
Lemma tag_text st kv t : Forall utf8_text st -> tag_entry st kv t -> text_tag t.
Proof. intros F (A & B). split; eapply entry_text; eauto. Qed.
Lemma tags_text st ks vs ts : Forall utf8_text st -> tags_mean st ks vs ts -> Forall text_tag ts.
Proof. intros F (_ & H). induction H; constructor; auto. eapply tag_text; eauto. Qed.
Lemma kv_text st kv ts r : Forall utf8_text st -> kv_means st kv ts r -> Forall text_tag ts.
Proof. intros F H. induction H; constructor; auto. eapply tag_text; eauto. Qed.
Lemma empty_text : utf8_text []. Proof. exists []. split; [constructor|reflexivity]. Qed.
Lemma info_fields st d oi ts cs uid user vis ver : Forall utf8_text st -> legal_opt info_legal oi -> info_means st d oi ts cs uid user vis ver ->
  i64 ts /\ i64 cs /\ i32 uid /\ utf8_text user /\ i32 ver.
Proof.
  intros F L H. destruct oi as [i|]; cbn [info_means] in H.
  - destruct (L i eq_refl) as (L1 & L2 & L3 & L4). destruct H as ((T & _) & -> & -> & U & _ & ->). sconj.
    + exact T.
    + destruct (i_changeset i) eqn:E; [apply L3; auto|unfold i64; lia].
    + destruct (i_uid i) eqn:E; [apply L4; auto|unfold i32; lia].
    + eapply entry_text; eauto.
    + destruct (i_version i) eqn:E; [apply L1; auto|unfold i32; lia].
  - destruct H as (-> & -> & -> & -> & _ & ->). unfold i64, i32. sconj; try lia. apply empty_text.
Qed.
Lemma dense_legal_nodes st g d la lo dn : Forall utf8_text st -> dense_legal dn -> forall ns i kv,
  dense_from st g d la lo dn i kv ns -> Forall (fun n => legal (ENode n)) ns.
Proof.
  intros F L. induction ns as [|n ns IH]; intros i kv H; [constructor|]. destruct H as (_ & (_ & _ & ID & LA & LO & INF) & kv' & KV & R).
  constructor; eauto. apply degrees_legal in LA. apply degrees_legal in LO. pose proof (kv_text _ _ _ _ F KV) as T.
  assert (X : i32 (n_version n) /\ i64 (n_timestamp n) /\ i64 (n_changeset n) /\ i32 (n_uid n) /\ utf8_text (n_user n)).
  { destruct (d_info dn) as [inf|] eqn:E.
    - destruct INF as (_ & _ & _ & _ & V & (T1 & _) & (C1 & _) & (U1 & _) & (sid & _ & S) & _). sconj; auto.
      + specialize (L inf E). rewrite Forall_forall in L. apply L. eapply nth_error_In; eauto.
      + eapply entry_text; eauto.
    - destruct INF as (-> & -> & -> & -> & -> & _). unfold i32, i64. sconj; try lia. apply empty_text. }
  destruct X as (X1 & X2 & X3 & X4 & X5). unfold legal, legal_coordinate. destruct ID as (ID & _). destruct LA as (A1 & A2 & A3), LO as (B1 & B2 & B3). auto 20.
Qed.
Lemma block_legal bs b es : block_is bs b -> Forall utf8_text (pb_strings b) -> block_means b es -> Forall legal es.
Proof.
  intros (fs & M & _ & G & _) U (_ & ess & F & ->). apply Forall_concat. cbv zeta in F.
  assert (GL : Forall group_legal (pb_groups b)) by (eapply rep_msg_all; [exact group_is_legal|exact G]).
  revert GL. clear G M. induction F as [|g e gs ess Gm F IH]; intros GL; constructor; inversion GL as [|? ? (L1 & L2 & L3 & L4) GL']; subst; auto.
  destruct Gm as (ds & ns & ws & rs & D & N & W & R & _ & ->).
  repeat (apply Forall_app; split); apply Forall_map.
  - destruct (g_dense g) as [d|]; cbn in D; [|subst; constructor]. eapply dense_legal_nodes; [exact U|apply L2; reflexivity|exact D].
  - clear - N L1 U. induction N as [|p n ps ns (I & A & B & INF & T) N IH]; constructor; inversion L1 as [|? ? (P1 & P2) L1']; subst; auto.
    destruct (info_fields _ _ _ _ _ _ _ _ _ U P2 INF) as (X1 & X2 & X3 & X4 & X5). apply degrees_legal in A. apply degrees_legal in B.
    pose proof (tags_text _ _ _ _ U T). unfold legal, legal_coordinate. rewrite I. destruct A as (A1 & A2 & A3), B as (B1 & B2 & B3). auto 20.
  - clear - W L3 U. induction W as [|p w ps ws (I & INF & LN & RF & T) W IH]; constructor; inversion L3 as [|? ? (P1 & P2) L3']; subst; auto.
    destruct (info_fields _ _ _ _ _ _ _ _ _ U P2 INF) as (X1 & X2 & X3 & X4 & X5). pose proof (tags_text _ _ _ _ U T). unfold legal. rewrite I. sconj; auto.
    apply Forall_forall. intros x Ix. apply In_nth_error in Ix. destruct Ix as (k & K). destruct (RF k x K) as (Q & _). exact Q.
  - clear - R L4 U. induction R as [|p r ps rs (I & INF & LN & RF & T) R IH]; constructor; inversion L4 as [|? ? (P1 & P2) L4']; subst; auto.
    destruct (info_fields _ _ _ _ _ _ _ _ _ U P2 INF) as (X1 & X2 & X3 & X4 & X5). pose proof (tags_text _ _ _ _ U T). unfold legal. rewrite I. sconj; auto.
    apply Forall_forall. intros x Ix. apply In_nth_error in Ix. destruct Ix as (k & K). destruct (RF k x K) as ((Q & _) & _ & sid & _ & S). split; [exact Q|eapply entry_text; eauto].
Qed.
Lemma data_legal m p es : osm_data_new m p = Ok es -> Forall legal es.
Proof. intros H. apply (proj1 C56_data_payload) in H. destruct H as (b & B & U & M). eapply block_legal; eauto. Qed.
Lemma header_legal p i : osm_header_from_bytes p = Ok i -> legal_info i.
Proof.
  intros H. apply C56_header_payload in H. destruct H as (h & (fs & M & BB & RQ & OP & PR & SO & TS & SQ & UR) & E1 & E2 & E3 & E4 & E5 & E6 & E7 & E8).
  unfold legal_info. rewrite E1, E2, E3, E4, E5, E6, E7. sconj; eauto using strings_ok, opt_string_ok.
  - eapply opt_range; [exact int64_r|exact M|exact TS].
  - eapply opt_range; [exact int64_r|exact M|exact SQ].
  - intros b Eb. rewrite Eb in E8. destruct (h_bbox h) as [hb|] eqn:Eh; [|destruct E8]. rewrite <- Eh in BB.
    assert (HB : legal_opt (fun x => i64 (hb_left x) /\ i64 (hb_right x) /\ i64 (hb_top x) /\ i64 (hb_bottom x)) (h_bbox h)).
    { eapply opt_msg_some; [|exact BB]. intros b0 m (fs' & M' & A & B & C & D).
      sconj; (eapply req_range; [exact sint64_r|exact M'|exact zero64|eassumption]). }
    destruct (HB hb Eh) as (A & B & C & D). destruct E8 as (X1 & X2 & X3 & X4). unfold nano_value in *. rewrite X1, X2, X3, X4. sconj; apply nano_legal; auto.
Qed.
Lemma desc_legal m c file d blk : from_blob_desc m c file d = Ok blk ->
  match blk with FHeader _ i => legal_info i | FData _ es => Forall legal es end.
Proof.
  unfold from_blob_desc. destruct (max_i64 <? bd_length d); [discriminate|]. destruct (take_exact _ _) as [[buf r]|]; [|discriminate].
  unfold fblock_deserialize. destruct (blob_decode buf) as [b|]; [|discriminate]. cbn [of_option bind].
  destruct (read_blob_data c b) as [data| |]; try discriminate. cbn [bind]. unfold fblock_new.
  destruct (bytes_eqb _ _).
  - destruct (osm_header_from_bytes data) as [i| |] eqn:E; try discriminate. cbn. intros [= <-]. eapply header_legal; eauto.
  - destruct (bytes_eqb _ _); [|discriminate]. destruct (osm_data_new m data) as [e| |] eqn:E; try discriminate.
    cbn. intros [= <-]. eapply data_legal; eauto.
Qed.
Lemma next_legal m c file s b s' : fb_next m c file s = Ok (Some b, s') -> match b with FHeader _ i => legal_info i | FData _ es => Forall legal es end.
Proof.
  intros E. unfold fb_next in E. destruct (blob_next file s) as [[[d|] s1]| |]; try discriminate. cbn [bind] in E.
  destruct (from_blob_desc m c file d) as [blk| |] eqn:F; try discriminate; cbn in E; injection E as <- <-. eapply desc_legal; eauto.
Qed.

(** ** C67 *)
(** the elements of any file, whether reading it ends regularly or in a panic *)
Theorem C67_elements_are_legal m c file es o : elements_run m c file es o -> Forall legal es.
Proof.
  assert (K : forall s it es o, el_run m c file s it es o -> (forall r, it = Some r -> Forall legal r) -> Forall legal es).
  { clear. induction 1; intros L; auto.
    - constructor; [specialize (L _ eq_refl); inversion L; auto|]. apply IHel_run. intros r' [= <-]. specialize (L _ eq_refl). inversion L; auto.
    - apply IHel_run. intros r ->. unfold create_element_iterator in H. destruct (fb_next m c file s) as [[[b|] s1]| |] eqn:E; try discriminate.
      cbn [bind] in H. apply next_legal in E. destruct b; try discriminate. cbn in H. injection H as <- <-. exact E. }
  intros H. destruct H as [E|ob s E C|ob s it s' l o E C R]; try constructor.
  eapply K; [exact R|]. intros r ->. unfold create_element_iterator in C. match type of C with context [fb_next m c file ?x] => destruct (fb_next m c file x) as [[[b|] s1]| |] eqn:F end; try discriminate.
  cbn [bind] in C. apply next_legal in F. destruct b; try discriminate. cbn in C. injection C as <- <-. exact F.
Qed.
(** the header of any file *)
Theorem C67_header_is_legal m c file i : reader_new m c file = Ok i -> legal_info i.
Proof.
  unfold reader_new. intros H. destruct (fb_next m c file bit_new) as [[[b|] s]| |] eqn:E; try discriminate; cbn [bind] in H; try discriminate.
  apply next_legal in E. destruct b as [ix inf|]; try discriminate. destruct (find_missing _ _); try discriminate. injection H as <-. exact E.
Qed.
(** and of the blocks in it, which is what parallel readers are given *)
Theorem C67_blocks_are_legal m c file blks o : run (fb_next m c file) bit_new blks o ->
  Forall (fun b => match b with FHeader _ i => legal_info i | FData _ es => Forall legal es end) blks.
Proof. generalize bit_new. induction 1 as [s s' E|s E|s b s' l o E R IH]; constructor; auto. eapply next_legal; eauto. Qed.
