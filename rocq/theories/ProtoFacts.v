(** Round trip of the wire format and of every message. *)
From Coq Require Import ZArith List Bool Strings.Byte Strings.String Lia ZifyBool.
From Verif Require Import Base BaseFacts Proto.
Import ListNotations.
Open Scope Z_scope.

(** ** varints *)

Lemma enc_varint_aux_rt n : forall z r,
  0 <= z < 2 * 128 ^ (Z.of_nat n) ->
  dec_varint_aux (S n) (enc_varint_aux (S n) z ++ r) = Some (z, r).
Proof.
  induction n as [|n IH]; intros z r Hz.
  - cbn [enc_varint_aux]. change (Z.of_nat 0) with 0 in Hz.
    replace (2 * 128 ^ 0) with 2 in Hz by reflexivity.
    destruct (z <? 128) eqn:E; [|lia]. cbn [app dec_varint_aux].
    rewrite b2z_z2b, Z.mod_small by lia. rewrite E.
    destruct (z <? 2) eqn:E2; [reflexivity|lia].
  - set (n' := S n) in *. cbn [enc_varint_aux].
    destruct (z <? 128) eqn:E.
    + cbn [app dec_varint_aux]. rewrite b2z_z2b, Z.mod_small by lia. rewrite E.
      subst n'. reflexivity.
    + assert (Hm : 0 <= z mod 128 < 128) by (apply Z.mod_pos_bound; lia).
      cbn [app]. remember (enc_varint_aux n' (z / 128)) as tl.
      cbn [dec_varint_aux]. rewrite b2z_z2b, Z.mod_small by lia.
      destruct (z mod 128 + 128 <? 128) eqn:E2; [lia|].
      subst tl n'. rewrite IH.
      * f_equal. f_equal. pose proof (Z.div_mod z 128). lia.
      * replace (Z.of_nat (S n)) with (Z.of_nat n + 1) in Hz by lia.
        rewrite Z.pow_add_r in Hz by lia. change (128 ^ 1) with 128 in Hz.
        split; [apply Z.div_pos; lia|]. apply Z.div_lt_upper_bound; lia.
Qed.

Lemma varint_rt z r : U64 z -> dec_varint (enc_varint z ++ r) = Some (z, r).
Proof.
  intros H. unfold dec_varint, enc_varint. apply enc_varint_aux_rt.
  unfold U64 in H. replace (2 * 128 ^ Z.of_nat 9) with 18446744073709551616 by reflexivity. lia.
Qed.

Lemma enc_varint_nonempty z : (1 <= List.length (enc_varint z))%nat.
Proof. unfold enc_varint; cbn [enc_varint_aux]. destruct (z <? 128); cbn [List.length]; lia. Qed.

Lemma enc_varint_cons z : exists b l, enc_varint z = b :: l.
Proof. pose proof (enc_varint_nonempty z). destruct (enc_varint z); cbn in *; [lia|eauto]. Qed.

(** decoded varints fit in u64 *)
Lemma dec_varint_aux_range n : forall bs z r,
  dec_varint_aux (S n) bs = Some (z, r) -> 0 <= z < 2 * 128 ^ (Z.of_nat n).
Proof.
  induction n as [|n IH]; intros bs z r H; destruct bs as [|b bs]; try discriminate.
  - cbn [dec_varint_aux] in H. pose proof (b2z_range b).
    destruct (b2z b <? 128); [|discriminate].
    destruct (b2z b <? 2) eqn:E; [|discriminate]. injection H as <- <-.
    replace (2 * 128 ^ Z.of_nat 0) with 2 by reflexivity. lia.
  - set (n' := S n) in *. cbn [dec_varint_aux] in H. pose proof (b2z_range b).
    assert (P : 0 < 128 ^ Z.of_nat n) by (apply Z.pow_pos_nonneg; lia).
    replace (Z.of_nat n') with (Z.of_nat n + 1) by (subst n'; lia).
    rewrite Z.pow_add_r by lia. change (128 ^ 1) with 128.
    destruct (b2z b <? 128) eqn:E.
    + subst n'. injection H as <- <-. clear IH. apply Z.ltb_lt in E. revert P. generalize (128 ^ Z.of_nat n). intros. lia.
    + destruct (dec_varint_aux n' bs) as [[x r']|] eqn:E2; [|discriminate].
      injection H as <- <-. apply IH in E2. revert P E2. generalize (128 ^ Z.of_nat n). intros. change (0 <= b2z b - 128 + 128 * x < 2 * (z * 128)). lia.
Qed.
Lemma dec_varint_range bs z r : dec_varint bs = Some (z, r) -> U64 z.
Proof.
  intros H. apply dec_varint_aux_range in H.
  replace (2 * 128 ^ Z.of_nat 9) with 18446744073709551616 in H by reflexivity.
  unfold U64; lia.
Qed.

(** ** scalars *)

Lemma int64_rt v : I64 v -> int64_dec (int_enc v) = v.
Proof.
  intros. unfold int64_dec, int_enc, wrap64. rewrite Zplus_mod_idemp_l.
  fold (wrap64 v). apply wrap64_id; auto.
Qed.
Lemma int32_rt v : I32 v -> int32_dec (int_enc v) = v.
Proof.
  intros. unfold int32_dec, int_enc, wrap32.
  rewrite <- Zplus_mod_idemp_l.
  replace ((v mod two64) mod two32) with (v mod two32).
  - rewrite Zplus_mod_idemp_l. fold (wrap32 v). apply wrap32_id; auto.
  - change two64 with (two32 * two32). rewrite Z.rem_mul_r by (unfold two32; lia).
    rewrite (Z.mul_comm two32), Z_mod_plus_full, Z.mod_mod by (unfold two32; lia). reflexivity.
Qed.
Lemma uint32_rt v : U32 v -> uint32_dec v = v.
Proof. intros; unfold uint32_dec; zl. Qed.
Lemma int_enc_u64 v : U64 (int_enc v).
Proof. unfold int_enc; zl. Qed.
Lemma zag_zig v : zag (zig v) = v.
Proof.
  unfold zag, zig. destruct (0 <=? v) eqn:E.
  - rewrite Z.even_mul. change (Z.even 2) with true. cbn [orb]. rewrite Z.mul_comm, Z.div_mul; lia.
  - replace (-2 * v - 1) with (2 * (- v - 1) + 1) by lia.
    rewrite Z.even_add, Z.even_mul. change (Z.even 2) with true. change (Z.even 1) with false. cbn [orb Bool.eqb].
    replace (2 * (- v - 1) + 1 + 1) with ((- v) * 2) by lia. rewrite Z.div_mul; lia.
Qed.
Lemma sint64_rt v : sint64_dec (zig v) = v.
Proof. apply zag_zig. Qed.
Lemma zig64_u64 v : I64 v -> U64 (zig v).
Proof. intros; unfold zig; destruct (0 <=? v) eqn:E; zl. Qed.
Lemma sint32_rt v : I32 v -> sint32_dec (zig v) = v.
Proof.
  intros H. unfold sint32_dec. rewrite Z.mod_small, zag_zig; auto.
  unfold zig; destruct (0 <=? v) eqn:E; zl.
Qed.
Lemma bool_rt b : bool_dec (bool_enc b) = b.
Proof. destruct b; reflexivity. Qed.
Lemma bool_enc_u64 b : U64 (bool_enc b).
Proof. destruct b; cbn; zl. Qed.
Lemma I32_I64 v : I32 v -> I64 v.
Proof. zl. Qed.
Lemma U32_U64 v : U32 v -> U64 v.
Proof. zl. Qed.

(** ** fields *)

Definition field_ok (f : field) : Prop :=
  1 <= fst f < 536870912 /\
  match snd f with
  | WVarint u => U64 u
  | WBytes b => zlen b < two64
  | WFixed64 b => zlen b = 8
  | WFixed32 b => zlen b = 4
  | WGroup => False
  end.

Lemma dec_key_rt t wt r : 1 <= t < 536870912 -> 0 <= wt <= 5 ->
  dec_key (enc_key t wt ++ r) = Some (t, wt, r).
Proof.
  intros Ht Hw. unfold dec_key, enc_key. rewrite varint_rt by (unfold U64; lia).
  unfold two32. destruct (4294967296 <=? t * 8 + wt) eqn:E; [lia|].
  replace ((t * 8 + wt) mod 8) with wt by (rewrite Z.add_comm, Z.mod_add, Z.mod_small; lia).
  replace ((t * 8 + wt) / 8) with t by (rewrite Z.add_comm, Z.div_add, Z.div_small; lia).
  destruct (5 <? wt) eqn:E2; [lia|]. destruct (t <? 1) eqn:E3; [lia|]. reflexivity.
Qed.

Lemma dec_delimited_rt b r : zlen b < two64 ->
  dec_delimited (enc_varint (zlen b) ++ b ++ r) = Some (b, r).
Proof.
  intros H. unfold dec_delimited. rewrite varint_rt.
  - apply take_exact_app.
  - pose proof (zlen_nonneg b). unfold two64 in H. split; lia.
Qed.

Lemma enc_key_cons t wt : exists b l, enc_key t wt = b :: l.
Proof. apply enc_varint_cons. Qed.

Lemma enc_field_cons f : exists b l, enc_field f = b :: l.
Proof.
  destruct f as [t []]; cbn [enc_field];
  match goal with |- context [enc_key ?a ?b ++ _] => destruct (enc_key_cons a b) as (x & l & ->) end;
  cbn; eauto.
Qed.

Lemma dec_fields_aux_rt fs : forall fuel,
  Forall field_ok fs -> (List.length fs <= fuel)%nat ->
  dec_fields_aux fuel (enc_fields fs) = Some fs.
Proof.
  induction fs as [|f fs IH]; intros fuel Hok Hf.
  - destruct fuel; reflexivity.
  - inversion Hok as [|? ? Hf1 Hfs]; subst. destruct fuel as [|fuel]; [cbn in Hf; lia|].
    cbn [enc_fields flat_map]. fold (enc_fields fs).
    destruct (enc_field_cons f) as (b0 & l0 & E0).
    assert (Hu : dec_fields_aux (S fuel) (enc_field f ++ enc_fields fs) =
      match dec_key (enc_field f ++ enc_fields fs) with
      | None => None
      | Some (t, wt, r) =>
        match dec_value fuel t wt r with
        | None => None
        | Some (v, r') => match dec_fields_aux fuel r' with None => None | Some fs => Some ((t, v) :: fs) end
        end
      end) by (rewrite E0; reflexivity).
    rewrite Hu. clear Hu E0 b0 l0.
    destruct f as [t v]. destruct Hf1 as [Ht Hv]. cbn [fst snd] in *.
    assert (HIH : dec_fields_aux fuel (enc_fields fs) = Some fs) by (apply IH; auto; cbn in Hf; lia).
    destruct v as [u|b|b| |b]; cbn [enc_field]; rewrite <- ?app_assoc.
    + rewrite dec_key_rt by lia. unfold dec_value. cbn [Z.eqb]. rewrite varint_rt, HIH by auto. reflexivity.
    + rewrite dec_key_rt by lia. unfold dec_value. cbn [Z.eqb Pos.eqb].
      rewrite <- Hv, take_exact_app, HIH. reflexivity.
    + rewrite dec_key_rt by lia. unfold dec_value. cbn [Z.eqb Pos.eqb].
      rewrite dec_delimited_rt, HIH by auto. reflexivity.
    + destruct Hv.
    + rewrite dec_key_rt by lia. unfold dec_value. cbn [Z.eqb Pos.eqb].
      rewrite <- Hv, take_exact_app, HIH. reflexivity.
Qed.

Lemma enc_fields_length fs : (List.length fs <= List.length (enc_fields fs))%nat.
Proof.
  induction fs as [|f fs IH]; cbn [enc_fields flat_map List.length]; [lia|].
  fold (enc_fields fs). destruct (enc_field_cons f) as (b & l & ->).
  rewrite app_length. cbn [List.length]. lia.
Qed.

Lemma dec_fields_rt fs : Forall field_ok fs -> dec_fields (enc_fields fs) = Some fs.
Proof. intros H. apply dec_fields_aux_rt; auto. apply enc_fields_length. Qed.

(** shape of a field apart from its length *)
Definition field_shape (f : field) : Prop :=
  1 <= fst f < 536870912 /\
  match snd f with WVarint u => U64 u | WBytes _ => True | _ => False end.

Lemma enc_fields_app a b : enc_fields (a ++ b) = enc_fields a ++ enc_fields b.
Proof. apply flat_map_app. Qed.

Lemma in_fields_len t b fs : In (t, WBytes b) fs -> zlen b <= zlen (enc_fields fs).
Proof.
  induction fs as [|f fs IH]; [intros []|]. intros [->|H]; cbn [enc_fields flat_map]; fold (enc_fields fs);
    rewrite zlen_app.
  - cbn [enc_field]. rewrite !zlen_app. pose proof (zlen_nonneg (enc_key t 2)).
    pose proof (zlen_nonneg (enc_varint (zlen b))). pose proof (zlen_nonneg (enc_fields fs)). lia.
  - apply IH in H. pose proof (zlen_nonneg (enc_field f)). lia.
Qed.

Global Arguments enc_fields : simpl never.
Global Arguments enc_field : simpl never.

Lemma fields_ok_of_shape fs :
  Forall field_shape fs -> zlen (enc_fields fs) < two64 -> Forall field_ok fs.
Proof.
  intros Hs Hl. rewrite Forall_forall in *. intros [t v] Hin.
  specialize (Hs _ Hin). destruct Hs as [H1 H2]. split; [exact H1|]. cbn [snd] in *.
  destruct v; try contradiction; auto. apply in_fields_len in Hin. lia.
Qed.

Lemma merge_all_app {M} (mf : M -> Z -> wval -> option M) a b m :
  merge_all mf (a ++ b) m = match merge_all mf a m with Some m' => merge_all mf b m' | None => None end.
Proof.
  revert m; induction a as [|[t v] a IH]; intros m; cbn; auto.
  destruct (mf m t v); auto.
Qed.

Lemma decode_into_enc {M} (mf : M -> Z -> wval -> option M) m fs :
  Forall field_shape fs -> zlen (enc_fields fs) < two64 ->
  decode_into mf m (enc_fields fs) = merge_all mf fs m.
Proof.
  intros H1 H2. unfold decode_into. rewrite dec_fields_rt; auto. apply fields_ok_of_shape; auto.
Qed.

Lemma dec_varints_rt l : Forall U64 l ->
  forall fuel, (List.length l <= fuel)%nat -> dec_varints_aux fuel (flat_map enc_varint l) = Some l.
Proof.
  induction 1 as [|u l Hu Hl IH]; intros fuel Hf.
  - destruct fuel; reflexivity.
  - destruct fuel as [|fuel]; [cbn in Hf; lia|].
    cbn [flat_map]. destruct (enc_varint_cons u) as (b & r & E).
    assert (Hx : dec_varints_aux (S fuel) (enc_varint u ++ flat_map enc_varint l) =
      match dec_varint (enc_varint u ++ flat_map enc_varint l) with
      | None => None
      | Some (u, r) => match dec_varints_aux fuel r with None => None | Some l => Some (u :: l) end
      end) by (rewrite E; reflexivity).
    rewrite Hx, varint_rt, IH; auto. cbn in Hf; lia.
Qed.
Lemma packed_len l : (List.length l <= List.length (flat_map enc_varint l))%nat.
Proof.
  induction l as [|u l IH]; cbn [flat_map List.length]; [lia|].
  rewrite app_length. pose proof (enc_varint_nonempty u). lia.
Qed.
Lemma dec_packed_rt l : Forall U64 l -> dec_packed (WBytes (flat_map enc_varint l)) = Some l.
Proof. intros H. cbn. apply dec_varints_rt; auto. apply packed_len. Qed.

Lemma map_rt {A B} (P : A -> Prop) (f : A -> B) (g : B -> A) l :
  (forall x, P x -> g (f x) = x) -> Forall P l -> map g (map f l) = l.
Proof. intros H. induction 1; cbn; auto. rewrite H, IHForall; auto. Qed.

Lemma Forall_map_weaken {A B} (P : A -> Prop) (Q : B -> Prop) (f : A -> B) l :
  (forall x, P x -> Q (f x)) -> Forall P l -> Forall Q (map f l).
Proof. intros H. induction 1; cbn; auto. Qed.

(** ** shapes of the field constructors *)
Definition tag_ok (t : Z) := 1 <= t < 536870912.
Definition opt_P {A} (P : A -> Prop) (o : option A) : Prop := match o with Some a => P a | None => True end.

Lemma shape_opt_int t o : tag_ok t -> Forall field_shape (f_opt_int t o).
Proof. destruct o; cbn; auto using int_enc_u64. intros; constructor; auto. split; auto. apply int_enc_u64. Qed.
Lemma shape_opt_uint t o : tag_ok t -> opt_P U32 o -> Forall field_shape (f_opt_uint t o).
Proof. destruct o; cbn; auto. intros; constructor; auto. split; auto. apply U32_U64; auto. Qed.
Lemma shape_opt_bool t o : tag_ok t -> Forall field_shape (f_opt_bool t o).
Proof. destruct o; cbn; auto. intros; constructor; auto. split; auto. apply bool_enc_u64. Qed.
Lemma shape_opt_bytes t o : tag_ok t -> Forall field_shape (f_opt_bytes t o).
Proof. destruct o; cbn; auto. intros; constructor; auto. split; auto. exact I. Qed.
Lemma shape_rep_bytes t l : tag_ok t -> Forall field_shape (f_rep_bytes t l).
Proof. intros; apply Forall_forall. intros f Hf. apply in_map_iff in Hf. destruct Hf as (b & <- & _). split; cbn; auto. Qed.
Lemma shape_packed t l : tag_ok t -> Forall field_shape (f_packed t l).
Proof. destruct l; cbn; auto. intros; constructor; auto. split; auto. exact I. Qed.
Lemma shape_opt_msg {M} (f : M -> list field) t o : tag_ok t -> Forall field_shape (f_opt_msg f t o).
Proof. destruct o; cbn; auto. intros; constructor; auto. split; auto. exact I. Qed.
Lemma shape_rep_msg {M} (f : M -> list field) t l : tag_ok t -> Forall field_shape (f_rep_msg f t l).
Proof. intros; apply Forall_forall. intros x Hf. apply in_map_iff in Hf. destruct Hf as (b & <- & _). split; cbn; auto. Qed.
Lemma shape_one t v : tag_ok t -> match v with WVarint u => U64 u | WBytes _ => True | _ => False end ->
  Forall field_shape [(t, v)].
Proof. intros; constructor; auto. split; auto. Qed.

#[export] Hint Resolve shape_opt_int shape_opt_uint shape_opt_bool shape_opt_bytes shape_rep_bytes
  shape_packed shape_opt_msg shape_rep_msg shape_one : shape.
Ltac tagok := unfold tag_ok; lia.
Ltac shape := repeat (apply Forall_app; split); eauto with shape;
  first [apply shape_opt_int; tagok | apply shape_opt_uint; [tagok|] | apply shape_opt_bool; tagok
        | apply shape_opt_bytes; tagok | apply shape_rep_bytes; tagok | apply shape_packed; tagok
        | apply shape_opt_msg; tagok | apply shape_rep_msg; tagok | apply shape_one; [tagok|] | idtac];
  cbn; auto using int_enc_u64, zig64_u64, bool_enc_u64.

(** nested lengths *)
Lemma sub_len fs t b : In (t, WBytes b) fs -> zlen (enc_fields fs) < two64 -> zlen b < two64.
Proof. intros H1 H2. apply in_fields_len in H1. lia. Qed.

(** ** messages *)

Definition blob_ok (b : blob) : Prop := opt_P I32 (b_raw_size b).

Theorem blob_rt b : blob_ok b -> zlen (blob_encode b) < two64 -> blob_decode (blob_encode b) = Some b.
Proof.
  intros Hok Hl. unfold blob_decode, blob_encode in *. rewrite decode_into_enc; auto.
  - destruct b as [rs d]. unfold blob_ok in Hok; cbn [b_raw_size b_data] in *.
    destruct d as [[]|]; destruct rs; cbn in *; rewrite ?int32_rt; auto.
  - unfold blob_fields. apply Forall_app; split.
    + destruct (b_data b) as [[]|]; auto; apply shape_one; (tagok || exact I).
    + apply shape_opt_int; tagok.
Qed.

Definition blob_header_ok (h : blob_header) : Prop := utf8_ok (bh_type h) = true /\ I32 (bh_datasize h).

Theorem blob_header_rt h : blob_header_ok h -> zlen (blob_header_encode h) < two64 ->
  blob_header_decode (blob_header_encode h) = Some h.
Proof.
  intros [Hu Hd] Hl. unfold blob_header_decode, blob_header_encode in *. rewrite decode_into_enc; auto.
  - destruct h as [ty ix ds]; cbn [bh_type bh_datasize] in *.
    destruct ix; cbn; rewrite Hu; cbn; rewrite int32_rt; auto.
  - unfold blob_header_fields; shape.
Qed.

Definition header_bbox_ok (b : header_bbox) : Prop :=
  I64 (hb_left b) /\ I64 (hb_right b) /\ I64 (hb_top b) /\ I64 (hb_bottom b).

Lemma header_bbox_rt b : header_bbox_ok b -> zlen (enc_fields (header_bbox_fields b)) < two64 ->
  decode_into header_bbox_merge header_bbox_default (enc_fields (header_bbox_fields b)) = Some b.
Proof.
  intros (H1 & H2 & H3 & H4) Hl. rewrite decode_into_enc; auto.
  - destruct b; cbn. rewrite !sint64_rt. reflexivity.
  - unfold header_bbox_fields. repeat constructor; cbn; try tagok; auto using zig64_u64; lia || apply zig64_u64; auto.
Qed.

Definition is_utf8 (b : bytes) : Prop := utf8_ok b = true.
Definition header_block_ok (h : header_block) : Prop :=
  opt_P header_bbox_ok (h_bbox h) /\ Forall is_utf8 (h_required h) /\ Forall is_utf8 (h_optional h) /\
  opt_P is_utf8 (h_program h) /\ opt_P is_utf8 (h_source h) /\ opt_P I64 (h_ts h) /\ opt_P I64 (h_seq h) /\
  opt_P is_utf8 (h_url h).

Theorem header_block_rt h : header_block_ok h -> zlen (header_block_encode h) < two64 ->
  header_block_decode (header_block_encode h) = Some h.
Proof.
  intros Hok Hl. unfold header_block_decode, header_block_encode in *.
  assert (Hbb : opt_P (fun b => zlen (enc_fields (header_bbox_fields b)) < two64) (h_bbox h)).
  { destruct (h_bbox h) eqn:E; cbn; auto. eapply sub_len; [|exact Hl].
    unfold header_block_fields. rewrite E. cbn. left. reflexivity. }
  rewrite decode_into_enc; auto.
  - destruct h as [bb rq op pr so ts sq ur]. destruct Hok as (Hb & Hrq & Hop & Hpr & Hso & Hts & Hsq & Hur).
    unfold header_block_fields; cbn [h_bbox h_required h_optional h_program h_source h_ts h_seq h_url] in *.
    assert (Erq : forall l bb0 rq0 op0 pr0 so0 ts0 sq0 ur0, Forall is_utf8 l ->
      merge_all header_block_merge (f_rep_bytes 4 l) (HeaderBlock bb0 rq0 op0 pr0 so0 ts0 sq0 ur0)
      = Some (HeaderBlock bb0 (rq0 ++ l) op0 pr0 so0 ts0 sq0 ur0)).
    { induction l as [|s l IH]; intros; cbn; [rewrite app_nil_r; reflexivity|].
      inversion H; subst. unfold is_utf8 in *. rewrite H2. cbn. unfold f_rep_bytes in IH.
      rewrite IH by auto. rewrite <- app_assoc. reflexivity. }
    assert (Eop : forall l bb0 rq0 op0 pr0 so0 ts0 sq0 ur0, Forall is_utf8 l ->
      merge_all header_block_merge (f_rep_bytes 5 l) (HeaderBlock bb0 rq0 op0 pr0 so0 ts0 sq0 ur0)
      = Some (HeaderBlock bb0 rq0 (op0 ++ l) pr0 so0 ts0 sq0 ur0)).
    { induction l as [|s l IH]; intros; cbn; [rewrite app_nil_r; reflexivity|].
      inversion H; subst. unfold is_utf8 in *. rewrite H2. cbn. unfold f_rep_bytes in IH.
      rewrite IH by auto. rewrite <- app_assoc. reflexivity. }
    rewrite merge_all_app.
    change (match bb with Some b => [(1, WBytes (enc_fields (header_bbox_fields b)))] | None => [] end)
      with (f_opt_msg header_bbox_fields 1 bb).
    assert (E1 : merge_all header_block_merge (f_opt_msg header_bbox_fields 1 bb)
       header_block_default = Some (HeaderBlock bb [] [] None None None None None)).
    { destruct bb as [b|]; [|reflexivity]. cbn in Hb, Hbb. cbn. rewrite header_bbox_rt; auto. }
    rewrite E1, merge_all_app, Erq, merge_all_app, Eop by auto. cbn [app].
    unfold opt_P, is_utf8 in *. destruct pr, so, ts, sq, ur; cbn;
      rewrite ?Hpr; cbn; rewrite ?Hso; cbn; rewrite ?int64_rt by auto; cbn; rewrite ?Hur; cbn;
      rewrite ?int64_rt by auto; reflexivity.
  - unfold header_block_fields. shape.
Qed.

Lemma string_table_rt s : zlen (enc_fields (string_table_fields s)) < two64 ->
  decode_into string_table_merge [] (enc_fields (string_table_fields s)) = Some s.
Proof.
  intros Hl. rewrite decode_into_enc; auto.
  - unfold string_table_fields.
    assert (E : forall l s0, merge_all string_table_merge (f_rep_bytes 1 l) s0 = Some (s0 ++ l)).
    { induction l as [|b l IH]; intros; cbn; [rewrite app_nil_r; reflexivity|].
      unfold f_rep_bytes in IH. rewrite IH, <- app_assoc. reflexivity. }
    apply E.
  - apply shape_rep_bytes; tagok.
Qed.

Definition info_ok (i : info) : Prop :=
  opt_P I32 (i_version i) /\ opt_P I64 (i_timestamp i) /\ opt_P I64 (i_changeset i) /\
  opt_P I32 (i_uid i) /\ opt_P U32 (i_user_sid i).

Lemma info_rt i : info_ok i -> zlen (enc_fields (info_fields i)) < two64 ->
  decode_into info_merge info_default (enc_fields (info_fields i)) = Some i.
Proof.
  intros (H1 & H2 & H3 & H4 & H5) Hl. rewrite decode_into_enc; auto.
  - destruct i as [ve ts cs ui us vi]; unfold opt_P in *; cbn [i_version i_timestamp i_changeset i_uid i_user_sid] in *.
    destruct ve, ts, cs, ui, us, vi; cbn;
      rewrite ?int32_rt, ?int64_rt, ?uint32_rt, ?bool_rt by auto; reflexivity.
  - unfold info_fields; shape.
Qed.

(** packed field merge *)
Lemma merge_packed {M} (mf : M -> Z -> wval -> option M) t l m (upd : list Z -> M) :
  Forall U64 l ->
  (forall v, mf m t v = omap upd (dec_packed v)) ->
  upd [] = m ->
  merge_all mf (f_packed t l) m = Some (upd l).
Proof.
  intros Hl Hm Hn. destruct l as [|u l].
  - cbn. rewrite Hn. reflexivity.
  - unfold f_packed. cbn [merge_all]. rewrite Hm, dec_packed_rt by auto. reflexivity.
Qed.

Definition dense_info_ok (d : dense_info) : Prop :=
  Forall I32 (di_version d) /\ Forall I64 (di_timestamp d) /\ Forall I64 (di_changeset d) /\
  Forall I32 (di_uid d) /\ Forall I32 (di_user_sid d).

Lemma u64_int l : Forall U64 (map int_enc l).
Proof. apply Forall_forall. intros x Hx. apply in_map_iff in Hx. destruct Hx as (y & <- & _). apply int_enc_u64. Qed.
Lemma u64_zig l : Forall I64 l -> Forall U64 (map zig l).
Proof. apply Forall_map_weaken. apply zig64_u64. Qed.
Lemma u64_zig32 l : Forall I32 l -> Forall U64 (map zig l).
Proof. apply Forall_map_weaken. intros; apply zig64_u64, I32_I64; auto. Qed.
Lemma u64_bool l : Forall U64 (map bool_enc l).
Proof. apply Forall_forall. intros x Hx. apply in_map_iff in Hx. destruct Hx as (y & <- & _). apply bool_enc_u64. Qed.
Lemma u64_u32 l : Forall U32 l -> Forall U64 l.
Proof. apply Forall_impl. apply U32_U64. Qed.
Lemma map_sint64 l : map sint64_dec (map zig l) = l.
Proof. induction l; cbn; auto. rewrite sint64_rt, IHl; auto. Qed.
Lemma map_sint32 l : Forall I32 l -> map sint32_dec (map zig l) = l.
Proof. apply map_rt. apply sint32_rt. Qed.
Lemma map_int32 l : Forall I32 l -> map int32_dec (map int_enc l) = l.
Proof. apply map_rt. apply int32_rt. Qed.
Lemma map_uint32 l : Forall U32 l -> map uint32_dec l = l.
Proof. induction 1; cbn; auto. rewrite uint32_rt, IHForall; auto. Qed.
Lemma map_bool l : map bool_dec (map bool_enc l) = l.
Proof. induction l; cbn; auto. rewrite bool_rt, IHl; auto. Qed.

Ltac packed u :=
  rewrite merge_all_app, (merge_packed _ _ _ _ u);
  [ | auto using u64_int, u64_zig, u64_zig32, u64_bool, u64_u32 | intros; reflexivity
    | cbn; rewrite ?app_nil_r; reflexivity ].
Ltac packed_last u :=
  rewrite (merge_packed _ _ _ _ u);
  [ | auto using u64_int, u64_zig, u64_zig32, u64_bool, u64_u32 | intros; reflexivity
    | cbn; rewrite ?app_nil_r; reflexivity ].

Lemma dense_info_rt d : dense_info_ok d -> zlen (enc_fields (dense_info_fields d)) < two64 ->
  decode_into dense_info_merge dense_info_default (enc_fields (dense_info_fields d)) = Some d.
Proof.
  intros (H1 & H2 & H3 & H4 & H5) Hl. rewrite decode_into_enc; auto.
  - destruct d as [ve ts cs ui us vi]. unfold dense_info_fields, dense_info_default.
    cbn [di_version di_timestamp di_changeset di_uid di_user_sid di_visible] in *.
    packed (fun l => DenseInfo ([] ++ map int32_dec l) [] [] [] [] []).
    packed (fun l => DenseInfo ([] ++ map int32_dec (map int_enc ve)) ([] ++ map sint64_dec l) [] [] [] []).
    rewrite map_sint64.
    packed (fun l => DenseInfo ([] ++ map int32_dec (map int_enc ve)) ([] ++ ts) ([] ++ map sint64_dec l) [] [] []).
    packed (fun l => DenseInfo ([] ++ map int32_dec (map int_enc ve)) ([] ++ ts) ([] ++ map sint64_dec (map zig cs)) ([] ++ map sint32_dec l) [] []).
    packed (fun l => DenseInfo ([] ++ map int32_dec (map int_enc ve)) ([] ++ ts) ([] ++ map sint64_dec (map zig cs))
       ([] ++ map sint32_dec (map zig ui)) ([] ++ map sint32_dec l) []).
    packed_last (fun l => DenseInfo ([] ++ map int32_dec (map int_enc ve)) ([] ++ ts) ([] ++ map sint64_dec (map zig cs))
       ([] ++ map sint32_dec (map zig ui)) ([] ++ map sint32_dec (map zig us)) ([] ++ map bool_dec l)).
    cbn [app]. rewrite map_sint64, map_int32, !map_sint32, map_bool by auto. reflexivity.
  - unfold dense_info_fields; shape.
Qed.

Lemma changeset_rt c : I64 c -> zlen (enc_fields (changeset_fields c)) < two64 ->
  decode_into changeset_merge 0 (enc_fields (changeset_fields c)) = Some c.
Proof.
  intros H Hl. rewrite decode_into_enc; auto.
  - cbn. rewrite int64_rt; auto.
  - unfold changeset_fields. apply shape_one; [tagok|apply int_enc_u64].
Qed.

Lemma sub_opt_msg {M} (f : M -> list field) t o a b :
  zlen (enc_fields (a ++ f_opt_msg f t o ++ b)) < two64 -> opt_P (fun m => zlen (enc_fields (f m)) < two64) o.
Proof.
  destruct o; cbn; auto. intros H. eapply sub_len; [|exact H].
  apply in_or_app. right. left. reflexivity.
Qed.
Lemma sub_rep_msg {M} (f : M -> list field) t l a b :
  zlen (enc_fields (a ++ f_rep_msg f t l ++ b)) < two64 -> Forall (fun m => zlen (enc_fields (f m)) < two64) l.
Proof.
  intros H. apply Forall_forall. intros m Hm. eapply sub_len; [|exact H].
  apply in_or_app. right. apply in_or_app. left.
  unfold f_rep_msg. apply in_map_iff. exists m. split; [reflexivity|exact Hm].
Qed.

Definition pnode_ok (n : pnode) : Prop :=
  I64 (pn_id n) /\ Forall U32 (pn_keys n) /\ Forall U32 (pn_vals n) /\ opt_P info_ok (pn_info n) /\
  I64 (pn_lat n) /\ I64 (pn_lon n).

Lemma pnode_rt n : pnode_ok n -> zlen (enc_fields (pnode_fields n)) < two64 ->
  decode_into pnode_merge pnode_default (enc_fields (pnode_fields n)) = Some n.
Proof.
  intros (H1 & H2 & H3 & H4 & H5 & H6) Hl.
  assert (Hsub : opt_P (fun m => zlen (enc_fields (info_fields m)) < two64) (pn_info n)).
  { unfold pnode_fields in Hl. rewrite 2 app_assoc in Hl. apply sub_opt_msg in Hl. exact Hl. }
  rewrite decode_into_enc; auto.
  - destruct n as [id ks vs inf la lo]. unfold pnode_fields, pnode_default.
    cbn [pn_id pn_keys pn_vals pn_info pn_lat pn_lon] in *.
    rewrite merge_all_app. cbn [merge_all pnode_merge Z.eqb Pos.eqb as_varint omap].
    rewrite sint64_rt.
    packed (fun l => PNode id ([] ++ map uint32_dec l) [] None 0 0).
    packed (fun l => PNode id ([] ++ map uint32_dec ks) ([] ++ map uint32_dec l) None 0 0).
    rewrite !map_uint32 by auto. cbn [app].
    destruct inf as [i|]; cbn in H4, Hsub; cbn.
    + rewrite info_rt by auto. cbn. rewrite !sint64_rt. reflexivity.
    + rewrite !sint64_rt. reflexivity.
  - unfold pnode_fields; shape.
Qed.

Definition dense_ok (d : dense) : Prop :=
  Forall I64 (d_id d) /\ opt_P dense_info_ok (d_info d) /\ Forall I64 (d_lat d) /\ Forall I64 (d_lon d) /\
  Forall I32 (d_kv d).

Lemma dense_rt d : dense_ok d -> zlen (enc_fields (dense_fields d)) < two64 ->
  decode_into dense_merge dense_default (enc_fields (dense_fields d)) = Some d.
Proof.
  intros (H1 & H2 & H3 & H4 & H5) Hl.
  assert (Hsub : opt_P (fun m => zlen (enc_fields (dense_info_fields m)) < two64) (d_info d)).
  { unfold dense_fields in Hl. apply sub_opt_msg in Hl. exact Hl. }
  rewrite decode_into_enc; auto.
  - destruct d as [id inf la lo kv]. unfold dense_fields, dense_default.
    cbn [d_id d_info d_lat d_lon d_kv] in *.
    packed (fun l => Dense ([] ++ map sint64_dec l) None [] [] []).
    rewrite map_sint64. cbn [app].
    assert (E : merge_all dense_merge (f_opt_msg dense_info_fields 5 inf) (Dense id None [] [] [])
       = Some (Dense id inf [] [] [])).
    { destruct inf as [i|]; [|reflexivity]. cbn in H2, Hsub. cbn. rewrite dense_info_rt by auto. reflexivity. }
    rewrite merge_all_app, E.
    packed (fun l => Dense id inf ([] ++ map sint64_dec l) [] []).
    packed (fun l => Dense id inf ([] ++ map sint64_dec (map zig la)) ([] ++ map sint64_dec l) []).
    packed_last (fun l => Dense id inf ([] ++ map sint64_dec (map zig la)) ([] ++ map sint64_dec (map zig lo)) ([] ++ map int32_dec l)).
    rewrite !map_sint64, map_int32 by auto. reflexivity.
  - unfold dense_fields; shape.
Qed.

Definition pway_ok (w : pway) : Prop :=
  I64 (pw_id w) /\ Forall U32 (pw_keys w) /\ Forall U32 (pw_vals w) /\ opt_P info_ok (pw_info w) /\
  Forall I64 (pw_refs w) /\ Forall I64 (pw_lat w) /\ Forall I64 (pw_lon w).

Lemma pway_rt w : pway_ok w -> zlen (enc_fields (pway_fields w)) < two64 ->
  decode_into pway_merge pway_default (enc_fields (pway_fields w)) = Some w.
Proof.
  intros (H1 & H2 & H3 & H4 & H5 & H6 & H7) Hl.
  assert (Hsub : opt_P (fun m => zlen (enc_fields (info_fields m)) < two64) (pw_info w)).
  { unfold pway_fields in Hl. rewrite 2 app_assoc in Hl. apply sub_opt_msg in Hl. exact Hl. }
  rewrite decode_into_enc; auto.
  - destruct w as [id ks vs inf rf la lo]. unfold pway_fields, pway_default.
    cbn [pw_id pw_keys pw_vals pw_info pw_refs pw_lat pw_lon] in *.
    rewrite merge_all_app. cbn [merge_all pway_merge Z.eqb Pos.eqb as_varint omap].
    rewrite int64_rt by auto.
    packed (fun l => PWay id ([] ++ map uint32_dec l) [] None [] [] []).
    packed (fun l => PWay id ([] ++ map uint32_dec ks) ([] ++ map uint32_dec l) None [] [] []).
    rewrite !map_uint32 by auto. cbn [app].
    assert (E : merge_all pway_merge (f_opt_msg info_fields 4 inf) (PWay id ks vs None [] [] [])
       = Some (PWay id ks vs inf [] [] [])).
    { destruct inf as [i|]; [|reflexivity]. cbn in H4, Hsub. cbn. rewrite info_rt by auto. reflexivity. }
    rewrite merge_all_app, E.
    packed (fun l => PWay id ks vs inf ([] ++ map sint64_dec l) [] []).
    packed (fun l => PWay id ks vs inf ([] ++ map sint64_dec (map zig rf)) ([] ++ map sint64_dec l) []).
    packed_last (fun l => PWay id ks vs inf ([] ++ map sint64_dec (map zig rf)) ([] ++ map sint64_dec (map zig la)) ([] ++ map sint64_dec l)).
    rewrite !map_sint64. reflexivity.
  - unfold pway_fields; shape.
Qed.

Definition prelation_ok (r : prelation) : Prop :=
  I64 (pr_id r) /\ Forall U32 (pr_keys r) /\ Forall U32 (pr_vals r) /\ opt_P info_ok (pr_info r) /\
  Forall I32 (pr_roles r) /\ Forall I64 (pr_memids r) /\ Forall I32 (pr_types r).

Lemma prelation_rt r : prelation_ok r -> zlen (enc_fields (prelation_fields r)) < two64 ->
  decode_into prelation_merge prelation_default (enc_fields (prelation_fields r)) = Some r.
Proof.
  intros (H1 & H2 & H3 & H4 & H5 & H6 & H7) Hl.
  assert (Hsub : opt_P (fun m => zlen (enc_fields (info_fields m)) < two64) (pr_info r)).
  { unfold prelation_fields in Hl. rewrite 2 app_assoc in Hl. apply sub_opt_msg in Hl. exact Hl. }
  rewrite decode_into_enc; auto.
  - destruct r as [id ks vs inf ro me ty]. unfold prelation_fields, prelation_default.
    cbn [pr_id pr_keys pr_vals pr_info pr_roles pr_memids pr_types] in *.
    rewrite merge_all_app. cbn [merge_all prelation_merge Z.eqb Pos.eqb as_varint omap].
    rewrite int64_rt by auto.
    packed (fun l => PRelation id ([] ++ map uint32_dec l) [] None [] [] []).
    packed (fun l => PRelation id ([] ++ map uint32_dec ks) ([] ++ map uint32_dec l) None [] [] []).
    rewrite !map_uint32 by auto. cbn [app].
    assert (E : merge_all prelation_merge (f_opt_msg info_fields 4 inf) (PRelation id ks vs None [] [] [])
       = Some (PRelation id ks vs inf [] [] [])).
    { destruct inf as [i|]; [|reflexivity]. cbn in H4, Hsub. cbn. rewrite info_rt by auto. reflexivity. }
    rewrite merge_all_app, E.
    packed (fun l => PRelation id ks vs inf ([] ++ map int32_dec l) [] []).
    packed (fun l => PRelation id ks vs inf ([] ++ map int32_dec (map int_enc ro)) ([] ++ map sint64_dec l) []).
    packed_last (fun l => PRelation id ks vs inf ([] ++ map int32_dec (map int_enc ro)) ([] ++ map sint64_dec (map zig me)) ([] ++ map int32_dec l)).
    rewrite !map_sint64, !map_int32 by auto. reflexivity.
  - unfold prelation_fields; shape.
Qed.

(** repeated message merge *)
Lemma merge_rep_msg {M N} (mf : N -> Z -> wval -> option N) (smf : M -> Z -> wval -> option M) d (fields : M -> list field)
  t (get : list M -> N) l :
  (forall x, In x l -> decode_into smf d (enc_fields (fields x)) = Some x) ->
  (forall acc v, mf (get acc) t v = omap (fun x => get (acc ++ [x])) (merge_msg smf d v)) ->
  forall acc, merge_all mf (f_rep_msg fields t l) (get acc) = Some (get (acc ++ l)).
Proof.
  intros Hd Hm. induction l as [|x l IH]; intros acc.
  - cbn. rewrite app_nil_r. reflexivity.
  - cbn [f_rep_msg map merge_all]. rewrite Hm. cbn [merge_msg]. rewrite Hd by (left; reflexivity). cbn [omap].
    fold (f_rep_msg fields t l). rewrite IH by (intros; apply Hd; right; auto).
    rewrite <- app_assoc. reflexivity.
Qed.

Definition pgroup_ok (g : pgroup) : Prop :=
  Forall pnode_ok (g_nodes g) /\ opt_P dense_ok (g_dense g) /\ Forall pway_ok (g_ways g) /\
  Forall prelation_ok (g_relations g) /\ Forall I64 (g_changesets g).

Lemma pgroup_rt g : pgroup_ok g -> zlen (enc_fields (pgroup_fields g)) < two64 ->
  decode_into pgroup_merge pgroup_default (enc_fields (pgroup_fields g)) = Some g.
Proof.
  intros (H1 & H2 & H3 & H4 & H5) Hl.
  pose proof Hl as Hl1. unfold pgroup_fields in Hl1.
  assert (L1 := sub_rep_msg pnode_fields 1 (g_nodes g) [] _ Hl1).
  assert (L2 := sub_opt_msg dense_fields 2 (g_dense g) _ _ Hl1).
  rewrite app_assoc in Hl1. assert (L3 := sub_rep_msg pway_fields 3 (g_ways g) _ _ Hl1).
  rewrite app_assoc in Hl1. assert (L4 := sub_rep_msg prelation_fields 4 (g_relations g) _ _ Hl1).
  rewrite app_assoc in Hl1. rewrite <- (app_nil_r (f_rep_msg changeset_fields 5 _)) in Hl1.
  assert (L5 := sub_rep_msg changeset_fields 5 (g_changesets g) _ _ Hl1).
  rewrite Forall_forall in *.
  rewrite decode_into_enc; auto.
  - destruct g as [ns d ws rs cs]. unfold pgroup_fields, pgroup_default.
    cbn [g_nodes g_dense g_ways g_relations g_changesets] in *.
    rewrite merge_all_app, (merge_rep_msg _ pnode_merge pnode_default pnode_fields 1 (fun l => PGroup l None [] [] []));
      [|intros; apply pnode_rt; auto|intros; reflexivity].
    cbn [app].
    assert (E : merge_all pgroup_merge (f_opt_msg dense_fields 2 d) (PGroup ns None [] [] []) = Some (PGroup ns d [] [] [])).
    { destruct d as [x|]; [|reflexivity]. cbn in H2, L2. cbn. rewrite dense_rt by auto. reflexivity. }
    rewrite merge_all_app, E.
    rewrite merge_all_app, (merge_rep_msg _ pway_merge pway_default pway_fields 3 (fun l => PGroup ns d l [] []));
      [|intros; apply pway_rt; auto|intros; reflexivity].
    rewrite merge_all_app, (merge_rep_msg _ prelation_merge prelation_default prelation_fields 4 (fun l => PGroup ns d ([] ++ ws) l []));
      [|intros; apply prelation_rt; auto|intros; reflexivity].
    rewrite (merge_rep_msg _ changeset_merge 0 changeset_fields 5 (fun l => PGroup ns d ([] ++ ws) ([] ++ rs) l));
      [|intros; apply changeset_rt; auto|intros; reflexivity].
    reflexivity.
  - unfold pgroup_fields; shape.
Qed.

Definition pblock_ok (b : pblock) : Prop :=
  Forall pgroup_ok (pb_groups b) /\ opt_P I32 (pb_granularity b) /\ opt_P I64 (pb_lat_offset b) /\
  opt_P I64 (pb_lon_offset b) /\ opt_P I32 (pb_date_granularity b).

Theorem pblock_rt b : pblock_ok b -> zlen (pblock_encode b) < two64 -> pblock_decode (pblock_encode b) = Some b.
Proof.
  intros (H1 & H2 & H3 & H4 & H5) Hl. unfold pblock_decode, pblock_encode in *.
  pose proof Hl as Hl1. unfold pblock_fields in Hl1.
  assert (L2 := sub_rep_msg pgroup_fields 2 (pb_groups b) _ _ Hl1).
  assert (L1 : zlen (enc_fields (string_table_fields (pb_strings b))) < two64).
  { eapply sub_len; [|exact Hl1]. left. reflexivity. }
  rewrite Forall_forall in *.
  rewrite decode_into_enc; auto.
  - destruct b as [st gs gr la lo dg]. unfold pblock_fields, pblock_default.
    cbn [pb_strings pb_groups pb_granularity pb_lat_offset pb_lon_offset pb_date_granularity] in *.
    rewrite merge_all_app. cbn [merge_all pblock_merge Z.eqb Pos.eqb merge_msg].
    rewrite string_table_rt by auto. cbn [omap].
    rewrite merge_all_app, (merge_rep_msg _ pgroup_merge pgroup_default pgroup_fields 2 (fun l => PBlock st l None None None None));
      [|intros; apply pgroup_rt; auto|intros; reflexivity].
    cbn [app]. unfold opt_P in *. destruct gr, la, lo, dg; cbn; rewrite ?int32_rt, ?int64_rt by auto; reflexivity.
  - unfold pblock_fields; shape.
Qed.
