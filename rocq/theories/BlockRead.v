(** The block reader implements FormatSpec. *)
From Coq Require Import ZArith List Bool Strings.Byte Strings.String Lia ZifyBool.
From Verif Require Import Base BaseFacts Types Proto ProtoFacts Block BlockFacts FormatSpec.
Import ListNotations.
Open Scope Z_scope.
Local Notation length := List.length.

Tactic Notation "bok" hyp(H) ident(x) ident(E) := apply bind_ok in H; destruct H as (x & E & H).

Lemma arith64_cong m z d : arith64 m z = Ok d -> cong64 d z.
Proof.
  intros H. split; [eapply arith64_range; eauto|]. unfold arith64 in H. destruct (in_i64 z).
  - injection H as <-. exists 0. lia.
  - destruct m; [discriminate|]. injection H as <-. unfold wrap64, two63, two64.
    exists (- ((z + 9223372036854775808) / 18446744073709551616)).
    pose proof (Z.div_mod (z + 9223372036854775808) 18446744073709551616 ltac:(lia)). lia.
Qed.
Lemma arith32_cong m z d : arith32 m z = Ok d -> cong32 d z.
Proof.
  intros H. split; [eapply arith32_range; eauto|]. unfold arith32 in H. destruct (in_i32 z).
  - injection H as <-. exists 0. lia.
  - destruct m; [discriminate|]. injection H as <-. unfold wrap32, two31, two32.
    exists (- ((z + 2147483648) / 4294967296)).
    pose proof (Z.div_mod (z + 2147483648) 4294967296 ltac:(lia)). lia.
Qed.
Lemma cong64_trans_add a s S x : cong64 a (s + x) -> cong64 s S -> cong64 a (S + x).
Proof. intros [A [q Q]] [_ [p P]]. split; auto. exists (q + p). lia. Qed.
Lemma cong32_trans_add a s S x : cong32 a (s + x) -> cong32 s S -> cong32 a (S + x).
Proof. intros [A [q Q]] [_ [p P]]. split; auto. exists (q + p). lia. Qed.
Lemma cong64_mul a s S x : cong64 a (s * x) -> cong64 s S -> cong64 a (S * x).
Proof. intros [A [q Q]] [_ [p P]]. split; auto. exists (q + p * x). nia. Qed.
Lemma cong64_unique a b z : cong64 a z -> cong64 b z -> a = b.
Proof. intros [A [q Q]] [B [p P]]. unfold I64 in *. assert (q = p) by lia. lia. Qed.
Lemma cong32_unique a b z : cong32 a z -> cong32 b z -> a = b.
Proof. intros [A [q Q]] [B [p P]]. unfold I32 in *. assert (q = p) by lia. lia. Qed.
Lemma cong64_exact a z : cong64 a z -> I64 z -> a = z.
Proof. intros [A [q Q]] B. unfold I64 in *. lia. Qed.
Lemma cong32_exact a z : cong32 a z -> I32 z -> a = z.
Proof. intros [A [q Q]] B. unfold I32 in *. lia. Qed.

Lemma index_entry st i s : index st i = Ok s <-> entry st i s.
Proof. apply index_nth. Qed.
Lemma index_not_err {A} (l : list A) i : index l i <> Err.
Proof. unfold index. destruct (i <? 0); [discriminate|]. destruct (zlen l <=? i); [discriminate|]. destruct (nth_error l (Z.to_nat i)); discriminate. Qed.
Lemma index_nat {A} (l : list A) i a : index l (Z.of_nat i) = Ok a <-> nth_error l i = Some a.
Proof. rewrite index_nth, Nat2Z.id. split; [tauto|]. intros; split; [lia|auto]. Qed.

Lemma dec_coord_means m gran off x v : dec_coord m gran off x = Ok v -> degrees_of gran off x v.
Proof.
  unfold dec_coord. intros H. bok H p E1. bok H s E2. injection H as <-.
  exists s. split; auto. apply arith64_cong in E1, E2.
  rewrite Z.add_comm in E2. rewrite Z.add_comm. eapply cong64_trans_add; eauto.
Qed.
Lemma dec_coord_cong m gran off x X v : dec_coord m gran off x = Ok v -> cong64 x X -> degrees_of gran off X v.
Proof.
  intros H C. apply dec_coord_means in H. destruct H as (z & Z & ->). exists z. split; auto.
  destruct Z as [A [q Q]], C as [_ [p P]]. split; auto. exists (q + gran * p). nia.
Qed.

Lemma read_kv_means st n : forall kv ts rest, (length kv <= n)%nat -> read_kv st kv = Ok (ts, rest) -> kv_means st kv ts rest.
Proof.
  induction n as [|n IH]; intros kv ts rest L H; destruct kv as [|k r]; cbn [length] in L; try lia; cbn [read_kv] in H.
  - injection H as <- <-. constructor.
  - injection H as <- <-. constructor.
  - destruct (k =? 0) eqn:K.
    + injection H as <- <-. assert (k = 0) by lia. subst. constructor.
    + destruct r as [|v r]; [discriminate|]. bok H ks E1. bok H vs E2. bok H p E3. destruct p as [ts' rest'].
      injection H as <- <-. constructor; [lia| |].
      * split; cbn; apply index_entry; auto.
      * apply IH; auto. cbn [length] in L. lia.
Qed.

Lemma psum_0 l x : nth_error l 0 = Some x -> psum l 0 = 0 + x.
Proof. destruct l; cbn; [discriminate|]. intros [= ->]. unfold psum; cbn. lia. Qed.
Lemma sum_app l : forall a, fold_right Z.add 0 (l ++ [a]) = fold_right Z.add 0 l + a.
Proof. induction l; cbn; intros; [lia|]. rewrite IHl. lia. Qed.
Definition psum0 (l : list Z) (i : nat) : Z := fold_right Z.add 0 (firstn i l).
Lemma psum_S l i x : nth_error l i = Some x -> psum l i = psum0 l i + x.
Proof.
  unfold psum, psum0. intros H. assert (L : (i < length l)%nat) by (apply nth_error_Some; congruence).
  assert (E : firstn (S i) l = firstn i l ++ [x]).
  { revert i H L. induction l as [|y l IH]; intros [|i]; cbn; intros H L; try discriminate.
    - injection H as ->. destruct l; reflexivity.
    - f_equal. apply IH; auto. lia. }
  rewrite E. apply sum_app.
Qed.
Lemma psum0_S l i : psum0 l (S i) = psum l i.
Proof. reflexivity. Qed.

Lemma psum_cong64 l i x a s : nth_error l i = Some x -> cong64 a (s + x) -> cong64 s (psum0 l i) -> cong64 a (psum l i).
Proof. intros H A S. rewrite (psum_S _ _ _ H). eapply cong64_trans_add; eauto. Qed.
Lemma psum_cong32 l i x a s : nth_error l i = Some x -> cong32 a (s + x) -> cong32 s (psum0 l i) -> cong32 a (psum l i).
Proof. intros H A S. rewrite (psum_S _ _ _ H). eapply cong32_trans_add; eauto. Qed.

Lemma cong64_0 : cong64 0 0.
Proof. split; [apply I64_0|exists 0; lia]. Qed.
Lemma cong32_0 : cong32 0 0.
Proof. split; [unfold I32; lia|exists 0; lia]. Qed.

(** accumulators before node [i] *)
Definition acc_ok (d : dense) (i : nat) (s : dstate) : Prop :=
  cong64 (ds_id s) (psum0 (d_id d) i) /\ cong64 (ds_lat s) (psum0 (d_lat d) i) /\ cong64 (ds_lon s) (psum0 (d_lon d) i) /\
  match d_info d with
  | None => ds_ts s = 0 /\ ds_cs s = -1 /\ ds_uid s = -1 /\ ds_visible s = true
  | Some inf => cong64 (ds_ts_acc s) (psum0 (di_timestamp inf) i) /\ cong64 (ds_cs s) (psum0 (di_changeset inf) i) /\
                cong32 (ds_uid s) (psum0 (di_uid inf) i) /\ cong32 (ds_sid s) (psum0 (di_user_sid inf) i)
  end.

Lemma read_dense_one_means m st gran date lat_off lon_off d i idd s n s' :
  acc_ok d i s -> nth_error (d_id d) i = Some idd ->
  read_dense_one m st gran date lat_off lon_off d (Z.of_nat i) idd s = Ok (n, s') ->
  acc_ok d (S i) s' /\ dense_node_means st gran date lat_off lon_off d i n /\ kv_means st (ds_kv s) (n_tags n) (ds_kv s').
Proof.
  intros (A1 & A2 & A3 & A4) N H. unfold read_dense_one in H.
  bok H id E1. bok H dla E2. bok H la E3. bok H dlo E4. bok H lo E5. bok H info E6.
  destruct info as [[[[[[[tsa ts] cs] uid] sid] vis] ver] user].
  bok H kvr E7. destruct kvr as [tags kv]. bok H flat E8. bok H flon E9. injection H as <- <-.
  apply index_nat in E2, E4. apply arith64_cong in E1, E3, E5.
  assert (C1 : cong64 id (psum (d_id d) i)) by (eapply psum_cong64; eauto).
  assert (C2 : cong64 la (psum (d_lat d) i)) by (eapply psum_cong64; eauto).
  assert (C3 : cong64 lo (psum (d_lon d) i)) by (eapply psum_cong64; eauto).
  apply read_kv_means with (n := length (ds_kv s)) in E7; auto.
  unfold acc_ok, dense_node_means. cbn [ds_id ds_lat ds_lon ds_kv n_id n_coord lat lon n_tags n_version n_timestamp n_changeset n_uid n_user n_visible ds_ts ds_cs ds_uid ds_visible ds_ts_acc ds_sid].
  rewrite !psum0_S.
  assert (D1 := dec_coord_cong _ _ _ _ _ _ E8 C2). assert (D2 := dec_coord_cong _ _ _ _ _ _ E9 C3).
  destruct (d_info d) as [inf|].
  - bok E6 dts F1. bok E6 tsa' F2. bok E6 ts' F3. bok E6 dcs F4. bok E6 cs' F5. bok E6 dui F6. bok E6 uid' F7.
    bok E6 dsi F8. bok E6 sid' F9. bok E6 vis' F10. bok E6 ver' F11. bok E6 user' F12.
    injection E6 as <- <- <- <- <- <- <- <-.
    apply index_nat in F1, F4, F6, F8, F11. apply arith64_cong in F2, F3, F5. apply arith32_cong in F7, F9.
    destruct A4 as (B1 & B2 & B3 & B4).
    assert (G1 : cong64 tsa' (psum (di_timestamp inf) i)) by (eapply psum_cong64; eauto).
    assert (G2 : cong64 cs' (psum (di_changeset inf) i)) by (eapply psum_cong64; eauto).
    assert (G3 : cong32 uid' (psum (di_uid inf) i)) by (eapply psum_cong32; eauto).
    assert (G4 : cong32 sid' (psum (di_user_sid inf) i)) by (eapply psum_cong32; eauto).
    assert (G5 : vis' = match nth_error (di_visible inf) i with Some v => v | None => true end).
    { destruct (Z.of_nat i <? zlen (di_visible inf)) eqn:Q.
      - apply index_nat in F10. rewrite F10. reflexivity.
      - injection F10 as <-. destruct (nth_error (di_visible inf) i) eqn:Q2; auto.
        assert (i < length (di_visible inf))%nat by (apply nth_error_Some; congruence). unfold zlen in Q. lia. }
    unfold has_entry. sconj; auto; try (apply nth_error_Some; congruence).
    + eapply cong64_mul; eauto.
    + exists sid'. split; auto. apply index_entry; auto.
  - injection E6 as <- <- <- <- <- <- <- <-. destruct A4 as (B1 & B2 & B3 & B4). rewrite B1, B2, B3, B4. unfold has_entry. sconj; auto; apply nth_error_Some; congruence.
Qed.

Lemma read_dense_loop_means m st gran date lat_off lon_off d : forall ids i s ns,
  acc_ok d i s -> (exists pre, d_id d = pre ++ ids /\ length pre = i) ->
  read_dense_loop m st gran date lat_off lon_off d (Z.of_nat i) ids s = Ok ns ->
  dense_from st gran date lat_off lon_off d i (ds_kv s) ns.
Proof.
  induction ids as [|idd ids IH]; intros i s ns A (pre & P & L) H; cbn [read_dense_loop] in H.
  - injection H as <-. cbn. rewrite P, app_nil_r. lia.
  - bok H p E. destruct p as [n s']. bok H ns' E'. injection H as <-.
    assert (N : nth_error (d_id d) i = Some idd).
    { rewrite P, nth_error_app2, L, Nat.sub_diag by lia. reflexivity. }
    destruct (read_dense_one_means _ _ _ _ _ _ _ _ _ _ _ _ A N E) as (A' & M & K).
    cbn [dense_from]. split; [apply nth_error_Some; congruence|]. split; auto. exists (ds_kv s'). split; auto.
    apply (IH (S i) s' ns'); auto.
    + exists (pre ++ [idd]). rewrite <- app_assoc. split; auto. rewrite app_length; cbn; lia.
    + replace (Z.of_nat (S i)) with (Z.of_nat i + 1) by lia. exact E'.
Qed.
Lemma read_dense_means m st gran date lat_off lon_off od ns :
  read_dense m st gran date lat_off lon_off od = Ok ns -> dense_means st gran date lat_off lon_off od ns.
Proof.
  destruct od as [d|]; cbn [read_dense dense_means]; [|intros [= <-]; reflexivity].
  intros H. assert (E : ds_kv (dstate_init d) = d_kv d) by (unfold dstate_init; destruct (d_info d); reflexivity).
  rewrite <- E. apply (read_dense_loop_means m _ _ _ _ _ _ (d_id d) 0); auto.
  - unfold acc_ok, dstate_init. destruct (d_info d); cbn; unfold psum0; cbn; sconj; auto using cong64_0, cong32_0.
  - exists []. auto.
Qed.

Lemma read_info_means m st date oi ts cs uid user vis ver :
  read_info m st date oi = Ok (ts, cs, uid, user, vis, ver) -> info_means st date oi ts cs uid user vis ver.
Proof.
  unfold read_info, info_means. destruct oi as [i|]; intros H.
  - bok H t E1. bok H u E2. injection H as <- <- <- <- <- <-. apply arith64_cong in E1. apply index_entry in E2.
    unfold or_default in *. sconj; auto.
  - injection H as <- <- <- <- <- <-. sconj; auto.
Qed.
Lemma read_tags_means st keys : forall pre vals ts,
  read_tags st (zlen pre) keys (pre ++ vals) = Ok ts -> tags_mean st keys vals ts.
Proof.
  induction keys as [|k keys IH]; intros pre vals ts H; cbn [read_tags] in H.
  - injection H as <-. split; cbn; [lia|constructor].
  - bok H ks E1. bok H v E2. bok H vs E3. bok H ts' E4. injection H as <-.
    destruct vals as [|v' vals].
    { exfalso. apply index_nth in E2. destruct E2 as [_ E2]. rewrite app_nil_r in E2. unfold zlen in E2. rewrite Nat2Z.id in E2.
      assert (length pre < length pre)%nat by (apply nth_error_Some; congruence). lia. }
    rewrite index_at in E2. injection E2 as <-.
    destruct (IH (pre ++ [v']) vals ts') as [L F].
    { rewrite zlen_app. change (zlen [v']) with 1. rewrite <- app_assoc. exact E4. }
    split; cbn [length combine]; [lia|]. constructor; auto. split; apply index_entry; auto.
Qed.
Lemma read_tags_means0 st keys vals ts : read_tags st 0 keys vals = Ok ts -> tags_mean st keys vals ts.
Proof. apply (read_tags_means st keys []). Qed.

Lemma read_node_means m st gran date lat_off lon_off p n :
  read_node m st gran date lat_off lon_off p = Ok n -> node_means st gran date lat_off lon_off p n.
Proof.
  unfold read_node. intros H. bok H flat E1. bok H flon E2. bok H i E3. destruct i as [[[[[ts cs] uid] user] vis] ver].
  bok H tags E4. injection H as <-. unfold node_means; cbn.
  sconj; eauto using dec_coord_means, read_info_means, read_tags_means0.
Qed.

Lemma sums_means m l : forall pre last xs, cong64 last (fold_right Z.add 0 pre) -> sums m last l = Ok xs ->
  length xs = length l /\ forall i x, nth_error xs i = Some x -> cong64 x (psum (pre ++ l) (length pre + i)).
Proof.
  induction l as [|d l IH]; intros pre last xs C H; cbn [sums] in H.
  - injection H as <-. split; auto. intros [|i]; discriminate.
  - bok H x E1. bok H ys E2. injection H as <-. apply arith64_cong in E1.
    assert (C' : cong64 x (fold_right Z.add 0 (pre ++ [d]))).
    { rewrite sum_app. eapply cong64_trans_add; eauto. }
    destruct (IH (pre ++ [d]) x ys C' E2) as [L F]. split; [cbn; lia|].
    intros [|i] y; cbn [nth_error].
    + intros [= <-]. replace (length pre + 0)%nat with (length pre) by lia.
      unfold psum. assert (Q : firstn (S (length pre)) (pre ++ d :: l) = pre ++ [d]).
      { replace (S (length pre)) with (length (pre ++ [d])) by (rewrite app_length; cbn; lia).
        replace (pre ++ d :: l) with ((pre ++ [d]) ++ l) by (rewrite <- app_assoc; reflexivity).
        rewrite firstn_app, Nat.sub_diag, firstn_O, app_nil_r, firstn_all. reflexivity. }
      rewrite Q. exact C'.
    + intros Hy. specialize (F i y Hy). rewrite <- app_assoc, app_length in F. cbn [app length] in F.
      replace (length pre + S i)%nat with (length pre + 1 + i)%nat by lia. exact F.
Qed.
Lemma read_way_means m st date p w : read_way m st date p = Ok w -> way_means st date p w.
Proof.
  unfold read_way. intros H. bok H i E1. destruct i as [[[[[ts cs] uid] user] vis] ver].
  bok H refs E2. bok H tags E3. injection H as <-. unfold way_means; cbn.
  destruct (sums_means m (pw_refs p) [] 0 refs cong64_0 E2) as [L F].
  sconj; eauto using read_info_means, read_tags_means0.
Qed.

Lemma mtype_of_z_code z t : mtype_of_z z = Some t -> z = member_code t.
Proof.
  unfold mtype_of_z. destruct (z =? 0) eqn:A; [intros [= <-]; cbn; lia|].
  destruct (z =? 1) eqn:B; [intros [= <-]; cbn; lia|].
  destruct (z =? 2) eqn:C; [intros [= <-]; cbn; lia|discriminate].
Qed.
Lemma read_members_means m st p l : forall pre last ms, pr_memids p = pre ++ l ->
  cong64 last (fold_right Z.add 0 pre) -> read_members m st p (zlen pre) last l = Ok ms ->
  length ms = length l /\ forall i x, nth_error ms i = Some x ->
     cong64 (m_id x) (psum (pr_memids p) (length pre + i)) /\
     nth_error (pr_types p) (length pre + i) = Some (member_code (m_type x)) /\
     exists sid, nth_error (pr_roles p) (length pre + i) = Some sid /\ entry st sid (m_role x).
Proof.
  induction l as [|d l IH]; intros pre last ms P C H; cbn [read_members] in H.
  - injection H as <-. split; auto. intros [|i]; discriminate.
  - bok H x E1. bok H sid E2. bok H role E3. bok H tz E4. bok H t E5. bok H ms' E6. injection H as <-.
    apply arith64_cong in E1.
    assert (C' : cong64 x (fold_right Z.add 0 (pre ++ [d]))).
    { rewrite sum_app. eapply cong64_trans_add; eauto. }
    assert (P' : pr_memids p = (pre ++ [d]) ++ l) by (rewrite <- app_assoc; auto).
    assert (Z' : zlen pre + 1 = zlen (pre ++ [d])) by (rewrite zlen_app; reflexivity).
    rewrite Z' in E6. destruct (IH _ _ _ P' C' E6) as [L F]. split; [cbn; lia|].
    intros [|i] y; cbn [nth_error].
    + intros [= <-]. cbn [m_id m_type m_role]. replace (length pre + 0)%nat with (length pre) by lia.
      apply index_nat in E2, E4. apply index_entry in E3. sconj; eauto.
      * unfold psum. assert (Q : firstn (S (length pre)) (pr_memids p) = pre ++ [d]).
        { rewrite P'. replace (S (length pre)) with (length (pre ++ [d])) by (rewrite app_length; cbn; lia).
          rewrite firstn_app, Nat.sub_diag, firstn_O, app_nil_r, firstn_all. reflexivity. }
        rewrite Q. exact C'.
      * destruct (mtype_of_z tz) eqn:T; [|discriminate]. injection E5 as <-. apply mtype_of_z_code in T. congruence.
    + intros Hy. specialize (F i y Hy). rewrite app_length in F. cbn [length] in F.
      replace (length pre + S i)%nat with (length pre + 1 + i)%nat by lia. exact F.
Qed.
Lemma read_relation_means m st date p r : read_relation m st date p = Ok r -> relation_means st date p r.
Proof.
  unfold read_relation. intros H. bok H i E1. destruct i as [[[[[ts cs] uid] user] vis] ver].
  bok H ms E2. bok H tags E3. injection H as <-. unfold relation_means; cbn.
  destruct (read_members_means m st p (pr_memids p) [] 0 ms eq_refl cong64_0 E2) as [L F].
  sconj; eauto using read_info_means, read_tags_means0.
Qed.

Lemma mapM_means {A B} (f : A -> res B) (R : A -> B -> Prop) l : (forall a b, f a = Ok b -> R a b) ->
  forall l', mapM f l = Ok l' -> Forall2 R l l'.
Proof.
  intros HR. induction l as [|a l IH]; cbn; intros l' H.
  - injection H as <-. constructor.
  - bok H b E. bok H bs E'. injection H as <-. constructor; auto.
Qed.
Lemma read_group_means m st gran date lat_off lon_off g es :
  read_group m st gran date lat_off lon_off g = Ok es -> group_means st gran date lat_off lon_off g es.
Proof.
  unfold read_group. intros H. bok H ds E1. bok H ns E2. bok H ws E3. bok H rs E4. bok H u E5. injection H as <-.
  exists ds, ns, ws, rs. sconj; auto.
  - apply read_dense_means in E1; auto.
  - eapply mapM_means; [|eauto]. apply read_node_means.
  - eapply mapM_means; [|eauto]. apply read_way_means.
  - eapply mapM_means; [|eauto]. apply read_relation_means.
  - destruct (g_changesets g); [auto|discriminate].
Qed.
Lemma read_strings_inv l l' : read_strings l = Ok l' -> l' = l /\ Forall (fun s => utf8_ok s = true) l.
Proof.
  unfold read_strings. revert l'. induction l as [|s l IH]; cbn; intros l' H.
  - injection H as <-. auto.
  - bok H b E. bok H bs E'. injection H as <-. destruct (utf8_ok s) eqn:U; [|discriminate]. injection E as <-.
    destruct (IH _ E') as [-> F]. auto.
Qed.

(** every successful read means what the format says *)
Theorem read_block_sound m b es : read_block m b = Ok es -> block_means b es.
Proof.
  unfold read_block. intros H. bok H st E1. bok H gs E2. injection H as <-.
  apply read_strings_inv in E1. destruct E1 as [-> U]. split; auto. exists gs. split; auto.
  eapply mapM_means; [|eauto]. intros g e G. apply read_group_means in G. exact G.
Qed.

(** ** completeness: a release build reads every block that has a meaning *)

Lemma arith64_w x z : cong64 x z -> arith64 Wrapping z = Ok x.
Proof.
  intros C. rewrite arith64_wrapping. f_equal. apply (cong64_unique _ _ z); auto.
  apply (arith64_cong Wrapping). apply arith64_wrapping.
Qed.
Lemma arith32_w x z : cong32 x z -> arith32 Wrapping z = Ok x.
Proof.
  intros C. rewrite arith32_wrapping. f_equal. apply (cong32_unique _ _ z); auto.
  apply (arith32_cong Wrapping). apply arith32_wrapping.
Qed.
Lemma cong64_ex z : exists x, cong64 x z.
Proof. exists (wrap64 z). apply (arith64_cong Wrapping). apply arith64_wrapping. Qed.
Lemma cong32_ex z : exists x, cong32 x z.
Proof. exists (wrap32 z). apply (arith32_cong Wrapping). apply arith32_wrapping. Qed.
Lemma cong64_add_inv a s S x : cong64 a (S + x) -> cong64 s S -> cong64 a (s + x).
Proof. intros [A [q Q]] [_ [p P]]. split; auto. exists (q - p). lia. Qed.
Lemma cong32_add_inv a s S x : cong32 a (S + x) -> cong32 s S -> cong32 a (s + x).
Proof. intros [A [q Q]] [_ [p P]]. split; auto. exists (q - p). lia. Qed.
Lemma cong64_mul_inv a s S x : cong64 a (S * x) -> cong64 s S -> cong64 a (s * x).
Proof. intros [A [q Q]] [_ [p P]]. split; auto. exists (q - p * x). nia. Qed.

Lemma dec_coord_w gran off x X v : degrees_of gran off X v -> cong64 x X -> dec_coord Wrapping gran off x = Ok v.
Proof.
  intros (z & Z & ->) C. unfold dec_coord. rewrite arith64_wrapping. cbn [bind].
  rewrite (arith64_w z); auto.
  assert (W : cong64 (wrap64 (gran * x)) (gran * x)) by (apply (arith64_cong Wrapping); apply arith64_wrapping).
  destruct Z as [A [q Q]], C as [_ [p P]], W as [_ [w W]]. split; auto. exists (q - gran * p - w). nia.
Qed.
Lemma read_kv_w st kv ts rest : kv_means st kv ts rest -> read_kv st kv = Ok (ts, rest).
Proof.
  induction 1 as [|rest|k v t l ts rest N [T1 T2] K IH]; cbn; auto.
  destruct (k =? 0) eqn:E; [lia|]. apply index_entry in T1, T2. cbn in T1, T2. rewrite T1, T2, IH. destruct t; reflexivity.
Qed.

Lemma has_nth {A} (l : list A) i : has_entry l i -> exists x, nth_error l i = Some x.
Proof. unfold has_entry. intros H. apply nth_error_Some in H. destruct (nth_error l i); eauto; congruence. Qed.

Lemma column64 l i s x v : nth_error l i = Some x -> cong64 s (psum0 l i) -> cong64 v (psum l i) ->
  arith64 Wrapping (s + x) = Ok v.
Proof. intros N S V. apply arith64_w. rewrite (psum_S _ _ _ N) in V. eapply cong64_add_inv; eauto. Qed.
Lemma column32 l i s x v : nth_error l i = Some x -> cong32 s (psum0 l i) -> cong32 v (psum l i) ->
  arith32 Wrapping (s + x) = Ok v.
Proof. intros N S V. apply arith32_w. rewrite (psum_S _ _ _ N) in V. eapply cong32_add_inv; eauto. Qed.

Lemma read_dense_one_w st gran date lat_off lon_off d i idd s n kv' :
  acc_ok d i s -> nth_error (d_id d) i = Some idd ->
  dense_node_means st gran date lat_off lon_off d i n -> kv_means st (ds_kv s) (n_tags n) kv' ->
  exists s', read_dense_one Wrapping st gran date lat_off lon_off d (Z.of_nat i) idd s = Ok (n, s') /\ ds_kv s' = kv'.
Proof.
  intros (A1 & A2 & A3 & A4) N (H1 & H2 & M1 & M2 & M3 & M4) K. unfold read_dense_one.
  rewrite (column64 _ _ _ _ _ N A1 M1). cbn [bind].
  destruct (has_nth _ _ H1) as [dla N1]. destruct (has_nth _ _ H2) as [dlo N2].
  destruct (cong64_ex (psum (d_lat d) i)) as [la C1]. destruct (cong64_ex (psum (d_lon d) i)) as [lo C2].
  rewrite (proj2 (index_nat _ _ _) N1). cbn [bind]. rewrite (column64 _ _ _ _ _ N1 A2 C1). cbn [bind].
  rewrite (proj2 (index_nat _ _ _) N2). cbn [bind]. rewrite (column64 _ _ _ _ _ N2 A3 C2). cbn [bind].
  apply read_kv_w in K. destruct n as [nid ver [la' lo'] ts cs uid user vis tags]. cbn in *.
  destruct (d_info d) as [inf|].
  - destruct M4 as (G1 & G2 & G3 & G4 & V & T & C & U & (sid & S1 & S2) & VI).
    destruct A4 as (B1 & B2 & B3 & B4).
    destruct (has_nth _ _ G1) as [dts N3]. destruct (has_nth _ _ G2) as [dcs N4].
    destruct (has_nth _ _ G3) as [dui N5]. destruct (has_nth _ _ G4) as [dsi N6].
    destruct (cong64_ex (psum (di_timestamp inf) i)) as [tsa C3].
    rewrite (proj2 (index_nat _ _ _) N3). cbn [bind]. rewrite (column64 _ _ _ _ _ N3 B1 C3). cbn [bind].
    rewrite (arith64_w ts) by (eapply cong64_mul_inv; eauto). cbn [bind].
    rewrite (proj2 (index_nat _ _ _) N4). cbn [bind]. rewrite (column64 _ _ _ _ _ N4 B2 C). cbn [bind].
    rewrite (proj2 (index_nat _ _ _) N5). cbn [bind]. rewrite (column32 _ _ _ _ _ N5 B3 U). cbn [bind].
    rewrite (proj2 (index_nat _ _ _) N6). cbn [bind]. rewrite (column32 _ _ _ _ _ N6 B4 S1). cbn [bind].
    assert (VV : (if Z.of_nat i <? zlen (di_visible inf) then index (di_visible inf) (Z.of_nat i) else Ok true) = Ok vis).
    { destruct (Z.of_nat i <? zlen (di_visible inf)) eqn:Q.
      - assert (i < length (di_visible inf))%nat as L by (unfold zlen in Q; lia).
        destruct (has_nth _ _ L) as [x X]. rewrite X in VI. subst. apply index_nat; auto.
      - destruct (nth_error (di_visible inf) i) eqn:X; [|subst; auto].
        assert (i < length (di_visible inf))%nat by (apply nth_error_Some; congruence). unfold zlen in Q. lia. }
    rewrite VV. cbn [bind]. rewrite (proj2 (index_nat _ _ _) V). cbn [bind].
    rewrite (proj2 (index_entry _ _ _) S2). cbn [bind]. rewrite K. cbn [bind].
    rewrite (dec_coord_w _ _ _ _ _ M2 C1), (dec_coord_w _ _ _ _ _ M3 C2). cbn [bind]. eexists. split; reflexivity.
  - destruct M4 as (V & T & C & U & US & VI). destruct A4 as (B1 & B2 & B3 & B4). subst. cbn [bind]. rewrite K. cbn [bind].
    rewrite (dec_coord_w _ _ _ _ _ M2 C1), (dec_coord_w _ _ _ _ _ M3 C2). cbn [bind].
    rewrite B1, B2, B3, B4. eexists. split; reflexivity.
Qed.

Lemma read_dense_loop_w st gran date lat_off lon_off d : forall ns ids i s,
  acc_ok d i s -> (exists pre, d_id d = pre ++ ids /\ length pre = i) ->
  dense_from st gran date lat_off lon_off d i (ds_kv s) ns ->
  read_dense_loop Wrapping st gran date lat_off lon_off d (Z.of_nat i) ids s = Ok ns.
Proof.
  induction ns as [|n ns IH]; intros ids i s A (pre & P & L) D; cbn [dense_from] in D.
  - rewrite P, app_length in D. assert (length ids = 0)%nat by lia. destruct ids; [reflexivity|discriminate].
  - destruct D as (Li & M & kv' & K & D). destruct ids as [|idd ids].
    { rewrite P, app_nil_r in Li. lia. }
    assert (N : nth_error (d_id d) i = Some idd).
    { rewrite P, nth_error_app2, L, Nat.sub_diag by lia. reflexivity. }
    destruct (read_dense_one_w _ _ _ _ _ _ _ _ _ _ _ A N M K) as (s' & E & Kv).
    destruct (read_dense_one_means _ _ _ _ _ _ _ _ _ _ _ _ A N E) as (A' & _ & _).
    cbn [read_dense_loop]. rewrite E. cbn [bind].
    replace (Z.of_nat i + 1) with (Z.of_nat (S i)) by lia. rewrite (IH ids (S i) s'); auto.
    + exists (pre ++ [idd]). rewrite <- app_assoc. split; auto. rewrite app_length; cbn; lia.
    + rewrite Kv. exact D.
Qed.
Lemma read_dense_w st gran date lat_off lon_off od ns :
  dense_means st gran date lat_off lon_off od ns -> read_dense Wrapping st gran date lat_off lon_off od = Ok ns.
Proof.
  destruct od as [d|]; cbn [read_dense dense_means]; [|intros ->; reflexivity].
  intros H. assert (E : ds_kv (dstate_init d) = d_kv d) by (unfold dstate_init; destruct (d_info d); reflexivity).
  rewrite <- E in H. apply (read_dense_loop_w _ _ _ _ _ _ ns (d_id d) 0); auto.
  - unfold acc_ok, dstate_init. destruct (d_info d); cbn; unfold psum0; cbn; sconj; auto using cong64_0, cong32_0.
  - exists []. auto.
Qed.

Lemma read_info_w st date oi ts cs uid user vis ver :
  info_means st date oi ts cs uid user vis ver -> read_info Wrapping st date oi = Ok (ts, cs, uid, user, vis, ver).
Proof.
  unfold read_info, info_means. destruct oi as [i|].
  - intros (A & -> & -> & B & -> & ->). apply index_entry in B. unfold or_default.
    rewrite (arith64_w _ _ A). cbn [bind]. rewrite B. reflexivity.
  - intros (-> & -> & -> & -> & -> & ->). reflexivity.
Qed.
Lemma read_tags_w st keys : forall pre vals ts, tags_mean st keys vals ts ->
  read_tags st (zlen pre) keys (pre ++ vals) = Ok ts.
Proof.
  induction keys as [|k keys IH]; intros pre vals ts [L F]; cbn [read_tags].
  - cbn in F. inversion F. reflexivity.
  - destruct vals as [|v vals]; cbn [length] in L; [lia|]. cbn [combine] in F.
    inversion F as [|? t ? ts' [T1 T2] F']; subst. apply index_entry in T1, T2. cbn in T1, T2.
    rewrite T1. cbn [bind]. rewrite index_at. cbn [bind]. rewrite T2. cbn [bind].
    specialize (IH (pre ++ [v]) vals ts'). rewrite zlen_app, <- app_assoc in IH. change (zlen [v]) with 1 in IH. cbn [app] in IH.
    rewrite IH by (split; [lia|auto]). destruct t; reflexivity.
Qed.
Lemma read_tags_w0 st keys vals ts : tags_mean st keys vals ts -> read_tags st 0 keys vals = Ok ts.
Proof. apply (read_tags_w st keys []). Qed.
Lemma read_node_w st gran date lat_off lon_off p n :
  node_means st gran date lat_off lon_off p n -> read_node Wrapping st gran date lat_off lon_off p = Ok n.
Proof.
  destruct n as [nid ver [la lo] ts cs uid user vis tags].
  intros (A & B & C & D & E). unfold read_node. cbn in *.
  assert (W : forall x, exists y, cong64 y x) by apply cong64_ex.
  assert (DC : forall gran off x v, degrees_of gran off x v -> dec_coord Wrapping gran off x = Ok v).
  { intros g o x v (z & Z & ->). unfold dec_coord. rewrite arith64_wrapping. cbn [bind].
    rewrite (arith64_w z); auto.
    assert (Q : cong64 (wrap64 (g * x)) (g * x)) by (apply (arith64_cong Wrapping); apply arith64_wrapping).
    destruct Z as [Z0 [q Z1]], Q as [_ [w Q]]. split; auto. exists (q - w). lia. }
  rewrite (DC _ _ _ _ B), (DC _ _ _ _ C). cbn [bind]. rewrite (read_info_w _ _ _ _ _ _ _ _ _ D). cbn [bind].
  rewrite (read_tags_w0 _ _ _ _ E). cbn [bind]. rewrite A. reflexivity.
Qed.

Lemma sums_w l : forall pre last xs, cong64 last (fold_right Z.add 0 pre) -> length xs = length l ->
  (forall i x, nth_error xs i = Some x -> cong64 x (psum (pre ++ l) (length pre + i))) -> sums Wrapping last l = Ok xs.
Proof.
  induction l as [|d l IH]; intros pre last xs C L F; cbn [sums].
  - destruct xs; [reflexivity|discriminate].
  - destruct xs as [|x xs]; [discriminate|].
    assert (X : cong64 x (fold_right Z.add 0 (pre ++ [d]))).
    { specialize (F 0%nat x eq_refl). replace (length pre + 0)%nat with (length pre) in F by lia.
      unfold psum in F. assert (Q : firstn (S (length pre)) (pre ++ d :: l) = pre ++ [d]).
      { replace (S (length pre)) with (length (pre ++ [d])) by (rewrite app_length; cbn; lia).
        replace (pre ++ d :: l) with ((pre ++ [d]) ++ l) by (rewrite <- app_assoc; reflexivity).
        rewrite firstn_app, Nat.sub_diag, firstn_O, app_nil_r, firstn_all. reflexivity. }
      rewrite Q in F. exact F. }
    rewrite (arith64_w x) by (rewrite sum_app in X; eapply cong64_add_inv; eauto). cbn [bind].
    rewrite (IH (pre ++ [d]) x xs); auto.
    intros i y Hy. specialize (F (S i) y Hy). rewrite <- app_assoc, app_length. cbn [app length].
    replace (length pre + 1 + i)%nat with (length pre + S i)%nat by lia. exact F.
Qed.
Lemma read_way_w st date p w : way_means st date p w -> read_way Wrapping st date p = Ok w.
Proof.
  destruct w as [wid ver ts cs uid user vis refs tags]. intros (A & B & L & C & D). unfold read_way. cbn in *.
  rewrite (read_info_w _ _ _ _ _ _ _ _ _ B). cbn [bind].
  rewrite (sums_w (pw_refs p) [] 0 refs); auto using cong64_0. cbn [bind].
  rewrite (read_tags_w0 _ _ _ _ D). cbn [bind]. rewrite A. reflexivity.
Qed.
Lemma mtype_of_code t : mtype_of_z (member_code t) = Some t.
Proof. destruct t; reflexivity. Qed.
Lemma read_members_w st p l : forall pre last ms, pr_memids p = pre ++ l ->
  cong64 last (fold_right Z.add 0 pre) -> length ms = length l ->
  (forall i x, nth_error ms i = Some x ->
     cong64 (m_id x) (psum (pr_memids p) (length pre + i)) /\ nth_error (pr_types p) (length pre + i) = Some (member_code (m_type x)) /\ exists sid, nth_error (pr_roles p) (length pre + i) = Some sid /\ entry st sid (m_role x)) ->
  read_members Wrapping st p (zlen pre) last l = Ok ms.
Proof.
  induction l as [|d l IH]; intros pre last ms P C L F; cbn [read_members].
  - destruct ms; [reflexivity|discriminate].
  - destruct ms as [|[t x role] ms]; [discriminate|].
    destruct (F 0%nat _ eq_refl) as (F1 & F2 & sid & F3 & F4). cbn [m_id m_type m_role] in *.
    replace (length pre + 0)%nat with (length pre) in * by lia.
    assert (X : cong64 x (fold_right Z.add 0 (pre ++ [d]))).
    { unfold psum in F1. assert (Q : firstn (S (length pre)) (pr_memids p) = pre ++ [d]).
      { rewrite P. replace (S (length pre)) with (length (pre ++ [d])) by (rewrite app_length; cbn; lia).
        replace (pre ++ d :: l) with ((pre ++ [d]) ++ l) by (rewrite <- app_assoc; reflexivity).
        rewrite firstn_app, Nat.sub_diag, firstn_O, app_nil_r, firstn_all. reflexivity. }
      rewrite Q in F1. exact F1. }
    rewrite (arith64_w x) by (rewrite sum_app in X; eapply cong64_add_inv; eauto). cbn [bind].
    unfold zlen. rewrite (proj2 (index_nat _ _ _) F3). cbn [bind]. rewrite (proj2 (index_entry _ _ _) F4). cbn [bind].
    rewrite (proj2 (index_nat _ _ _) F2). cbn [bind]. rewrite mtype_of_code. cbn [bind unwrap].
    specialize (IH (pre ++ [d]) x ms). rewrite zlen_app in IH. change (zlen [d]) with 1 in IH.
    unfold zlen in IH. rewrite IH; auto.
    + rewrite <- app_assoc. exact P.
    + intros i y Hy. specialize (F (S i) y Hy). rewrite app_length. cbn [length].
      replace (length pre + 1 + i)%nat with (length pre + S i)%nat by lia. exact F.
Qed.
Lemma read_relation_w st date p r : relation_means st date p r -> read_relation Wrapping st date p = Ok r.
Proof.
  destruct r as [rid ver ts cs uid user vis ms tags]. intros (A & B & L & C & D). unfold read_relation. cbn in *.
  rewrite (read_info_w _ _ _ _ _ _ _ _ _ B). cbn [bind].
  rewrite (read_members_w st p (pr_memids p) [] 0 ms eq_refl cong64_0 L C
           : read_members Wrapping st p 0 0 (pr_memids p) = Ok ms). cbn [bind].
  rewrite (read_tags_w0 _ _ _ _ D). cbn [bind]. rewrite A. reflexivity.
Qed.
Lemma mapM_w {A B} (f : A -> res B) (R : A -> B -> Prop) l l' : (forall a b, R a b -> f a = Ok b) ->
  Forall2 R l l' -> mapM f l = Ok l'.
Proof. intros HR. induction 1; cbn; auto. rewrite (HR _ _ H), IHForall2. reflexivity. Qed.
Lemma read_group_w st gran date lat_off lon_off g es :
  group_means st gran date lat_off lon_off g es -> read_group Wrapping st gran date lat_off lon_off g = Ok es.
Proof.
  intros (ds & ns & ws & rs & A & B & C & D & E & ->). unfold read_group.
  rewrite (read_dense_w _ _ _ _ _ _ _ A). cbn [bind].
  rewrite (mapM_w _ _ _ _ (read_node_w st gran date lat_off lon_off) B). cbn [bind].
  rewrite (mapM_w _ _ _ _ (read_way_w st date) C). cbn [bind].
  rewrite (mapM_w _ _ _ _ (read_relation_w st date) D). cbn [bind]. rewrite E. reflexivity.
Qed.
Theorem read_block_complete b es : block_means b es -> read_block Wrapping b = Ok es.
Proof.
  intros [U (ess & F & ->)]. unfold read_block. rewrite read_strings_ok by exact U. cbn [bind]. unfold or_default.
  pose proof (mapM_w _ _ _ _ (read_group_w _ _ _ _ _) F) as E. cbv beta in E. rewrite E. reflexivity.
Qed.

(** reading a decoded block never returns an error value: it succeeds or panics *)
Lemma bind_ne {A B} (a : res A) (f : A -> res B) : a <> Err -> (forall x, f x <> Err) -> bind a f <> Err.
Proof. destruct a; cbn; auto; discriminate. Qed.
Lemma arith64_ne m z : arith64 m z <> Err.
Proof. unfold arith64. destruct (in_i64 z), m; discriminate. Qed.
Lemma arith32_ne m z : arith32 m z <> Err.
Proof. unfold arith32. destruct (in_i32 z), m; discriminate. Qed.
Lemma ok_ne {A} (a : A) : Ok a <> Err.
Proof. discriminate. Qed.
Lemma panic_ne {A} : @Panic A <> Err.
Proof. discriminate. Qed.
Lemma unwrap_ne {A} (o : option A) : unwrap o <> Err.
Proof. destruct o; discriminate. Qed.
Lemma mapM_ne {A B} (f : A -> res B) l : (forall a, f a <> Err) -> mapM f l <> Err.
Proof. intros H. induction l; cbn; [discriminate|]. apply bind_ne; auto. intros. apply bind_ne; auto. discriminate. Qed.
Ltac ne := repeat first
  [ apply ok_ne | apply panic_ne | apply arith64_ne | apply arith32_ne | apply index_not_err | apply unwrap_ne
  | apply bind_ne; [|intros] | apply mapM_ne; intros
  | match goal with |- context [match ?x with _ => _ end] => is_var x; destruct x end
  | match goal with |- context [if ?x then _ else _] => destruct x end
  | match goal with |- context [match ?x with _ => _ end] => destruct x end ].
Lemma read_kv_ne st n : forall kv, (length kv <= n)%nat -> read_kv st kv <> Err.
Proof.
  induction n; intros [|k [|v kv]] L; cbn [read_kv length] in *; try lia; try discriminate;
  destruct (k =? 0); try discriminate.
  apply bind_ne; [apply index_not_err|intros]. apply bind_ne; [apply index_not_err|intros].
  apply bind_ne; [apply IHn; lia|]. intros []. discriminate.
Qed.
Lemma dec_coord_ne m g o x : dec_coord m g o x <> Err.
Proof. unfold dec_coord. ne. Qed.
Lemma read_dense_one_ne m st g da la lo d i idd s : read_dense_one m st g da la lo d i idd s <> Err.
Proof.
  unfold read_dense_one.
  do 5 (apply bind_ne; [first [apply arith64_ne|apply index_not_err]|intros]).
  apply bind_ne; [ne|]. intros [[[[[[[? ?] ?] ?] ?] ?] ?] ?].
  apply bind_ne; [eapply read_kv_ne; reflexivity|]. intros [? ?].
  apply bind_ne; [apply dec_coord_ne|intros]. apply bind_ne; [apply dec_coord_ne|intros]. discriminate.
Qed.
Lemma read_tags_ne st keys : forall i vals, read_tags st i keys vals <> Err.
Proof. induction keys; cbn; intros; ne. apply IHkeys. Qed.
Lemma read_info_ne m st da o : read_info m st da o <> Err.
Proof. unfold read_info. ne. Qed.
Lemma sums_ne m l : forall last, sums m last l <> Err.
Proof. induction l; cbn; intros; ne. apply IHl. Qed.
Lemma read_members_ne m st p l : forall i last, read_members m st p i last l <> Err.
Proof. induction l; cbn; intros; ne. apply IHl. Qed.
Lemma read_dense_ne m st g da la lo od : read_dense m st g da la lo od <> Err.
Proof.
  destruct od as [d|]; cbn; [|discriminate].
  generalize 0 (dstate_init d). induction (d_id d) as [|x l IH]; cbn; intros i s; [discriminate|].
  apply bind_ne; [apply read_dense_one_ne|]. intros [? ?]. apply bind_ne; [apply IH|]. discriminate.
Qed.
Theorem read_block_not_err m b : read_block m b <> Err.
Proof.
  unfold read_block. apply bind_ne.
  - unfold read_strings. ne.
  - intros st. apply bind_ne; [|discriminate]. apply mapM_ne. intros g. unfold read_group.
    apply bind_ne; [apply read_dense_ne|intros]. apply bind_ne.
    { apply mapM_ne. intros p. unfold read_node. apply bind_ne; [apply dec_coord_ne|intros]. apply bind_ne; [apply dec_coord_ne|intros].
      apply bind_ne; [apply read_info_ne|]. intros [[[[[? ?] ?] ?] ?] ?]. apply bind_ne; [apply read_tags_ne|]. discriminate. }
    intros. apply bind_ne.
    { apply mapM_ne. intros p. unfold read_way.
      apply bind_ne; [apply read_info_ne|]. intros [[[[[? ?] ?] ?] ?] ?]. apply bind_ne; [apply sums_ne|intros].
      apply bind_ne; [apply read_tags_ne|]. discriminate. }
    intros. apply bind_ne.
    { apply mapM_ne. intros p. unfold read_relation.
      apply bind_ne; [apply read_info_ne|]. intros [[[[[? ?] ?] ?] ?] ?]. apply bind_ne; [apply read_members_ne|intros].
      apply bind_ne; [apply read_tags_ne|]. discriminate. }
    intros. apply bind_ne; [ne|]. discriminate.
Qed.
