(** Merging the fields of a message one after the other computes the declared fields of WireSpec.v. *)
From Coq Require Import ZArith List Bool Strings.Byte Strings.String Lia ZifyBool.
From Verif Require Import Base BaseFacts Proto WireSpec WireFacts.
Import ListNotations.
Open Scope Z_scope.
Local Notation length := List.length.
Local Notation concat := List.concat.

Fixpoint foldM {S V} (step : V -> S -> option S) (vs : list V) (s : S) : option S :=
  match vs with
  | [] => Some s
  | v :: r => match step v s with Some s' => foldM step r s' | None => None end
  end.

(** ** Steps of the kinds of fields *)
Section Steps.
  Context {A : Type}.
  Variable f : Z -> A.
  Definition st_opt (v : wval) (o : option A) : option (option A) := omap (fun u => Some (f u)) (as_varint v).
  Definition st_req (v : wval) (a : A) : option A := omap f (as_varint v).
  Definition st_rep (v : wval) (l : list A) : option (list A) := omap (fun us => l ++ map f us) (dec_packed v).
End Steps.
Definition st_bytes (v : wval) (o : option bytes) : option (option bytes) := omap Some (as_bytes v).
Definition st_string (v : wval) (o : option bytes) : option (option bytes) := omap Some (as_string v).
Definition st_req_string (v : wval) (o : bytes) : option bytes := as_string v.
Definition st_rep_bytes (v : wval) (l : list bytes) : option (list bytes) := omap (fun s => l ++ [s]) (as_bytes v).
Definition st_rep_string (v : wval) (l : list bytes) : option (list bytes) := omap (fun s => l ++ [s]) (as_string v).
Definition st_msg {M} (mf : M -> Z -> wval -> option M) (d : M) (v : wval) (o : option M) : option (option M) :=
  omap Some (merge_msg mf (or_default d o) v).
Definition st_rep_msg {M} (mf : M -> Z -> wval -> option M) (d : M) (v : wval) (l : list M) : option (list M) :=
  omap (fun m => l ++ [m]) (merge_msg mf d v).
Definition st_req_msg {M} (mf : M -> Z -> wval -> option M) (v : wval) (m : M) : option M := merge_msg mf m v.

(** ** Lists *)
Lemma last_opt_nil {A} : last_opt (@nil A) = None.
Proof. reflexivity. Qed.
Lemma last_opt_cons {A} (a : A) l : last_opt (a :: l) = match last_opt l with Some x => Some x | None => Some a end.
Proof.
  unfold last_opt. cbn [rev]. destruct (rev l) as [|x t]; reflexivity.
Qed.
Lemma map_inj {A B} (g : A -> B) (Inj : forall x y, g x = g y -> x = y) l l' : map g l = map g l' -> l = l'.
Proof. revert l'; induction l; destruct l'; cbn; try congruence. intros [= H1 H2]. f_equal; auto. Qed.

(** numbers among the payloads *)
Definition nonneg (vs : list wval) : Prop := forall u, In (WVarint u) vs -> 0 <= u.
Lemma nonneg_cons v vs : nonneg (v :: vs) -> nonneg vs.
Proof. unfold nonneg. cbn. auto. Qed.
Lemma occ_nonneg bs fs num : message bs fs -> nonneg (occurrences num fs).
Proof.
  intros M u I. unfold occurrences in I. apply in_map_iff in I. destruct I as ([n v] & E & I). cbn in E. subst.
  apply filter_In in I. destruct I as [I _]. eapply message_nonneg; eauto.
Qed.

(** ** Scalars *)
Definition conv_ok {A} (conv : Z -> A -> Prop) (f : Z -> A) : Prop := forall u a, 0 <= u -> (conv u a <-> a = f u).
Section Scalars.
  Context {A : Type}.
  Variable conv : Z -> A -> Prop.
  Variable f : Z -> A.
  Hypothesis C : conv_ok conv f.

  Lemma fold_opt vs : forall o o', foldM (st_opt f) vs o = Some o' <->
    exists us, vs = map WVarint us /\ o' = match last_opt us with Some u => Some (f u) | None => o end.
  Proof.
    induction vs as [|v vs IH]; intros o o'; cbn [foldM].
    - split; [intros [= <-]; exists []; auto|]. intros (us & E & ->). destruct us; [reflexivity|discriminate].
    - unfold st_opt at 1. destruct v as [u| | | |]; cbn [as_varint omap];
        try (split; [discriminate|intros (us & E & _); destruct us; discriminate]).
      rewrite IH. split.
      + intros (us & -> & ->). exists (u :: us). split; auto. rewrite last_opt_cons. destruct (last_opt us); reflexivity.
      + intros ([|x us] & E & ->); [discriminate|]. injection E as <- E. exists us. split; auto. rewrite last_opt_cons. destruct (last_opt us); reflexivity.
  Qed.
  Lemma last_opt_in {B} (l : list B) x : last_opt l = Some x -> In x l.
  Proof. unfold last_opt. destruct (rev l) eqn:E; [discriminate|]. intros [= <-]. apply in_rev. rewrite E. left; auto. Qed.
  Lemma opt_ok num fs o : nonneg (occurrences num fs) -> foldM (st_opt f) (occurrences num fs) None = Some o <-> opt_scalar conv num fs o.
  Proof.
    intros N. rewrite fold_opt. unfold opt_scalar. split; intros (us & E & X); exists us; (split; [exact E|]).
    - subst o. destruct (last_opt us) as [u|] eqn:L; [|exact I]. apply C; auto. apply N. rewrite E. apply in_map. apply last_opt_in; auto.
    - destruct (last_opt us) as [u|] eqn:L, o as [a|]; try contradiction; auto. f_equal. apply C; auto.
      apply N. rewrite E. apply in_map. apply last_opt_in; auto.
  Qed.
  Lemma fold_req vs : forall d a, foldM (st_req f) vs d = Some a <->
    exists us, vs = map WVarint us /\ a = match last_opt us with Some u => f u | None => d end.
  Proof.
    induction vs as [|v vs IH]; intros d a; cbn [foldM].
    - split; [intros [= <-]; exists []; auto|]. intros (us & E & ->). destruct us; [reflexivity|discriminate].
    - unfold st_req at 1. destruct v as [u| | | |]; cbn [as_varint omap];
        try (split; [discriminate|intros (us & E & _); destruct us; discriminate]).
      rewrite IH. split.
      + intros (us & -> & ->). exists (u :: us). split; auto. rewrite last_opt_cons. destruct (last_opt us); reflexivity.
      + intros ([|x us] & E & ->); [discriminate|]. injection E as <- E. exists us. split; auto. rewrite last_opt_cons. destruct (last_opt us); reflexivity.
  Qed.
  Lemma req_ok num fs d a : nonneg (occurrences num fs) -> foldM (st_req f) (occurrences num fs) d = Some a <-> req_scalar conv num fs d a.
  Proof.
    intros N. rewrite fold_req. unfold req_scalar. split.
    - intros (us & E & ->). exists (match last_opt us with Some u => Some (f u) | None => None end). split; [|destruct (last_opt us); auto].
      apply opt_ok; auto. apply fold_opt. exists us. auto.
    - intros (o & O & ->). apply opt_ok in O; auto. apply fold_opt in O. destruct O as (us & E & ->). exists us. split; auto. destruct (last_opt us); auto.
  Qed.

  Lemma dec_varints_sound n : forall b us, dec_varints_aux n b = Some us -> exists bss, b = concat bss /\ Forall2 varint64 bss us.
  Proof.
    induction n as [|n IH]; intros b us H; destruct b as [|x b]; cbn [dec_varints_aux] in H; try discriminate;
      try (injection H as <-; exists []; split; [reflexivity|constructor]).
    destruct (dec_varint (x :: b)) as [[u r]|] eqn:D; [|discriminate]. apply dec_varint_spec in D. destruct D as (vb & -> & V).
    destruct (dec_varints_aux n r) as [l|] eqn:D; [|discriminate]. injection H as <-. destruct (IH _ _ D) as (bss & -> & F).
    exists (vb :: bss). split; [reflexivity|constructor; auto].
  Qed.
  Lemma dec_varints_complete bss us : Forall2 varint64 bss us -> forall n, (length (concat bss) <= n)%nat -> dec_varints_aux n (concat bss) = Some us.
  Proof.
    induction 1 as [|vb u bss us V F IH]; intros n L; [destruct n; reflexivity|]. cbn [concat] in *. rewrite app_length in L.
    pose proof (varint64_len _ _ V). destruct n as [|n]; [lia|].
    destruct (vb ++ concat bss) as [|y ys] eqn:Y; [destruct vb; [cbn in *; lia|discriminate]|]. cbn [dec_varints_aux].
    rewrite <- Y, (dec_varint_app _ _ _ V), IH by lia. reflexivity.
  Qed.
  Lemma F2_map us l : (forall u, In u us -> 0 <= u) -> Forall2 conv us l <-> l = map f us.
  Proof.
    intros N. split.
    - induction 1; cbn; auto. f_equal; [apply C; auto; apply N; left; auto|apply IHForall2; intros; apply N; right; auto].
    - intros ->. induction us; cbn; constructor; [apply C; auto; apply N; left; auto|apply IHus; intros; apply N; right; auto].
  Qed.
  Lemma varints_nonneg bss us : Forall2 varint64 bss us -> forall u, In u us -> 0 <= u.
  Proof. induction 1 as [|? ? ? ? V]; intros w I; [destruct I|]. destruct I as [<-|I]; auto. destruct V as (_ & _ & V & _); auto. Qed.
  Lemma packed_ok v l : (forall u, v = WVarint u -> 0 <= u) -> scalars_of conv v l <-> omap (map f) (dec_packed v) = Some l.
  Proof.
    intros N. split.
    - intros H; destruct H as [u a H|bss us l F1 F2]; cbn [dec_packed omap].
      + apply C in H; auto. subst; auto.
      + rewrite (dec_varints_complete _ _ F1) by lia. cbn. f_equal. symmetry. apply F2_map; auto. eapply varints_nonneg; eauto.
    - destruct v as [u| |b| |]; cbn [dec_packed omap]; try discriminate.
      + intros [= <-]. constructor. apply C; auto.
      + destruct (dec_varints_aux (length b) b) as [us|] eqn:D; [|discriminate]. intros [= <-]. apply dec_varints_sound in D. destruct D as (bss & -> & F).
        econstructor; eauto. apply F2_map; auto. eapply varints_nonneg; eauto.
  Qed.
  Lemma fold_rep vs : nonneg vs -> forall l l', foldM (st_rep f) vs l = Some l' <-> exists ls, Forall2 (scalars_of conv) vs ls /\ l' = l ++ concat ls.
  Proof.
    induction vs as [|v vs IH]; intros N l l'; cbn [foldM].
    - split; [intros [= <-]; exists []; split; [constructor|cbn; rewrite app_nil_r; auto]|]. intros (ls & F & ->). inversion F; subst. cbn. rewrite app_nil_r. auto.
    - assert (K : forall l0, scalars_of conv v l0 <-> omap (map f) (dec_packed v) = Some l0) by (intros; apply packed_ok; intros u ->; apply N; left; auto).
      unfold st_rep at 1. destruct (dec_packed v) as [us|]; cbn [omap] in *.
      + rewrite IH by (eapply nonneg_cons; eauto). split; intros (ls & F & ->).
        * exists (map f us :: ls). split; [constructor; auto; apply K; auto|]. cbn. rewrite app_assoc. auto.
        * inversion F as [|? l0 ? ls' H1 H2]; subst. apply K in H1. injection H1 as <-. exists ls'. split; auto. cbn. rewrite app_assoc. auto.
      + split; [discriminate|]. intros (ls & F & _). inversion F as [|? l0 ? ls' H1 H2]; subst. apply K in H1. discriminate.
  Qed.
  Lemma rep_ok num fs l : nonneg (occurrences num fs) -> foldM (st_rep f) (occurrences num fs) [] = Some l <-> rep_scalar conv num fs l.
  Proof. intros N. rewrite fold_rep by auto. reflexivity. Qed.
End Scalars.

Lemma int64_ok : conv_ok is_int64 int64_dec.
Proof.
  intros u a H. unfold is_int64, int64_dec. split.
  - intros (R & q & E). unfold wrap64, two64, two63. zl.
  - intros ->. split; [zl|]. exists ((u + 9223372036854775808) / 18446744073709551616). unfold wrap64, two64, two63. zl.
Qed.
Lemma int32_ok : conv_ok is_int32 int32_dec.
Proof.
  intros u a H. unfold is_int32, int32_dec. split.
  - intros (R & q & E). zl.
  - intros ->. split; [zl|]. exists ((u + 2147483648) / 4294967296). zl.
Qed.
Lemma uint32_ok : conv_ok is_uint32 uint32_dec.
Proof.
  intros u a H. unfold is_uint32, uint32_dec. split.
  - intros (R & q & E). zl.
  - intros ->. split; [zl|]. exists (u / 4294967296). zl.
Qed.
Lemma zag_ok u a : 0 <= u -> (is_zigzag u a <-> a = zag u).
Proof.
  intros H. unfold is_zigzag, zag. destruct (Z.even u) eqn:E.
  - apply Z.even_spec in E. destruct E as (k & ->). zl.
  - assert (O : Z.odd u = true) by (rewrite <- Z.negb_even, E; reflexivity). apply Z.odd_spec in O. destruct O as (k & ->). zl.
Qed.
Lemma sint64_ok : conv_ok is_sint64 sint64_dec.
Proof. intros u a H. apply zag_ok; auto. Qed.
Lemma sint32_ok : conv_ok is_sint32 sint32_dec.
Proof.
  intros u a H. unfold is_sint32, sint32_dec. pose proof (uint32_ok u) as K. unfold uint32_dec in K. split.
  - intros (w & U & W). apply K in U; auto. subst. apply zag_ok in W; auto. zl.
  - intros E. exists (u mod two32). split; [apply K; auto|]. apply zag_ok; auto. zl.
Qed.
Lemma bool_ok : conv_ok is_bool bool_dec.
Proof. intros u a H. unfold is_bool, bool_dec. destruct a, (u =? 0) eqn:E; cbn; split; try congruence; try tauto; intros; try lia; destruct H0; try lia; split; auto; lia. Qed.

(** ** Bytes and strings *)
Lemma fold_bytes vs : forall o o', foldM st_bytes vs o = Some o' <-> exists bs, vs = map WBytes bs /\ o' = match last_opt bs with Some b => Some b | None => o end.
Proof.
  induction vs as [|v vs IH]; intros o o'; cbn [foldM].
  - split; [intros [= <-]; exists []; auto|]. intros ([|] & E & ->); [auto|discriminate].
  - unfold st_bytes at 1. destruct v as [| |b| |]; cbn [as_bytes omap]; try (split; [discriminate|intros ([|] & E & _); discriminate]).
    rewrite IH. split.
    + intros (bs & -> & ->). exists (b :: bs). split; auto. rewrite last_opt_cons. destruct (last_opt bs); auto.
    + intros ([|x bs] & E & ->); [discriminate|]. injection E as <- E. exists bs. split; auto. rewrite last_opt_cons. destruct (last_opt bs); auto.
Qed.
Lemma bytes_ok num fs o : foldM st_bytes (occurrences num fs) None = Some o <-> opt_bytes num fs o.
Proof. rewrite fold_bytes. unfold opt_bytes. split; intros (bs & E & ->); exists bs; split; auto; destruct (last_opt bs); auto. Qed.
Lemma as_string_spec v s : as_string v = Some s <-> v = WBytes s /\ utf8_text s.
Proof.
  rewrite <- utf8_ok_spec. destruct v; cbn; try (split; [discriminate|intros [? ?]; discriminate]).
  destruct (utf8_ok b) eqn:E; split; [intros [= <-]; auto|intros [[= ->] _]; auto|discriminate|intros [[= ->] ?]; congruence].
Qed.
Lemma fold_string vs : forall o o', foldM st_string vs o = Some o' <->
  exists bs, vs = map WBytes bs /\ Forall utf8_text bs /\ o' = match last_opt bs with Some b => Some b | None => o end.
Proof.
  induction vs as [|v vs IH]; intros o o'; cbn [foldM].
  - split; [intros [= <-]; exists []; auto|]. intros ([|] & E & _ & ->); [auto|discriminate].
  - unfold st_string at 1. destruct (as_string v) as [b|] eqn:S; cbn [omap].
    + apply as_string_spec in S. destruct S as [-> U]. rewrite IH. split.
      * intros (bs & -> & F & ->). exists (b :: bs). sconj; auto. rewrite last_opt_cons. destruct (last_opt bs); auto.
      * intros ([|x bs] & E & F & ->); [discriminate|]. injection E as <- E. inversion F; subst. exists bs. sconj; auto. rewrite last_opt_cons. destruct (last_opt bs); auto.
    + split; [discriminate|]. intros ([|x bs] & E & F & _); [discriminate|]. injection E as -> _. inversion F; subst.
      assert (as_string (WBytes x) = Some x) by (apply as_string_spec; auto). congruence.
Qed.
Lemma string_ok num fs o : foldM st_string (occurrences num fs) None = Some o <-> opt_string num fs o.
Proof. rewrite fold_string. unfold opt_string. split; intros (bs & E & F & ->); exists bs; sconj; auto; destruct (last_opt bs); auto. Qed.
Lemma fold_req_string vs : forall d s, foldM st_req_string vs d = Some s <-> exists o, foldM st_string vs (Some d) = Some (Some o) /\ s = o.
Proof.
  induction vs as [|v vs IH]; intros d s; cbn [foldM].
  - split; [intros [= <-]; eauto|intros (o & [= <-] & ->); auto].
  - unfold st_req_string at 1, st_string at 1. destruct (as_string v) as [b|]; cbn [omap]; [apply IH|]. split; [discriminate|intros (o & E & _); discriminate].
Qed.
Lemma req_string_ok num fs s : foldM st_req_string (occurrences num fs) [] = Some s <-> req_string num fs s.
Proof.
  rewrite fold_req_string. unfold req_string, opt_string. split.
  - intros (o & E & ->). apply fold_string in E. destruct E as (bs & E & F & X). exists (last_opt bs). split; [eauto|]. destruct (last_opt bs); congruence.
  - intros (o & (bs & E & F & ->) & ->). eexists. split; [|reflexivity]. apply fold_string. exists bs. sconj; auto. destruct (last_opt bs); auto.
Qed.
Lemma fold_rep_bytes vs : forall l l', foldM st_rep_bytes vs l = Some l' <-> exists bs, vs = map WBytes bs /\ l' = l ++ bs.
Proof.
  induction vs as [|v vs IH]; intros l l'; cbn [foldM].
  - split; [intros [= <-]; exists []; rewrite app_nil_r; auto|]. intros ([|] & E & ->); [rewrite app_nil_r; auto|discriminate].
  - unfold st_rep_bytes at 1. destruct v as [| |b| |]; cbn [as_bytes omap]; try (split; [discriminate|intros ([|] & E & _); discriminate]).
    rewrite IH. split.
    + intros (bs & -> & ->). exists (b :: bs). rewrite <- app_assoc. auto.
    + intros ([|x bs] & E & ->); [discriminate|]. injection E as <- E. exists bs. rewrite <- app_assoc. auto.
Qed.
Lemma rep_bytes_ok num fs l : foldM st_rep_bytes (occurrences num fs) [] = Some l <-> rep_bytes num fs l.
Proof. rewrite fold_rep_bytes. unfold rep_bytes. split; [intros (bs & E & ->); auto|eauto]. Qed.
Lemma fold_rep_string vs : forall l l', foldM st_rep_string vs l = Some l' <-> exists bs, vs = map WBytes bs /\ Forall utf8_text bs /\ l' = l ++ bs.
Proof.
  induction vs as [|v vs IH]; intros l l'; cbn [foldM].
  - split; [intros [= <-]; exists []; rewrite app_nil_r; auto|]. intros ([|] & E & _ & ->); [rewrite app_nil_r; auto|discriminate].
  - unfold st_rep_string at 1. destruct (as_string v) as [b|] eqn:S; cbn [omap].
    + apply as_string_spec in S. destruct S as [-> U]. rewrite IH. split.
      * intros (bs & -> & F & ->). exists (b :: bs). rewrite <- app_assoc. auto.
      * intros ([|x bs] & E & F & ->); [discriminate|]. injection E as <- E. inversion F; subst. exists bs. rewrite <- app_assoc. auto.
    + split; [discriminate|]. intros ([|x bs] & E & F & _); [discriminate|]. injection E as -> _. inversion F; subst.
      assert (as_string (WBytes x) = Some x) by (apply as_string_spec; auto). congruence.
Qed.
Lemma rep_string_ok num fs l : foldM st_rep_string (occurrences num fs) [] = Some l <-> rep_string num fs l.
Proof. rewrite fold_rep_string. unfold rep_string. split; [intros (bs & E & F & ->); auto|intros (E & F); exists l; auto]. Qed.

(** ** Embedded messages *)
Lemma merge_all_app {M} (mf : M -> Z -> wval -> option M) a b m :
  merge_all mf (a ++ b) m = match merge_all mf a m with Some m' => merge_all mf b m' | None => None end.
Proof. revert m; induction a as [|[t v] a IH]; intros m; cbn; auto. destruct (mf m t v); auto. Qed.
Section Msgs.
  Context {M : Type}.
  Variable mf : M -> Z -> wval -> option M.
  Variable d : M.
  Variable means : bytes -> M -> Prop.
  Hypothesis K : forall bs m, decode_into mf d bs = Some m <-> means bs m.
  Lemma fold_msg bs : forall m m', foldM (st_req_msg mf) (map WBytes bs) m = Some m' <-> Forall well_formed bs /\ decode_into mf m (concat bs) = Some m'.
  Proof.
    induction bs as [|b bs IH]; intros m m'; cbn [map foldM concat].
    - unfold decode_into. cbn. split; [intros [= <-]; auto|intros [_ H]; auto].
    - unfold st_req_msg at 1. cbn [merge_msg]. unfold decode_into at 1 2. destruct (dec_fields b) as [fs|] eqn:D.
      + apply dec_fields_spec in D. split.
        * destruct (merge_all mf fs m) as [m1|] eqn:E; [|discriminate]. intros H. apply IH in H. destruct H as [W H].
          split; [constructor; auto; exists fs; auto|]. unfold decode_into in H. destruct (dec_fields (concat bs)) as [fs2|] eqn:D2; [|discriminate].
          apply dec_fields_spec in D2. rewrite (proj2 (dec_fields_spec _ _) (message_app _ _ _ _ D D2)). rewrite merge_all_app, E. auto.
        * intros [W H]. inversion W as [|? ? W1 W2]; subst.
          assert (W3 : well_formed (concat bs)).
          { clear -W2. induction W2 as [|? ? (? & ?) _ (? & ?)]; [exists []; constructor|]. cbn. eexists. eapply message_app; eauto. }
          destruct W3 as (fs2 & D2). rewrite (proj2 (dec_fields_spec _ _) (message_app _ _ _ _ D D2)) in H. rewrite merge_all_app in H.
          destruct (merge_all mf fs m) as [m1|]; [|discriminate]. apply IH. split; auto. unfold decode_into. rewrite (proj2 (dec_fields_spec _ _) D2). auto.
      + split; [discriminate|]. intros [W _]. inversion W as [|? ? (fs & W1) _]; subst. apply dec_fields_spec in W1. congruence.
  Qed.
  Lemma fold_req_msg_bytes vs : forall m m', foldM (st_req_msg mf) vs m = Some m' -> exists bs, vs = map WBytes bs.
  Proof.
    induction vs as [|v vs IH]; intros m m' H; [exists []; auto|]. cbn [foldM] in H. unfold st_req_msg at 1 in H.
    destruct v as [| |b| |]; cbn [merge_msg] in H; try discriminate. destruct (decode_into mf m b); [|discriminate]. destruct (IH _ _ H) as (bs & ->).
    exists (b :: bs). auto.
  Qed.
  Lemma fold_opt_msg vs : forall o o', foldM (st_msg mf d) vs o = Some o' <->
    match vs with [] => o' = o | _ => exists m, foldM (st_req_msg mf) vs (or_default d o) = Some m /\ o' = Some m end.
  Proof.
    induction vs as [|v vs IH]; intros o o'; [cbn; split; congruence|]. cbn [foldM]. unfold st_msg at 1, st_req_msg at 1.
    destruct (merge_msg mf (or_default d o) v) as [m|]; cbn [omap]; [|split; [discriminate|intros (? & ? & _); discriminate]].
    rewrite IH. destruct vs; [cbn; split; [intros ->; eauto|intros (m' & [= <-] & ->); auto]|reflexivity].
  Qed.
  Lemma msg_ok num fs o : foldM (st_msg mf d) (occurrences num fs) None = Some o <-> opt_msg means num fs o.
  Proof.
    rewrite fold_opt_msg. unfold opt_msg. destruct (occurrences num fs) as [|v vs] eqn:E.
    - split.
      + intros ->. exists []. auto.
      + intros ([|] & X & _ & Y); [|discriminate]. destruct o; [contradiction|auto].
    - split.
      + intros (m & F & ->). destruct (fold_req_msg_bytes _ _ _ F) as (bs & X). rewrite X in F. apply fold_msg in F. destruct F as [W F].
        exists bs. sconj; auto. destruct bs; [discriminate|]. apply K; auto.
      + intros (bs & X & W & Y). destruct bs as [|b bs]; [discriminate|]. destruct o as [m|]; [|contradiction]. exists m. split; auto. rewrite X.
        apply fold_msg. split; auto. apply K; auto.
  Qed.
  Lemma req_msg_ok num fs m : foldM (st_req_msg mf) (occurrences num fs) d = Some m <-> exists o, opt_msg means num fs o /\ m = match o with Some x => x | None => d end.
  Proof.
    split.
    - intros F. destruct (occurrences num fs) as [|v vs] eqn:E.
      + cbn in F. injection F as <-. exists None. split; auto. apply msg_ok. rewrite E. auto.
      + exists (Some m). split; auto. apply msg_ok. rewrite E. apply fold_opt_msg. eauto.
    - intros (o & O & ->). apply msg_ok in O. apply fold_opt_msg in O. destruct (occurrences num fs) as [|v vs]; [subst; auto|].
      destruct O as (m & O & ->). auto.
  Qed.
  Lemma fold_rep_msg vs : forall l l', foldM (st_rep_msg mf d) vs l = Some l' <-> exists bs ms, vs = map WBytes bs /\ Forall2 means bs ms /\ l' = l ++ ms.
  Proof.
    induction vs as [|v vs IH]; intros l l'; cbn [foldM].
    - split; [intros [= <-]; exists [], []; rewrite app_nil_r; auto|]. intros ([|] & ms & E & F & ->); [|discriminate]. inversion F. rewrite app_nil_r; auto.
    - unfold st_rep_msg at 1. destruct v as [| |b| |]; cbn [merge_msg omap]; try (split; [discriminate|intros ([|] & ms & E & _); discriminate]).
      destruct (decode_into mf d b) as [m|] eqn:D; cbn [omap].
      + apply K in D. rewrite IH. split.
        * intros (bs & ms & -> & F & ->). exists (b :: bs), (m :: ms). sconj; auto. rewrite <- app_assoc. auto.
        * intros ([|x bs] & ms & E & F & ->); [discriminate|]. injection E as <- E. inversion F as [|? m1 ? ms1 F1 F2]; subst.
          apply K in F1, D. assert (m1 = m) by congruence. subst. exists bs, ms1. sconj; auto. rewrite <- app_assoc. auto.
      + split; [discriminate|]. intros ([|x bs] & ms & E & F & _); [discriminate|]. injection E as <- E. inversion F as [|? m1 ? ms1 F1 F2]; subst.
        apply K in F1. congruence.
  Qed.
  Lemma rep_msg_ok num fs l : foldM (st_rep_msg mf d) (occurrences num fs) [] = Some l <-> rep_msg means num fs l.
  Proof.
    rewrite fold_rep_msg. unfold rep_msg. split; [intros (bs & ms & E & F & ->); exists bs; auto|intros (bs & E & F); exists bs, l; auto].
  Qed.
End Msgs.
