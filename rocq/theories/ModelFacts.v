(** Proofs about the data model: order laws, box laws, from_str. *)
From Coq Require Import ZArith List Bool Strings.Byte Strings.String Reals Lia Lra.
From Coq Require Import Floats.SpecFloat.
From Flocq Require Import Core BinarySingleNaN.
From Verif Require Import Base BaseFacts Types FloatFacts Spec ModelSpec Model2.
Import ListNotations.
Open Scope Z_scope.
Local Notation length := List.length.
Local Notation concat := List.concat.

(** ** Element order *)
Lemma cmp_iv i1 v1 i2 v2 :
  match cmp_id_version i1 v1 i2 v2 with
  | Lt => i1 < i2 \/ i1 = i2 /\ v1 < v2
  | Eq => i1 = i2 /\ v1 = v2
  | Gt => i2 < i1 \/ i1 = i2 /\ v2 < v1
  end.
Proof.
  unfold cmp_id_version. destruct (Z.compare_spec i1 i2); subst; auto.
  destruct (Z.compare_spec v1 v2); subst; auto.
Qed.
Lemma element_cmp_spec a b : not_sentinel a -> not_sentinel b ->
  match element_cmp a b with
  | Lt => precedes a b
  | Eq => same_place a b
  | Gt => precedes b a
  end.
Proof.
  intros A B. destruct a as [x|x|x|], b as [y|y|y|]; try congruence; cbn [element_cmp];
    try (unfold precedes; cbn; left; lia).
  all: match goal with |- context [cmp_id_version ?a ?b ?c ?d] => pose proof (cmp_iv a b c d) as H; destruct (cmp_id_version a b c d) end;
    unfold precedes, same_place; cbn; intuition lia.
Qed.
Lemma precedes_irrefl a : ~ precedes a a. Proof. unfold precedes. lia. Qed.
Lemma precedes_trans a b c : precedes a b -> precedes b c -> precedes a c. Proof. unfold precedes. lia. Qed.
Lemma precedes_same a b c : precedes a b -> same_place b c -> precedes a c. Proof. unfold precedes, same_place. lia. Qed.
Lemma precedes_same_l a b c : same_place a b -> precedes b c -> precedes a c. Proof. unfold precedes, same_place. lia. Qed.
Lemma precedes_asym a b : precedes a b -> ~ precedes b a. Proof. unfold precedes. lia. Qed.
Lemma precedes_total a b : precedes a b \/ same_place a b \/ precedes b a. Proof. unfold precedes, same_place. lia. Qed.
Lemma cmp_lt_iff a b : not_sentinel a -> not_sentinel b -> (element_cmp a b = Lt <-> precedes a b).
Proof.
  intros A B. pose proof (element_cmp_spec a b A B) as H. destruct (element_cmp a b); split; intros X; auto; try discriminate.
  - unfold precedes, same_place in *. lia.
  - destruct (precedes_asym _ _ H X).
Qed.
Lemma cmp_eq_iff a b : not_sentinel a -> not_sentinel b -> (element_cmp a b = Eq <-> same_place a b).
Proof.
  intros A B. pose proof (element_cmp_spec a b A B) as H. destruct (element_cmp a b); split; intros X; auto; try discriminate;
  unfold precedes, same_place in *; lia.
Qed.
Lemma cmp_gt_iff a b : not_sentinel a -> not_sentinel b -> (element_cmp a b = Gt <-> precedes b a).
Proof.
  intros A B. pose proof (element_cmp_spec a b A B) as H. destruct (element_cmp a b); split; intros X; auto; try discriminate.
  - unfold precedes, same_place in *. lia.
  - destruct (precedes_asym _ _ H X).
Qed.
Lemma eq_iff a b : not_sentinel a -> not_sentinel b -> (element_eq a b = true <-> same_place a b).
Proof.
  intros A B. destruct a as [x|x|x|], b as [y|y|y|]; try congruence; cbn; unfold same_place; cbn; lia.
Qed.

(** ** Comparison of floats *)
Lemma compare_finite x y : f_valid x -> f_valid y -> f_finite x -> f_finite y ->
  SFcompare x y = Some (Rcompare (f2r x) (f2r y)).
Proof.
  intros Vx Vy Fx Fy. destruct (f_valid_B _ Vx) as [bx <-]. destruct (f_valid_B _ Vy) as [by' <-].
  rewrite !f2r_B. change (SFcompare (B2SF bx) (B2SF by')) with (Bcompare bx by'). apply Bcompare_correct; apply fin_B; auto.
Qed.
Lemma fle_spec x y : f_valid x -> f_valid y -> (fle x y = true <-> num_le x y).
Proof.
  intros Vx Vy. unfold fle, SFleb.
  destruct x as [sx|[]| |sx mx ex], y as [sy|[]| |sy my ey]; cbn [num_le];
    try (split; [intros; exact I|intros; reflexivity]); try (split; [discriminate|contradiction]);
    try (cbn; split; [discriminate|contradiction]).
  all: rewrite compare_finite by (auto; reflexivity);
    match goal with |- context [Rcompare ?a ?b] => destruct (Rcompare_spec a b) end; split; intros; try lra; auto; discriminate.
Qed.
Lemma flt_spec x y : number x -> number y -> (flt x y = true <-> ~ num_le y x).
Proof.
  intros [Vx Nx] [Vy Ny]. unfold flt, SFltb.
  destruct x as [sx|[]| |sx mx ex], y as [sy|[]| |sy my ey]; try congruence; cbn [num_le];
    try (split; [intros; tauto|intros; reflexivity]); try (cbn; split; [discriminate|intros X; destruct X; exact I]).
  all: rewrite compare_finite by (auto; reflexivity);
    match goal with |- context [Rcompare ?a ?b] => destruct (Rcompare_spec a b) end; split; intros; try lra; auto; discriminate.
Qed.
Lemma num_le_total x y : number x -> number y -> num_le x y \/ num_le y x.
Proof.
  intros [_ Nx] [_ Ny]. destruct x as [sx|[]| |sx mx ex], y as [sy|[]| |sy my ey]; try congruence; cbn [num_le]; auto;
  match goal with |- (?a <= ?b)%R \/ _ => destruct (Rle_or_lt a b); [left|right]; lra end.
Qed.
Lemma num_le_trans x y z : num_le x y -> num_le y z -> num_le x z.
Proof.
  destruct x as [sx|[]| |sx mx ex], y as [sy|[]| |sy my ey], z as [sz|[]| |sz mz ez]; cbn [num_le]; try tauto; intros; lra.
Qed.
Lemma num_le_refl x : number x -> num_le x x.
Proof. intros H. destruct (num_le_total x x H H); auto. Qed.
Lemma flt_false x y : number x -> number y -> flt x y = false -> num_le y x.
Proof.
  intros Hx Hy H. destruct (num_le_total x y Hx Hy) as [L|L]; auto.
  destruct (flt_spec x y Hx Hy) as [_ K]. destruct (num_le_total y x Hy Hx) as [M|M]; auto.
  assert (D : num_le y x \/ ~ num_le y x).
  { destruct Hx as [Vx _], Hy as [Vy _]. destruct (fle y x) eqn:E; [left; apply fle_spec; auto|right; rewrite <- fle_spec by auto; congruence]. }
  destruct D as [D|D]; auto. rewrite (K D) in H. discriminate.
Qed.
Lemma flt_true x y : number x -> number y -> flt x y = true -> num_le x y.
Proof.
  intros Hx Hy H. apply flt_spec in H; auto. destruct (num_le_total x y Hx Hy); tauto.
Qed.

(** min and max as the code computes them *)
Lemma min_ok a x : number a -> number x -> number (if flt x a then x else a).
Proof. destruct (flt x a); auto. Qed.
Lemma min_le a x : number a -> number x -> let m := if flt x a then x else a in
  num_le m a /\ num_le m x /\ (forall z, num_le z a -> num_le z x -> num_le z m).
Proof.
  intros A X m. subst m. destruct (flt x a) eqn:E.
  - pose proof (flt_true _ _ X A E). repeat split; auto using num_le_refl.
  - pose proof (flt_false _ _ X A E). repeat split; auto using num_le_refl.
Qed.
Lemma max_ok a x : number a -> number x -> number (if flt a x then x else a).
Proof. destruct (flt a x); auto. Qed.
Lemma max_le a x : number a -> number x -> let m := if flt a x then x else a in
  num_le a m /\ num_le x m /\ (forall z, num_le a z -> num_le x z -> num_le m z).
Proof.
  intros A X m. subst m. destruct (flt a x) eqn:E.
  - pose proof (flt_true _ _ A X E). repeat split; auto using num_le_refl.
  - pose proof (flt_false _ _ A X E). repeat split; auto using num_le_refl.
Qed.

(** ** Boxes *)
Lemma from_point_ok c : point_ok c -> box_ok (bb_from_point c).
Proof. intros [A B]. repeat split; cbn; auto; first [apply A|apply B]. Qed.
Lemma merge_point_is_merge b c : bb_merge_point b c = bb_merge b (bb_from_point c).
Proof. reflexivity. Qed.
Lemma merge_ok a b : box_ok a -> box_ok b -> box_ok (bb_merge a b).
Proof.
  intros (A1 & A2 & A3 & A4) (B1 & B2 & B3 & B4). unfold box_ok, bb_merge; cbn [bb_left bb_right bb_top bb_bottom].
  repeat (split; [first [apply min_ok|apply max_ok]; assumption|]); apply max_ok; assumption.
Qed.
Lemma merge_lub a b : box_ok a -> box_ok b ->
  box_le a (bb_merge a b) /\ box_le b (bb_merge a b) /\ (forall c, box_le a c -> box_le b c -> box_le (bb_merge a b) c).
Proof.
  intros (A1 & A2 & A3 & A4) (B1 & B2 & B3 & B4).
  destruct (min_le _ _ A1 B1) as (L1 & L2 & L3). destruct (min_le _ _ A2 B2) as (D1 & D2 & D3).
  destruct (max_le _ _ A3 B3) as (R1 & R2 & R3). destruct (max_le _ _ A4 B4) as (T1 & T2 & T3).
  unfold box_le, bb_merge; cbn [bb_left bb_right bb_top bb_bottom]. split; [auto|]. split; [auto|].
  intros c (C1 & C2 & C3 & C4) (C5 & C6 & C7 & C8). auto.
Qed.
Lemma box_le_refl a : box_ok a -> box_le a a.
Proof. intros (A1 & A2 & A3 & A4). unfold box_le. auto using num_le_refl. Qed.
Lemma box_le_trans a b c : box_le a b -> box_le b c -> box_le a c.
Proof. intros (A1 & A2 & A3 & A4) (B1 & B2 & B3 & B4). unfold box_le. eauto 8 using num_le_trans. Qed.
Lemma in_box_le c a b : in_box c a -> box_le a b -> in_box c b.
Proof. intros (A1 & A2 & A3 & A4) (B1 & B2 & B3 & B4). unfold in_box. eauto 8 using num_le_trans. Qed.
Lemma point_in_le c b : box_le (bb_from_point c) b <-> in_box c b.
Proof. unfold box_le, in_box, bb_from_point; cbn [bb_left bb_right bb_top bb_bottom]. tauto. Qed.

(** ** from_str *)
Lemma split_join sep s : forall ps, split_byte sep s = ps ->
  exists p0 rest, ps = p0 :: rest /\ s = p0 ++ flat_map (fun p => sep :: p) rest /\ Forall (fun p => ~ In sep p) ps.
Proof.
  induction s as [|b r IH]; cbn; intros ps <-.
  - exists [], []. repeat constructor. intros [].
  - destruct (Byte.eqb b sep) eqn:E.
    + apply Byte.byte_dec_bl in E. subst b. destruct (IH _ eq_refl) as (p0 & rest & E & S & F). exists [], (p0 :: rest).
      rewrite E in *. cbn. rewrite <- S. repeat split; auto.
    + destruct (IH _ eq_refl) as (p0 & rest & E' & S & F). rewrite E' in *. exists (b :: p0), rest. cbn. rewrite <- S. repeat split; auto.
      inversion F; subst. constructor; auto. intros [X|X]; auto. subst. rewrite Byte.byte_dec_lb in E; auto; discriminate.
Qed.
Lemma split_unique sep p0 rest : Forall (fun p => ~ In sep p) (p0 :: rest) ->
  split_byte sep (p0 ++ flat_map (fun p => sep :: p) rest) = p0 :: rest.
Proof.
  revert p0. induction rest as [|p1 rest IH]; intros p0 H; inversion H as [|? ? H0 H1]; subst; clear H.
  - cbn. rewrite app_nil_r. induction p0 as [|b p0 IHp]; cbn; auto.
    destruct (Byte.eqb b sep) eqn:E; [apply Byte.byte_dec_bl in E; subst; destruct H0; left; auto|].
    rewrite IHp; auto. intros X; apply H0; right; auto.
  - cbn. induction p0 as [|b p0 IHp]; cbn.
    + rewrite Byte.byte_dec_lb by auto. rewrite IH; auto.
    + destruct (Byte.eqb b sep) eqn:E; [apply Byte.byte_dec_bl in E; subst; destruct H0; left; auto|].
      rewrite IHp; auto. intros X; apply H0; right; auto.
Qed.

Lemma strip_prefix_spec p s : match strip_prefix p s with Some r => s = p ++ r | None => forall r, s <> p ++ r end.
Proof.
  revert s. induction p as [|a p IH]; intros s; cbn; auto. destruct s as [|b s]; [discriminate|].
  destruct (Byte.eqb a b) eqn:E.
  - apply Byte.byte_dec_bl in E. subst b. specialize (IH s). destruct (strip_prefix p s); [subst; auto|]. intros r X. injection X as X. eapply IH; eauto.
  - intros r X. injection X as <- _. rewrite Byte.byte_dec_lb in E; auto; discriminate.
Qed.
Lemma strip_any_spec ps s : match strip_any ps s with
  | Some r => exists p, In p ps /\ s = p ++ r | None => forall p r, In p ps -> s <> p ++ r end.
Proof.
  induction ps as [|p ps IH]; cbn; [intros ? ? []|]. pose proof (strip_prefix_spec p s) as H. destruct (strip_prefix p s) as [r|].
  - exists p. auto.
  - destruct (strip_any ps s) as [r|].
    + destruct IH as (q & A & B). exists q. auto.
    + intros q r [->|X]; auto.
Qed.
Lemma trim_with_spec ps : Forall (fun p => p <> []) ps -> forall fuel s, (length s <= fuel)%nat ->
  exists pre, s = concat pre ++ trim_with ps fuel s /\ Forall (fun w => In w ps) pre /\
    (forall w r, In w ps -> trim_with ps fuel s <> w ++ r).
Proof.
  intros NE. induction fuel as [|f IH]; intros s L.
  - destruct s; [|cbn in L; lia]. exists []. cbn. split; auto. split; auto. intros w r I X. rewrite Forall_forall in NE.
    apply (NE w I). destruct w; auto. discriminate.
  - cbn [trim_with]. pose proof (strip_any_spec ps s) as H. destruct (strip_any ps s) as [s'|].
    + destruct H as (p & I & E). assert (length s' <= f)%nat.
      { subst s. rewrite app_length in L. rewrite Forall_forall in NE. specialize (NE p I). destruct p; [congruence|]. cbn in L. lia. }
      destruct (IH s' H) as (pre & A & B & C). exists (p :: pre). cbn. rewrite <- app_assoc, <- A. repeat split; auto.
    + exists []. cbn. split; auto.
Qed.
Lemma rev_concat_rev (pre : list bytes) : rev (concat pre) = concat (rev (map (@rev byte) pre)).
Proof.
  induction pre as [|p pre IH]; cbn; auto. rewrite rev_app_distr, IH, concat_app. cbn. rewrite app_nil_r. reflexivity.
Qed.
Lemma ws_ne : Forall (fun p : bytes => p <> []) ws_chars.
Proof. repeat constructor; discriminate. Qed.
Lemma ws_ne' : Forall (fun p : bytes => p <> []) (map (@rev byte) ws_chars).
Proof. repeat constructor; discriminate. Qed.
Lemma ws_same : ws_chars = whitespace. Proof. reflexivity. Qed.

(** a trailing white space character inside the kept part would start it too? no: what is trimmed at
    the front stays trimmed when the end is trimmed, because it stays a prefix *)
Lemma trim_spec s : trimmed s (trim s).
Proof.
  unfold trim. set (a := trim_with ws_chars (length s) s).
  destruct (trim_with_spec ws_chars ws_ne (length s) s (le_n _)) as (pre & A & B & C). fold a in A, C.
  destruct (trim_with_spec _ ws_ne' (length a) (rev a)) as (post & D & E & F); [rewrite rev_length; lia|].
  set (t := trim_with (map (@rev byte) ws_chars) (length a) (rev a)) in *.
  assert (A' : a = rev t ++ concat (rev (map (@rev byte) post))).
  { rewrite <- rev_concat_rev, <- rev_app_distr, <- D, rev_involutive. reflexivity. }
  exists pre, (rev (map (@rev byte) post)). split; [rewrite A at 1; f_equal; exact A'|].
  rewrite <- ws_same. split; [exact B|]. split.
  - apply Forall_rev. rewrite Forall_forall in *. intros w I. apply in_map_iff in I. destruct I as (x & <- & I).
    specialize (E x I). apply in_map_iff in E. destruct E as (y & <- & I'). rewrite rev_involutive. auto.
  - split.
    + intros w r I X. apply (C w (r ++ concat (rev (map (@rev byte) post))) I). rewrite A', X, app_assoc. reflexivity.
    + intros w r I X. apply (F (rev w) (rev r)); [apply in_map; auto|]. rewrite <- rev_app_distr, <- X, rev_involutive. reflexivity.
Qed.
(** trimming is a function: white space characters form a prefix code on both sides *)
Definition prefix_free (ps : list bytes) : Prop := forall p q r, In p ps -> In q ps -> p = q ++ r -> p = q.
Definition pf_check (ps : list bytes) : bool :=
  forallb (fun p => forallb (fun q => match strip_prefix q p with Some [] => true | Some _ => false | None => true end) ps) ps.
Lemma pf_check_ok ps : pf_check ps = true -> prefix_free ps.
Proof.
  unfold pf_check. intros H p q r P Q E. rewrite forallb_forall in H. specialize (H p P). rewrite forallb_forall in H. specialize (H q Q).
  pose proof (strip_prefix_spec q p) as S. destruct (strip_prefix q p) as [[|b r']|].
  - rewrite app_nil_r in S. auto.
  - discriminate.
  - exfalso. eapply S. exact E.
Qed.
Lemma app_eq_prefix (p q a b : bytes) : p ++ a = q ++ b -> (exists r, p = q ++ r) \/ (exists r, q = p ++ r).
Proof.
  revert q. induction p as [|x p IH]; intros q E; [right; exists q; reflexivity|].
  destruct q as [|y q]; [left; exists (x :: p); reflexivity|]. cbn in E. injection E as -> E.
  destruct (IH q E) as [[r ->]|[r ->]]; [left|right]; exists r; reflexivity.
Qed.
(** what remains after removing as many code words as possible does not depend on the choice *)
Lemma strip_unique ps : prefix_free ps -> Forall (fun p => p <> []) ps -> forall pre1 pre2 t1 t2,
  Forall (fun w => In w ps) pre1 -> Forall (fun w => In w ps) pre2 ->
  (forall w r, In w ps -> t1 <> w ++ r) -> (forall w r, In w ps -> t2 <> w ++ r) ->
  concat pre1 ++ t1 = concat pre2 ++ t2 -> t1 = t2.
Proof.
  intros PF NE. induction pre1 as [|p pre1 IH]; intros pre2 t1 t2 F1 F2 N1 N2 E.
  - destruct pre2 as [|q pre2]; [exact E|]. cbn in E. rewrite <- app_assoc in E. inversion F2; subst. exfalso. eapply N1; eauto.
  - inversion F1 as [|? ? P F1']; subst. destruct pre2 as [|q pre2]; cbn in E; rewrite <- ?app_assoc in E.
    + exfalso. eapply N2; eauto.
    + inversion F2 as [|? ? Q F2']; subst.
      assert (p = q). { destruct (app_eq_prefix _ _ _ _ E) as [[r R]|[r R]]; [eapply PF; eauto|symmetry; eapply PF; eauto]. }
      subst q. apply app_inv_head in E. eauto.
Qed.

Lemma pf_ws : prefix_free whitespace. Proof. apply pf_check_ok. vm_compute. reflexivity. Qed.
Lemma pf_ws' : prefix_free (map (@rev byte) whitespace). Proof. apply pf_check_ok. vm_compute. reflexivity. Qed.
(** the first byte of a white space character is never a later byte of one *)
Definition lead (b : byte) : bool := existsb (fun w => match w with x :: _ => Byte.eqb x b | [] => false end) whitespace.
Lemma ws_tails : forallb (fun w => match w with _ :: r => forallb (fun b => negb (lead b)) r | [] => false end) whitespace = true.
Proof. vm_compute. reflexivity. Qed.
Lemma lead_in b w : In (b :: w) whitespace -> lead b = true.
Proof. intros H. unfold lead. apply existsb_exists. exists (b :: w). split; auto. apply Byte.byte_dec_lb; auto. Qed.
Lemma ws_not_empty w : In w whitespace -> w <> [].
Proof. intros H. pose proof ws_ne as N. rewrite ws_same, Forall_forall in N. auto. Qed.
Lemma no_straddle t post : t <> [] -> (forall w r, In w whitespace -> t <> w ++ r) -> Forall (fun w => In w whitespace) post ->
  forall w r, In w whitespace -> t ++ concat post <> w ++ r.
Proof.
  intros NE N F w r I E. destruct (app_eq_prefix _ _ _ _ E) as [[q Q]|[q Q]]; [eapply N; eauto|].
  destruct q as [|b q]; [rewrite app_nil_r in Q; apply (N w [] I); rewrite app_nil_r; auto|].
  rewrite Q, <- app_assoc in E. apply app_inv_head in E.
  assert (L : lead b = true).
  { destruct post as [|p post]; [discriminate|]. inversion F as [|? ? P F']; subst. pose proof (ws_not_empty p P).
    destruct p as [|c p]; [congruence|]. cbn in E. injection E as -> E. eapply lead_in; eauto. }
  pose proof ws_tails as W. rewrite forallb_forall in W. specialize (W w I). destruct t as [|x t]; [congruence|].
  rewrite Q in W. cbn [app] in W. rewrite forallb_forall in W. assert (J : In b (t ++ b :: q)) by (apply in_or_app; right; left; reflexivity).
  specialize (W b J). cbv beta in W.
  rewrite L in W. discriminate.
Qed.
Lemma trimmed_trim s t : trimmed s t -> trim s = t.
Proof.
  intros (pre & post & E & F1 & F2 & N1 & N2). unfold trim.
  set (a := trim_with ws_chars (length s) s).
  destruct (trim_with_spec ws_chars ws_ne (length s) s (le_n _)) as (pre' & A & B & C). fold a in A, C.
  destruct (trim_with_spec _ ws_ne' (length a) (rev a)) as (post' & D & E' & F); [rewrite rev_length; lia|].
  set (u := trim_with (map (@rev byte) ws_chars) (length a) (rev a)) in *.
  rewrite ws_same in *.
  assert (WN : Forall (fun p : bytes => p <> []) whitespace) by exact ws_ne.
  assert (WN' : Forall (fun p : bytes => p <> []) (map (@rev byte) whitespace)) by exact ws_ne'.
  assert (AE : concat pre' ++ a = concat pre ++ t ++ concat post) by (rewrite <- A; exact E).
  assert (X : exists post2, a = t ++ concat post2 /\ Forall (fun w => In w whitespace) post2).
  { destruct t as [|x t].
    - exists []. split; [|constructor]. cbn. apply (strip_unique whitespace pf_ws WN pre' (pre ++ post)); auto.
      + apply Forall_app. auto.
      + rewrite concat_app, app_nil_r. exact AE.
    - exists post. split; [|assumption].
      apply (strip_unique whitespace pf_ws WN pre' pre); auto.
      apply no_straddle; auto. discriminate. }
  destruct X as (post2 & X1 & X2). apply (f_equal (@rev byte)) in D. rewrite rev_involutive in D.
  apply (f_equal (@rev byte)) in X1. rewrite rev_app_distr, rev_concat_rev in X1.
  assert (U : u = rev t).
  { apply (strip_unique (map (@rev byte) whitespace) pf_ws' WN' post' (rev (map (@rev byte) post2))); auto.
    - apply Forall_rev. rewrite Forall_forall in *. intros w I. apply in_map_iff in I. destruct I as (y & <- & I). apply in_map. auto.
    - intros w r I W. apply in_map_iff in I. destruct I as (y & <- & I). apply (N2 y (rev r) I).
      apply (f_equal (@rev byte)) in W. rewrite rev_involutive, rev_app_distr, rev_involutive in W. exact W.
    - rewrite <- X1. apply (f_equal (@rev byte)) in D. rewrite rev_involutive in D. symmetry. exact D. }
  rewrite U. apply rev_involutive.
Qed.
