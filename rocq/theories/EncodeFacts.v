(** Lemmas about the encoding threads and the writing thread of the parallel writer. *)
From Coq Require Import ZArith List Bool Strings.Byte Strings.String Lia Permutation.
From Verif Require Import Base BaseFacts Types FileFormat FileFacts WriterFacts Pool ParallelSpec PoolFacts ParallelWrite.
Import ListNotations.
Open Scope nat_scope.
Local Notation length := List.length.
Local Notation concat := List.concat.

Ltac pm := apply (proj2 (Permutation_count_occ Nat.eq_dec _ _)); let v := fresh "v" in intros v;
  rewrite ?map_app, ?flat_map_app; cbn [map fst flat_map app]; rewrite ?count_occ_app; cbn [count_occ app];
  rewrite ?count_occ_app; cbn [count_occ app]; rewrite ?count_occ_app;
  repeat match goal with |- context [Nat.eq_dec ?a ?b] => destruct (Nat.eq_dec a b) end; lia.
Lemma nodup_app_l {A} (a b : list A) : NoDup (a ++ b) -> NoDup a.
Proof. induction a as [|x a IH]; intros H; [constructor|]. inversion H; subst. constructor; auto. intros I. apply H2, in_or_app. auto. Qed.
Section Facts.
  Variable m : mode.
  Variable c : codec.
  Variable k : compression.
  Notation tstep := (tstep m c k).
  Notation texec := (texec m c k).
  (** the blob made of a block (the number in the block does not matter) *)
  Definition blob_made (b : nat * list element) (hb : bytes * bytes) : Prop := fblock_serialize m c k (FData 0 (snd b)) = Ok hb.

  Definition enc_index (e : encoder) : list nat := match e with Encoding i _ => [i] | Encoded i _ => [i] | _ => [] end.
  Definition failed_count (l : list encoder) : nat := sum (fun e => match e with EFailed => 1 | _ => 0 end) l.
  Definition flight (t : threads) : list nat :=
    map fst (t_buffer t) ++ map fst (t_wrq t) ++ flat_map enc_index (t_encs t) ++ map fst (t_encq t) ++ map fst (t_pending t).
  Definition good_blob (tagged : list (nat * list element)) (p : nat * (bytes * bytes)) : Prop :=
    exists es, In (fst p, es) tagged /\ blob_made (fst p, es) (snd p).
  Definition good_enc (tagged : list (nat * list element)) (e : encoder) : Prop :=
    match e with Encoding i es => In (i, es) tagged | Encoded i hb => good_blob tagged (i, hb) | _ => True end.

  Inductive tinv (tagged : list (nat * list element)) (header : bytes) (t : threads) : Prop :=
  | tinv_intro (hbs : list (bytes * bytes)) (lost : list nat)
    (v_next : 1 <= t_next t <= S (length tagged))
    (v_blobs : Forall2 blob_made (firstn (t_next t - 1) tagged) hbs)
    (v_file : t_file t = Some (header ++ concat (map write_blob hbs)))
    (v_flight : Permutation (flight t ++ lost) (seq (t_next t) (S (length tagged) - t_next t)))
    (v_lost : length lost = failed_count (t_encs t))
    (v_todo : Forall (fun b => In b tagged) (t_encq t ++ t_pending t))
    (v_enc : Forall (good_enc tagged) (t_encs t))
    (v_made : Forall (good_blob tagged) (t_buffer t ++ t_wrq t))
    (v_idle : t_w t = WIdle -> lookup (t_next t) (t_buffer t) = None)
    (v_w : t_w t <> WFailed).

  Lemma tinv_init tagged header n : map fst tagged = seq 1 (length tagged) -> tinv tagged header (threads_new header n tagged).
  Proof.
    intros H. apply tinv_intro with (hbs := []) (lost := []); cbn; try discriminate; auto.
    - lia.
    - rewrite app_nil_r. reflexivity.
    - rewrite app_nil_r. unfold flight; cbn. assert (E : flat_map enc_index (repeat EIdle n) = []) by (induction n; auto). rewrite E, H, Nat.sub_0_r. reflexivity.
    - unfold failed_count. induction n; cbn; auto.
    - apply Forall_forall. auto.
    - apply Forall_forall. intros e I. apply repeat_spec in I. subst. exact I.
  Qed.

  Lemma lookup_in i l hb : lookup i l = Some hb -> In (i, hb) l.
  Proof. induction l as [|[j x] l IH]; cbn; [discriminate|]. destruct (Nat.eqb_spec i j); [intros [= <-]; subst; auto|auto]. Qed.
  Lemma lookup_none i l : lookup i l = None <-> ~ In i (map fst l).
  Proof.
    induction l as [|[j x] l IH]; cbn; [tauto|]. destruct (Nat.eqb_spec i j); [subst; split; [discriminate|tauto]|].
    rewrite IH. split; [intros H [X|X]; auto; congruence|tauto].
  Qed.
  Lemma remove_notin i l : ~ In i (map fst l) -> remove i l = l.
  Proof.
    unfold remove. induction l as [|[j x] l IH]; cbn; auto. intros H. destruct (Nat.eqb_spec i j); [subst; tauto|]. cbn. f_equal. tauto.
  Qed.
  Lemma remove_perm i l hb : NoDup (map fst l) -> lookup i l = Some hb -> Permutation (map fst l) (i :: map fst (remove i l)).
  Proof.
    unfold remove. induction l as [|[j x] l IH]; cbn; [discriminate|]. intros ND H. inversion ND as [|? ? N1 N2]; subst.
    destruct (Nat.eqb_spec i j).
    - subst. cbn. fold (remove j l). rewrite remove_notin by auto. reflexivity.
    - cbn. rewrite (IH N2 H) at 1. apply perm_swap.
  Qed.
  Lemma remove_incl i l : incl (remove i l) l.
  Proof. intros x I. unfold remove in I. apply filter_In in I. tauto. Qed.
  Lemma seq_cons n len : seq n (S len) = n :: seq (S n) len. Proof. reflexivity. Qed.
  Lemma tagged_nth (tagged : list (nat * list element)) i es : map fst tagged = seq 1 (length tagged) -> In (i, es) tagged -> nth_error tagged (i - 1) = Some (i, es) /\ 1 <= i <= length tagged.
  Proof.
    intros H I. apply In_nth_error in I. destruct I as (j & E). pose proof (map_nth_error fst _ _ E) as E2. rewrite H in E2. cbn in E2.
    assert (L : j < length tagged) by (apply nth_error_Some; congruence).
    rewrite nth_error_nth' with (d := 0) in E2 by (rewrite seq_length; auto). rewrite seq_nth in E2 by auto. injection E2 as E3.
    replace (i - 1) with j by lia. split; auto. lia.
  Qed.
  Lemma firstn_snoc {A} (l : list A) j x : nth_error l j = Some x -> firstn (S j) l = firstn j l ++ [x].
  Proof. revert l. induction j; intros [|y l] H; cbn in *; try discriminate; [injection H as ->; auto|]. f_equal. auto. Qed.

  Lemma set_enc e (x y : encoder) es : nth_error es e = Some y -> exists a b, es = a ++ y :: b /\ set_nth e x es = a ++ x :: b.
  Proof. intros H. destruct (set_nth_split e x y es H) as (a & b & E1 & E2 & _). eauto. Qed.
  Lemma made_index i es hb : fblock_serialize m c k (FData (Z.of_nat i) es) = Ok hb -> blob_made (i, es) hb.
  Proof. unfold blob_made. cbn. intros H. rewrite (serialize_data_index m c k 0 (Z.of_nat i)). exact H. Qed.

  Lemma tinv_step tagged header t t' : map fst tagged = seq 1 (length tagged) -> tinv tagged header t -> tstep t t' -> tinv tagged header t'.
  Proof.
    intros TG I H. destruct I as [hbs lost Nx Bl Fi Fl Lo To En Ma Id W].
    destruct H as [b p q es w bf n ws f L|i b p q es w bf n ws f e E|i b p q es w bf n ws f e hb E S|i b p q es w bf n ws f e E S|i hb p q es w bf n ws f e E L|i hb p q es w bf n f|hb p q es w bf n f E|hb p q es w bf n E|p q es w bf n f E];
      cbn [t_pending t_encq t_encs t_wrq t_buffer t_next t_w t_file] in *; unfold flight in *; cbn [t_pending t_encq t_encs t_wrq t_buffer t_next t_w t_file] in *.
    - apply tinv_intro with hbs lost; cbn [t_pending t_encq t_encs t_wrq t_buffer t_next t_w t_file]; auto.
      + unfold flight; cbn [t_pending t_encq t_encs t_wrq t_buffer]. rewrite <- Fl. rewrite map_app, <- !app_assoc. reflexivity.
      + rewrite <- app_assoc. exact To.
    - destruct (set_enc e (Encoding i b) _ _ E) as (x & y & -> & E2). rewrite E2.
      apply tinv_intro with hbs lost; unfold flight; cbn [t_pending t_encq t_encs t_wrq t_buffer t_next t_w t_file]; auto.
      + rewrite <- Fl. rewrite !flat_map_app. cbn. pm.
      + rewrite Lo. unfold failed_count. rewrite !sum_app. reflexivity.
      + cbn in To. inversion To; auto.
      + apply Forall_app in En. destruct En as [E3 E4]. inversion E4; subst. apply Forall_app. split; auto. constructor; auto. cbn. cbn in To. inversion To; auto.
    - destruct (set_enc e (Encoded i hb) _ _ E) as (x & y & -> & E2). rewrite E2.
      apply tinv_intro with hbs lost; unfold flight; cbn [t_pending t_encq t_encs t_wrq t_buffer t_next t_w t_file]; auto.
      + rewrite <- Fl. rewrite !flat_map_app. reflexivity.
      + rewrite Lo. unfold failed_count. rewrite !sum_app. reflexivity.
      + apply Forall_app in En. destruct En as [E3 E4]. inversion E4 as [|? ? E5 E6]; subst. apply Forall_app. split; auto. constructor; auto. cbn. exists b. split; auto.
    - destruct (set_enc e EFailed _ _ E) as (x & y & -> & E2). rewrite E2.
      apply tinv_intro with hbs (i :: lost); unfold flight; cbn [t_pending t_encq t_encs t_wrq t_buffer t_next t_w t_file]; auto.
      + rewrite <- Fl. rewrite !flat_map_app. cbn. pm.
      + unfold failed_count in *. rewrite !sum_app in *. cbn in *. lia.
      + apply Forall_app in En. destruct En as [E3 E4]. inversion E4 as [|? ? E5 E6]; subst. apply Forall_app. split; auto. constructor; cbn; auto.
    - destruct (set_enc e EIdle _ _ E) as (x & y & -> & E2). rewrite E2.
      apply Forall_app in En. destruct En as [E3 E4]. inversion E4 as [|? ? E5 E6]; subst.
      apply tinv_intro with hbs lost; unfold flight; cbn [t_pending t_encq t_encs t_wrq t_buffer t_next t_w t_file]; auto.
      + rewrite <- Fl. rewrite !flat_map_app, map_app. cbn. pm.
      + rewrite Lo. unfold failed_count. rewrite !sum_app. reflexivity.
      + apply Forall_app. split; auto. constructor; cbn; auto.
      + rewrite app_assoc. apply Forall_app. split; auto.
    - assert (ND : NoDup (map fst bf ++ i :: map fst w)).
      { apply nodup_app_l with (b := (flat_map enc_index es ++ map fst q ++ map fst p) ++ lost).
        replace ((map fst bf ++ i :: map fst w) ++ (flat_map enc_index es ++ map fst q ++ map fst p) ++ lost)
          with ((map fst bf ++ map fst ((i, hb) :: w) ++ flat_map enc_index es ++ map fst q ++ map fst p) ++ lost) by (cbn; rewrite <- !app_assoc; cbn; rewrite <- !app_assoc; reflexivity).
        eapply Permutation_NoDup; [apply Permutation_sym; exact Fl|apply seq_NoDup]. }
      assert (NI : ~ In i (map fst bf)) by (apply NoDup_remove_2 in ND; intros X; apply ND, in_or_app; auto).
      unfold insert. rewrite remove_notin by auto.
      apply tinv_intro with hbs lost; unfold flight; cbn [t_pending t_encq t_encs t_wrq t_buffer t_next t_w t_file]; auto; try discriminate.
      + rewrite <- Fl. cbn. pm.
      + apply Forall_app in Ma. destruct Ma as [M1 M2]. inversion M2; subst. cbn. constructor; auto. apply Forall_app; auto.
    - injection Fi as ->. pose proof (lookup_in _ _ _ E) as IN. apply Forall_app in Ma. destruct Ma as [M1 M2]. rewrite Forall_forall in M1.
      destruct (M1 _ IN) as (b & T1 & T2). cbn [fst snd] in *. destruct (tagged_nth _ _ _ TG T1) as [T3 T4].
      assert (ND : NoDup (map fst bf)).
      { eapply nodup_app_l, nodup_app_l. eapply Permutation_NoDup; [apply Permutation_sym; exact Fl|apply seq_NoDup]. }
      apply tinv_intro with (hbs ++ [hb]) lost; unfold flight; cbn [t_pending t_encq t_encs t_wrq t_buffer t_next t_w t_file]; auto; try discriminate.
      + lia.
      + replace (S n - 1) with (S (n - 1)) by lia. rewrite (firstn_snoc _ _ _ T3). apply Forall2_app; auto.
      + rewrite map_app, concat_app. cbn. rewrite app_nil_r, app_assoc. reflexivity.
      + rewrite (remove_perm _ _ _ ND E) in Fl. replace (S (length tagged) - n) with (S (S (length tagged) - S n)) in Fl by lia. rewrite seq_cons in Fl. cbn in Fl.
        apply Permutation_cons_inv in Fl. exact Fl.
      + apply Forall_app. split; auto. apply Forall_forall. intros z Z. apply M1. eapply remove_incl; eauto.
    - discriminate.
    - apply tinv_intro with hbs lost; unfold flight; cbn [t_pending t_encq t_encs t_wrq t_buffer t_next t_w t_file]; auto; discriminate.
  Qed.
  Lemma texec_inv tagged header n j t : map fst tagged = seq 1 (length tagged) -> texec (threads_new header n tagged) j t -> tinv tagged header t.
  Proof.
    intros TG. remember (threads_new header n tagged) as t0 eqn:E0. induction 1 as [|t j t1 t2 X IH H]; subst.
    - apply tinv_init, TG.
    - eapply tinv_step; eauto.
  Qed.

  Lemma closed_flight t : closed t -> flight t = map fst (t_buffer t) /\ failed_count (t_encs t) = 0.
  Proof.
    intros (A & B & C & D & _). unfold flight. rewrite A, B, D. cbn. rewrite !app_nil_r.
    assert (E : flat_map enc_index (t_encs t) = [] /\ failed_count (t_encs t) = 0).
    { unfold failed_count. induction C as [|e l H C IH]; cbn; auto. subst. cbn. auto. }
    destruct E as [E1 E2]. rewrite E1, app_nil_r. auto.
  Qed.
  Lemma file_spec tagged header n j t : map fst tagged = seq 1 (length tagged) -> texec (threads_new header n tagged) j t ->
    exists w hbs, w <= length tagged /\ Forall2 blob_made (firstn w tagged) hbs /\ t_file t = Some (header ++ concat (map write_blob hbs)) /\
      (closed t -> w = length tagged).
  Proof.
    intros TG X. destruct (texec_inv _ _ _ _ _ TG X) as [hbs lost Nx Bl Fi Fl Lo To En Ma Id W].
    exists (t_next t - 1), hbs. split; [lia|]. split; auto. split; auto. intros Cl. destruct (closed_flight _ Cl) as [F1 F2].
    rewrite F2 in Lo. destruct lost; [|discriminate]. rewrite F1, app_nil_r in Fl. destruct Cl as (_ & _ & _ & _ & Cw). specialize (Id Cw). apply lookup_none in Id.
    destruct (Nat.eq_dec (t_next t) (S (length tagged))) as [E|NE]; [lia|]. exfalso. apply Id.
    eapply Permutation_in; [apply Permutation_sym; exact Fl|]. apply in_seq. lia.
  Qed.

  (** deadlock freedom *)
  Lemma texec_encs t j t' : texec t j t' -> length (t_encs t') = length (t_encs t).
  Proof. induction 1 as [|t j t1 t2 X IH H]; auto. rewrite <- IH. destruct H; cbn; rewrite ?set_nth_length; reflexivity. Qed.
  Lemma tprogress tagged header n j t : map fst tagged = seq 1 (length tagged) -> texec (threads_new header n tagged) j t -> 0 < n ->
    no_failed t -> closed t \/ exists t', tstep t t'.
  Proof.
    intros TG X Hn [NF _]. destruct (texec_inv _ _ _ _ _ TG X) as [hbs lost Nx Bl Fi Fl Lo To En Ma Id W].
    pose proof (texec_encs _ _ _ X) as EL. cbn in EL. rewrite repeat_length in EL.
    destruct t as [p q es w bf nx ws f]. cbn in *. subst f.
    destruct ws; [|right|congruence].
    2: { destruct (lookup nx bf) as [hb|] eqn:Lk; eexists; [eapply ts_write; eauto|eapply ts_stop; eauto]. }
    destruct w as [|[i hb] w]; [|right; eexists; apply ts_receive].
    assert (Wk : (exists e i b, nth_error es e = Some (Encoding i b)) \/ (exists e i hb, nth_error es e = Some (Encoded i hb)) \/ Forall (fun e => e = EIdle) es).
    { clear - NF. induction NF as [|x es H NF IH]; [auto|].
      destruct x as [|i b|i hb|]; [|left; exists 0, i, b; reflexivity|right; left; exists 0, i, hb; reflexivity|congruence].
      destruct IH as [(e & i & b & IH)|[(e & i & hb & IH)|IH]]; [left; exists (S e), i, b; auto|right; left; exists (S e), i, hb; auto|right; right; constructor; auto]. }
    destruct Wk as [(e & i & b & Wk)|[(e & i & hb & Wk)|Wk]].
    - right. destruct (fblock_serialize m c k (FData (Z.of_nat i) b)) as [hb| |] eqn:Se; eexists; [eapply ts_encode; eauto| |]; eapply ts_encode_fails; eauto; intros hb; rewrite Se; discriminate.
    - right. eexists. eapply ts_push; eauto. unfold queue_size. cbn. lia.
    - destruct q as [|[i b] q].
      + destruct p as [|b p]; [left; repeat split; auto|]. right. eexists. apply ts_submit. unfold queue_size. cbn. lia.
      + right. destruct es as [|e0 es]; [cbn in EL; lia|]. inversion Wk; subst. eexists. eapply ts_take with (e := 0). reflexivity.
  Qed.
  (** termination *)
  Definition tmeasure (t : threads) : nat :=
    7 * length (t_pending t) + 6 * length (t_encq t) + sum (fun e => match e with Encoding _ _ => 5 | Encoded _ _ => 4 | _ => 0 end) (t_encs t)
    + 3 * length (t_wrq t) + length (t_buffer t) + match t_w t with WDraining => 1 | _ => 0 end.
  Lemma remove_length i l : length (remove i l) <= length l.
  Proof. unfold remove. induction l as [|x l IH]; cbn; auto. destruct (negb _); cbn; lia. Qed.
  Lemma remove_shorter i l hb : lookup i l = Some hb -> length (remove i l) < length l.
  Proof.
    intros H. unfold remove. induction l as [|[j x] l IH]; cbn in *; [discriminate|]. pose proof (remove_length i l). unfold remove in *.
    destruct (Nat.eqb_spec i j); cbn; [lia|]. specialize (IH H). lia.
  Qed.
  Lemma tdecreases t t' : tstep t t' -> tmeasure t' < tmeasure t.
  Proof.
    intros H. unfold tmeasure. destruct H as [b p q es w bf n ws f L|i b p q es w bf n ws f e E|i b p q es w bf n ws f e hb E S|i b p q es w bf n ws f e E S|i hb p q es w bf n ws f e E L|i hb p q es w bf n f|hb p q es w bf n f E|hb p q es w bf n E|p q es w bf n f E];
      cbn [t_pending t_encq t_encs t_wrq t_buffer t_next t_w t_file];
      try (match goal with |- context [set_nth e ?x es] => destruct (set_enc e x _ _ E) as (a & z & -> & E2); rewrite E2, ?sum_app end; cbn [sum]);
      rewrite ?app_length; cbn [length]; try lia.
    - unfold insert. cbn [length]. pose proof (remove_length i bf). lia.
    - pose proof (remove_shorter _ _ _ E). lia.
    - pose proof (remove_shorter _ _ _ E). lia.
  Qed.
  Lemma texec_bounded t j t' : texec t j t' -> j <= tmeasure t.
  Proof.
    intros X. assert (G : tmeasure t' + j <= tmeasure t); [|lia]. induction X as [|t j t1 t2 X IH H]; [lia|]. apply tdecreases in H. lia.
  Qed.
End Facts.
