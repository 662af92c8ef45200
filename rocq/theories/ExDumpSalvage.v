(** Non-vacuity of C104: the dump of ExResolve, whose users table has lost a row. *)
From Coq Require Import ZArith List Bool Strings.Byte Strings.String Lia Permutation.
From Verif Require Import Base BaseFacts Types ApidbText ApidbSpec DumpSpec RoundSpec RoundFacts PropRound PropRoundTrip ApidbWrite ApidbRead DumpReadSpec
  FileFormat ExTools TocData ExApidb ExPipelines ResolveSpec PropResolve ExResolve PropPoll SalvageSpec DumpSalvage DumpSalvageSpec PropDumpSalvage.
Import ListNotations.
Local Notation length := List.length.
Open Scope Z_scope.

(** the node -3, a panic for version 1 of node 1, and version 2 of node 1 *)
Example ex_caught : exists dir rd k s a b rest, ApidbRead.reader_new ex_sort dir = Ok rd /\ ApidbRead.elements ex_unescape rd = Ok (k, s) /\
  tried (graph (dump_try k)) s (Some (ENode a) :: None :: Some (ENode b) :: rest) /\ n_id a = -3 /\ n_id b = 1 /\ n_version b = 2.
Proof.
  destruct ex_lost_user as (dir & d & D & PK & UA & (name & KA) & H).
  destruct (C104_reading ex_unescape ex_sort ex_sorts dir d D PK) as (rd & k & s & items & rs & A & B & T & I & F).
  destruct (C76_reading ex_unescape ex_sort ex_sorts dir d D PK) as (rd2 & k2 & s2 & items2 & l2 & o2 & _ & _ & _ & I2 & R2).
  destruct (H _ _ _ I2 R2) as (_ & _ & rest2 & E2).
  assert (E : exists rest, items = map ANode (map node_record [ex_n3; ex_n1; ex_n1'; ex_n2]) ++ rest).
  { destruct I as (ns & ws & rs' & P & O & _ & _ & _ & _ & ->). destruct I2 as (ns2 & ws2 & rs2 & P2 & O2 & _ & _ & _ & _ & E3).
    assert (ns2 = ns) as ->.
    { apply (perm_strict (fun a b => key_lt (node_key a) (node_key b))); auto.
      + intros x. unfold key_lt. lia.
      + intros x y z. unfold key_lt. lia.
      + apply (Permutation_trans P2 (Permutation_sym P)). }
    rewrite E3 in E2. clear - E2.
    revert E2. generalize (map ARelation rs2 ++ [AMark]) as u, (map ARelation rs' ++ [AMark]) as u'. intros u u' E2.
    assert (Y : forall (m l : list node_rec) x y v, map ANode l ++ AMark :: x = map ANode m ++ v -> exists r, map ANode l ++ AMark :: y = map ANode m ++ r).
    { induction m as [|q m IH]; intros l x y v Q; [eexists; reflexivity|]. destruct l as [|p l]; cbn in Q; [discriminate Q|]. injection Q as -> Q.
      destruct (IH l x y v Q) as (r & W). exists r. cbn. f_equal. exact W. }
    eapply Y. cbn [app] in E2. exact E2. }
  destruct E as (rest & ->). cbn [map app] in F.
  inversion F as [|? r0 ? l0 F0 G0]; subst. inversion G0 as [|? r1 ? l1 F1 G1]; subst. inversion G1 as [|? r3 ? l3 F3 _]; subst.
  assert (Q : forall e, ~ item_element d (ANode (node_record ex_n1)) e).
  { intros e (uid & nm & ts & v & u & X & _). destruct UA as (c & E & UA). injection E as <-. exact (UA _ _ X). }
  destruct r1 as [e1|]; [destruct (Q _ F1)|].
  destruct r0 as [e0|]; [|destruct F0 as (c & E & F0); injection E as <-; destruct (F0 _ _ KA)].
  destruct r3 as [e3|]; [|destruct F3 as (c & E & F3); injection E as <-; destruct (F3 _ _ KA)].
  destruct F0 as (? & ? & ? & ? & ? & _ & _ & _ & _ & ->). destruct F3 as (? & ? & ? & v & ? & _ & _ & (V1 & V2) & _ & ->).
  eexists dir, rd, k, s, _, _, l3. split; [exact A|]. split; [exact B|]. split; [apply T; reflexivity|].
  cbn [n_id n_version node_record nr_id nr_version] in *. sconj; auto. unfold I32 in V1. destruct V2 as (q & V2). change (2 ^ 32) with 4294967296 in V2. cbn in V2. lia.
Qed.
