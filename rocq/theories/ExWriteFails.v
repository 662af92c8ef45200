(** Non-vacuity of C85. *)
From Coq Require Import ZArith List Bool Strings.Byte Strings.String Lia Permutation Sorted.
From Verif Require Import Base BaseFacts Types Proto Block BlockFacts FloatFacts Spec SpecFacts FileFormat FileFacts FileSpec PropFile.
From Verif Require Import ModelSpec Model2 ModelFacts Pool ParallelSpec PoolFacts ParallelRead ParallelReadFacts PropParallelRead ExBlock ExFile ExParallelRead.
From Verif Require Import ParallelWriteSpec ParallelWrite OrderFacts EncodeFacts PropParallelWrite ExParallelWrite WriteFails PropWriteFails.
Import ListNotations.
Open Scope nat_scope.
Local Notation length := List.length.
Local Notation concat := List.concat.

Definition ex_blocks : list (nat * list element) := [(1, [nd 1; nd 2]); (2, [nd 3; nd 4]); (3, [wy 5; wy 6])].
(** what can happen: a step of an agent (as in ExParallelWrite), write_header, a blob of which [l] bytes are written *)
Inductive action := Agent (a : nat) | Header | Break (l : nat).
Definition act (a : action) (t : threads) : threads :=
  match a, t with
  | Agent a, _ => match try_t Checked ex_codec Zlib a t with Some t' => t' | None => t end
  | Header, Threads p q es w bf n WIdle None => Threads p q es w bf n WIdle (Some ex_header)
  | Break l, Threads p q es w bf n WDraining (Some f) =>
      match lookup n bf with Some hb => Threads p q es w (remove n bf) n WFailed (Some (f ++ firstn l (write_blob hb))) | None => t end
  | _, _ => t
  end.
Lemma act_sound a t t0 : dexec Checked ex_codec Zlib ex_header t0 t -> dexec Checked ex_codec Zlib ex_header t0 (act a t).
Proof.
  intros D. destruct a as [a| |l]; cbn [act].
  - destruct (try_t Checked ex_codec Zlib a t) as [t'|] eqn:E; auto. econstructor; [exact D|]. constructor. apply try_t_sound with a. exact E.
  - destruct t as [p q es w bf n [| |] [f|]]; auto. econstructor; [exact D|]. apply ds_header.
  - destruct t as [p q es w bf n [| |] [f|]]; auto. destruct (lookup n bf) eqn:E; auto. econstructor; [exact D|]. apply ds_blob_breaks; auto.
Qed.
Lemma acts_sound l : forall t t0, dexec Checked ex_codec Zlib ex_header t0 t -> dexec Checked ex_codec Zlib ex_header t0 (fold_left (fun t a => act a t) l t).
Proof. induction l as [|a l IH]; intros t t0 D; cbn [fold_left]; auto. apply IH, act_sound, D. Qed.

(** write_header while two blobs are already encoded, once more at the end: the file is complete *)
Definition late : list action := map Agent [0; 0; 0; 2; 3; 3; 2] ++ [Header] ++ map Agent (round_robin 20 [1; 2; 3]) ++ [Header].
Example ex_late : let t := fold_left (fun t a => act a t) late (threads_no_header 2 ex_blocks) in
  dexec Checked ex_codec Zlib ex_header (threads_no_header 2 ex_blocks) t /\ closed t /\ exists f, t_file t = Some f /\ (zlen f > 300)%Z.
Proof.
  intros t. split; [apply acts_sound; constructor|]. split; [apply closedb_spec; vm_compute; reflexivity|].
  assert (E : match t_file t with Some f => Z.ltb 300 (zlen f) | None => false end = true) by (vm_compute; reflexivity).
  destruct (t_file t) as [f|]; [|discriminate E]. exists f. split; auto. apply Z.ltb_lt in E. lia.
Qed.
(** the disk is full ten bytes into the second blob: the thread has panicked, the file has the header, the first blob and these ten bytes *)
Definition full : list action := [Header] ++ map Agent [0; 0; 0; 2; 3; 3; 2; 2; 3; 1; 1; 1; 1] ++ [Break 10].
Example ex_full : let t := fold_left (fun t a => act a t) full (threads_no_header 2 ex_blocks) in
  dexec Checked ex_codec Zlib ex_header (threads_no_header 2 ex_blocks) t /\ t_w t = WFailed /\ t_next t = 2 /\
  exists f, t_file t = Some f /\ (zlen f > zlen ex_header + 10)%Z.
Proof.
  intros t. split; [apply acts_sound; constructor|]. split; [vm_compute; reflexivity|]. split; [vm_compute; reflexivity|].
  assert (E : match t_file t with Some f => Z.ltb (zlen ex_header + 10) (zlen f) | None => false end = true) by (vm_compute; reflexivity).
  destruct (t_file t) as [f|]; [|discriminate E]. exists f. split; auto. apply Z.ltb_lt in E. lia.
Qed.
(** six hundred more blocks to come when the thread panics for want of a header *)
Example ex_stuck : exists t, dexec Checked ex_codec Zlib ex_header (threads_no_header 4 ((1, [nd 1; nd 2]) :: repeat (2, []) 600)) t /\
  t_w t = WFailed /\ forall t', dexec Checked ex_codec Zlib ex_header t t' -> t_pending t' <> [] /\ t_file t' = None.
Proof.
  destruct (fblock_serialize Checked ex_codec Zlib (FData 0 [nd 1; nd 2])) as [hb| |] eqn:S.
  2,3: assert (X : match fblock_serialize Checked ex_codec Zlib (FData 0 [nd 1; nd 2]) with Ok _ => true | _ => false end = true) by (vm_compute; reflexivity); rewrite S in X; discriminate X.
  destruct (C85_too_late Checked ex_codec Zlib ex_header 4 [nd 1; nd 2] hb (repeat (2, []) 600) ltac:(lia) S) as (j & t & X & F & P & N).
  exists t. assert (D : dexec Checked ex_codec Zlib ex_header (threads_no_header 4 ((1, [nd 1; nd 2]) :: repeat (2, []) 600)) t) by (eapply dexec_texec; [constructor|exact X]).
  split; auto. split; auto. intros t' Y. split; [|apply N; exact Y]. eapply C85_stuck; eauto. rewrite P, repeat_length. lia.
Qed.
