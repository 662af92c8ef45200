(** Non-vacuity of C100. *)
From Coq Require Import ZArith List Bool Strings.Byte Strings.String Lia.
From Verif Require Import Base BaseFacts Types Proto FileFormat FileFacts FileSpec Spec PropFile DamagedSpec ExBlock ExFile ExPipelines ExReadAny ExBlobs ExParallelRead PropFails ExFails PollSpec Poll PropPoll SalvageSpec Salvage PropSalvage.
Import ListNotations.
Open Scope Z_scope.
Local Notation length := List.length.

(** a blob that cannot be decoded between a good file and its data blocks once more *)
Definition ex_gapped : bytes := Eval vm_compute in
  match write_header Checked ex_codec (writer_new ex_info Zlib) with Ok w0 => ex_two_blocks ++ file_of_blobs [bad_blob] ++ skipn (length (wr_file w0)) ex_two_blocks | _ => [] end.
Definition shape {A} (l : list (option A)) : list bool := map (fun o => match o with Some _ => true | None => false end) l.
(** three elements, a panic, three elements, and the end *)
Example ex_salvage : exists i x rs, reader_new Checked ex_codec ex_gapped = Ok i /\ elements_new Checked ex_codec ex_gapped = Ok x /\ tried (el_try Checked ex_codec ex_gapped) x rs /\
  shape rs = [true; true; true; false; true; true; true].
Proof.
  destruct (blob_list 20 ex_gapped bit_new) as [[|d0 ds]|] eqn:L; [exfalso; revert L; vm_compute; discriminate| |exfalso; revert L; vm_compute; discriminate]. pose proof (blob_list_run _ _ _ _ L) as R.
  destruct (reader_new Checked ex_codec ex_gapped) as [i| |] eqn:RN; [|exfalso; revert RN; vm_compute; discriminate..].
  destruct (elements_new Checked ex_codec ex_gapped) as [x| |] eqn:N; [|exfalso; revert N; vm_compute; discriminate..].
  assert (G : match map (block_of Checked ex_codec ex_gapped) ds with [Some (FData _ a); Some (FData _ b); None; Some (FData _ e); Some (FData _ f)] => length (a ++ b) = 3%nat /\ length (e ++ f) = 3%nat | _ => False end).
  { assert (E : ds = match blob_list 20 ex_gapped bit_new with Some (_ :: r) => r | _ => [] end) by (rewrite L; reflexivity). rewrite E. vm_compute. auto. }
  destruct (map (block_of Checked ex_codec ex_gapped) ds) as [|[[|ia a]|] [|[[|ib b]|] [|[?|] [|[[|ie e]|] [|[[|jf f]|] [|]]]]]] eqn:M; try contradiction. destruct G as (G1 & G2).
  assert (S : salvage (map (block_of Checked ex_codec ex_gapped) ds) (map Some a ++ map Some b ++ None :: map Some e ++ map Some f ++ [])) by (rewrite M; repeat constructor).
  exists i, x. eexists. split; [reflexivity|]. split; [reflexivity|]. split; [apply (C100_elements _ _ _ _ _ _ _ _ RN R N); exact S|].
  assert (T : forall l : list element, map (fun o : option element => match o with Some _ => true | None => false end) (map Some l) = repeat true (length l)) by (induction l as [|y l IH]; cbn; congruence).
  unfold shape. rewrite !map_app. cbn [map]. rewrite !map_app, !T. cbn [map]. rewrite app_nil_r, app_assoc, <- !repeat_app, <- !app_length, G1, G2. reflexivity.
Qed.
