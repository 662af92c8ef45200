(** Non-vacuity of the part of C100 about lengths that cannot be allocated. *)
From Coq Require Import ZArith List Bool Strings.Byte Strings.String Lia.
From Verif Require Import Base BaseFacts Types Proto FileFormat FileFacts FileSpec Spec PropFile ReadSpec PropBlobs DamagedSpec ExBlock ExFile ExPipelines ExReadAny ExBlobs ExParallelRead PropFails ExFails PollSpec Poll PropPoll
  SalvageSpec Salvage PropSalvage ExSalvage RescueSpec PropRescue.
Import ListNotations.
Open Scope Z_scope.
Local Notation length := List.length.

(** a good file, a length of 2^32 - 1, as many bytes as the last blob of the file has, and the data blobs of the file once more *)
Definition ex_last_size : Z := Eval vm_compute in match blob_list 20 ex_two_blocks bit_new with Some l => bd_length (last l (BlobDesc 0 0 0 [])) | None => 0 end.
Definition ex_bad_length : bytes := Eval vm_compute in
  match write_header Checked ex_codec (writer_new ex_info Zlib) with
  | Ok w0 => ex_two_blocks ++ repeat xff 4 ++ repeat x00 (Z.to_nat ex_last_size) ++ skipn (length (wr_file w0)) ex_two_blocks | _ => [] end.
Fixpoint try_list (fuel : nat) file s : option (list (option blob_desc)) :=
  match fuel with
  | O => None
  | S f => match blob_try file s with (Ok (Some d), s') => option_map (cons (Some d)) (try_list f file s') | (Ok None, _) => Some []
           | (_, s') => option_map (cons None) (try_list f file s') end
  end.
Lemma try_list_tried fuel file : forall s l, try_list fuel file s = Some l -> tried (graph (blob_try file)) s l.
Proof.
  induction fuel as [|f IH]; intros s l H; [discriminate H|]. cbn [try_list] in H. pose proof (try_any file s) as O. destruct (blob_try file s) as [[[d|]| |] s'] eqn:E.
  - destruct (try_list f file s') as [l'|] eqn:E2; [|discriminate H]. injection H as <-. eapply td_item; [exact E|apply IH; exact E2].
  - injection H as <-. eapply td_end; exact E.
  - destruct O.
  - destruct (try_list f file s') as [l'|] eqn:E2; [|discriminate H]. injection H as <-. eapply td_caught; [exact E|apply IH; exact E2].
Qed.
(** header, two data blobs, the panic, the two data blobs *)
Lemma ex_bad_length_tried : exists ds, tried (graph (blob_try ex_bad_length)) bit_new ds /\ shape ds = [true; true; true; false; true; true].
Proof.
  destruct (try_list 20 ex_bad_length bit_new) as [ds|] eqn:E; [|exfalso; revert E; vm_compute; discriminate].
  exists ds. split; [apply (try_list_tried 20); exact E|].
  assert (H : option_map shape (try_list 20 ex_bad_length bit_new) = Some [true; true; true; false; true; true]) by (vm_compute; reflexivity).
  rewrite E in H. cbn [option_map] in H. injection H as H. exact H.
Qed.
Example ex_bad_length_found : exists l, found ex_bad_length 0 0 l /\ shape l = [true; true; true; false; true; true].
Proof.
  destruct ex_bad_length_tried as (ds & T & S). apply C100_bad_length in T. destruct T as (l & F & A). exists l. split; [exact F|]. rewrite <- S. clear - A.
  induction A; cbn; f_equal; auto.
Qed.
Example ex_bad_length_elements : exists x rs, elements_new Checked ex_codec ex_bad_length = Ok x /\ tried (el_try Checked ex_codec ex_bad_length) x rs /\
  shape rs = [true; true; true; false; true; true; true].
Proof.
  destruct (try_list 20 ex_bad_length bit_new) as [ds|] eqn:E; [|exfalso; revert E; vm_compute; discriminate].
  assert (G : match ds with Some d0 :: Some d1 :: r => salvage (map (block_had ex_bad_length Checked ex_codec) (Some d1 :: r))
      (map Some (flat_map (fun o => match block_had ex_bad_length Checked ex_codec o with Some (FData _ es) => es | _ => [] end) [Some d1; nth 0 r None]) ++
       None :: map Some (flat_map (fun o => match block_had ex_bad_length Checked ex_codec o with Some (FData _ es) => es | _ => [] end) [nth 2 r None; nth 3 r None]))
      /\ length (flat_map (fun o => match block_had ex_bad_length Checked ex_codec o with Some (FData _ es) => es | _ => [] end) [Some d1; nth 0 r None]) = 3%nat
      /\ length (flat_map (fun o => match block_had ex_bad_length Checked ex_codec o with Some (FData _ es) => es | _ => [] end) [nth 2 r None; nth 3 r None]) = 3%nat | _ => False end).
  { assert (Q : ds = match try_list 20 ex_bad_length bit_new with Some l => l | None => [] end) by (rewrite E; reflexivity). rewrite Q. clear.
    vm_compute. split; [|auto]. repeat (first [apply sv_end|apply (sv_lost _ _)|lazymatch goal with |- salvage (Some (FData ?i ?es) :: ?r) (?a :: ?b :: ?l) => first [apply (sv_data i es r (b :: l))|apply (sv_data i es r l)] | |- salvage (Some (FData ?i ?es) :: ?r) (?a :: ?l) => apply (sv_data i es r l) | |- salvage (Some (FData ?i ?es) :: ?r) ?l => apply (sv_data i es r l) end]). }
  apply try_list_tried in E. destruct ds as [|[d0|] [|[d1|] r]]; try contradiction. destruct G as (G & L1 & L2).
  destruct (elements_new Checked ex_codec ex_bad_length) as [x| |] eqn:N; [|exfalso; revert N; vm_compute; discriminate..].
  exists x. eexists. split; [reflexivity|]. split; [apply (C100_all_elements _ _ _ _ _ _ _ _ E N); exact G|].
  assert (T : forall l : list element, map (fun o : option element => match o with Some _ => true | None => false end) (map Some l) = repeat true (length l)) by (induction l as [|y l IH]; cbn; congruence).
  unfold shape. rewrite !map_app. cbn [map]. rewrite !T, L1, L2. reflexivity.
Qed.
