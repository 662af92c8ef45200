(** Non-vacuity of C99. *)
From Coq Require Import ZArith List Bool Strings.Byte Strings.String Lia.
From Verif Require Import Base BaseFacts Types Proto FileFormat FileFacts FileSpec Spec PropFile CallSpec Calls PropCalls WireSpec WireMsg ReadSpec PropReadAny PropBlobs ExBlock ExFile ExCalls ExPipelines ExReadAny ExBlobs ExParallelRead GrowingSpec PropGrowing PollSpec Poll PropPoll.
Import ListNotations.
Open Scope Z_scope.
Local Notation length := List.length.

(** three elements, then None as often as wanted *)
Example ex_polls : exists l x, length l = 3%nat /\ elements_new Checked ex_codec ex_two_blocks = Ok x /\ forall n, exists y, polled (el_next Checked ex_codec ex_two_blocks) x (map Some l ++ repeat None n) y.
Proof.
  assert (G : match els_list 20 Checked ex_codec ex_two_blocks with Some l => length l = 3%nat | None => False end) by (vm_compute; reflexivity).
  destruct (els_list 20 Checked ex_codec ex_two_blocks) as [l|] eqn:E; [|contradiction]. destruct (C99_elements_reached _ _ _ _ (els_list_run _ _ _ _ _ E)) as (x & N & Q). exists l, x. auto.
Qed.
(** a header that cannot be decoded, and a blob behind it that is found by calling next again *)
Definition ex_gap : bytes := [x00; x00; x00; x01; x07; x00; x00; x00; x00].
Theorem C99_resumes : exists d s, polled (graph (blob_next ex_gap)) bit_new [None; Some d] s.
Proof. eexists _, _. eapply pl_call; [vm_compute; reflexivity|]. eapply pl_call; [vm_compute; reflexivity|]. apply pl_nil. Qed.
(** a negative size: from the end of the file back to bytes that are a header *)
Definition ex_back : bytes := write_blob (blob_header_encode (BlobHeader (str "OSMData") None (-18)), []) ++ repeat x00 18.
Example ex_resumes_back : exists d d' s, polled (graph (blob_next ex_back)) bit_new [Some d; None; Some d'] s.
Proof. eexists _, _, _. eapply pl_call; [vm_compute; reflexivity|]. eapply pl_call; [vm_compute; reflexivity|]. eapply pl_call; [vm_compute; reflexivity|]. apply pl_nil. Qed.
(** following a growing file as `tail -f` does: the call after the None finds a blob that is not in the file *)
Definition ex_tail_node (u : bytes) (id : Z) : node := Node id 1 (n_coord ex_node1) 1000 7 8 u true [].
Definition ex_tail_1 : list wcall := [CElement (ENode (ex_tail_node (str "bob") 1)); CClose].
Definition ex_tail_2 : list wcall := [CElement (ENode (ex_tail_node (repeat x00 300) 2)); CClose].
Theorem C99_tail : exists v final d1 d2 s ds d s', calls_file Wrapping ex_codec ex_info Uncompressed ex_tail_1 = Ok v /\ calls_file Wrapping ex_codec ex_info Uncompressed (ex_tail_1 ++ ex_tail_2) = Ok final /\
  polled (graph (blob_next v)) bit_new [Some d1; Some d2; None] s /\ blob_next final s = Ok (Some d, s') /\ run (blob_next final) bit_new ds Ended /\ ~ In d ds.
Proof.
  destruct (calls_file Wrapping ex_codec ex_info Uncompressed ex_tail_1) as [v| |] eqn:E1; [|exfalso; revert E1; vm_compute; discriminate|exfalso; revert E1; vm_compute; discriminate].
  destruct (calls_file Wrapping ex_codec ex_info Uncompressed (ex_tail_1 ++ ex_tail_2)) as [final| |] eqn:E2; [|exfalso; revert E2; vm_compute; discriminate|exfalso; revert E2; vm_compute; discriminate].
  assert (G : match calls_file Wrapping ex_codec ex_info Uncompressed ex_tail_1, calls_file Wrapping ex_codec ex_info Uncompressed (ex_tail_1 ++ ex_tail_2) with
    | Ok v, Ok final => match blob_next v bit_new with Ok (Some d1, s1) => match blob_next v s1 with Ok (Some d2, s2) => match blob_next v s2 with Ok (None, s) =>
       match blob_next final s, blob_list 10 final bit_new with Ok (Some d, s'), Some ds => forallb (fun x => negb (bd_length x =? bd_length d)) ds | _, _ => false end | _ => false end | _ => false end | _ => false end
    | _, _ => false end = true) by (vm_compute; reflexivity).
  rewrite E1, E2 in G. destruct (blob_next v bit_new) as [([d1|], s1)| |] eqn:N1; try discriminate G. destruct (blob_next v s1) as [([d2|], s2)| |] eqn:N2; try discriminate G.
  destruct (blob_next v s2) as [([d3|], s)| |] eqn:N3; try discriminate G. destruct (blob_next final s) as [([d|], s')| |] eqn:N4; try discriminate G.
  destruct (blob_list 10 final bit_new) as [ds|] eqn:L; [|discriminate G]. exists v, final, d1, d2, s, ds, d, s'. split; [reflexivity|]. split; [reflexivity|].
  split; [eapply pl_call; [exact N1|]; eapply pl_call; [exact N2|]; eapply pl_call; [exact N3|]; apply pl_nil|]. split; [exact N4|]. split; [eapply blob_list_run; exact L|].
  intros I. rewrite forallb_forall in G. specialize (G d I). rewrite Z.eqb_refl in G. discriminate G.
Qed.
