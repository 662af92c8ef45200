(** Concrete instances of C70. *)
From Coq Require Import ZArith List Bool Lia Strings.Byte Strings.String.
From Verif Require Import Base BaseFacts Types Proto ProtoFacts Block FileFormat FileFacts Spec FileSpec PropBlock PropFile WireSpec WireFacts WireMsg PropWire ReadSpec PropReadAny PropBlobs ExBlock ExFile ExPipelines ExReadAny.
Import ListNotations.
Local Notation length := List.length.
Open Scope Z_scope.

(** the file of C20_refuted returns to its first byte *)
Example ex_loop : blobs_from looping_file 0 [(24, -24, str "OSMData")] 0.
Proof.
  change (24, -24, str "OSMData") with (24, bh_datasize (BlobHeader (str "OSMData") None (-24)), bh_type (BlobHeader (str "OSMData") None (-24))).
  eapply bf_cons; [|apply bf_nil]. exists [], (be32 20), (blob_header_encode (BlobHeader (str "OSMData") None (-24))), []. sconj; try reflexivity.
  - exists (z2b 0), (z2b 0), (z2b 0), (z2b 20). split; vm_compute; reflexivity.
  - apply blob_header_dec. vm_compute. reflexivity.
Qed.
(** the file of ExPipelines has four blobs, found at these places, and the iteration ends *)
Fixpoint blob_list (fuel : nat) file s : option (list blob_desc) :=
  match fuel with
  | O => None
  | S f => match blob_next file s with Ok (Some d, s') => option_map (cons d) (blob_list f file s') | Ok (None, _) => Some [] | _ => None end
  end.
Lemma blob_list_run fuel file : forall s l, blob_list fuel file s = Some l -> run (blob_next file) s l Ended.
Proof.
  induction fuel as [|f IH]; intros s l H; [discriminate H|]. cbn [blob_list] in H. destruct (blob_next file s) as [[[b|] s']| |] eqn:E; try discriminate H.
  - destruct (blob_list f file s') as [l'|] eqn:E2; [|discriminate H]. injection H as <-. eapply run_step; eauto.
  - injection H as <-. eapply run_end; eauto.
Qed.
Example ex_blobs : exists l q, blobs_from ex_clean 0 l q /\ length l = 4%nat /\ (forall a b p, blobs_from ex_clean 0 a p -> blobs_from ex_clean p b p -> b = []).
Proof.
  assert (exists ds, blob_list 10 ex_clean bit_new = Some ds /\ length ds = 4%nat) as (ds & E & L) by (eexists; vm_compute; auto).
  apply blob_list_run in E. pose proof (proj1 (C70_terminates ex_clean) (ex_intro _ ds (ex_intro _ Ended E))) as T. apply C70_blobs in E. destruct E as (l & q & B & D & _). exists l, q. sconj; auto.
  rewrite <- L. clear - D. induction D; cbn; auto.
Qed.
