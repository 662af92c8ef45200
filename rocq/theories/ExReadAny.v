(** Concrete instances of C69. *)
From Coq Require Import ZArith List Bool Lia Strings.Byte Strings.String.
From Verif Require Import Base BaseFacts Types Proto ProtoFacts Block FileFormat FileFacts Spec FileSpec PropBlock PropFile WireSpec WireFacts WireMsg PropWire ReadSpec PropReadAny ExBlock ExFile ExPipelines.
Import ListNotations.
Local Notation length := List.length.
Open Scope Z_scope.

Definition ex_clean : bytes := match write_file Wrapping ex_codec ex_info Zlib ex_in_elements with Ok f => f | _ => [] end.
Definition ex_damaged : bytes := ex_clean ++ map z2b [0; 0; 0; 1; 255] ++ skipn 40 ex_clean.
Fixpoint fb_list (fuel : nat) c file s : option (list fblock * ending) :=
  match fuel with
  | O => None
  | S f => match fb_next Wrapping c file s with
           | Ok (Some b, s') => match fb_list f c file s' with Some (l, o) => Some (b :: l, o) | None => None end
           | Ok (None, _) => Some ([], Ended)
           | Panic => Some ([], Panicked)
           | Err => None
           end
  end.
Lemma fb_list_run fuel c file : forall s l o, fb_list fuel c file s = Some (l, o) -> run (fb_next Wrapping c file) s l o.
Proof.
  induction fuel as [|f IH]; intros s l o H; [discriminate H|]. cbn [fb_list] in H. destruct (fb_next Wrapping c file s) as [[[b|] s']| |] eqn:E; try discriminate H.
  - destruct (fb_list f c file s') as [[l' o']|] eqn:E2; [|discriminate H]. injection H as <- <-. eapply run_step; eauto.
  - injection H as <- <-. eapply run_end; eauto.
  - injection H as <- <-. eapply run_panic; eauto.
Qed.
(** a file whose third blob header is damaged: the blocks before it, then a regular end *)
Example ex_damaged_ends : exists l, blocks_of ex_codec 0 ex_damaged l Ended /\ length l = 4%nat /\ blocks_of ex_codec 0 ex_clean l Ended.
Proof.
  assert (exists l, fb_list 20 ex_codec ex_damaged bit_new = Some (l, Ended) /\ fb_list 20 ex_codec ex_clean bit_new = Some (l, Ended) /\ length l = 4%nat) as (l & A & B & L) by (eexists; vm_compute; auto).
  exists l. apply fb_list_run in A. apply fb_list_run in B. apply C69_blocks in A. apply C69_blocks in B. auto.
Qed.
(** a damaged body: a panic *)
Definition ex_damaged_body : bytes := firstn (Z.to_nat (zlen ex_clean - 3)) ex_clean.
Example ex_damaged_body_panics : exists l, blocks_of ex_codec 0 ex_damaged_body l Panicked /\ length l = 3%nat.
Proof.
  assert (exists l, fb_list 20 ex_codec ex_damaged_body bit_new = Some (l, Panicked) /\ length l = 3%nat) as (l & A & L) by (eexists; vm_compute; auto).
  exists l. apply fb_list_run in A. apply C69_blocks in A. auto.
Qed.
(** a data block behind a second header block is not reached *)
Definition ex_two_headers : bytes := ex_clean ++ ex_clean.
Example ex_two_headers_read : exists i l es, FileFormat.reader_new Wrapping ex_codec ex_two_headers = Ok i /\ blocks_of ex_codec 0 ex_two_headers (FHeader 0 i :: l) Ended /\ length l = 7%nat /\
  elements_run Wrapping ex_codec ex_two_headers es Ended /\ length es = 4%nat.
Proof.
  assert (exists i l, fb_list 20 ex_codec ex_two_headers bit_new = Some (FHeader 0 i :: l, Ended) /\ length l = 7%nat /\ FileFormat.reader_new Wrapping ex_codec ex_two_headers = Ok i) as (i & l & A & L & R) by (eexists _, _; vm_compute; auto).
  assert (exists es, els_list 100 Wrapping ex_codec ex_two_headers = Some es /\ length es = 4%nat) as (es & E & LE) by (eexists; vm_compute; auto).
  exists i, l, es. apply fb_list_run in A. apply C69_blocks in A. apply els_list_run in E. sconj; auto.
Qed.
