(** Specification vocabulary for programs that use a sequential writer in any way its interface allows. *)
From Coq Require Import ZArith List Bool Strings.Byte Strings.String.
From Verif Require Import Base Types FileFormat Spec FileSpec.
Import ListNotations.
Local Notation length := List.length.
Local Notation concat := List.concat.
Open Scope Z_scope.

(** the sublist of the elements with a property, in order *)
Inductive picked {A} (P : A -> Prop) : list A -> list A -> Prop :=
| pk_nil : picked P [] []
| pk_keep x l l' : P x -> picked P l l' -> picked P (x :: l) (x :: l')
| pk_skip x l l' : ~ P x -> picked P l l' -> picked P (x :: l) l'.

Definition a_node (e : element) : Prop := exists n, e = ENode n.
Definition a_way (e : element) : Prop := exists w, e = EWay w.
Definition a_relation (e : element) : Prop := exists r, e = ERelation r.

(** what a block keeps of the elements it is made of: the nodes if there is any node, else the ways
    if there is any way, else the relations *)
Definition block_keeps (es kept : list element) : Prop :=
  (Exists a_node es /\ picked a_node es kept) \/
  (~ Exists a_node es /\ Exists a_way es /\ picked a_way es kept) \/
  (~ Exists a_node es /\ ~ Exists a_way es /\ picked a_relation es kept).

(** a call of the public interface of a sequential writer after write_header *)
Inductive wcall := CElement (e : element) | CElements (es : list element) | CClose.
(** the elements given to write_element, and the lists given to write_elements *)
Definition singles (cs : list wcall) : list element :=
  flat_map (fun x => match x with CElement e => [e] | _ => [] end) cs.
Definition batches (cs : list wcall) : list (list element) :=
  flat_map (fun x => match x with CElements es => [es] | _ => [] end) cs.

(** the data blocks of a file, and where they come from *)
Inductive wblock := FromSingles (es : list element) | FromBatch (es : list element).
Definition content (b : wblock) : list element := match b with FromSingles es | FromBatch es => es end.
Definition from_singles (bs : list wblock) : list (list element) :=
  flat_map (fun b => match b with FromSingles es => [es] | _ => [] end) bs.
Definition from_batches (bs : list wblock) : list (list element) :=
  flat_map (fun b => match b with FromBatch es => [es] | _ => [] end) bs.

(** [bs] are the data blocks in the file after the calls [cs]; [pending] was accepted and is not in the file yet:
    - the elements given one by one are in the file in their order, without sentinels, except the last
      few, fewer than 8000 of them;
    - the lists are in the file, one block each, in their order, with what a block keeps of them;
    - close leaves nothing pending, and a list is in the file as soon as the call returns: it can overtake
      pending elements. *)
Record laid_out (cs : list wcall) (bs : list wblock) (pending : list element) : Prop := {
  lo_singles : without_sentinels (singles cs) (concat (from_singles bs) ++ pending);
  lo_pending : zlen pending < 8000 /\ single_type pending;
  lo_chunks : Forall (fun b => zlen b <= 8000 /\ single_type b) (from_singles bs);
  lo_batches : Forall2 block_keeps (batches cs) (from_batches bs);
  lo_close : forall cs', cs = cs' ++ [CClose] -> pending = [];
  lo_batch : forall cs' es, cs = cs' ++ [CElements es] ->
    exists bs' kept, bs = bs' ++ [FromBatch kept] /\ block_keeps es kept }.
