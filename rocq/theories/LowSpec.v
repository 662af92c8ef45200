(** Specification vocabulary for properties C81 and C82. *)
From Coq Require Import ZArith List Bool Strings.Byte Strings.String.
From Verif Require Import Base Types FileFormat Spec FileSpec CallSpec LowCalls.
Import ListNotations.
Local Notation length := List.length.
Local Notation concat := List.concat.
Open Scope Z_scope.

(** the blocks of a file in their order *)
Inductive part := PHeader (i : file_info) | PData (es : list element).
Inductive kind := KNode | KWay | KRelation.
Definition of_kind (k : kind) (e : element) : Prop := match k with KNode => a_node e | KWay => a_way e | KRelation => a_relation e end.
Definition follows (k k' : kind) : Prop := (k = KNode /\ k' = KWay) \/ (k = KWay /\ k' = KRelation).

(** After the calls [cs] of a writer made for the file information [i] the file consists of these blocks; of the elements
    given one by one the last ones are pending, and the last such element (nodes are first in line) was of kind [k]. *)
Inductive laid (i : file_info) : list lcall -> list part -> list element -> kind -> Prop :=
| laid_nothing : laid i [] [] [] KNode
(** the header, and blocks: at once, before what is pending *)
| laid_header cs ps p k : laid i cs ps p k -> laid i (cs ++ [LHeader]) (ps ++ [PHeader i]) p k
| laid_other_header cs ps p k n j : laid i cs ps p k -> laid i (cs ++ [LBlock (FHeader n j)]) (ps ++ [PHeader j]) p k
| laid_block cs ps p k n es kept : laid i cs ps p k -> block_keeps es kept -> laid i (cs ++ [LBlock (FData n es)]) (ps ++ [PData kept]) p k
| laid_batch cs ps p k es kept : laid i cs ps p k -> block_keeps es kept -> laid i (cs ++ [LElements es]) (ps ++ [PData kept]) p k
(** single elements: collected up to 8000, and up to the next kind *)
| laid_sentinel cs ps p k : laid i cs ps p k -> laid i (cs ++ [LElement ESentinel]) ps p k
| laid_pending cs ps p k e : laid i cs ps p k -> of_kind k e -> zlen p < 7999 -> laid i (cs ++ [LElement e]) ps (p ++ [e]) k
| laid_full cs ps p k e : laid i cs ps p k -> of_kind k e -> zlen p = 7999 -> laid i (cs ++ [LElement e]) (ps ++ [PData (p ++ [e])]) [] k
| laid_next cs ps p k k' e : laid i cs ps p k -> follows k k' -> of_kind k' e -> laid i (cs ++ [LElement e]) (ps ++ [PData p]) [e] k'
| laid_close cs ps p k : laid i cs ps p k -> p <> [] -> laid i (cs ++ [LClose]) (ps ++ [PData p]) [] k
| laid_close_nothing cs ps k : laid i cs ps [] k -> laid i (cs ++ [LClose]) ps [] k.

(** The same call by call: a call of the writer, with [p] pending and the last single element of kind [k], adds at most one
    block to the file and leaves these elements pending and this kind. *)
Inductive effect (i : file_info) : lcall -> list element -> kind -> option part -> list element -> kind -> Prop :=
| ef_header p k : effect i LHeader p k (Some (PHeader i)) p k
| ef_other_header p k n j : effect i (LBlock (FHeader n j)) p k (Some (PHeader j)) p k
| ef_block p k n es kept : block_keeps es kept -> effect i (LBlock (FData n es)) p k (Some (PData kept)) p k
| ef_batch p k es kept : block_keeps es kept -> effect i (LElements es) p k (Some (PData kept)) p k
| ef_sentinel p k : effect i (LElement ESentinel) p k None p k
| ef_pending p k e : of_kind k e -> zlen p < 7999 -> effect i (LElement e) p k None (p ++ [e]) k
| ef_full p k e : of_kind k e -> zlen p = 7999 -> effect i (LElement e) p k (Some (PData (p ++ [e]))) [] k
| ef_next p k k' e : follows k k' -> of_kind k' e -> effect i (LElement e) p k (Some (PData p)) [e] k'
| ef_close p k : p <> [] -> effect i LClose p k (Some (PData p)) [] k
| ef_close_nothing k : effect i LClose [] k None [] k.

(** what reading makes of a block *)
Definition part_reads (p : part) (b : fblock) : Prop :=
  match p, b with
  | PHeader i, FHeader _ i' => info_written_read i i'
  | PData es, FData _ es' => Forall2 written_read es es'
  | _, _ => False
  end.
(** the elements up to the next header *)
Fixpoint until_header (ps : list part) : list element :=
  match ps with PData es :: r => es ++ until_header r | _ => [] end.

Definition given (cs : list lcall) : list element := flat_map (fun x => match x with LElement e => [e] | _ => [] end) cs.
(** the data blocks up to the next header *)
Fixpoint data_blocks (bs : list fblock) : list (list element) :=
  match bs with FData _ es :: r => es :: data_blocks r | _ => [] end.
(** what becomes of a block that is read and written again *)
Definition block_copied (b b' : fblock) : Prop :=
  match b, b' with
  | FHeader _ i, FHeader _ i' => info_written_read i i'
  | FData _ es, FData _ es' => exists kept, block_keeps es kept /\ Forall2 written_read kept es'
  | _, _ => False
  end.
