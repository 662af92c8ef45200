(** Specification vocabulary for parallel reading. *)
From Coq Require Import ZArith List Bool Strings.Byte Strings.String.
From Verif Require Import Base Types FileFormat ModelSpec.
Import ListNotations.
Open Scope Z_scope.

(** the part of [plans] that falls to worker [w] when plan number i is given to worker [owners]_i *)
Definition share {X} (w : nat) (owners : list nat) (plans : list (list X)) : list X :=
  List.concat (map snd (filter (fun p => Nat.eqb (fst p) w) (combine owners plans))).
(** the actions of worker [w] in a trace, in their order *)
Definition by_worker {X} (w : nat) (tr : list (nat * X)) : list X := map snd (filter (fun p => Nat.eqb (fst p) w) tr).

(** the elements of a block *)
Definition elements_of (b : fblock) : list element := match b with FData _ es => es | FHeader _ _ => [] end.
(** the calls promised for a block: every element in order, then Sentinel once; none for the header *)
Definition calls_of (b : fblock) : list element := match b with FData _ es => es ++ [ESentinel] | FHeader _ _ => [] end.
(** the blocks of a file, as Reader::blocks() yields them *)
Definition file_blocks (m : mode) (c : codec) (file : bytes) (blks : list fblock) : Prop :=
  run (fb_next m c file) bit_new blks Ended.

Definition number_of (P : element -> bool) (es : list element) : Z := zlen (filter P es).

(** the positions of the nodes of a file *)
Definition node_at (blks : list fblock) (p : coordinate) : Prop :=
  exists b n, In b blks /\ In (ENode n) (elements_of b) /\ n_coord n = p.
(** [b] is the least box containing all the nodes *)
Definition hull (blks : list fblock) (b : bbox) : Prop :=
  box_ok b /\ (forall p, node_at blks p -> in_box p b) /\ (forall o, (forall p, node_at blks p -> in_box p o) -> box_le b o).
(** within every block the nodes come first *)
Definition nodes_first (b : fblock) : Prop :=
  exists ns rest, elements_of b = ns ++ rest /\ Forall (fun e => is_node e = true) ns /\ Forall (fun e => is_node e = false) rest.

(** the elements thread [t] has added to accumulator [id] since its previous [elements] call; the
    history of operations is given newest first, operations as (thread, id, added element or None) *)
Fixpoint added_since (t : nat) (id : bytes) (past : list (nat * bytes * option element)) : list element :=
  match past with
  | [] => []
  | (t', id', o) :: r =>
    if Nat.eqb t' t && bytes_eqb id' id
    then match o with Some e => added_since t id r ++ [e] | None => [] end
    else added_since t id r
  end.
(** the elements of a block that a filter keeps, as one batch per data block *)
Definition kept_batch (keep : element -> bool) (b : fblock) : list (list element) :=
  match b with FData _ es => [filter keep es] | FHeader _ _ => [] end.
