(** Specification vocabulary for the bounding box calculation. *)
From Coq Require Import ZArith List Bool Strings.Byte Strings.String.
From Verif Require Import Base Types FileFormat ModelSpec ParallelSpec.
Import ListNotations.
Open Scope Z_scope.

(** a node with nothing but nodes before it in its block *)
Definition leads (b : fblock) (n : node) : Prop :=
  exists pre post, elements_of b = pre ++ ENode n :: post /\ Forall (fun e => exists n', e = ENode n') pre.
Definition leading_at (blks : list fblock) (p : coordinate) : Prop :=
  exists b n, In b blks /\ leads b n /\ n_coord n = p.
(** the least box containing all of them *)
Definition leading_hull (blks : list fblock) (b : bbox) : Prop :=
  box_ok b /\ (forall p, leading_at blks p -> in_box p b) /\ (forall o, (forall p, leading_at blks p -> in_box p o) -> box_le b o).
