(** Histories of the dump writer: any sequence of write_element and close calls. *)
From Coq Require Import ZArith List Bool Strings.Byte.
From Verif Require Import Base Types ApidbText ApidbWrite.
Import ListNotations.
Open Scope Z_scope.

(** src/osm/apidb_dump/write/writer.rs 63-77, 536-543: the two calls of a Writer *)
Inductive dcall := DElement (e : element) | DClose.
Section Calls.
Variable escape : bytes -> bytes.
Variable hash_order : forall V, list (Z * V) -> list (Z * V).
(** the times [Utc::now()] gives during the j-th close *)
Variable clocks : nat -> nat -> Z.
Variable lib : bytes.
(** the calls one after another; close does not take the writer (writer.rs 536: &mut self), so calls may follow it *)
Fixpoint dcalls (j : nat) (cs : list dcall) (w : writer) : res writer :=
  match cs with
  | [] => Ok w
  | DElement e :: r => w' <- write_element escape e w ;; dcalls j r w'
  | DClose :: r => w' <- close hash_order (clocks j) lib w ;; dcalls (S j) r w'
  end.
End Calls.
