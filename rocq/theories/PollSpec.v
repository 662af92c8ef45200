(** Specification vocabulary for property C99: iterators whose [next] is called again after it returned None. *)
From Coq Require Import ZArith List Strings.Byte.
From Verif Require Import Base Proto FileFormat FileSpec WireSpec ReadSpec GrowingSpec.
Import ListNotations.
Open Scope Z_scope.

(** what any number of calls return, whatever they return *)
Inductive polled {S A} (next : S -> res (option A * S) -> Prop) : S -> list (option A) -> S -> Prop :=
| pl_nil s : polled next s [] s
| pl_call s r s' rs s'' : next s (Ok (r, s')) -> polled next s' rs s'' -> polled next s (r :: rs) s''.
(** behind a None there are only Nones *)
Definition fused {A} (rs : list (option A)) : Prop := forall a b, rs = a ++ None :: b -> Forall (fun r => r = None) b.
(** the items [l] of a [for] loop that ended with [o], one after the other, then None for ever *)
Definition as_loop {A} (l : list A) (o : ending) (rs : list (option A)) : Prop :=
  exists l' n, rs = map Some l' ++ repeat None n /\ beginning l' l /\ (n = O \/ (l' = l /\ o = Ended)).
(** at offset [p] there are a length below 2 GiB and that many bytes, but they are not a blob header *)
Definition undecodable_at (file : bytes) (p : Z) : Prop :=
  exists pre lb hb rest, file = pre ++ lb ++ hb ++ rest /\ zlen pre = p /\ big_endian lb (zlen hb) /\ zlen hb < 2147483648 /\ forall h, ~ blob_header_is hb h.
