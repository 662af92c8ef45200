(** Specification vocabulary for the rest of property C100: the raw blobs a program gets that catches the panics of a blob iterator and goes on. *)
From Coq Require Import ZArith List Strings.Byte.
From Verif Require Import Base Types Proto FileFormat ReadSpec.
Import ListNotations.
Open Scope Z_scope.

(** what the calls find, from the place [p] of the next header on, when [size] is the size the last blob stated (0 before the first): a blob as
    offset, stated size and type, or None where the length of the header is 2 GiB or more. After such a length as many bytes as the last blob had
    are passed over once more. *)
Inductive found (file : bytes) : Z -> Z -> list (option (Z * Z * bytes)) -> Prop :=
| fd_end p size : (forall h st, ~ blob_header_at file p h st) -> ~ huge_length_at file p -> found file p size []
| fd_blob p size h st l : blob_header_at file p h st -> found file (st + bh_datasize h) (bh_datasize h) l ->
    found file p size (Some (st, bh_datasize h, bh_type h) :: l)
| fd_length p size l : huge_length_at file p -> found file (p + 4 + size) size l -> found file p size (None :: l).
(** the answers are these, and the blobs (not the panics) are numbered from [i] on *)
Inductive answers : Z -> list (option (Z * Z * bytes)) -> list (option blob_desc) -> Prop :=
| an_nil i : answers i [] []
| an_blob i st size ty d l ds : bd_index d = i -> bd_start d = st -> bd_length d = size mod 18446744073709551616 -> bd_type d = ty ->
    answers (i + 1) l ds -> answers i (Some (st, size, ty) :: l) (Some d :: ds)
| an_caught i l ds : answers i l ds -> answers i (None :: l) (None :: ds).
