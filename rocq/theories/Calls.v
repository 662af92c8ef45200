(** A sequential writer used by an arbitrary program: any sequence of the calls of its interface. *)
From Coq Require Import ZArith List Bool Strings.Byte Strings.String.
From Verif Require Import Base Types Block FileFormat CallSpec.
Import ListNotations.
Open Scope Z_scope.

(** src/osm/pbf/writer.rs 164-173 write_element, 178-189 write_elements, 194-200 close *)
Definition do_wcall (m : mode) (c : codec) (w : writer) (x : wcall) : res writer :=
  match x with
  | CElement e => write_element m c w e
  | CElements es => write_elements m c w es
  | CClose => writer_close m c w
  end.
Fixpoint do_wcalls (m : mode) (c : codec) (w : writer) (cs : list wcall) : res writer :=
  match cs with
  | [] => Ok w
  | x :: r => w' <- do_wcall m c w x ;; do_wcalls m c w' r
  end.
(** the file a program has made after from_file_info, write_header (writer.rs 68-84, 136-142) and the calls [cs] *)
Definition calls_file (m : mode) (c : codec) (i : file_info) (k : compression) (cs : list wcall) : res bytes :=
  w0 <- write_header m c (writer_new i k) ;;
  w1 <- do_wcalls m c w0 cs ;;
  Ok (wr_file w1).
