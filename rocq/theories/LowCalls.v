(** The whole interface of a sequential writer, its low level calls included, and block by block copying. *)
From Coq Require Import ZArith List Bool Strings.Byte Strings.String.
From Verif Require Import Base Types Block FileFormat.
Import ListNotations.
Open Scope Z_scope.

(** the public methods of src/osm/pbf/writer.rs: 164-173 write_element, 178-189 write_elements, 194-200 close, 136-142
    write_header, 145-148 write_file_block (a FileBlock comes from Reader::blocks), 151-158 write_blob *)
Inductive lcall := LElement (e : element) | LElements (es : list element) | LClose | LHeader | LBlock (b : fblock) | LBlob (header body : bytes).
Definition do_lcall (m : mode) (c : codec) (w : writer) (x : lcall) : res writer :=
  match x with
  | LElement e => write_element m c w e
  | LElements es => write_elements m c w es
  | LClose => writer_close m c w
  | LHeader => write_header m c w
  | LBlock b => write_file_block m c w b
  | LBlob h b => Ok (Writer (wr_info w) (wr_comp w) (wr_file w ++ write_blob (h, b)) (wr_acc w))
  end.
Fixpoint do_lcalls (m : mode) (c : codec) (w : writer) (cs : list lcall) : res writer :=
  match cs with
  | [] => Ok w
  | x :: r => w' <- do_lcall m c w x ;; do_lcalls m c w' r
  end.
(** from_file_info (writer.rs 68-84) and then these calls: what is in the file *)
Definition low_file (m : mode) (c : codec) (i : file_info) (k : compression) (cs : list lcall) : res bytes :=
  w <- do_lcalls m c (writer_new i k) cs ;; Ok (wr_file w).
(** a program that copies a file with [for block in reader.blocks()? { writer.write_file_block(block)?; }], reader.rs
    74-77: [i] is the file information given to the writer, which is not used *)
Inductive copies_blocks (m : mode) (c : codec) (i : file_info) (k : compression) (input : bytes) : res bytes -> Prop :=
| cb_err : reader_new m c input = Err -> copies_blocks m c i k input Err
| cb_new_panic : reader_new m c input = Panic -> copies_blocks m c i k input Panic
| cb_read_panic j blks : reader_new m c input = Ok j -> run (fb_next m c input) bit_new blks Panicked -> copies_blocks m c i k input Panic
| cb_write j blks : reader_new m c input = Ok j -> run (fb_next m c input) bit_new blks Ended ->
    copies_blocks m c i k input (low_file m c i k (map LBlock blks)).
