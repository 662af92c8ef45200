(** The calls of a sequential writer on a disk that can fail: full disk, quota, I/O error, pulled device. *)
From Coq Require Import ZArith List Bool Strings.Byte Strings.String.
From Verif Require Import Base Types Block FileFormat LowCalls.
Import ListNotations.
Open Scope Z_scope.

(** What the operating system makes of one blob: the three [write_all] of src/osm/pbf/writer.rs 151-158 succeed ([flush] of
    a [std::fs::File] does nothing); or one of them fails, when the first [n] bytes of the blob are in the file. *)
Inductive outcome := Written | Broken (n : nat).
(** src/osm/pbf/writer.rs 151-158: write_blob; what is in the file then, and whether the call returned Ok *)
Definition blob_io (file : bytes) (hb : bytes * bytes) (d : outcome) : bytes * bool :=
  match d with
  | Written => (file ++ write_blob hb, true)
  | Broken n => (file ++ firstn n (write_blob hb), false)
  end.
(** src/osm/pbf/writer.rs 145-148: write_file_block *)
Definition block_io (m : mode) (c : codec) (w : writer) (b : fblock) (d : outcome) : res (writer * bool) :=
  hb <- fblock_serialize m c (wr_comp w) b ;;
  let (f, ok) := blob_io (wr_file w) hb d in
  Ok (Writer (wr_info w) (wr_comp w) f (wr_acc w), ok).
(** src/osm/pbf/writer.rs 178-189: write_elements *)
Definition elements_io (m : mode) (c : codec) (w : writer) (es : list element) (d : outcome) : res (writer * bool) :=
  block_io m c w (FData (acc_index (wr_acc w)) es) d.
(** One call: write_element (writer.rs 164-173: [add] has changed the accumulator before anything is written), write_elements,
    close (194-200: [elements()] has emptied the accumulator before anything is written), write_header (136-142),
    write_file_block, write_blob. The outcome [d] matters only if the call writes; the result says whether it returned Ok. *)
Definition io_call (m : mode) (c : codec) (w : writer) (x : lcall) (d : outcome) : res (writer * bool) :=
  match x with
  | LElement e =>
      '(o, a) <- acc_add (wr_acc w) e ;;
      let w' := Writer (wr_info w) (wr_comp w) (wr_file w) a in
      match o with
      | None => Ok (w', true)
      | Some es => elements_io m c w' es d
      end
  | LElements es => elements_io m c w es d
  | LClose =>
      let a := wr_acc w in
      let w' := Writer (wr_info w) (wr_comp w) (wr_file w) (Acc [] (acc_st a) (acc_index a + 1)) in
      match acc_elements a with
      | [] => Ok (w', true)
      | es => elements_io m c w' es d
      end
  | LHeader => block_io m c w (FHeader 0 (wr_info w)) d
  | LBlock b => block_io m c w b d
  | LBlob h b => let (f, ok) := blob_io (wr_file w) (h, b) d in Ok (Writer (wr_info w) (wr_comp w) f (wr_acc w), ok)
  end.
(** a program that goes on after calls that returned Err; the flags say which calls returned Ok *)
Fixpoint io_calls (m : mode) (c : codec) (w : writer) (cs : list (lcall * outcome)) : res (writer * list bool) :=
  match cs with
  | [] => Ok (w, [])
  | (x, d) :: r => '(w', ok) <- io_call m c w x d ;; '(w'', oks) <- io_calls m c w' r ;; Ok (w'', ok :: oks)
  end.
(** from_file_info (writer.rs 68-84) and then these calls: what is in the file, and which calls returned Ok *)
Definition io_file (m : mode) (c : codec) (i : file_info) (k : compression) (cs : list (lcall * outcome)) : res (bytes * list bool) :=
  '(w, oks) <- io_calls m c (writer_new i k) cs ;; Ok (wr_file w, oks).
