(** The dump writer stopped at any moment: what it has handed to the buffered table files by then. *)
From Coq Require Import ZArith List Bool Strings.Byte Strings.String.
From Verif Require Import Base Types ApidbText ApidbWrite.
Import ListNotations.
Local Notation length := List.length.
Open Scope Z_scope.

Inductive moment := Writing | Writing_users | Writing_changesets | Closing.
(** the element with another timestamp: what stands for the rows written before an impossible timestamp panics *)
Definition at_time (t : Z) (e : element) : element :=
  match e with
  | ENode n => ENode (Node (n_id n) (n_version n) (n_coord n) t (n_changeset n) (n_uid n) (n_user n) (n_visible n) (n_tags n))
  | EWay w => EWay (Way (w_id w) (w_version w) t (w_changeset w) (w_uid w) (w_user w) (w_visible w) (w_refs w) (w_tags w))
  | ERelation r => ERelation (Relation (r_id r) (r_version r) t (r_changeset r) (r_uid r) (r_user r) (r_visible r) (r_members r) (r_tags r))
  | ESentinel => ESentinel
  end.
Section Stop.
Variables (escape : bytes -> bytes) (hash_order : forall V, list (Z * V) -> list (Z * V)) (clock : nat -> Z) (lib : bytes).
(** writer.rs 537-538 *)
Definition flushed (w : writer) : writer := flush_buffers hash_order (flush_current_object_lines w).
(** write/writer.rs 63-77 (write_element called for each of [es]) and 535-543 (close): a state [w] that
    holds everything handed to the table files when the process stops, and the tables closed by then
    (write/table_data_writers.rs 154-209, write/table_data_writer.rs 26-30: closing flushes). A stop in the
    middle of a call is a stop after it at which less has reached the files: see [StopSpec.on_disk]. *)
Inductive stage (es : list element) : moment -> writer -> list table -> Prop :=
| st_writing before after w : es = before ++ after -> write_elements escape before writer_new = Ok w -> stage es Writing w []
| st_panic before e after w0 t w : es = before ++ e :: after -> write_elements escape before writer_new = Ok w0 ->
    write_element escape e w0 = Panic -> write_element escape (at_time t e) w0 = Ok w -> stage es Writing w []
| st_users w0 before after w : write_elements escape es writer_new = Ok w0 -> user_index (flushed w0) = before ++ after ->
    write_users clock 0 before (flushed w0) = Ok w -> stage es Writing_users w []
| st_changesets w0 w1 before after w : write_elements escape es writer_new = Ok w0 -> write_users clock 0 (user_index (flushed w0)) (flushed w0) = Ok w1 ->
    changeset_index w1 = before ++ after -> write_changesets clock lib (length (user_index w1)) before w1 = Ok w -> stage es Writing_changesets w []
| st_closing w0 w1 w2 closed next after w : write_elements escape es writer_new = Ok w0 -> write_users clock 0 (user_index (flushed w0)) (flushed w0) = Ok w1 ->
    write_changesets clock lib (length (user_index w1)) (changeset_index w1) w1 = Ok w2 ->
    all_tables = closed ++ next ++ after -> (length next <= 1)%nat ->
    w = fold_left (fun w t => append t terminator w) (closed ++ next) w2 -> stage es Closing w closed.
End Stop.
