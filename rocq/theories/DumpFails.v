(** The dump writer on a disk that fails: every write and flush may return an error. *)
From Coq Require Import ZArith List Bool Strings.Byte Strings.String.
From Verif Require Import Base Types ApidbText ApidbWrite DumpCalls.
Import ListNotations.
Local Notation length := List.length.
Local Notation concat := List.concat.
Open Scope Z_scope.

(** src/osm/apidb_dump/write/table_data_writer.rs 9-13: a table file behind a BufWriter. [fw_w] is the state of the writer; its table files
    are all the bytes the BufWriters have taken. [fw_disk] is what has reached the disk of each. *)
Record fw := FW { fw_w : writer; fw_disk : table -> bytes }.
Definition fw_new : fw := FW writer_new (fun _ => []).
Inductive how := Fine | Failed | Panicked.
(** The BufWriter of [t] wrote some of what it held (std::io::BufWriter keeps the rest when a write fails). *)
Definition settles (t : table) (s s' : fw) : Prop :=
  (exists x, fw_disk s' t = fw_disk s t ++ x) /\ (exists x, files (fw_w s') t = fw_disk s' t ++ x) /\ forall t', t' <> t -> fw_disk s' t' = fw_disk s t'.

(** the steps of a call *)
Inductive op :=
| Note (f : writer -> writer)                                            (* in memory *)
| Timed (r : res bytes)                                                  (* the text of a time *)
| Rows (t : table) (rows : list bytes)                                   (* write_all, row by row *)
| Lines (t : table) (lines : list bytes) (id : Z) (visible : bool)       (* writer.rs 96-102, ...: set_last_lines, write the lines given back, set_last_id *)
| Take (t : table)                                                       (* writer.rs 466-471, ...: take the last lines, write them *)
| Flush (t : table).                                                     (* table_data_writer.rs 28 *)
(** write_all of rows, one after another, [w] after the first state changes of the step. An error leaves out the row; a row that is at
    least as long as the buffer (8192 bytes) is written directly and may be left torn. *)
Inductive wrote (t : table) (rows : list bytes) (w : writer) (s : fw) : how -> fw -> Prop :=
| wr_fine s' : fw_w s' = append t (concat rows) w -> settles t s s' -> wrote t rows w s Fine s'
| wr_failed done r rest torn cut s' : rows = done ++ r :: rest -> r = torn ++ cut -> cut <> [] -> (torn <> [] -> 8192 <= zlen r) ->
    fw_w s' = append t (concat done ++ torn) w -> settles t s s' -> wrote t rows w s Failed s'.
Inductive did : op -> fw -> how -> fw -> Prop :=
| d_note f s : did (Note f) s Fine (FW (f (fw_w s)) (fw_disk s))
| d_time x s : did (Timed (Ok x)) s Fine s
| d_no_time r s : (forall x, r <> Ok x) -> did (Timed r) s Panicked s
| d_rows t rows s o s' : wrote t rows (fw_w s) s o s' -> did (Rows t rows) s o s'
| d_kept t lines id v s c : set_last_lines lines id v (currents (fw_w s) t) = (None, c) ->
    did (Lines t lines id v) s Fine (FW (set_current t (set_last_id id (currents (set_current t c (fw_w s)) t)) (set_current t c (fw_w s))) (fw_disk s))
| d_given t lines id v s ls c s' : set_last_lines lines id v (currents (fw_w s) t) = (Some ls, c) -> wrote t ls (set_current t c (fw_w s)) s Fine s' ->
    did (Lines t lines id v) s Fine (FW (set_current t (set_last_id id (currents (fw_w s') t)) (fw_w s')) (fw_disk s'))
| d_lost t lines id v s ls c s' : set_last_lines lines id v (currents (fw_w s) t) = (Some ls, c) -> wrote t ls (set_current t c (fw_w s)) s Failed s' ->
    did (Lines t lines id v) s Failed s'
| d_nothing t s : last_lines (currents (fw_w s) t) = None -> did (Take t) s Fine (FW (set_current t (Current (last_id (currents (fw_w s) t)) None) (fw_w s)) (fw_disk s))
| d_taken t ls s o s' : last_lines (currents (fw_w s) t) = Some ls -> wrote t ls (set_current t (Current (last_id (currents (fw_w s) t)) None) (fw_w s)) s o s' ->
    did (Take t) s o s'
| d_flushed t s s' : fw_w s' = fw_w s -> settles t s s' -> fw_disk s' t = files (fw_w s') t -> did (Flush t) s Fine s'
| d_not_flushed t s s' : fw_w s' = fw_w s -> settles t s s' -> did (Flush t) s Failed s'.
(** the steps of a call: the first error is returned (the question marks of writer.rs) *)
Inductive steps : list op -> fw -> how -> fw -> Prop :=
| ss_nil s : steps [] s Fine s
| ss_next a r s m o s' : did a s Fine m -> steps r m o s' -> steps (a :: r) s o s'
| ss_stop a r s o s' : o <> Fine -> did a s o s' -> steps (a :: r) s o s'.

Section Fails.
Variable escape : bytes -> bytes.
(** writer.rs 63-378: the steps of write_element *)
Definition element_steps (e : element) : list op :=
  match e with
  | ENode n =>
    let time := to_sql_time_millis (n_timestamp n) in let text := match time with Ok s => s | _ => [] end in
    [Note (remember (n_uid n) (n_user n) (n_changeset n)); Timed time;
     Lines T_current_nodes [current_node_line n text] (n_id n) (n_visible n);
     Rows T_nodes [node_line n text];
     Rows T_node_tags (map (node_tag_line escape n) (n_tags n));
     Lines T_current_node_tags (map (current_tag_line escape (n_id n)) (n_tags n)) (n_id n) (n_visible n)]
  | EWay wy =>
    let time := to_sql_time_millis (w_timestamp wy) in let text := match time with Ok s => s | _ => [] end in let refs := enumerate 0 (w_refs wy) in
    [Note (remember (w_uid wy) (w_user wy) (w_changeset wy));
     Rows T_way_nodes (map (way_node_line wy) refs);
     Lines T_current_way_nodes (map (current_way_node_line wy) refs) (w_id wy) (w_visible wy);
     Rows T_way_tags (map (tag_line escape (w_id wy) (w_version wy)) (w_tags wy));
     Lines T_current_way_tags (map (current_tag_line escape (w_id wy)) (w_tags wy)) (w_id wy) (w_visible wy);
     Timed time;
     Lines T_current_ways [current_way_line wy text] (w_id wy) (w_visible wy);
     Rows T_ways [way_line wy text]]
  | ERelation r =>
    let time := to_sql_time_millis (r_timestamp r) in let text := match time with Ok s => s | _ => [] end in let members := enumerate 0 (r_members r) in
    [Note (remember (r_uid r) (r_user r) (r_changeset r));
     Rows T_relation_members (map (relation_member_line escape r) members);
     Lines T_current_relation_members (map (current_relation_member_line escape r) members) (r_id r) (r_visible r);
     Rows T_relation_tags (map (tag_line escape (r_id r) (r_version r)) (r_tags r));
     Lines T_current_relation_tags (map (current_tag_line escape (r_id r)) (r_tags r)) (r_id r) (r_visible r);
     Timed time;
     Lines T_current_relations [current_relation_line r text] (r_id r) (r_visible r);
     Rows T_relations [relation_line r text]]
  | ESentinel => []
  end.

Variable hash_order : forall V, list (Z * V) -> list (Z * V).
Variable lib : bytes.
Section Close.
Variable clock : nat -> Z.
(** writer.rs 420-463 and 380-418; [i] counts the calls of [Utc::now()]. Simplification: the BtreeIndex files do not fail. *)
Fixpoint user_steps (i : nat) (us : list (Z * bytes)) : list op :=
  match us with
  | [] => []
  | (id, name) :: r => let time := to_sql_time_micros (clock i) in
      Timed time :: Rows T_users [user_line id name (match time with Ok s => s | _ => [] end)] :: user_steps (S i) r
  end.
Fixpoint changeset_steps (i : nat) (cs : list (Z * Z)) : list op :=
  match cs with
  | [] => []
  | (id, uid) :: r => let time := to_sql_time_micros (clock i) in
      Rows T_changeset_tags [row [show_int id; str "created_by"; lib]; row [show_int id; str "replication"; str "true"]] :: Timed time ::
      Rows T_changesets [changeset_line id uid (match time with Ok s => s | _ => [] end)] :: changeset_steps (S i) r
  end.
(** table_data_writer.rs 26-30, table_data_writers.rs 155-209 *)
Definition table_close_steps : list op := flat_map (fun t => [Rows t [terminator]; Flush t]) all_tables.
(** writer.rs 536-543: close *)
Definition first_steps : list op := map Take current_tables ++ [Note (flush_buffers hash_order)].
Definition last_steps (w : writer) : list op := user_steps 0 (user_index w) ++ changeset_steps (length (user_index w)) (changeset_index w) ++ table_close_steps.
Inductive close_run (s : fw) : how -> fw -> Prop :=
| cl_stop o s' : o <> Fine -> steps first_steps s o s' -> close_run s o s'
| cl_next m o s' : steps first_steps s Fine m -> steps (last_steps (fw_w m)) m o s' -> close_run s o s'.
End Close.
(** the times [Utc::now()] gives during the j-th close *)
Variable clocks : nat -> nat -> Z.
Definition call_run (j : nat) (c : dcall) (s : fw) (o : how) (s' : fw) : Prop :=
  match c with DElement e => steps (element_steps e) s o s' | DClose => close_run (clocks j) s o s' end.
(** a history of calls with their results; calls may follow one that failed, none follows a panic *)
Inductive history : nat -> list (dcall * how) -> fw -> fw -> Prop :=
| h_nil j s : history j [] s s
| h_next j c o r s m s' : call_run j c s o m -> (o = Panicked -> r = []) -> history (match c with DClose => S j | _ => j end) r m s' -> history j ((c, o) :: r) s s'.
End Fails.
