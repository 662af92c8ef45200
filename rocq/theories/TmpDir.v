(** Several dump Readers in one process: the sorted tables of a Reader are files in the temporary directory given to it. *)
From Coq Require Import ZArith List Bool Strings.Byte Strings.String Permutation.
From Verif Require Import Base Types ApidbText ApidbWrite ApidbRead.
Import ListNotations.
Open Scope Z_scope.

(** src/osm/apidb_dump/read/table_def.rs 19-22: a temporary directory (a path) holds a file sorted-<table>.dat for each table *)
Definition disk : Type := bytes -> table -> option bytes.
Definition put_sorted (fs : disk) (tmp : bytes) (t : table) (data : bytes) : disk :=
  fun p t' => if (bytes_eqb p tmp && table_eqb t' t)%bool then Some data else fs p t'.
(** src/osm/apidb_dump/read/reader.rs 15-17: a Reader is its table definitions, which know the temporary directory *)
Record handle := Handle { h_tables : list (table * table_def); h_tmp : bytes }.

Section Tmp.
Variable unescape : bytes -> option bytes.
Variable sort_file : list (nat * ftype) -> bytes -> res bytes.

(** the data file of a table, sorted *)
Definition sorted_data (dir : bytes -> option bytes) (d : table_def) : res bytes := data <- of_option (dir (td_file d)) ;; sort_file (td_key d) data.
(** reader.rs 71-87: sort_tables, over the tables in some order (a HashMap). When sorting a table fails its file in the temporary
    directory is left as it was or with anything in it, the other tables are not reached. *)
Inductive sort_tables (tmp : bytes) (dir : bytes -> option bytes) : list (table * table_def) -> disk -> disk -> res unit -> Prop :=
| so_end fs : sort_tables tmp dir [] fs fs (Ok tt)
| so_next t d r fs fs' sorted o : sorted_data dir d = Ok sorted -> sort_tables tmp dir r (put_sorted fs tmp t sorted) fs' o ->
    sort_tables tmp dir ((t, d) :: r) fs fs' o
| so_fail t d r fs fs' : sorted_data dir d = Err -> fs' = fs \/ (exists junk, fs' = put_sorted fs tmp t junk) ->
    sort_tables tmp dir ((t, d) :: r) fs fs' Err
| so_panic t d r fs fs' : sorted_data dir d = Panic -> fs' = fs \/ (exists junk, fs' = put_sorted fs tmp t junk) ->
    sort_tables tmp dir ((t, d) :: r) fs fs' Panic.
(** reader.rs 31-60: the definitions *)
Definition defs_of (dir : bytes -> option bytes) : res (list (table * table_def)) :=
  toc <- of_option (dir (str "toc.dat")) ;; raws <- get_table_def_strings toc ;; table_defs raws [].
(** reader.rs 31-69: Reader::new(dir, tmp) on a disk *)
Inductive opens (tmp : bytes) (dir : bytes -> option bytes) : disk -> disk -> res handle -> Prop :=
| op_err fs : defs_of dir = Err -> opens tmp dir fs fs Err
| op_panic fs : defs_of dir = Panic -> opens tmp dir fs fs Panic
| op_sort defs order fs fs' o : defs_of dir = Ok defs -> Permutation order defs -> sort_tables tmp dir order fs fs' o ->
    opens tmp dir fs fs' (_ <- o ;; Ok (Handle defs tmp)).
(** reader.rs 136-143, table_reader.rs 489-503: elements() opens the sorted files as they are then. Simplification: a file that is not
    there panics at once (nothing in the crate removes them); a file replaced during the iteration is not modelled. *)
Definition elements_now (fs : disk) (h : handle) : res (creators * eiter) :=
  rd <- res_map (fun p => data <- unwrap (fs (h_tmp h) (fst p)) ;; Ok (fst p, (snd p, data))) (h_tables h) ;; elements unescape rd.

(** a program that calls Reader::new again and again, whatever the results *)
Inductive session : list (bytes * (bytes -> option bytes) * res handle) -> disk -> disk -> Prop :=
| se_nil fs : session [] fs fs
| se_new tmp dir r calls fs fs' fs'' : opens tmp dir fs fs' r -> session calls fs' fs'' -> session ((tmp, dir, r) :: calls) fs fs''.
End Tmp.
