(** Concrete cases for property C75. *)
From Coq Require Import ZArith List Bool Strings.Byte Strings.String Lia.
From Verif Require Import Base BaseFacts Types ApidbText ApidbSpec DumpSpec ApidbWrite ApidbWriteFacts ApidbRead FieldSpec PropFields.
Import ListNotations.
Local Notation length := List.length.
Open Scope Z_scope.

(** texts the writer never writes but the reader accepts, and texts it refuses *)
Example ex_texts :
  reads_i64 (str "+0042") 42 /\ reads_i32 (str "-0") 0 /\ (forall z, ~ reads_i32 (str "2147483648") z) /\ (forall z, ~ reads_i64 (str "12 ") z) /\
  (forall b, ~ reads_bool (str "true") b) /\ reads_nullable (str "12x") None /\ reads_kind (str "n") MNode /\
  reads_time (str "2020-2-29 1:2:3.5") (1582938123, 500000000) /\ reads_time (str "2020-02-29 01:02:03.5000000009") (1582938123, 500000000) /\
  (forall t, ~ reads_time (str "2021-02-29 01:02:03") t) /\ (forall t, ~ reads_time (str "2020-02-28T01:02:03") t) /\
  reads_time (str "-262143-01-01 00:00:00") (-8334601228800, 0) /\ (forall t, ~ reads_time (str "20200-02-28 01:02:03") t).
Proof.
  assert (N32 : forall s z, reads_i32 s z -> parse_i32 s = Some z) by (intros; apply C75_integers; auto).
  assert (N64 : forall s z, reads_i64 s z -> parse_i64 s = Some z) by (intros; apply C75_integers; auto).
  split; [apply (proj1 (C75_integers _ _ _ _)); vm_compute; reflexivity|]. split; [apply (proj1 (C75_integers _ _ _ _)); vm_compute; reflexivity|].
  split; [intros z H; apply N32 in H; vm_compute in H; discriminate H|]. split; [intros z H; apply N64 in H; vm_compute in H; discriminate H|].
  split; [intros b H; apply C75_booleans in H; vm_compute in H; discriminate H|].
  split; [intros z H; apply N32 in H; vm_compute in H; discriminate H|]. split; [left; reflexivity|].
  split; [apply C75_times; vm_compute; reflexivity|]. split; [apply C75_times; vm_compute; reflexivity|].
  split; [intros t H; apply C75_times in H; vm_compute in H; discriminate H|]. split; [intros t H; apply C75_times in H; vm_compute in H; discriminate H|].
  split; [apply C75_times; vm_compute; reflexivity|]. intros t H; apply C75_times in H; vm_compute in H; discriminate H.
Qed.

(** a table with its columns in another order and one more column *)
Definition way_nodes_columns : list bytes := [str "sequence_id"; str "note"; str "node_id"; str "version"; str "way_id"].
Definition good_cells : list bytes := [str "1"; str ""; str "+7"; str "003"; str "-5"].
Definition bad_cells : list bytes := [str "1"; str ""; str "7"; str "3"].
Definition line_of (cells : list bytes) : bytes := row cells.
Example ex_rows : exists td, table_def_new T_way_nodes (str "1.dat") way_nodes_columns = Ok td /\
  way_node_row way_nodes_columns good_cells (WayNodeRec (-5) 7 3 1) /\
  create_way_node (td_fields td) (line_of good_cells) = Ok (WayNodeRec (-5) 7 3 1) /\
  (forall r, ~ way_node_row way_nodes_columns bad_cells r) /\ create_way_node (td_fields td) (line_of bad_cells) = Panic.
Proof.
  exists (TableDef (str "1.dat") [4; 2; 3; 0]%nat [(4, FInteger); (3, FInteger); (0, FInteger)]%nat). split; [vm_compute; reflexivity|].
  assert (TD : table_def_new T_way_nodes (str "1.dat") way_nodes_columns = Ok (TableDef (str "1.dat") [4; 2; 3; 0]%nat [(4, FInteger); (3, FInteger); (0, FInteger)]%nat)) by (vm_compute; reflexivity).
  assert (CL : copy_line good_cells (line_of good_cells) /\ copy_line bad_cells (line_of bad_cells)) by (split; apply row_copy_line; discriminate).
  assert (NT : forall c, forallb (fun b => negb (Byte.eqb b x09) && negb (Byte.eqb b x0a)) c = true -> ~ In x09 c /\ ~ In x0a c).
  { intros c F. rewrite forallb_forall in F. split; intros I; apply F in I; vm_compute in I; discriminate I. }
  assert (FG : Forall (fun c => ~ In x09 c /\ ~ In x0a c) good_cells) by (repeat constructor; apply NT; vm_compute; reflexivity).
  assert (FB : Forall (fun c => ~ In x09 c /\ ~ In x0a c) bad_cells) by (repeat constructor; apply NT; vm_compute; reflexivity).
  destruct CL as (CG & CB).
  destruct (C75_rows (fun s => Some s) (str "1.dat") way_nodes_columns _ _ (TableDef (str "1.dat") [4; 2; 3; 0]%nat [(4, FInteger); (3, FInteger); (0, FInteger)]%nat) CG FG) as (_ & _ & _ & G & _). destruct (C75_rows (fun s => Some s) (str "1.dat") way_nodes_columns _ _ (TableDef (str "1.dat") [4; 2; 3; 0]%nat [(4, FInteger); (3, FInteger); (0, FInteger)]%nat) CB FB) as (_ & _ & _ & B & _).
  destruct (G TD) as (G1 & _). destruct (B TD) as (B1 & B2).
  assert (E : create_way_node [4; 2; 3; 0]%nat (line_of good_cells) = Ok (WayNodeRec (-5) 7 3 1)) by (vm_compute; reflexivity).
  split; [apply G1; exact E|]. split; [exact E|].
  assert (N : forall r, ~ way_node_row way_nodes_columns bad_cells r).
  { intros r H. apply B1 in H. vm_compute in H. discriminate H. }
  split; [exact N|]. apply B2, N.
Qed.
