(** Non-vacuity of the second part of C93: a way one of whose nodes is NULL. *)
From Coq Require Import ZArith List Bool Strings.Byte Strings.String Lia Permutation.
From Verif Require Import Base BaseFacts Types ApidbText ApidbSpec ApidbTextFacts DumpSpec ApidbWrite ApidbWriteFacts ApidbRead DumpReadSpec FileFormat
  ApidbReadFacts TocFacts ReaderFacts MissSpec PropMiss FieldSpec PropFields NullSpec PropNull PropNullParts ExTools ExMiss ExNull.
Import ListNotations.
Local Notation length := List.length.
Open Scope Z_scope.

Definition way_cells : cells := [("way_id", "5"); ("changeset_id", "10"); ("""timestamp""", "2020-09-13 12:26:40"); ("version", "1"); ("visible", "t")]%string.
Definition ref_cells (node seq : string) : cells := [("way_id", "5"); ("node_id", node); ("version", "1"); ("sequence_id", seq)]%string.
Definition way_rows (t : table) : list row_of :=
  match t with
  | T_users => [row_from user_cells]
  | T_changesets => [row_from (changeset_cells "-5")]
  | T_nodes => [row_from (node_cells "2" a_time)]
  | T_ways => [row_from way_cells]
  | T_way_nodes => [row_from (ref_cells "2" "1"); row_from (ref_cells null "2")]
  | _ => []
  end.
Example ex_null_ref : exists rd k s es, ApidbRead.reader_new ex_sort (rows_dir way_rows) = Ok rd /\ ApidbRead.elements ex_unescape rd = Ok (k, s) /\ run (element_next k) s es Panicked /\ (sentinels es <= 1)%nat.
Proof.
  assert (C := rows_catalogued way_rows). assert (T : forall t, In t ten -> text_table (rows_dir way_rows) (small_cat (with_needs ten)) t (way_rows t)).
  { apply rows_text. intros t I. cbn in I. repeat (destruct I as [<- |I]; [vm_compute; reflexivity|]). destruct I. }
  destruct (C93_opening ex_unescape ex_sort ex_sorts _ _ _ C T) as (rd & RD & H). exists rd. destruct (ApidbRead.elements ex_unescape rd) as [(k, s)| |] eqn:EL; [|destruct H|].
  - destruct (PropDump.C42_stream_shape _ _ _ _ EL) as (es & o & R & _). exists k, s, es.
    destruct (C93_parts ex_unescape ex_sort ex_sorts _ _ _ T_way_nodes T_ways "way_id" 1%nat (row_from (ref_cells null "2")) rd k s es o C T RD EL R) as (-> & L); auto; [| |].
    + intros w I. exists (row_from way_cells). split; [left; reflexivity|].
      destruct I as [<- |[<- |[]]]; (split; [apply (refers_one _ _ _ _ 5)|apply (refers_one _ _ _ _ 1)]; vm_compute; reflexivity).
    + right. left. reflexivity.
    + apply (C93_null T_way_nodes "node_id"); [cbn; tauto|vm_compute; reflexivity].
  - exfalso. destruct H as (t & w & [<- |[<- |[]]] & [<- |[]] & N); apply N; [exact user_readable|exact changeset_readable].
Qed.
