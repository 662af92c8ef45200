(** ParallelWriter (src/osm/pbf/parallel_writer.rs): the ordering thread as a sequential program, the
    encoding threads and the writing thread as a transition system. *)
From Coq Require Import ZArith List Bool Strings.Byte Strings.String.
From Verif Require Import Base Types FileFormat Pool.
Import ListNotations.
Open Scope Z_scope.
Local Notation length := List.length.

(** ** The ordering thread *)
Section Ordering.
  (** element_ordering_buffer_size and file_block_size given to from_file_info, 314-341 *)
  Variable B K : nat.
  (** [slice::sort] (standard library), see [sort_ok] *)
  Variable sort : list element -> list element.

  (** the thread locals 22-29: ELEMENT_ORDERING_BUFFER, CURRENT_MIN_ELEMENT, FILE_BLOCK_INDEX (starts
      at 1; a usize, its overflow is not modelled), and the EncodeFileBlockCommands submitted so far *)
  Record ord := Ord { o_buf : list element; o_min : option element; o_index : nat; o_out : list (nat * list element) }.
  Definition ord_new : ord := Ord [] None 1 [].

  (** src/osm/pbf/parallel_writer.rs 68-87: split_file_block, the loop [for _i in 0..file_block_size()]: block and remaining buffer *)
  Fixpoint split_loop (k : nat) (es buf : list element) : list element * list element :=
    match k with
    | O => (es, buf)
    | S k' =>
      match buf with
      | [] => (es, [])
      | e :: r =>
        match es with
        | [] => split_loop k' [e] r
        | e0 :: _ => if same_type e e0 then split_loop k' (es ++ [e]) r else (es, e :: r)
        end
      end
    end.
  Definition split_file_block (buf : list element) : list element * list element := split_loop K [] buf.

  (** src/osm/pbf/parallel_writer.rs 135-144: set_current_min_element(elements.first()) *)
  Definition set_min (old : option element) (es : list element) : option element :=
    match es with [] => old | e :: _ => Some e end.
  (** src/osm/pbf/parallel_writer.rs 42-48 and 56-63: split, set the minimum, submit the block, increment the index *)
  Definition flush_block (st : ord) : ord :=
    let '(es, rest) := split_file_block (o_buf st) in
    Ord rest (set_min (o_min st) es) (S (o_index st)) (o_out st ++ [(o_index st, es)]).
  Definition sort_buffer (st : ord) : ord := Ord (sort (o_buf st)) (o_min st) (o_index st) (o_out st).
  (** src/osm/pbf/parallel_writer.rs 38-50: flush_sorted_top *)
  Definition flush_sorted_top (st : ord) : ord := flush_block (sort_buffer st).
  (** src/osm/pbf/parallel_writer.rs 52-66: flush_all_sorted: the while loop as a relation (it need not terminate) *)
  Inductive flush_loop : ord -> ord -> Prop :=
  | fl_done st : o_buf st = [] -> flush_loop st st
  | fl_step st st' : o_buf st <> [] -> flush_loop (flush_block st) st' -> flush_loop st st'.
  Definition flush_all_sorted (st st' : ord) : Prop := flush_loop (sort_buffer st) st'.

  (** src/osm/pbf/parallel_writer.rs 109-133: assert_order and compare_to_current_min_element: does the assertion hold *)
  Definition assert_order (st : ord) (e : element) : bool :=
    is_sentinel e || match o_min st with
                     | None => true
                     | Some m => match element_cmp e m with Lt => false | _ => true end
                     end.
  (** assert_order then push_back, 162-163 and 189-190 *)
  Definition push (st : ord) (e : element) : res ord :=
    if assert_order st e then Ok (Ord (o_buf st ++ [e]) (o_min st) (o_index st) (o_out st)) else Panic.
  Definition flush_if_full (st : ord) : ord :=
    if Nat.ltb B (length (o_buf st)) then flush_sorted_top st else st.
  (** src/osm/pbf/parallel_writer.rs 158-170: AddElementCommand::execute *)
  Definition add_element (st : ord) (e : element) : res ord := st' <- push st e ;; Ok (flush_if_full st').
  (** src/osm/pbf/parallel_writer.rs 187-190: the for loop *)
  Fixpoint push_all (st : ord) (es : list element) : res ord :=
    match es with [] => Ok st | e :: r => st' <- push st e ;; push_all st' r end.
  (** src/osm/pbf/parallel_writer.rs 184-198: AddElementsCommand::execute *)
  Definition add_elements (st : ord) (es : list element) : res ord := st' <- push_all st es ;; Ok (flush_if_full st').

  (** src/osm/pbf/parallel_writer.rs 371-386: write_element and write_elements; one queue with one consumer, so the calls take effect
      in the order in which they were made *)
  Inductive call := WriteElement (e : element) | WriteElements (es : list element).
  Definition written (c : call) : list element := match c with WriteElement e => [e] | WriteElements es => es end.
  Definition do_call (st : ord) (c : call) : res ord :=
    match c with WriteElement e => add_element st e | WriteElements es => add_elements st es end.
  Fixpoint do_calls (st : ord) (cs : list call) : res ord :=
    match cs with [] => Ok st | c :: r => st' <- do_call st c ;; do_calls st' r end.
  (** src/osm/pbf/parallel_writer.rs 389-396: close, first step: flush_element_ordering runs flush_all_sorted in the ordering thread
      after the calls made before (in_all_threads of command-executor is queued behind them) *)
  Definition blocks_submitted (cs : list call) (blocks : list (nat * list element)) : Prop :=
    exists st st', do_calls ord_new cs = Ok st /\ flush_all_sorted st st' /\ blocks = o_out st'.
End Ordering.

(** ** Encoding threads and writing thread *)
Section Threads.
  Variable m : mode.
  Variable c : codec.
  Variable k : compression.

  Definition blobs := list (nat * (bytes * bytes)).
  Inductive encoder := EIdle | Encoding (i : nat) (es : list element) | Encoded (i : nat) (hb : bytes * bytes) | EFailed.
  Inductive wstate := WIdle | WDraining | WFailed.
  (** t_pending: the blocks the ordering thread has still to submit; t_buffer: BLOB_ORDERING_BUFFER; t_next:
      NEXT_TO_WRITE; t_file: None before write_header (PBF_WRITER is None), then the file *)
  Record threads := Threads {
    t_pending : list (nat * list element); t_encq : list (nat * list element); t_encs : list encoder;
    t_wrq : blobs; t_buffer : blobs; t_next : nat; t_w : wstate; t_file : option bytes }.
  (** src/osm/pbf/parallel_writer.rs 346-368 write_header (Writer::from_file_info and write_header), 314-341: 4 encoders *)
  Definition threads_new (header : bytes) (n : nat) (blocks : list (nat * list element)) : threads :=
    Threads blocks [] (repeat EIdle n) [] [] 1 WIdle (Some header).
  (** src/osm/pbf/parallel_writer.rs 323-325: queue size 256 *)
  Definition queue_size : nat := 256.

  Fixpoint lookup (i : nat) (l : blobs) : option (bytes * bytes) :=
    match l with [] => None | (j, hb) :: r => if Nat.eqb i j then Some hb else lookup i r end.
  Definition remove (i : nat) (l : blobs) : blobs := filter (fun p => negb (Nat.eqb i (fst p))) l.
  (** HashMap::insert *)
  Definition insert (i : nat) (hb : bytes * bytes) (l : blobs) : blobs := (i, hb) :: remove i l.

  Inductive tstep : threads -> threads -> Prop :=
  (** src/osm/pbf/parallel_writer.rs 43-48: submit of an EncodeFileBlockCommand, blocks while the queue is full *)
  | ts_submit b p q es w bf n ws f : (length q < queue_size)%nat ->
      tstep (Threads (b :: p) q es w bf n ws f) (Threads p (q ++ [b]) es w bf n ws f)
  (** an encoding thread takes a command *)
  | ts_take i b p q es w bf n ws f e : nth_error es e = Some EIdle ->
      tstep (Threads p ((i, b) :: q) es w bf n ws f) (Threads p q (set_nth e (Encoding i b) es) w bf n ws f)
  (** src/osm/pbf/parallel_writer.rs 216-218: EncodeFileBlockCommand::execute, FileBlock::serialize *)
  | ts_encode i b p q es w bf n ws f e hb : nth_error es e = Some (Encoding i b) ->
      fblock_serialize m c k (FData (Z.of_nat i) b) = Ok hb ->
      tstep (Threads p q es w bf n ws f) (Threads p q (set_nth e (Encoded i hb) es) w bf n ws f)
  | ts_encode_fails i b p q es w bf n ws f e : nth_error es e = Some (Encoding i b) ->
      (forall hb, fblock_serialize m c k (FData (Z.of_nat i) b) <> Ok hb) ->
      tstep (Threads p q es w bf n ws f) (Threads p q (set_nth e EFailed es) w bf n ws f)
  (** src/osm/pbf/parallel_writer.rs 219-230: submit of a WriteBlobCommand *)
  | ts_push i hb p q es w bf n ws f e : nth_error es e = Some (Encoded i hb) -> (length w < queue_size)%nat ->
      tstep (Threads p q es w bf n ws f) (Threads p q (set_nth e EIdle es) (w ++ [(i, hb)]) bf n ws f)
  (** src/osm/pbf/parallel_writer.rs 250-262: WriteBlobCommand::execute, insert *)
  | ts_receive i hb p q es w bf n f :
      tstep (Threads p q es ((i, hb) :: w) bf n WIdle f) (Threads p q es w (insert i hb bf) n WDraining f)
  (** src/osm/pbf/parallel_writer.rs 268-283: one iteration of the loop, a blob is written *)
  | ts_write hb p q es w bf n f : lookup n bf = Some hb ->
      tstep (Threads p q es w bf n WDraining (Some f))
            (Threads p q es w (remove n bf) (S n) WDraining (Some (f ++ write_blob hb)))
  (** src/osm/pbf/parallel_writer.rs 277-279: PBF_WRITER is None *)
  | ts_write_fails hb p q es w bf n : lookup n bf = Some hb ->
      tstep (Threads p q es w bf n WDraining None) (Threads p q es w (remove n bf) n WFailed None)
  (** src/osm/pbf/parallel_writer.rs 270-273: the next blob is not there *)
  | ts_stop p q es w bf n f : lookup n bf = None ->
      tstep (Threads p q es w bf n WDraining f) (Threads p q es w bf n WIdle f).

  Inductive texec : threads -> nat -> threads -> Prop :=
  | te_nil t : texec t 0 t
  | te_snoc t j t' t'' : texec t j t' -> tstep t' t'' -> texec t (S j) t''.

  (** src/osm/pbf/parallel_writer.rs 390-395: the state in which close returns: the ordering pool has submitted everything, the
      encoding pool and the writing pool have completed all pending commands *)
  Definition closed (t : threads) : Prop :=
    t_pending t = [] /\ t_encq t = [] /\ Forall (fun e => e = EIdle) (t_encs t) /\ t_wrq t = [] /\ t_w t = WIdle.
  (** no command has panicked or returned an error *)
  Definition no_failed (t : threads) : Prop := Forall (fun e => e <> EFailed) (t_encs t) /\ t_w t <> WFailed.
End Threads.
