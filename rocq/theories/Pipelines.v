(** Model of the programs in examples/ that connect a reader to a writer. *)
From Coq Require Import ZArith List Bool Strings.Byte Strings.String.
From Verif Require Import Base Types Block FileFormat FileInfoModel.
Import ListNotations.
Open Scope Z_scope.

(** examples/pbf-io.rs 31-44: nodes tagged natural=tree and sentinels are filtered out *)
Definition pbf_io_filter_out (e : element) : bool :=
  match e with
  | ENode n => existsb (fun t => bytes_eqb (t_k t) (str "natural") && bytes_eqb (t_v t) (str "tree")) (n_tags n)
  | EWay _ => false
  | ERelation _ => false
  | ESentinel => true
  end.

(** examples/pbf-io.rs 11-52, for any filter, program name and compression type: [r] is how the program ends, [Ok]
    with the contents of the output file. Reading and writing alternate in the program; since a panic or error of either
    ends it, the outcome is that of reading everything and then writing. *)
Inductive copies (m : mode) (c : codec) (filter_out : element -> bool) (program : bytes) (k : compression) (input : bytes) : res bytes -> Prop :=
| cp_err : reader_new m c input = Err -> copies m c filter_out program k input Err
| cp_new_panic : reader_new m c input = Panic -> copies m c filter_out program k input Panic
| cp_read_panic i es : reader_new m c input = Ok i -> elements_run m c input es Panicked -> copies m c filter_out program k input Panic
| cp_write i es : reader_new m c input = Ok i -> elements_run m c input es Ended ->
    copies m c filter_out program k input
      (write_file m c (set_field i (SetProgramStr program)) k (filter (fun e => negb (filter_out e)) es)).
Definition pbf_io (m : mode) (c : codec) (input : bytes) (r : res bytes) : Prop :=
  copies m c pbf_io_filter_out (str "pbf-io-example") Zlib input r.

(** examples/count-pbf-elements.rs 17-52: numbers of elements and of tags with the key tourism by type *)
Record counts := Counts { ct_nodes : Z; ct_ways : Z; ct_relations : Z; ct_tourism_nodes : Z; ct_tourism_ways : Z; ct_tourism_relations : Z }.
Definition tourism (ts : list tag) : Z := zlen (filter (fun t => bytes_eqb (t_k t) (str "tourism")) ts).
Definition count_one (a : counts) (e : element) : counts :=
  match a with
  | Counts n w r tn tw tr =>
    match e with
    | ENode x => Counts (n + 1) w r (tn + tourism (n_tags x)) tw tr
    | EWay x => Counts n (w + 1) r tn (tw + tourism (w_tags x)) tr
    | ERelation x => Counts n w (r + 1) tn tw (tr + tourism (r_tags x))
    | ESentinel => a
    end
  end.
Inductive count_file (m : mode) (c : codec) (input : bytes) : res counts -> Prop :=
| cf_err : reader_new m c input = Err -> count_file m c input Err
| cf_new_panic : reader_new m c input = Panic -> count_file m c input Panic
| cf_read_panic i es : reader_new m c input = Ok i -> elements_run m c input es Panicked -> count_file m c input Panic
| cf_done i es : reader_new m c input = Ok i -> elements_run m c input es Ended ->
    count_file m c input (Ok (fold_left count_one es (Counts 0 0 0 0 0 0))).
