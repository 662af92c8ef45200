(** Model of examples/pbf-info.rs. *)
From Coq Require Import ZArith List Bool Strings.Byte Strings.String.
From Verif Require Import Base Types Block FileFormat FileInfoModel ApidbText Converters.
Import ListNotations.
Open Scope Z_scope.

Section Program.
(** [show]: how println! prints an f64 *)
Variables (m : mode) (c : codec) (show : f64 -> bytes).
(** bounding_box.rs 83-87 *)
Definition box_text (b : bbox) : bytes :=
  str "left: " ++ show (bb_left b) ++ str ", bottom: " ++ show (bb_bottom b) ++ str ", right: " ++ show (bb_right b) ++ str ", top: " ++ show (bb_top b).
Definition bool_text (b : bool) : bytes := if b then str "true" else str "false".
(** a line for a value that is there *)
Definition opt_line {A} (label : bytes) (text : A -> bytes) (o : option A) : list bytes := match o with None => [] | Some x => [label ++ text x] end.
(** pbf-info.rs 11-43 *)
Definition lines_before (path : bytes) (i : file_info) : list bytes :=
  [str "PBF file: " ++ path] ++
  [str "Bounding box: " ++ match fi_bbox i with None => str "None" | Some b => box_text b end] ++
  map (fun f => str "Required feature: " ++ f) (fi_required i) ++
  map (fun f => str "Optional feature: " ++ f) (fi_optional i) ++
  opt_line (str "Writing program: ") (fun s => s) (fi_program i) ++
  opt_line (str "Source: ") (fun s => s) (fi_source i).
(** pbf-info.rs 55-71 *)
Definition lines_after (i : file_info) : list bytes :=
  opt_line (str "osmosis_replication_sequence_number: ") show_int (fi_seq i) ++
  opt_line (str "osmosis_replication_base_url: ") (fun s => s) (fi_url i) ++
  [str "Feature queries"] ++
  [str "Required 'HistoricalInformation': " ++ bool_text (fi_is_required i (str "HistoricalInformation"))] ++
  [str "Required 'DenseNodes': " ++ bool_text (fi_is_required i (str "DenseNodes"))] ++
  [str "Optional 'Sort.Type_then_ID': " ++ bool_text (fi_is_optional i (str "Sort.Type_then_ID"))].
(** pbf-info.rs 73-77: the assertions *)
Definition assertions (i : file_info) : res unit :=
  if fi_is_required i (str "HistoricalInformation") && fi_is_required i (str "DenseNodes") && fi_is_optional i (str "Sort.Type_then_ID") then Ok tt else Panic.
(** pbf-info.rs 7-78: the lines printed and how the program ends; 45-53: the timestamp, where it may end early *)
Definition pbf_info (path file : bytes) : list bytes * res unit :=
  match reader_new m c file with
  | Err => ([], Err)
  | Panic => ([], Panic)
  | Ok i =>
    match fi_ts i with
    | None => (lines_before path i ++ lines_after i, assertions i)
    | Some t =>
      match replication_time_text (match m with Checked => true | Wrapping => false end) t with
      | Ok s => (lines_before path i ++ [str "osmosis_replication_timestamp: " ++ s] ++ lines_after i, assertions i)
      | Err => (lines_before path i, Err)
      | Panic => (lines_before path i, Panic)
      end
    end
  end.
End Program.
