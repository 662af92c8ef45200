(** Non-vacuity of C96. *)
From Coq Require Import ZArith List Bool Lia Strings.Byte Strings.String.
From Verif Require Import Base BaseFacts Types Proto Block FileFormat FileInfoModel FileSpec CallSpec InfoSpec ApidbText CalendarFacts Converters IsoSpec PropIso InfoProgram PropInfoProgram ExBlock ExFile ExPipelines.
Import ListNotations.
Local Notation length := List.length.
Open Scope Z_scope.

Definition ex_info_file (hist : bool) (ts : Z) : bytes := match new_writer_file Checked ex_codec (str "p") (str "s") (Some ts) (Some (-3)) (Some (str "u")) None Zlib hist ex_stream with Ok f => f | _ => [] end.
Definition ex_show (x : f64) : bytes := str "?".
(** all features there, and a timestamp in 2023: all lines, a good end *)
Example ex_printed : pbf_info Checked ex_codec ex_show (str "a.osm.pbf") (ex_info_file true 1675900000) =
  (map str ["PBF file: a.osm.pbf"; "Bounding box: None"; "Required feature: OsmSchema-V0.6"; "Required feature: DenseNodes"; "Required feature: HistoricalInformation";
    "Optional feature: Sort.Type_then_ID"; "Writing program: p"; "Source: s"; "osmosis_replication_timestamp: 2023-02-08T23:46:40Z"; "osmosis_replication_sequence_number: -3";
    "osmosis_replication_base_url: u"; "Feature queries"; "Required 'HistoricalInformation': true"; "Required 'DenseNodes': true"; "Optional 'Sort.Type_then_ID': true"]%string, Ok tt).
Proof. vm_compute. reflexivity. Qed.
Example ex_printed_hypotheses : exists i, reader_new Checked ex_codec (ex_info_file true 1675900000) = Ok i /\ fi_ts i = Some 1675900000 /\ IsoSpec.representable 1675900000.
Proof. eexists. split; [vm_compute; reflexivity|]. split; [reflexivity|]. apply representable_iff. vm_compute. reflexivity. Qed.
(** without history the assertion fails, after everything was printed *)
Example ex_asserted : snd (pbf_info Checked ex_codec ex_show (str "a.osm.pbf") (ex_info_file false 1675900000)) = Panic /\ length (fst (pbf_info Checked ex_codec ex_show (str "a.osm.pbf") (ex_info_file false 1675900000))) = 14%nat.
Proof. vm_compute. auto. Qed.
(** a timestamp in milliseconds: an error after the lines before it *)
Example ex_late : snd (pbf_info Checked ex_codec ex_show (str "a.osm.pbf") (ex_info_file true 9000000000000)) = Err /\ ~ IsoSpec.representable 9000000000000.
Proof. split; [vm_compute; reflexivity|]. intros X. apply representable_iff in X. vm_compute in X. discriminate X. Qed.
