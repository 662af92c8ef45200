# A Rocq model of navigatorsguild/osm-io

Prover: Coq 8.16.1. Sources modelled: `/repo/src/osm/**` at the pinned commit.
`properties.jsonl` lists the English properties, `MANIFEST.json` maps them to theorems,
`seeded/LOG.jsonl` records the wrong programs the theorems were tried against.

## Layout (`rocq/theories/`)

Three kinds of file. **Model** files contain only definitions, each citing the file and lines it models.
**Spec** files are the vocabulary of the theorem statements: they mention the data types and, for file-level
statements, `run` (what repeatedly calling an iterator's `next` yields), but none of the encoders, decoders or
helper functions of the model. **Facts/Prop** files contain proofs; the theorems named in MANIFEST are in `Prop*.v`, the concrete
cases meeting their hypotheses are `Example`s in `Ex*.v`, and at the end of `PropWire.v`, `PropToc.v`, `PropRound.v`, `PropApidbText.v`.

| area | model | specification | lemmas | theorems | examples |
|---|---|---|---|---|---|
| outcomes, integers, UTF-8, f64, elements, bounding box | `Base` `Types` | `Spec` | `BaseFacts` `FloatFacts` | | |
| protobuf wire format (prost) | `Proto` | `WireSpec` | `ProtoFacts` `WireFacts` `WireMsg` | `PropWire` (C56) | in `PropWire` |
| block builders and `OsmData` | `Block` | `Spec` `FormatSpec` | `BlockFacts` `BlockOverflow` `BlockRead` `SpecFacts` | `PropBlock` (C01-C11, C47, C48) | `ExBlock` |
| blobs, file blocks, `Reader`, `Writer`, accumulator | `FileFormat` | `FileSpec` | `FileFacts` `WriterFacts` | `PropFile` (C12-C21) | `ExFile` |
| `Ord`/`Eq` of elements, `BoundingBox` | `Types` `Model2` | `ModelSpec` | `ModelFacts` | `PropModel` (C22, C26, C49) | `ExModel` |
| `parallel_for_each`, `count_objects`, bbox calculator, thread-local accumulator | `Pool` `ParallelRead` | `ParallelSpec` | `PoolFacts` `ParallelReadFacts` | `PropParallelRead` (C23-C25, C32, C33, C50) | `ExParallelRead` |
| `ParallelWriter` | `ParallelWrite` | `ParallelWriteSpec` | `OrderFacts` `EncodeFacts` | `PropParallelWrite` (C27-C31, C33, C51, C52) | `ExParallelWrite` |
| apidb dump text: SQL time, tiles, numbers | `ApidbText` | `ApidbSpec` | `CalendarFacts` `ApidbTextFacts` `TileFacts` | `PropApidbText` (C37, C38) | in file |
| apidb dump writer | `ApidbWrite` | `DumpSpec` | `ApidbWriteFacts` | `PropApidbWrite` (C34, C35, C43) | `ExApidb` |
| apidb dump reader | `ApidbRead` | `DumpReadSpec` | `ApidbReadFacts` `TocFacts` `JoinFacts` `ReaderFacts` | `PropApidbRead` `PropDump` (C39, C40, C42, C45, C46) | `ExTools` `ExApidb` |
| dump written then read | | `RoundSpec` | `RoundFacts` | `PropRound` (C36) `PropRoundTrip` (C53) `PropLimits` (C40, C41, C44, C53, C55) | `ExApidb` |
| shipped `toc.dat` template | `TocData` (the file, as bytes) | `RoundSpec` | | `PropToc` (C54) | |
| `Calls.v`, `CallSpec.v`, `PropCalls.v`, `ExCalls.v` | arbitrary programs using a sequential writer (C57-C59) |
| `BoxSpec.v`, `PropBox.v` | exact result of the bounding box calculation (C60) |
| `Crash.v`, `PropCrash.v`, `ExCrash.v` | a parallel writer interrupted at any moment (C61) |
| `Converters.v`, `IsoSpec.v`, `PropIso.v`, `ExIso.v` | ISO 8601 text of timestamps (C63) |
| `FileInfoModel.v`, `InfoSpec.v`, `PropInfo.v` | FileInfo setters and queries, Writer::new, boxes of blocks (C62, C68) |
| `PropLegal.v` | legality of everything read (C67) |
| `Pipelines.v`, `PropPipelines.v`, `ExPipelines.v` | copying and counting programs in examples/ (C64) |
| `Pipelines2.v`, `PropConvert.v`, `PropConvert2.v`, `ExConvert.v` | the conversion programs in examples/ (C65, C66) |
| `ReadSpec.v`, `PropReadAny.v`, `ExReadAny.v` | the reader on arbitrary bytes (C69) |
| `PropBlobs.v`, `ExBlobs.v` | raw blobs of arbitrary files (C70) |
| `ParallelIo.v`, `PropParallelIo.v`, `ExParallelIo.v` | examples/parallel-pbf-io.rs as a whole (C71) |
| `PropExact.v`, `ExExact.v` | exact versions of C22, C12 and C31 (C72-C74) |
| `FieldSpec.v`, `PropFields.v`, `ExFields.v` | which rows of a dump are read (C75) |
| `ResolveSpec.v`, `PropResolve.v`, `ExResolve.v` | reading dumps with missing rows (C76) |
| `RowOrderSpec.v`, `PropRowOrder.v`, `ExRowOrder.v` | order of tags and members after a dump (C77) |
| `DisorderSpec.v`, `PropDisorder.v`, `ExDisorder.v` | exact version of C30 (C78) |
| `HeaderBoxSpec.v`, `PropHeaderBox.v`, `ExHeaderBox.v` | exact version of C13 (C79) |
| `DumpStop.v`, `StopSpec.v`, `PropStop.v`, `ExStop.v` | dumps whose writer was stopped (C80) |
| `LowCalls.v`, `LowSpec.v`, `PropLow.v`, `ExLow.v` | low level calls of the sequential writer, copying block by block (C81) |
| `IoCalls.v`, `IoSpec.v`, `PropIo.v`, `ExIo.v` | a sequential writer on a disk that fails (C82) |
| `MissSpec.v`, `PropMiss.v`, `ExMiss.v` | dump directories that lack something (C83) |
| `NameSpec.v`, `NameFacts.v`, `PropNames.v`, `ExNames.v` | user names with TABs in a dump (C84) |
| `WriteFails.v`, `PropWriteFails.v`, `ExWriteFails.v` | ParallelWriter with late or missing headers and failing writes (C85) |
| `FailPool.v`, `FailSpec.v`, `PropFails.v`, `ExFails.v` | parallel_for_each with calls that fail (C86) |
| `TmpDir.v`, `PropTmp.v`, `ExTmp.v` | several dump Readers and their temporary directories (C87) |
| `DumpCalls.v`, `DumpCallsSpec.v`, `PropDumpCalls.v`, `ExDumpCalls.v` | histories of the dump writer (C88) |
| `DumpFails.v`, `DumpFailsSpec.v`, `PropDumpFails.v`, `ExDumpFails.v` | the dump writer on a failing disk (C89) |
| `ReadFails.v`, `PropReadFails.v`, `ExReadFails.v` | reading a PBF file from a failing disk (C90) |
| `CountSpec.v`, `PropCount.v`, `ExCount.v` | sequential and parallel reading compared (C91) |
| `DumpReadFails.v`, `DumpReadFailsSpec.v`, `PropDumpReadFails.v`, `ExDumpReadFails.v` | iterating a dump on a failing disk (C92) |
| `NullSpec.v`, `PropNull.v`, `PropNullParts.v`, `ExNull.v`, `ExNullParts.v` | rows that cannot be read, NULL (C93) |
| `DamagedParallel.v`, `DamagedSpec.v`, `PropDamaged.v`, `ExDamaged.v` | counts, boxes and copies of damaged files (C94) |
| `Stopped.v`, `PropStopped.v`, `ExStopped.v` | the converting programs when they stop early (C95) |
| `InfoProgram.v`, `PropInfoProgram.v`, `ExInfoProgram.v` | pbf-info as a program (C96) |
| `Stack.v`, `StackSpec.v`, `PropStack.v`, `PropStackFiles.v`, `ExStack.v` | the nested calls of `ElementIterator::next` (C97) |
| `Growing.v`, `GrowingSpec.v`, `PropGrowing.v`, `ExGrowing.v` | files that are read while they are written (C98) |
| `Poll.v`, `PollSpec.v`, `PropPoll.v`, `ExPoll.v` | calling `next` after `None` (C99) |
| `Salvage.v`, `SalvageSpec.v`, `PropSalvage.v`, `ExSalvage.v`, `RescueSpec.v`, `PropRescue.v`, `ExRescue.v` | catching panics of the iterators and going on (C100) |
| `JoinSpec.v`, `PropJoined.v`, `ExJoined.v` | files put one after another (C101) |
| `ManyClosesSpec.v`, `PropManyCloses.v`, `PropManyNames.v`, `ExManyCloses.v`, `ExManyNames.v` | reading back after several closes (C102) |
| `PropSorted.v`, `ExSorted.v` | sorted collections and merging of files (C103) |
| `DumpSalvage.v`, `DumpSalvageSpec.v`, `PropDumpSalvage.v`, `ExDumpSalvage.v` | catching the panics of the dump reader (C104); what is left after a panic inside the parsing of a row is not modelled |
| `PropCopy.v`, `ExCopy.v` | a copy of a file is the file (C105) |

## Modelling decisions

* Strings and files are lists of bytes (`Coq.Init.Byte.byte`); a Rust `String` is a byte list that passes
  the UTF-8 check (`utf8_ok`, proved in C56 to be exactly RFC 3629).
* `i32`, `i64`, `u32`, `usize` are `Z` with explicit range predicates; `+`, `-`, `*` take the build mode
  (`Checked` = overflow panics, as in debug builds; `Wrapping` = two's complement, as in release builds).
  Every theorem about encoding or decoding quantifies over both modes.
* A function that can panic or return `Err` has result type `res` (`Ok`/`Err`/`Panic`); nothing is made total
  silently. Non-terminating loops are relations (`run`, `flush_all_sorted`) or fuel-free structural recursion with
  a proof that the loop ends; where the Rust loop may not end, the relation has no outcome.
* f64 is `spec_float` with the operations of `Coq.Floats.SpecFloat` (53, 1024), so the model is
  axiom free and executable; proofs about rounding go through Flocq (real-number axioms of the standard library).
* External code is a parameter with its contract as a hypothesis of the theorem (list below).
* Concurrency is a small-step relation; theorems quantify over every reachable state, hence over every schedule.
  The unit of interleaving is one queue operation, one critical section or one call of the user's function.
* A property that the code violates is stated at full strength and refuted (`..._refuted`, where possible for a whole class of
  inputs), next to the strongest positive theorem that does hold (`..._partial`) and, where the code's
  behaviour is still definite, a theorem saying exactly what it does instead (`..._exact`).

## Trusted base

1. Coq's kernel (8.16.1), and `vm_compute` conversion inside it.
2. The axioms of the standard library listed by `Print Assumptions`:
   * `ClassicalDedekindReals.sig_forall_dec`, `ClassicalDedekindReals.sig_not_dec`, `Classical_Prop.classic`,
     `FunctionalExtensionality.functional_extensionality_dep` (real numbers, through Flocq) for
     `C01_node_block_round_trip`, `C02_way_block_round_trip`, `C03_relation_block_round_trip`, `C05_homogeneous_block_partial`, `C05_refuted_mixed_block`, `C06_grid_coordinates_bit_exact`, `C07_quantisation_error`, `C08_timestamps_truncated`, `C09_checked_panics_exactly_on_wide_gaps`, `C09_values_recovered`, `C101_all_in_parallel`, `C101_bounding_box`, `C101_written`, `C101_appended`, `C101_appended_cut`, `C102_exact`, `C103_sorted_round_trip`, `C103_merge`, `C105_block_written_again`, `C105_copy_of_the_original`, `C105_same_bytes`, `C105_copies_read_the_same`, `C11_read_write_read_stable`, `C13_header_bbox_partial`, `C13_refuted`, `C16_whole_file_round_trip`, `C19_truncated_elements`, `C23_exactly_once`, `C25_hull_partial`, `C25_refuted`, `C26_merge_is_least_upper_bound`, `C26_merge_point`, `C26_merge_laws`, `C33_filter_pipeline`, `C33_pipeline_batches`, `C38_tile`, `C46_coordinates`, `C49_from_str`, `C49_never_nan`, `C51_parallel_round_trip`, `C53_exact`, `C57_block_content`, `C57_lossless_iff_one_type`, `C58_any_calls`, `C58_crash_at_any_moment`, `C60_exact_bounding_box`, `C60_schedule_independent`, `C61_parallel_crash`, `C62_writer_new`, `C64_copy`, `C64_release_copies`, `C64_copy_of_copy`, `C64_pbf_io_filter`, `C65_dump_to_pbf`, `C66_there_and_back`, `C66_own_files`, `C67_elements_are_legal`, `C67_header_is_legal`, `C67_blocks_are_legal`, `C68_block_box`, `C68_nodes_block`, `C68_merge_into_header`, `C68_default_box`, `C71_copy`, `C71_small_inputs`, `C71_unlucky_schedule`, `C79_first`, `C79_again`, `C79_grid`, `C79_settles`, `C81_any_calls`, `C81_reading`, `C81_block_copy`, `C81_copy_elements`, `C82_stops`, `C82_goes_on`, `C82_torn`, `C85_reads`, `C91_same_elements`, `C91_counts`, `C91_one_header`, `C94_bounding_box`, `C94_copy`, `C95_file_left`, `C95_copy`, `C95_from_dump`, `C95_from_bad_dump`, `C97_written`, `C97_parallel`, `C97_crafted`, `C98_while_written`, `C99_written`.
   * `sig_forall_dec` and `functional_extensionality_dep` only for `C07_nearest_is_unique`, `C26_from_point`.
   * every other theorem in MANIFEST is "Closed under the global context": `C04_string_table`, `C09_release_never_panics`, `C10_wire_round_trip`, `C100_blocks`, `C100_blocks_had`, `C100_elements`, `C100_first_block`, `C100_undamaged`, `C100_bad_length`, `C100_all_blocks`, `C100_all_elements`, `C101_blocks`, `C101_first_only`, `C101_counts`, `C101_cut`, `C102_as_one_dump`, `C102_read_back`, `C102_recorded_authors`, `C103_sorted_is_writable`, `C104_reading`, `C104_for_loop`, `C12_header_round_trip_partial`, `C12_refuted_empty_header`, `C14_feature_gate`, `C14_unsupported_is_refused`, `C15_blob_framing`, `C16_unique`, `C17_order_enforced_partial`, `C17_refuted`, `C18_block_structure`, `C19_truncated_file`, `C20_blobs_terminate_partial`, `C20_blocks_terminate`, `C20_elements_terminate`, `C20_refuted`, `C21_only_valid_blobs`, `C21_malformed_refused`, `C21_refused_blob_yields_nothing`, `C22_total_order_partial`, `C22_refuted`, `C24_count_objects`, `C27_nothing_lost`, `C28_schedule_independent`, `C28_same_file`, `C29_order_restored`, `C29_large_buffer`, `C30_order_check_partial`, `C30_refuted`, `C31_close_terminates_partial`, `C31_refuted`, `C32_accumulator`, `C34_current_tables`, `C35_history_tables`, `C36_rows_parse_back`, `C37_sql_time_round_trip`, `C37_all_years`, `C37_micros`, `C37_calendar_total`, `C38_tile_injective`, `C39_own_rows`, `C40_every_object_partial`, `C40_refuted`, `C41_order_partial`, `C41_refuted`, `C42_stream_shape`, `C43_users_and_changesets`, `C44_names_partial`, `C44_refuted`, `C44_names_read`, `C45_toc`, `C45_header`, `C47_defaults`, `C48_reader_means_the_format`, `C48_bad_index_panics`, `C50_terminates`, `C52_encoders_terminate`, `C52_release_finishes`, `C53_dump_round_trip`, `C54_shipped_toc`, `C55_dump_total`, `C56_decoders_mean_the_wire_format`, `C56_refused_means_invalid`, `C56_meaning_unique`, `C56_encoders_write_the_wire_format`, `C56_utf8`, `C56_data_payload`, `C56_header_payload`, `C56_file_blob`, `C58_file_grows`, `C59_exactly_these_streams`, `C62_setters`, `C62_feature_queries`, `C62_default_header`, `C63_iso_text`, `C63_same_second`, `C63_sorted`, `C63_length`, `C63_replication_timestamp`, `C63_other_timestamps`, `C64_one_outcome`, `C64_counts`, `C65_one_outcome`, `C66_one_outcome`, `C66_to_dump`, `C68_given_box`, `C69_blocks`, `C69_one_meaning`, `C69_reader_new`, `C69_elements`, `C69_debug_build`, `C70_blobs`, `C70_first_blobs`, `C70_terminates`, `C72_order`, `C72_transitive`, `C72_predicates`, `C73_header`, `C74_close_returns`, `C74_zero_blocks_are_empty`, `C75_rows`, `C75_integers`, `C75_booleans`, `C75_times`, `C75_nulls`, `C75_member_kinds`, `C76_reading`, `C77_order`, `C77_kept`, `C78_rejected`, `C78_in_order`, `C78_silent`, `C79_whole_degrees`, `C80_nothing_early`, `C80_rows_on_disk`, `C80_silent_loss`, `C80_ways_can_be_lost`, `C81_appends`, `C81_laid_unique`, `C82_no_failure`, `C82_close_again`, `C82_accounting`, `C82_laid_unique`, `C82_laid_all_ok`, `C83_missing_table`, `C83_missing_file`, `C83_missing_column`, `C83_missing_toc`, `C84_tabs_panic`, `C84_names_cut`, `C84_opens`, `C85_as_if_first`, `C85_closed`, `C85_no_header`, `C85_too_late`, `C85_stays`, `C85_stuck`, `C86_calls_that_fail`, `C86_at_any_moment`, `C86_terminates`, `C86_stuck`, `C87_own_dump`, `C87_opening`, `C87_opens`, `C87_other_dump`, `C88_histories`, `C88_total`, `C89_all_fine`, `C89_history_tables`, `C89_first_failure`, `C89_retry`, `C90_blocks`, `C90_elements`, `C90_header_lost`, `C90_reader_new`, `C90_for_each`, `C90_silent_loss`, `C91_two_headers`, `C92_opening`, `C92_cut_between_rows`, `C92_silent_loss`, `C92_any_failures`, `C92_tag_moves`, `C93_opening`, `C93_objects`, `C93_no_panic`, `C93_parts`, `C93_null`, `C94_counts`, `C95_to_dump`, `C95_same_outcome`, `C95_from_dump_same`, `C96_prints`, `C96_header_only`, `C96_other_ends`, `C97_depth`, `C98_new`, `C98_elements`, `C98_both_bounds`, `C98_complete`, `C98_blocks`, `C98_for_each`, `C98_appends`, `C99_elements`, `C99_elements_total`, `C99_elements_reached`, `C99_blobs`, `C99_dump`, `C99_resumes_only`, `C99_resumes`, `C99_tail`.
   `coqchk` additionally lists axioms of loaded but unused standard library modules (Reals, ssr's `Under_rel`).
3. The correspondence between the model and the Rust source, which is by reading (every definition cites file and lines).
4. The contracts of external code, each visible as a hypothesis or a parameter in the statements that need it:
   * zlib (`flate2`): `codec_ok`: inflating what was deflated gives it back, `read_exact` semantics for the declared size.
   * `slice::sort`/`sort_by`: `sort_ok`: a stable-or-not sorted permutation for the elements' comparison.
   * `command-executor` thread pools: FIFO bounded queue, `shutdown` waits for the queued commands, N workers (`Pool.v`, `ParallelWrite.v`).
   * `escape_string`, `unescape`: arbitrary functions; round trips are stated for strings that survive them (`survives`).
   * chrono's formatting, parsing and calendar (modelled in `ApidbText.v`; the calendar is proved to be the proleptic Gregorian one).
   * `text-file-sort`: `sorts`: the output has the lines of the input ordered by the key columns.
   * `transient-btree-index`: a map; `HashMap` iteration order: arbitrary permutation (`any_order`); `Uuid::new_v4`: the accumulators' ids are distinct.
   * regex used by the dump reader's toc and header parsing: modelled as hand-written matchers (`ApidbRead.v`).
   * prost: modelled in `Proto.v`, proved against the wire-format specification in C56; its recursion limit (100) is not modelled,
     the messages used here nest at most four deep.
   * `f64::from_str` in `BoundingBox::from_str`: an arbitrary parser returning valid doubles.
   * the clock: an arbitrary function of the number of calls.

### Not modelled

failures of the sorting library while it reads or writes (failing writes are in C82, C85 and C89, failing reads in C90 and C92), memory exhaustion and stack depth (except the calls of
`ElementIterator::next` inside one another, once per empty block: C97), `FileBlock`'s trivial accessors, logging, argument parsing and printing in the command line examples (their
processing is modelled: C63-C66), the benches, the `Debug` implementations, and the deletion of temporary sorted tables.
Threads panicking is modelled as the worker stopping (`failed`), not as poisoning of the locks it held: in the parallel writer each mutex belongs
to one command, which is executed once, and the locks of the pools are only read by commands, which does not poison them.

## What was found while proving

* C05: `Writer::write_elements` with a list mixing types writes only the nodes if there is one, else only the ways, else the relations (C57); the batch also overtakes elements pending from `write_element` (C58).
* C12: a header made from an entirely empty `FileInfo` is zero bytes and cannot be read back.
* C13: header bounding box edges are truncated toward zero to a nanodegree: the box can exclude the node it was computed from and drifts with each rewriting.
* C17: a sorted stream with relations but no way is refused by `Writer::write_element` (panic).
* C18: the accumulator emits an empty block when a stream starts with ways (no node at all).
* C19: a file truncated at a blob boundary reads as a shorter file without any error.
* C20: a negative `datasize` makes the blob iterator visit the same blob for ever.
* C21: a zlib blob without `raw_size` panics instead of being refused with an error.
* C22: `Sentinel < e` and `e < Sentinel` both hold: `cmp` is not antisymmetric, which `sort` may punish with a panic.
* C25: the bounding box calculator ignores the nodes after the first non-node of a block, and panics when the file has no node.
* C27/C29: sentinels passed to `ParallelWriter` end up in blocks of their own; `AddElements` flushes at most one block per batch, so the buffer grows with large batches.
* C30: loss of order is detected only against the first element of the last flushed block (1 5 9 3 with B=K=2 is written 1 5 3 9).
* C31: `file_block_size = 0` is accepted and `close` never ends.
* C34: unsorted ids make the dump writer drop or repeat `current_*` rows.
* C40: one orphan tag row starves every later object of its tags.
* C41: relation members come back by (type, id), not in the order written; C53: tags come back sorted by key.
* C44: user names are not escaped: names with TAB or LF never come back.
* C45: the toc scan misses a COPY statement that starts right after `.dat`.
* C53: versions and user ids beyond i32 are silently truncated by the dump reader.
* C55: the dump writer panics (it does not return `Err`) on timestamps outside chrono's range.
* C09: delta overflow panics in debug builds and wraps in release builds.
* C69: a damaged or cut blob header in the middle of a file ends the iteration silently (the rest of the file is lost without an error), a damaged body panics; `elements()` never reaches data behind a second header block.
* C70: a file with a blob of negative size may be read to the end if the chain of offsets never returns to a place it visited.
* C71: the parallel copying pipeline is correct for every schedule only if the kept elements fit in the ordering buffer; on a larger sorted file a schedule exists in which one slow worker makes the ordering thread panic.
* C75: a malformed row panics instead of giving an error; an unreadable redaction_id silently counts as none.
* C76: a node, way or relation whose changeset (or whose changeset's user) is not in the dump makes the element iterator panic instead of reporting an error; versions and user ids beyond 32 bits are silently truncated.
* C77: a dump regroups the members of a relation (nodes, relations, ways; by id; by role) and sorts tags by key; only lists already in that order survive.
* C80: table files are closed in alphabetical order, so a dump interrupted between closing `users` and `ways` reads to its end without an error but lacks ways, way_nodes or way_tags (an interrupted writer leaves no mark).
* C81: copying a foreign file with `for block in reader.blocks()? { writer.write_file_block(block)? }` silently loses the ways and relations of every block that also has nodes; a second header block hides every element behind it from `elements()` without an error.
* C82: `close()` and `write_element` take the block out of the accumulator before they write it. If the write fails (disk full), retrying `close()` returns Ok and writes nothing: the program sees success and up to 8000 elements are missing from a file that reads without an error.
* C83: a dump without `users` or `changesets` makes `elements()` panic (`unwrap` on the map), while a dump without any of the other eight tables returns Err.
* C84: a single user name with 1 to 11 TABs (or 14 to 19) makes the whole dump unreadable: `elements()` panics; with other counts the name comes back cut.
* C85: `ParallelWriter::write_header` after the first element is a race: the file is complete or the writing thread panics and there is no file. After a failed write (`expect`) nobody empties the queues: with more than 512 blocks to come, `write_element` and `close` hang instead of returning an error.
* C86: a call of the function that fails costs the rest of its block, the Sentinel included, and no other block.
* C87: two dump `Reader`s must not share a temporary directory: the later one overwrites the sorted tables of the earlier, whose
  `elements()` then yields the other dump (also when opening the later one failed), without an error.
* C88: the dump writer can be used after `close`, but the tables then hold several end markers, versions of one object on both sides of a close make it current twice, and users and changesets are repeated at every close.
* C89: when `write_element` of the dump writer returns an I/O error the held-back lines of the previous object are lost and those of the new one are already held: writing the element again drops the previous object from the current tables and repeats the new one, with all later calls returning Ok.
* C90: an I/O error while the next blob header is read is taken for the end of the file: `elements`, `blocks`, `parallel_for_each` and `count_objects` then deliver a beginning of the file without an error; an error while `elements()` skips the header can make it deliver nothing.
* C91: on a file with a second header block (e.g. two files concatenated) `elements()` stops at it without an error, while `parallel_for_each` and `count_objects` go on: the counts differ (`C91_two_headers`).
* C92: an I/O error while a sorted table of a dump is read is taken for the end of the table: objects or their tags are missing without an error, and if the disk recovers a tag can move to another node (`C92_tag_moves`).
* C93: elements() of a dump panics when one changeset has no bounding box (min_lat, ... are NULL for empty changesets in OSM dumps) or one user a NULL home_zoom: one row makes the whole dump unreadable (`C93_null`, `ex_null_changeset`).
* C94: count_objects and the parallel copy leave out blobs that cannot be decoded or read, with no error from the command itself reaching the caller through the result: the numbers are too small, the copy lacks blocks (`C94_counts`, `C94_copy`, `ex_damaged_count`). The sequential reader panics at the same blob.
* C95: A damaged input makes pbf-io and apidb-to-pbf panic, but the file they leave behind is valid and reads to its end without an error: nothing in it tells that it is incomplete (`C95_copy`, `ex_stopped`). In contrast a stopped pbf-to-apidb leaves a dump that reads as empty (`C95_to_dump`).
* C96: pbf-info panics on every file that lacks HistoricalInformation, DenseNodes or Sort.Type_then_ID, for example on ordinary extracts without history (`C96_prints`, `ex_asserted`).
* C97: a file with many consecutive data blocks without elements, which `Writer::write_elements(vec![])` itself produces, makes `ElementIterator::next` call itself once per block: where the compiler keeps the recursion the stack overflows and the process aborts (`C97_crafted`); files from `write_element` need at most 3 nested calls, the parallel writer's at most 2.
* C98: a reader that catches up with the writer takes a blob whose length or header is not complete for the end of the file and ends without an error, and panics in `FileBlockIterator::next` when only the body is not complete (`ex_half`); it never returns wrong elements (`C98_elements`).
* C99: `BlobIterator` is not fused: after a blob header that cannot be decoded, a negative size, or when the file has grown, a call after `None` jumps over the last body once more and can return a blob that is not in the file (`C99_resumes`, `C99_tail`); `ElementIterator` is fused.
* C100: the panics of `FileBlockIterator::next` on damaged blobs can be caught and skipped blob by blob without losing or repeating anything (`C100_elements`), but a damaged first data block already makes `Reader::elements` panic (`C100_first_block`).
* C101: of concatenated files the sequential interfaces silently read the first only, the parallel ones read all (`C101_first_only`, `C101_all_in_parallel`): a copy made with `parallel_for_each` and one made with `elements` differ.
* C102: after several closes the users and changesets tables have several rows for the same id; if a user changed names between two closes, the name the Reader gives depends on the order in which the sort leaves rows of equal id; it is one of those recorded at a close (`C102_recorded_authors`); with unchanging names (`coherent`) the result is that of one dump.
* C103: a collection with relations but no way cannot be written in any order (the writer panics), so such files cannot be merged or copied either.
* C104: the panic for a missing changeset or user comes after the iterator has moved on, so a program that catches it loses only that object.
* C105: files written by this library are fixed points of reading and writing; only the bounding box of the header can move (C79).

## Per property

* **C01 Node block round trip.** `OsmData::serialize`, `DenseNodeBuilder`, the string table and `OsmData::new` are modelled; decode(encode) = the normalised list by induction over the nodes, with a delta/prefix-sum invariant per column and a string-table extension invariant. Theorems (proved): `C01_node_block_round_trip`.
* **C02 Way block round trip.** Same method for `WayGroupBuilder`, references delta coded. Theorems (proved): `C02_way_block_round_trip`.
* **C03 Relation block round trip.** Same method for `RelationsGroupBuilder`, members in three parallel columns. Theorems (proved): `C03_relation_block_round_trip`.
* **C04 String table soundness.** Invariant over the builder state: the map and the table are inverse to each other and the table only grows. Theorems (proved): `C04_string_table`.
* **C05 A block written from a caller's element list loses nothing.** Refuted by a computed two element list; proved for lists of one type. Theorems (partial): `C05_homogeneous_block_partial`, `C05_refuted_mixed_block`. False as stated: write_elements with a list that mixes types keeps the nodes if there is any node, else the ways if there is any way, else the relations (C05_refuted_mixed_block; the exact content is C57). Proved for lists of one type.
* **C06 Coordinates on the OSM grid survive bit for bit.** Flocq: the decoded double is the rounding of k/10^7, and the encoder maps it back to k; error analysis of the exact sequence of f64 operations. Theorems (proved): `C06_grid_coordinates_bit_exact`.
* **C07 Coordinate quantisation error.** Flocq error analysis of scaling and rounding half away from zero. Theorems (proved): `C07_quantisation_error`, `C07_nearest_is_unique`.
* **C08 Timestamps are truncated to seconds, idempotently.** Arithmetic of truncated division carried through C01-C03. Theorems (proved): `C08_timestamps_truncated`.
* **C09 Delta coding and integer overflow.** Wrapping: totality by inspection of every operation, exact recovery because wrapping addition undoes wrapping subtraction. Checked: the delta fold panics exactly when two neighbours are 2^63 or more apart. Theorems (proved): `C09_release_never_panics`, `C09_checked_panics_exactly_on_wide_gaps`, `C09_values_recovered`.
* **C10 Protobuf wire round trip.** Generic lemma for lists of fields, then one fold lemma per message. Theorems (proved): `C10_wire_round_trip`.
* **C11 Read-write-read stability.** C01-C03 plus idempotence of normalisation, by induction over the number of rewrites. Theorems (proved): `C11_read_write_read_stable`.
* **C12 Header information round trip.** Header model on top of C10, C15. Theorems (partial): `C12_header_round_trip_partial`, `C12_refuted_empty_header`. False for a FileInfo all of whose fields are empty: the header message is then zero bytes, which the reader refuses (C12_refuted_empty_header). Proved for every other FileInfo.
* **C13 Header bounding box fidelity.** Flocq bounds for the truncation; refuted by a computed box. Theorems (partial): `C13_header_bbox_partial`, `C13_refuted`. False as stated: edges are truncated toward zero to a nanodegree, so a box can stop containing the point it was computed from (C13_refuted) and drifts when rewritten (Example C13_drift). Proved: the exact value read back; the exact effect of copies is C79.
* **C14 Feature gate.** Case analysis of `Reader::new`. Theorems (proved): `C14_feature_gate`, `C14_unsupported_is_refused`.
* **C15 Blob framing round trip.** Files as bytes with explicit offsets; induction over the blobs. Theorems (proved): `C15_blob_framing`.
* **C16 Whole-file round trip of the sequential writer.** Accumulator invariant (emitted ++ pending = input) composed with C01-C03, C10, C15. Theorems (proved): `C16_whole_file_round_trip`, `C16_unique`.
* **C17 The sequential writer accepts every sorted stream.** Invariant of the accumulator state machine; refuted by a node followed by a relation. Theorems (partial): `C17_order_enforced_partial`, `C17_refuted`. False as stated: a sorted stream with relations but no way is rejected (C17_refuted). Proved: every accepted stream is sorted, and every sorted stream with a way (or without relations) is accepted.
* **C18 Block structure of the sequential writer.** Same invariant. Theorems (proved): `C18_block_structure`.
* **C19 Crash-truncated files never yield wrong elements.** Induction over the blobs of the untruncated file, comparing offsets with the cut. Theorems (proved): `C19_truncated_file`, `C19_truncated_elements`.
* **C20 Blob iteration terminates on every file.** Measure: bytes left. Refuted by a computed header with negative datasize. Theorems (partial): `C20_blobs_terminate_partial`, `C20_blocks_terminate`, `C20_elements_terminate`, `C20_refuted`. False for blobs(): a negative datasize makes the iterator revisit the same blob for ever (C20_refuted). Proved for files without negative datasize, and for blocks() and elements() on every file.
* **C21 Unsupported or malformed blobs are refused, not misread.** Case analysis of `FileBlock::from_blob_desc` for arbitrary bytes. Theorems (proved): `C21_only_valid_blobs`, `C21_malformed_refused`, `C21_refused_blob_yields_nothing`.
* **C22 Element order is a total order consistent with equality.** Order laws by cases; refuted with Sentinel. Theorems (partial): `C22_total_order_partial`, `C22_refuted`. False as stated: Sentinel and any other element are each Less than the other (C22_refuted). Proved for all non-sentinel elements.
* **C23 parallel_for_each calls the function exactly once per element.** Transition system `Pool.v` (iterating thread, bounded queue, workers); invariant relating the trace, the queue, the jobs in progress and the blobs read so far. Theorems (proved): `C23_exactly_once`.
* **C24 count_objects is exact under every schedule.** C23 with counters; addition commutes. Theorems (proved): `C24_count_objects`.
* **C25 Calculated bounding box is the tight hull of all nodes.** C23 with merging; merge is a join (C26). Refuted by a computed block. Theorems (partial): `C25_hull_partial`, `C25_refuted`. False as stated: nodes after the first non-node of a block are ignored (C25_refuted). Proved for files whose blocks have their nodes first, which includes every file this library writes.
* **C26 Bounding box merge laws.** Order-theoretic laws of f64 comparison on valid non-NaN doubles. Theorems (proved): `C26_merge_is_least_upper_bound`, `C26_merge_point`, `C26_merge_laws`, `C26_from_point`.
* **C27 ParallelWriter loses and duplicates nothing.** Invariant over the calls: emitted ++ buffered is a permutation of the input. Theorems (proved): `C27_nothing_lost`.
* **C28 ParallelWriter output is independent of the thread schedule.** Transition system of encoders and writer thread; invariant: the file is the header plus the first w blocks. Theorems (proved): `C28_schedule_independent`, `C28_same_file`.
* **C29 ParallelWriter restores order for boundedly displaced input.** A displaced-at-most-d stream sorted through a buffer: every element still to come is not below what is flushed. Theorems (proved): `C29_order_restored`, `C29_large_buffer`. The order of the elements read back from the file is in C51.
* **C30 ParallelWriter detects loss of order.** Invariants on the last flushed block; refuted by a computed stream. Theorems (partial): `C30_order_check_partial`, `C30_refuted`. False as stated: the check compares with the first element of the last flushed block only, so 1 5 9 3 with buffer 2 and blocks of 2 is written as 1 5 3 9 without a panic (C30_refuted). Proved: blocks are sorted, no element of a later block precedes the first element of an earlier block, and only input displaced beyond the bound of C29 is rejected; the exact version is C78.
* **C31 ParallelWriter::close terminates.** Measure: buffer length; refuted for block size 0 for every non-empty buffer. Theorems (partial): `C31_close_terminates_partial`, `C31_refuted`. False for file_block_size = 0, which the constructor accepts: the loop never ends (C31_refuted). Proved for every block size >= 1; the exact version is C74.
* **C32 ThreadLocalAccumulator isolates threads and loses nothing.** Induction over histories of operations of all threads. Theorems (proved): `C32_accumulator`.
* **C33 Parallel filter pipeline keeps exactly the selected elements.** C23 instantiated with the pipeline closure over C32, then C27, C29, C51. Theorems (proved): `C33_filter_pipeline`, `C33_pipeline_batches`.
* **C34 current_* tables hold exactly the newest visible version.** Fold invariant: rows already written are those of finished ids, the current object is the newest so far. Theorems (proved): `C34_current_tables`. Stated for the escaping function, hash order, clock and library version left arbitrary.
* **C35 History tables hold every version.** Fold invariant over the row buffers. Theorems (proved): `C35_history_tables`.
* **C36 Dump rows parse back to the values written.** Printing/parsing round trips for each column type; tab splitting. Theorems (proved): `C36_rows_parse_back`. Stated over the ten tables a dump reader uses; strings that survive the escape/unescape crates (each string is assumed to, the crates are external).
* **C37 SQL timestamps round trip.** chrono formatting and parsing modelled; days/civil conversions proved inverse and unique for all years. Theorems (proved): `C37_sql_time_round_trip`, `C37_all_years`, `C37_micros`, `C37_calendar_total`.
* **C38 Quadtile numbers.** Flocq for the quantisation, bit-level induction for the interleaving. Theorems (proved): `C38_tile`, `C38_tile_injective`.
* **C39 Dump reader attaches to each object exactly its own tags, nodes and members.** Merge-join induction over sorted tables. Theorems (proved): `C39_own_rows`.
* **C40 One orphan dependent row does not affect other objects.** Merge-join exact behaviour with orphans; refuted for every dump with an early orphan row. Theorems (partial): `C40_every_object_partial`, `C40_refuted`. False as stated: an orphan tag row takes the tags of every later object (C40_refuted, for every such dump). Proved: every object comes back once and its rows are exact unless an orphan row precedes it.
* **C41 Order of way nodes and relation members survives the dump.** C53 specialised; refuted for every relation with out of order members. Theorems (partial): `C41_order_partial`, `C41_refuted`. True for ways, false for relations: members of one type come back by member id (C41_refuted, for every relation whose members are not in that order). Proved for relations whose members are of one type with increasing ids; C77 gives the exact order and condition.
* **C42 Dump element stream has the shape nodes, Sentinel, ways, Sentinel, relations, Sentinel.** State machine of the element iterator, for every directory including broken ones. Theorems (proved): `C42_stream_shape`.
* **C43 Users and changesets tables.** Fold invariant; the index is a finite map printed in key order. Theorems (proved): `C43_users_and_changesets`.
* **C44 User names survive the dump.** The user row is parsed by columns; a tab shifts them and a newline splits the row. Theorems (partial): `C44_names_partial`, `C44_refuted`, `C44_names_read`. False for names containing TAB or LF: they are written without escaping and no such name is ever read (C44_refuted, C44_names_read). Proved for clean names. C84 is the exact version for TABs: what becomes of such a dump.
* **C45 Table of contents parsing.** Induction over the entries, for a scanner modelled byte by byte. Theorems (proved): `C45_toc`, `C45_header`.
* **C46 Integer coordinates agree between formats.** C06 plus the dump reader's division. Theorems (proved): `C46_coordinates`.
* **C47 Blocks without metadata read with documented defaults.** Consequence of C48's relational meaning of a block. Theorems (proved): `C47_defaults`.
* **C48 Negative or out-of-range string indexes are never silently resolved.** `FormatSpec.block_means` is a relational description of the PBF format; the reader is proved equivalent to it. Theorems (proved): `C48_reader_means_the_format`, `C48_bad_index_panics`.
* **C49 Bounding box parsing range check.** Parser case analysis, both directions. Theorems (proved): `C49_from_str`, `C49_never_nan`.
* **C50 parallel_for_each terminates and never deadlocks.** Measure over pool states, and progress by cases. Theorems (proved): `C50_terminates`.
* **C51 A file written by ParallelWriter reads back.** C27, C28, C29 composed with C16's machinery. Theorems (proved): `C51_parallel_round_trip`.
* **C52 ParallelWriter's threads never deadlock.** Measure over the encoder threads; progress by cases. Theorems (proved): `C52_encoders_terminate`, `C52_release_finishes`.
* **C53 Writing a dump and reading it back returns the elements.** C34-C36, C43-C45 composed with C39. Theorems (proved): `C53_dump_round_trip`, `C53_exact`.
* **C54 The table of contents shipped with the dump writer describes the files it writes.** The shipped file is in the model as bytes; the scanner is run on it inside the kernel. Theorems (proved): `C54_shipped_toc`.
* **C55 Which streams can be dumped.** Totality of every row writer except the time formatter. Theorems (proved): `C55_dump_total`.
* **C56 Bytes are decoded as the wire format and the .proto files say.** `WireSpec` gives the meaning of bytes as relations (varints, fields, last-one-wins, packed/unpacked repeats, unknown fields, submessage merging); the decoders are proved equivalent to it. Theorems (proved): `C56_decoders_mean_the_wire_format`, `C56_refused_means_invalid`, `C56_meaning_unique`, `C56_encoders_write_the_wire_format`, `C56_utf8`, `C56_data_payload`, `C56_header_payload`, `C56_file_blob`. prost (an external crate) is modelled in Proto.v; its recursion limit is not
* **C57 Exactly what a block keeps of a mixed list.** The `survivors` lemma behind C01-C03, restated with an independent `picked` relation; the lossless direction by a length argument. Theorems (proved): `C57_block_content`, `C57_lossless_iff_one_type`.
* **C58 Any sequence of calls on a sequential Writer.** Model of arbitrary call sequences (Calls.v); invariant relating blocks emitted, accumulator contents and the calls made; append lemma for prefixes of calls; composition with framing (C15) and decoding of blocks of any composition (C57). Theorems (proved): `C58_any_calls`, `C58_file_grows`, `C58_crash_at_any_moment`.
* **C59 Exactly which streams the sequential Writer accepts.** The acceptance characterisation of the accumulator state machine by induction, made an equivalence by totality of serialization. Theorems (proved): `C59_exactly_these_streams`.
* **C60 Exact result of the bounding box calculation.** Pool semantics of C24/C25; the leading nodes of a block as an inductive split; least upper bounds of boxes are insensitive to order. Theorems (proved): `C60_exact_bounding_box`, `C60_schedule_independent`.
* **C61 ParallelWriter interrupted at any moment.** Partial executions of the ordering thread (Crash.v) and of the thread system; invariant of C28 at every reachable state; the truncation lemma of C19 on the resulting frames. Theorems (proved): `C61_parallel_crash`.
* **C62 FileInfo setters, feature queries and Writer::new.** Setter calls as a data type and a fold over them; induction with `last`; Writer::new composed with the whole-file round trip C16. Theorems (proved): `C62_setters`, `C62_feature_queries`, `C62_writer_new`, `C62_default_header`.
* **C63 Timestamps as ISO 8601 text.** The calendar of ApidbSpec (proved in CalendarFacts to be the Gregorian one) and decimal text; uniqueness and monotonicity of the text proved from the specification, not the model. Theorems (proved): `C63_iso_text`, `C63_same_second`, `C63_sorted`, `C63_length`, `C63_replication_timestamp`, `C63_other_timestamps`.
* **C64 Copying a PBF file through a filter.** Relation `copies` = reader (any bytes) followed by writer; C67 gives legality of what is read, C16 the round trip, C20 termination, C59 acceptance; idempotence of writing and reading from rounding error bounds. Theorems (proved): `C64_copy`, `C64_one_outcome`, `C64_release_copies`, `C64_copy_of_copy`, `C64_pbf_io_filter`, `C64_counts`.
* **C67 Only legal values are read.** Through C56: every decoder result is related to the wire-format specification, whose varints have bounded range; coordinates by monotonicity of rounding. Theorems (proved): `C67_elements_are_legal`, `C67_header_is_legal`, `C67_blocks_are_legal`.
* **C68 Bounding boxes of blocks and headers.** Least upper bounds of boxes under the numeric order of doubles, by induction on the list. Theorems (proved): `C68_block_box`, `C68_given_box`, `C68_nodes_block`, `C68_merge_into_header`, `C68_default_box`.
* **C65 Converting an apidb dump to a PBF file.** Composition of C39 (the rows of the dump), C59 (which streams the writer accepts) and C16; legality of the dump values gives the hypotheses of C16. Theorems (proved): `C65_one_outcome`, `C65_dump_to_pbf`.
* **C66 Converting a PBF file to a dump and back.** Composition of C67, C55, C53_exact, C59 and C16; elements on the grid with whole seconds are fixed points of writing and reading. Theorems (proved): `C66_one_outcome`, `C66_to_dump`, `C66_there_and_back`, `C66_own_files`.
* **C69 What the reader does with any bytes at all.** `ReadSpec.blocks_of`: an inductive meaning of arbitrary bytes over the wire format (WireSpec) and the meaning of payloads, with no function of the reader in it; one-step lemma for the iterator, induction on the run in both directions, uniqueness of the meaning. Debug build by simulation. Theorems (proved): `C69_blocks`, `C69_one_meaning`, `C69_reader_new`, `C69_elements`, `C69_debug_build`.
* **C70 The raw blobs of any file, and when iterating over them ends.** `ReadSpec.blobs_from`: chain of offsets. One-step lemma (`blob_step`), induction on steps; termination: offsets of a chain without repetition lie in the file, so by the pigeonhole principle its length is bounded; conversely a repeated offset gives arbitrarily long chains. Theorems (proved): `C70_blobs`, `C70_first_blobs`, `C70_terminates`.
* **C71 The parallel copying pipeline: safe inputs and unlucky schedules.** Composition of C33 (batches), C29 (ordering), C52/C28 (encoders), C67 (legality of what is read). Absence of failure by an invariant of the pool; order by uniqueness of sorted permutations. The unlucky schedule is constructed for every file by induction over its blocks (one worker keeps the second block while another serves the rest), and the ordering thread's state is followed by an invariant (everything flushed comes after the late element). Theorems (proved): `C71_copy`, `C71_small_inputs`, `C71_unlucky_schedule`.
* **C72 The order of elements, sentinels included.** Case analysis; the non-sentinel part from C22, the rest by linear arithmetic over ranks, ids and versions. Theorems (proved): `C72_order`, `C72_transitive`, `C72_predicates`.
* **C73 Which written headers can be read back.** From the partial round trip of C12, its refutation for the empty header, and the exact meaning of the feature check. Theorems (proved): `C73_header`.
* **C74 When closing a ParallelWriter returns.** Length invariant of the buffer for block size 0, C31 for the rest; determinism of the flushing loop. Theorems (proved): `C74_close_returns`, `C74_zero_blocks_are_empty`.
* **C75 Which rows of a dump are read, and as what.** Both directions: splitting lemmas for the scanners, the calendar lemma, then inversion of each creation function. Theorems (proved): `C75_rows`, `C75_integers`, `C75_booleans`, `C75_times`, `C75_nulls`, `C75_member_kinds`.
* **C76 What is read from a dump with missing rows.** Every table is opened and sorted (C36 machinery); the merge joins are followed item by item with an invariant on the three streams of dependent rows; the reading stops at the first failed look-up. Theorems (proved): `C76_reading`.
* **C77 Order of tags and members after a dump.** As C76 with the full row order of the sort: the order of the sorted rows is inherited by the joined groups; escaping is injective on text that survives, and two permutations sorted by an antisymmetric order are equal. Theorems (proved): `C77_order`, `C77_kept`.
* **C78 Which disordered streams are rejected and which are written out of order.** Invariants of the ordering thread: its minimum is the first element of the block passed on last; while nothing is late, what has been passed on is in order and below the buffer. Both directions of each equivalence by induction over the calls from the right. Theorems (proved): `C78_rejected`, `C78_in_order`, `C78_silent`.
* **C79 Header bounding boxes: what a copy does to them.** Error bounds for the product with 1e9 and the division by it (Flocq), truncation, then arithmetic over integers; rest by induction on the sum of the distances of the edges from zero, a copy being a function of the box. Theorems (proved): `C79_first`, `C79_again`, `C79_grid`, `C79_whole_degrees`, `C79_settles`.
* **C80 A dump whose writer was stopped.** The states of the writer at a stop are an inductive relation over the calls and the steps of close; every step only appends to table files, so at any moment a file is a prefix of the finished one. A prefix that ends with a row is the COPY file of a prefix of the rows (up to the end marker, which the sorting crate ignores), so the directory is a dump of fewer rows and C76 says how it reads. Before the rows of changesets are written their file is empty, so no author resolves. The files are closed in the order of the table names: with users closed all of changesets, nodes, relations and users is there. Theorems (proved): `C80_nothing_early`, `C80_rows_on_disk`, `C80_silent_loss`, `C80_ways_can_be_lost`.
* **C81 The low level calls of the writer, and copying a file block by block.** An invariant over the calls (last call first): the file is a sequence of frames that decode to the blocks the inductive specification `laid` describes, and the pending elements are those of the accumulator. Reading a sequence of frames, or a prefix of it, yields the blocks (lemmas of C14/C16); `elements()` stops at a header. For copying, blocks read from any file are legal (C70 family), so every block fits the invariant; that the number of elements is the same exactly for blocks of one type is C57 applied to every block. Theorems (proved): `C81_any_calls`, `C81_appends`, `C81_reading`, `C81_block_copy`, `C81_copy_elements`, `C81_laid_unique`.
* **C82 A sequential writer on a disk that fails.** Every call is given an outcome of its write (all bytes, or an error after n bytes). One lemma relates such a call to the same call on a disk that does not fail; the step lemma of C81 (`effect`: what one call adds and leaves pending) then gives an invariant over the calls by induction, with the inductive specification `laid_io` that also collects the lost blocks. Stopping and torn writes are the prefix lemma of C19 applied to the frames. The specification is proved functional, and equal to that of C81 if nothing fails. Theorems (proved): `C82_no_failure`, `C82_stops`, `C82_goes_on`, `C82_torn`, `C82_close_again`, `C82_accounting`, `C82_laid_unique`, `C82_laid_all_ok`.
* **C83 Dump directories that lack a file, a table or a column.** The catalogue of the table of contents (C35/C54 vocabulary) is split into listed and unlisted tables; the lemma that opens all tables is generalised to the listed ones, and unlisted ones are proved absent from the map. A missing column makes the definition fail before any file is touched, so the rest of the directory is arbitrary there. Theorems (proved): `C83_missing_table`, `C83_missing_file`, `C83_missing_column`, `C83_missing_toc`.
* **C84 User names with TABs in a dump.** The row of a user is split at TABs including those of its name (`seen`); the columns that the record parses are computed for every number of TABs, giving the counts that never parse. For a dump that can be read, a second directory with the names cut is constructed; C39 applies to it, and both readers are proved to build the same iterator. Theorems (proved): `C84_tabs_panic`, `C84_names_cut`, `C84_opens`.
* **C85 ParallelWriter: write_header late, repeated or never, and a disk that fails.** The transition system of the parallel writer starts without a file and gets steps for write_header and for failing writes. A simulation maps states without a file to states with the header (no blob has been written by then), so every run with a live writing thread is a run of the system of C28; a stopped one left a beginning of such a file. The number of blocks ahead of a stopped writing thread is constant, which bounds how many can be submitted. Theorems (proved): `C85_reads`, `C85_as_if_first`, `C85_closed`, `C85_no_header`, `C85_too_late`, `C85_stays`, `C85_stuck`.
* **C86 parallel_for_each when the function fails or a blob cannot be decoded.** A pool whose actions may fail with any effect and whose workers may or may not go on after a failure. The invariant lists the jobs taken in order with their worker and the calls made; a job is settled (complete, undecodable, cut at a failing call) or the last one of a busy worker. A measure that also counts failed workers bounds the steps. Theorems (proved): `C86_calls_that_fail`, `C86_at_any_moment`, `C86_terminates`, `C86_stuck`.
* **C87 Dump Readers and their temporary directories.** A disk of sorted tables per temporary directory; Reader::new as a relation over it (tables sorted in any order, a failing sort leaves anything in its file). Invariant over the later calls: the sorted files of the definitions are those of the dump. Theorems (proved): `C87_own_dump`, `C87_opening`, `C87_opens`, `C87_other_dump`.
* **C88 Any sequence of write_element and close calls of the dump writer.** Simulation: after a close the writer differs from a new one only in its indexes and in the last ids, which do not matter while no lines are held; induction over the calls. Theorems (proved): `C88_histories`, `C88_total`.
* **C89 The dump writer on a disk that fails.** The calls as lists of steps, each of which may fail with any part of its rows and of the BufWriter on disk; simulation with the model that does not fail, invariant that disk is a prefix of what was taken, induction over steps and calls; a constructed run for the retry. Theorems (proved): `C89_all_fine`, `C89_history_tables`, `C89_first_failure`, `C89_retry`.
* **C90 Reading a PBF file from a disk that fails.** next as a relation; induction over the loops against the deterministic run (C69); for the pool the invariant of C86 with a failing iterator, and bounded length plus progress for existence. Theorems (proved): `C90_blocks`, `C90_elements`, `C90_header_lost`, `C90_reader_new`, `C90_for_each`, `C90_silent_loss`.
* **C91 Sequential and parallel reading of the same file.** the exact calls of C23/C50 and the exact blocks of C69, compared block by block; a file that is the concatenation of another with itself is the witness for the difference. Theorems (proved): `C91_same_elements`, `C91_counts`, `C91_one_header`, `C91_two_headers`.
* **C92 Iterating a dump whose tables are on a failing disk.** the results of read_line as a relation on the file; simulation of the joins between the sound and the failing iteration, group by group. Theorems (proved): `C92_opening`, `C92_cut_between_rows`, `C92_silent_loss`, `C92_any_failures`, `C92_tag_moves`.
* **C93 Which rows stop the reading of a dump.** the outcome of each create function decided by a predicate on the texts of the row (from C75); invariants over the lines of the leading and the dependent tables. C93_parts: an iteration that gets through all objects has consumed every row that belongs to one (induction over the group, with the lookahead as part of the invariant). Theorems (proved): `C93_opening`, `C93_objects`, `C93_no_panic`, `C93_parts`, `C93_null`.
* **C94 Counts, bounding boxes and parallel copies of damaged files.** the pool invariant of C86 with actions that never fail, jobs without calls removed from the shares; then the arguments of C24, C60 and C33. Theorems (proved): `C94_counts`, `C94_bounding_box`, `C94_copy`.
* **C95 What a stopped conversion leaves behind.** the loop of the program by induction on what the reader yields; every write before the stop succeeded, so the file is that of a history of calls (C58) and what was accepted is a beginning of the kept elements; C59 for streams in order; C80 for the dump. Theorems (proved): `C95_file_left`, `C95_copy`, `C95_from_dump`, `C95_from_bad_dump`, `C95_to_dump`, `C95_same_outcome`, `C95_from_dump_same`.
* **C96 pbf-info prints the header, all of it and nothing else.** the printed lines are groups with labels of which none can continue to another (decided on the labels), so picking by label gives back the group; C63 for the timestamp, C62 for the queries, C14 for the independence of the rest. Theorems (proved): `C96_prints`, `C96_header_only`, `C96_other_ends`.
* **C97 Nested calls of the element iterator.** induction over the blocks with the room left in the current call; for the writers, an empty block made by write_element leaves its element pending, so the next block made by write_element is not empty (invariant over the calls), and the parallel writer submits no empty block (C27). Theorems (proved): `C97_depth`, `C97_written`, `C97_parallel`, `C97_crafted`.
* **C98 Reading a file while it is being written.** a call that succeeds reads the same bytes in every later version (monotonicity of `take_exact`), so a run on a growing file is between the runs on the first and the final version (inductions over the runs); for the pool, each view is one of the read faults of C90. Only `for` loops are covered: `BlobIterator` is not fused, and a call of `next` after `None` may start at a wrong position. Theorems (proved): `C98_new`, `C98_elements`, `C98_both_bounds`, `C98_complete`, `C98_blocks`, `C98_while_written`, `C98_for_each`, `C98_appends`.
* **C99 Calling next again after the end.** states that None leads to are closed under `next`: no element iterator; a position behind the end of the file with a jump forward; the end state of the dump. Inductions over the calls, the blobs of the file, and the nested calls of `next`. Theorems (proved): `C99_elements`, `C99_elements_total`, `C99_elements_reached`, `C99_blobs`, `C99_written`, `C99_dump`, `C99_resumes_only`, `C99_resumes`, `C99_tail`.
* **C100 Going on after a panic.** induction over the run of the blob iterator; the panic comes after the blob iterator has moved and before `element_iterator` is assigned, so the next call goes on with the next blob; determinism of the calls and of the specification gives both directions. Theorems (proved): `C100_blocks`, `C100_blocks_had`, `C100_elements`, `C100_first_block`, `C100_undamaged`, `C100_bad_length`, `C100_all_blocks`, `C100_all_elements`.
* **C101 PBF files put one after another.** the blob layout of each file is recovered from its blocks, decoding does not depend on position or number; determinism of the iterators; C23, C24 and C60 on the concatenation; box lattice facts of C26. Theorems (proved): `C101_blocks`, `C101_first_only`, `C101_all_in_parallel`, `C101_counts`, `C101_bounding_box`, `C101_written`, `C101_appended`, `C101_cut`, `C101_appended_cut`.
* **C102 Reading back a dump whose writer was closed several times.** C88 gives the files as sections; the rows of each sorted table depend only on the multiset of rows; indexes built from repeated rows agree with those of a single dump when names are coherent. Theorems (proved): `C102_as_one_dump`, `C102_read_back`, `C102_exact`, `C102_recorded_authors`.
* **C103 Sorting makes a collection writable; merging files.** A list in the order of Ord is nodes ++ ways ++ relations; C59 gives when it is accepted, C16 what is read; elements read from own files are exactly representable (C66), so a second round changes nothing. Theorems (proved): `C103_sorted_is_writable`, `C103_sorted_round_trip`, `C103_merge`.
* **C104 Reading past the gaps of a dump.** The state after a panic is that of the row iterators after the object; induction over the sorted objects as for C76, with one answer per object instead of a stop. Theorems (proved): `C104_reading`, `C104_for_loop`.
* **C105 Copies are byte for byte the same.** What the reader yields is exactly the normal form of what was written; the serializer and the accumulator do the same with an element and its normal form, step by step (the grid step of a grid value and the second of a whole second are themselves). Theorems (proved): `C105_block_written_again`, `C105_copy_of_the_original`, `C105_same_bytes`, `C105_copies_read_the_same`.
