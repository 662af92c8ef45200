{"id": "C01", "title": "Node block round trip", "statement": "If a list of nodes is written as one OSMData block (FileBlock/OsmData serialization) and the bytes are read back, the reader yields the same nodes in the same order: same id, version, changeset, uid, user, visible flag and tag list, the timestamp truncated to the whole second, and each coordinate equal to the value the reader assigns to the nearest 100-nanodegree grid step of the written coordinate.", "quantifier": "every list of nodes with any i64 ids/changesets/timestamps, i32 uids/versions, UTF-8 strings and finite in-range coordinates whose encoded block is below 2 GiB; both overflow-check modes", "why_tests_cant": "a test fixes a few files; delta coding, string sharing and wrap-around must be right for every sequence of values", "anchors": ["src/osm/pbf/dense_group_builder.rs: DenseGroupBuilder::{new,add,build}", "src/osm/pbf/osm_data.rs: OsmData::{serialize,read_dense,new}", "src/osm/pbf/string_table_builder.rs: StringTableBuilder"]}
{"id": "C02", "title": "Way block round trip", "statement": "If a list of ways is written as one OSMData block and read back, the reader yields the same ways in the same order with identical id, version, changeset, uid, user, visibility, node references and tags, and the timestamp truncated to the whole second.", "quantifier": "every list of ways, every refs list (any i64 values, any length), every tag list; both overflow-check modes", "why_tests_cant": "delta-coded references over all i64 sequences and shared string tables cannot be enumerated", "anchors": ["src/osm/pbf/ways_group_builder.rs: WaysGroupBuilder::convert", "src/osm/pbf/osm_data.rs: OsmData::{serialize,read_ways,read_info}"]}
{"id": "C03", "title": "Relation block round trip", "statement": "If a list of relations is written as one OSMData block and read back, the reader yields the same relations in the same order, with members (type, id, role) in the written order, and every other field identical except the timestamp, which is truncated to the whole second.", "quantifier": "every list of relations, members and tags; both overflow-check modes", "why_tests_cant": "member ids are delta coded in three parallel arrays; correctness must hold for all mixes of member types and ids", "anchors": ["src/osm/pbf/relations_group_builder.rs: RelationsGroupBuilder::convert", "src/osm/pbf/osm_data.rs: OsmData::{serialize,read_relations}"]}
{"id": "C04", "title": "String table soundness", "statement": "While a block is built, every string handed to the string table gets an index at which exactly that string is stored in the finished table; equal strings share one index, different strings never do, index 0 is never handed out (it is the reserved delimiter) and later additions never change an earlier index.", "quantifier": "every sequence of strings added in any order", "why_tests_cant": "the invariant ranges over all insertion histories, including the empty string and repeated strings", "anchors": ["src/osm/pbf/string_table_builder.rs: StringTableBuilder::{new,add,build}"]}
{"id": "C05", "title": "A block written from a caller's element list loses nothing", "statement": "Writer::write_elements(elements) followed by reading the block gives back every non-sentinel element of the list.", "quantifier": "every list of elements, including lists mixing nodes, ways and relations", "why_tests_cant": "tests only write homogeneous blocks; the claim is about every list the public API accepts", "anchors": ["src/osm/pbf/writer.rs: Writer::write_elements", "src/osm/pbf/osm_data.rs: OsmData::serialize"]}
{"id": "C06", "title": "Coordinates on the OSM grid survive bit for bit", "statement": "A coordinate whose f64 value is what the reader produces for an integer number of 100-nanodegree steps within +-180 degrees is written back as exactly that integer, so reading, writing and reading again returns bit-identical f64 coordinates.", "quantifier": "every grid integer n with |n| <= 1 800 000 000 (all 3.6 billion latitudes/longitudes)", "why_tests_cant": "3.6e9 binary64 multiply/divide/round combinations with IEEE rounding; only a proof about rounding errors covers all", "anchors": ["src/osm/pbf/dense_group_builder.rs: lon/lat encoding", "src/osm/pbf/osm_data.rs: read_dense coordinate"]}
{"id": "C07", "title": "Coordinate quantisation error", "statement": "Any finite coordinate within +-180 degrees is stored as a grid step within half a step (50 nanodegrees, plus at most 1e-6 of a step of floating-point error) of its real value.", "quantifier": "every binary64 value in [-180, 180]", "why_tests_cant": "there are about 2^62 such doubles", "anchors": ["src/osm/pbf/dense_group_builder.rs: lon/lat encoding"]}
{"id": "C08", "title": "Timestamps are truncated to seconds, idempotently", "statement": "Writing and reading an element changes its millisecond timestamp t to the multiple of 1000 obtained by truncating t toward zero; a timestamp that is a whole number of seconds is unchanged, and a second write/read changes nothing more.", "quantifier": "every i64 millisecond timestamp, for nodes, ways and relations", "why_tests_cant": "ranges over all i64 including negative values and extremes near overflow", "anchors": ["src/osm/pbf/dense_group_builder.rs", "src/osm/pbf/ways_group_builder.rs", "src/osm/pbf/relations_group_builder.rs", "src/osm/pbf/osm_data.rs: read_dense, read_info"]}
{"id": "C09", "title": "Delta coding and integer overflow", "statement": "In a release build (wrapping arithmetic) writing never panics and delta coded ids, references, changesets and user ids of any magnitude are recovered exactly; in a build with overflow checks, whenever writing succeeds reading recovers exactly the same values, and writing panics only if two neighbouring values differ by more than the integer type can hold.", "quantifier": "all sequences of i64/i32 values in both arithmetic modes", "why_tests_cant": "the differences overflow only for extreme pairs that no data set contains; the claim is for all pairs", "anchors": ["src/osm/pbf/dense_group_builder.rs: add", "src/osm/pbf/ways_group_builder.rs: convert", "src/osm/pbf/relations_group_builder.rs: convert", "src/osm/pbf/osm_data.rs"]}
{"id": "C10", "title": "Protobuf wire round trip", "statement": "Every OSM PBF message the library builds (BlobHeader, Blob, HeaderBlock, PrimitiveBlock with all nested messages) decodes from its encoding to exactly the same message.", "quantifier": "every message value whose integers fit their declared types and whose encoding is shorter than 2^64 bytes", "why_tests_cant": "nested variable-length encodings over unbounded repeated fields", "anchors": ["src/osm/pbf/generated/prost-osmpbf.rs", "src/osm/pbf/format/osmformat.proto", "src/osm/pbf/format/fileformat.proto"]}
{"id": "C11", "title": "Read-write-read stability", "statement": "Reading a block, writing the elements and reading them again yields exactly the elements of the first read: the normalisation done by a write is idempotent, so a pbf-to-pbf pipeline can be repeated without drift.", "quantifier": "every list of elements produced by a previous write/read, any number of repetitions", "why_tests_cant": "drift over repeated passes is a property of all histories", "anchors": ["src/osm/pbf/osm_data.rs", "src/osm/pbf/dense_group_builder.rs"]}
{"id": "C12", "title": "Header information round trip", "statement": "A header written from a FileInfo and read back gives the same required features, optional features, writing program, source, and osmosis replication timestamp, sequence number and base URL, and has a bounding box if and only if the FileInfo had one.", "quantifier": "every FileInfo value with valid UTF-8 strings, both compression types", "why_tests_cant": "all combinations of optional fields and arbitrary strings", "anchors": ["src/osm/pbf/osm_header.rs: OsmHeader::{serialize,from_bytes}", "src/osm/pbf/file_info.rs: FileInfo"]}
{"id": "C13", "title": "Header bounding box fidelity", "statement": "The bounding box read back from a header is the bounding box that was written.", "quantifier": "every bounding box with finite bounds within +-180 degrees", "why_tests_cant": "needs IEEE rounding/truncation analysis over all doubles", "anchors": ["src/osm/pbf/osm_header.rs: header_bbox, from_bytes"]}
{"id": "C14", "title": "Feature gate", "statement": "Opening a file succeeds exactly when its first block is a header all of whose required features are among the supported ones (OsmSchema-V0.6, DenseNodes, HistoricalInformation, Sort.Type_then_ID); a file requiring any other feature is refused, whatever the optional features are.", "quantifier": "every list of required and optional feature strings in any order and with any repetition", "why_tests_cant": "arbitrary strings and list sizes", "anchors": ["src/osm/pbf/reader.rs: Reader::{new,find_missing_features,verify_supported_features}"]}
{"id": "C15", "title": "Blob framing round trip", "statement": "Iterating over the blobs of a file made by writing a sequence of blobs returns exactly that sequence: same count, same order, consecutive indexes, the type string written, and a start offset and length that delimit exactly the bytes of the body written.", "quantifier": "every finite sequence of blobs with bodies shorter than 2^31 bytes", "why_tests_cant": "offset arithmetic must hold for every number and size of blobs", "anchors": ["src/osm/pbf/writer.rs: Writer::write_blob", "src/osm/pbf/blob_iterator.rs: BlobIterator::next", "src/osm/pbf/file_block.rs: FileBlock::serialize"]}
{"id": "C16", "title": "Whole-file round trip of the sequential writer", "statement": "Writing the header, then every element of a stream ordered nodes, ways, relations through Writer::write_element, then close, produces a file that Reader::new accepts and whose elements() yields exactly that stream (timestamps truncated, coordinates on the grid) without sentinels.", "quantifier": "every stream of nodes then ways then relations of any length (with at least one way if there are relations), both compression types, any interspersed sentinels", "why_tests_cant": "depends on block boundaries (8000), type transitions, empty blocks, framing and encoding, for all lengths", "anchors": ["src/osm/pbf/writer.rs: Writer", "src/osm/pbf/element_accumulator.rs: ElementAccumulator", "src/osm/pbf/element_iterator.rs: ElementIterator", "src/osm/pbf/reader.rs: Reader::{new,elements}"]}
{"id": "C17", "title": "The sequential writer accepts every sorted stream", "statement": "Writer::write_element accepts every stream in OSM order (nodes before ways before relations) and rejects, by panicking, every stream that is not in that order.", "quantifier": "every finite sequence of elements", "why_tests_cant": "all type patterns, including files with no ways or no nodes", "anchors": ["src/osm/pbf/element_accumulator.rs: ElementAccumulator::add", "src/osm/pbf/writer.rs: Writer::write_element"]}
{"id": "C18", "title": "Block structure of the sequential writer", "statement": "Every data block the sequential writer produces holds at most 8000 elements, all of the same type, and the concatenation of the blocks is the input stream without sentinels in the input order.", "quantifier": "every accepted stream of any length", "why_tests_cant": "boundary behaviour at every multiple of 8000 and at every type transition", "anchors": ["src/osm/pbf/element_accumulator.rs: ElementAccumulator::{add,elements}", "src/osm/pbf/writer.rs: Writer::{write_element,close}"]}
{"id": "C19", "title": "Crash-truncated files never yield wrong elements", "statement": "If writing is interrupted so that only a prefix of the file exists, iterating over that prefix yields exactly the blocks completely contained in the prefix and then either ends or panics; it never yields a block that was not written and never one out of order. It panics exactly when the cut is inside a blob body.", "quantifier": "every file made of written blobs and every prefix length (every crash point)", "why_tests_cant": "every byte position is a crash point", "anchors": ["src/osm/pbf/blob_iterator.rs: BlobIterator::next", "src/osm/pbf/file_block.rs: from_blob_desc", "src/osm/pbf/file_block_iterator.rs"]}
{"id": "C20", "title": "Blob iteration terminates on every file", "statement": "Iterating over the blobs of any finite file ends after finitely many steps.", "quantifier": "every byte sequence, including corrupt and hostile ones", "why_tests_cant": "a hostile file can be any byte string", "anchors": ["src/osm/pbf/blob_iterator.rs: BlobIterator::next"]}
{"id": "C21", "title": "Unsupported or malformed blobs are refused, not misread", "statement": "A blob with an unknown type, without data, with an unsupported compression, with an undecodable body, or whose zlib stream is shorter than its declared size never yields elements: decoding returns an error (or panics when a compressed blob has no raw size).", "quantifier": "every blob body and type string", "why_tests_cant": "arbitrary bytes", "anchors": ["src/osm/pbf/file_block.rs: FileBlock::{new,read_blob_data,deserialize,zlib_decode}"]}
{"id": "C22", "title": "Element order is a total order consistent with equality", "statement": "cmp on elements is a total order: antisymmetric, transitive, total, Equal exactly when ==, and it sorts nodes before ways before relations, then by id, then by version.", "quantifier": "all pairs and triples of elements", "why_tests_cant": "order laws quantify over all triples; sort correctness depends on them", "anchors": ["src/osm/model/element.rs: impl Ord/PartialOrd/PartialEq for Element"]}
{"id": "C23", "title": "parallel_for_each calls the function exactly once per element", "statement": "For every thread schedule, when parallel_for_each has finished, the function was called exactly once for every element of the file (with multiplicity), plus exactly once with Sentinel for every data block after all elements of that block; the elements of a block are passed in file order and by a single thread.", "quantifier": "every file, every number of worker threads, every interleaving of the workers, provided the function returns Ok", "why_tests_cant": "the schedules are unbounded", "anchors": ["src/osm/pbf/reader.rs: Reader::parallel_for_each", "src/osm/pbf/parallel_element_iteration_command.rs"]}
{"id": "C24", "title": "count_objects is exact under every schedule", "statement": "count_objects returns the numbers of nodes, ways and relations in the file whatever the thread schedule.", "quantifier": "every file and every interleaving of the counting workers, with atomic increments", "why_tests_cant": "races only show on some schedules", "anchors": ["src/osm/pbf/reader.rs: Reader::count_objects"]}
{"id": "C25", "title": "Calculated bounding box is the tight hull of all nodes", "statement": "BoundingBoxCalculator::calc returns the smallest box containing every node of the file, whatever the order in which the workers merge their partial results.", "quantifier": "every file with at least one node, every schedule", "why_tests_cant": "schedule independence and all blocks, including blocks mixing element types", "anchors": ["src/osm/pbf/bounding_box_calculator.rs", "src/osm/pbf/calc_bounding_box_command.rs", "src/osm/model/bounding_box.rs"]}
{"id": "C26", "title": "Bounding box merge laws", "statement": "Merging points and boxes is commutative, associative and idempotent (as real intervals), the result contains everything merged into it and nothing smaller does; merging never shrinks a box.", "quantifier": "all boxes and points with non-NaN bounds", "why_tests_cant": "algebraic laws over all doubles", "anchors": ["src/osm/model/bounding_box.rs: merge_point, merge_bounding_box, from_point"]}
{"id": "C27", "title": "ParallelWriter loses and duplicates nothing", "statement": "After close, the blocks submitted by ParallelWriter contain exactly the written elements: the concatenation of the blocks is a permutation of the input, every block has at most file_block_size elements and a single element type.", "quantifier": "every sequence of write_element/write_elements calls that is not rejected, every buffer size and every block size >= 1", "why_tests_cant": "all histories of calls and buffer sizes", "anchors": ["src/osm/pbf/parallel_writer.rs: AddElementCommand, AddElementsCommand, flush_sorted_top, flush_all_sorted, split_file_block"]}
{"id": "C28", "title": "ParallelWriter output is independent of the thread schedule", "statement": "For every schedule of the four encoders and the writer thread the bytes of the finished file are the header followed by the blocks in submission order; at every moment the file holds a prefix of those blobs, so no gap or reordering is ever visible.", "quantifier": "every interleaving of encoder completions and writer steps, any number of encoders", "why_tests_cant": "unbounded interleavings; a reordering bug shows on few schedules", "anchors": ["src/osm/pbf/parallel_writer.rs: EncodeFileBlockCommand, WriteBlobCommand, NEXT_TO_WRITE, BLOB_ORDERING_BUFFER"]}
{"id": "C29", "title": "ParallelWriter restores order for boundedly displaced input", "statement": "If every element is preceded by at most element_ordering_buffer_size - file_block_size + 1 strictly greater elements of the stream, the file contains the elements in sorted order (type, id, version).", "quantifier": "every input stream meeting the displacement bound, every buffer size B and block size K with 1 <= K <= B+1", "why_tests_cant": "all streams and buffer sizes", "anchors": ["src/osm/pbf/parallel_writer.rs: flush_sorted_top, flush_all_sorted, split_file_block"]}
{"id": "C30", "title": "ParallelWriter detects loss of order", "statement": "If the input is too disordered for the ordering buffer, the writer panics rather than writing an unsorted file ('Element order ... is lost').", "quantifier": "every input stream and buffer size", "why_tests_cant": "needs an adversarial stream; typical data never shows it", "anchors": ["src/osm/pbf/parallel_writer.rs: assert_order, set_current_min_element"]}
{"id": "C31", "title": "ParallelWriter::close terminates", "statement": "close flushes the ordering buffer completely and terminates.", "quantifier": "every buffer content and every file_block_size the constructor accepts", "why_tests_cant": "ranges over all parameters including the degenerate ones", "anchors": ["src/osm/pbf/parallel_writer.rs: flush_all_sorted, split_file_block"]}
{"id": "C32", "title": "ThreadLocalAccumulator isolates threads and loses nothing", "statement": "elements() returns exactly the elements added by the calling thread to this accumulator since its previous elements() call, in order; additions by other threads or to other accumulators never appear, and afterwards the accumulator of that thread is empty.", "quantifier": "every interleaving of add/elements calls by any threads on any accumulators", "why_tests_cant": "all histories and threads", "anchors": ["src/osm/pbf/thread_local_accumulator.rs"]}
{"id": "C33", "title": "Parallel filter pipeline keeps exactly the selected elements", "statement": "The documented pipeline (parallel_for_each, filter, ThreadLocalAccumulator, write_elements at each Sentinel, close) writes every element that passes the filter exactly once, for every schedule.", "quantifier": "every file, filter predicate, number of workers and schedule for which the ordering assertion does not fire", "why_tests_cant": "composition of two concurrent stages", "anchors": ["examples/parallel-pbf-io.rs", "src/osm/pbf/reader.rs", "src/osm/pbf/thread_local_accumulator.rs", "src/osm/pbf/parallel_writer.rs"]}
{"id": "C34", "title": "current_* tables hold exactly the newest visible version", "statement": "After writing a stream of versions with non-decreasing positive ids and closing, the current_nodes table (likewise current_ways, current_relations and their tag/node/member tables) holds, for every id whose last version is visible, exactly the row(s) of that last version, in id order, and nothing for ids whose last version is deleted.", "quantifier": "every history of versions ordered by id then version", "why_tests_cant": "all edit histories, including deletions and undeletions at either end of the stream", "anchors": ["src/osm/apidb_dump/write/current_object.rs", "src/osm/apidb_dump/write/writer.rs: write_node, write_way, write_relation, flush_current_object_lines"]}
{"id": "C35", "title": "History tables hold every version", "statement": "The nodes, ways and relations tables hold exactly one row per written version in input order; node_tags, way_tags, relation_tags one row per tag; way_nodes and relation_members one row per reference/member with sequence ids 1..n in order; and every file ends with the terminator line.", "quantifier": "every stream of elements", "why_tests_cant": "all streams", "anchors": ["src/osm/apidb_dump/write/writer.rs", "src/osm/apidb_dump/write/table_data_writer.rs"]}
{"id": "C36", "title": "Dump rows parse back to the values written", "statement": "A row of the nodes, ways, relations, way_nodes, node_tags, way_tags, relation_tags or relation_members table written by the dump writer is parsed by the dump reader into exactly the values written (ids, versions, coordinates in 1e-7 degrees, visibility, timestamp to the second, strings).", "quantifier": "every element with i64 ids, in-range timestamps and arbitrary strings (given the escape/unescape crates invert each other)", "why_tests_cant": "arbitrary strings including tabs, newlines and backslashes, and all integers", "anchors": ["src/osm/apidb_dump/write/writer.rs", "src/osm/apidb_dump/read/table_reader.rs: create_*"]}
{"id": "C37", "title": "SQL timestamps round trip", "statement": "to_sql_time_millis formats a millisecond timestamp so that parse_sql_time returns the same instant truncated (floored) to the second, for every date of the proleptic Gregorian calendar with a four-digit year, leap years included.", "quantifier": "every timestamp from year 0000 to 9999", "why_tests_cant": "3e11 seconds, leap-year rules", "anchors": ["src/osm/apidb_dump/sql.rs: to_sql_time_millis, parse_sql_time", "src/osm/converters/mod.rs"]}
{"id": "C38", "title": "Quadtile numbers", "statement": "calculate_tile interleaves the 16-bit quantised longitude (odd bits) and latitude (even bits): the result is below 2^32, both quantised coordinates can be recovered from it, and distinct cells have distinct tiles; for latitudes in +-90 and longitudes in +-180 the quantised values stay within 16 bits.", "quantifier": "every valid coordinate (binary64)", "why_tests_cant": "bit-level claim for all 2^32 cells and all doubles", "anchors": ["src/osm/apidb_dump/sql.rs: calculate_tile"]}
{"id": "C39", "title": "Dump reader attaches to each object exactly its own tags, nodes and members", "statement": "Reading a dump whose tables are sorted by primary key and satisfy the foreign keys yields each node/way/relation version exactly once, with exactly the tag, way_node and relation_member rows having its (id, version), in table order.", "quantifier": "all tables sorted by (id, version) whose dependent rows all refer to existing versions", "why_tests_cant": "merge joins over arbitrary tables, including objects without dependents at any position", "anchors": ["src/osm/apidb_dump/read/node_relations_reader.rs", "src/osm/apidb_dump/read/way_relations_reader.rs", "src/osm/apidb_dump/read/relation_relations_reader.rs"]}
{"id": "C40", "title": "One orphan dependent row does not affect other objects", "statement": "If a dump contains a tag row whose object does not exist, all other objects still get their tags.", "quantifier": "all tables with any number of orphan rows", "why_tests_cant": "the failure needs a specific position of the orphan", "anchors": ["src/osm/apidb_dump/read/node_relations_reader.rs: next"]}
{"id": "C41", "title": "Order of way nodes and relation members survives the dump", "statement": "Writing a way or relation to a dump and reading the dump back keeps the order of its nodes and members.", "quantifier": "every way and every relation", "why_tests_cant": "all permutations of members", "anchors": ["src/osm/apidb_dump/read/table_pkey.rs: TablePkey::new", "src/osm/apidb_dump/read/relation_relations_reader.rs", "src/osm/apidb_dump/read/way_relations_reader.rs"]}
{"id": "C42", "title": "Dump element stream has the shape nodes, Sentinel, ways, Sentinel, relations, Sentinel", "statement": "elements() of a dump reader yields all nodes, one Sentinel, all ways, one Sentinel, all relations, one Sentinel, and then None forever.", "quantifier": "every dump", "why_tests_cant": "all table sizes including empty tables", "anchors": ["src/osm/apidb_dump/read/element_iterator.rs: ElementIterator::next"]}
{"id": "C43", "title": "Users and changesets tables", "statement": "On close the users table holds exactly one row per distinct uid, in uid order, with the name most recently seen for it, and changesets exactly one row per distinct changeset, with the uid most recently seen; so every row's changeset and user resolve when the dump is read back.", "quantifier": "every stream of elements", "why_tests_cant": "all histories of (uid, name) and (changeset, uid) pairs", "anchors": ["src/osm/apidb_dump/write/writer.rs: write_users, write_changesets", "src/osm/apidb_dump/write/table_data_writers.rs: flush_buffers", "src/osm/apidb_dump/read/element_iterator.rs: index_users, index_changesets"]}
{"id": "C44", "title": "User names survive the dump", "statement": "The user name read back from a dump is the name written.", "quantifier": "every user name string", "why_tests_cant": "arbitrary strings including tab, newline, backslash", "anchors": ["src/osm/apidb_dump/write/writer.rs: write_users", "src/osm/apidb_dump/read/table_reader.rs: create_user"]}
{"id": "C45", "title": "Table of contents parsing", "statement": "Scanning a toc.dat made of COPY statements with their data file names separated by arbitrary other text returns, in order, exactly the table definitions and file names.", "quantifier": "every number of entries and every filler text free of the marker strings", "why_tests_cant": "arbitrary binary filler", "anchors": ["src/osm/apidb_dump/read/reader.rs: get_table_def_strings"]}
{"id": "C46", "title": "Integer coordinates agree between formats", "statement": "lat7/lon7 of a coordinate read from PBF or from a dump is the exact grid integer it came from, and equals the integer the PBF writer would store, so converting between PBF and apidb dumps never moves a point.", "quantifier": "every grid integer with |n| <= 1 800 000 000", "why_tests_cant": "IEEE rounding over 3.6e9 values and two different formulas", "anchors": ["src/osm/model/coordinate.rs: lat7, lon7", "src/osm/pbf/dense_group_builder.rs", "src/osm/apidb_dump/read/element_iterator.rs"]}
{"id": "C47", "title": "Blocks without metadata read with documented defaults", "statement": "A dense or plain node, way or relation without an info message is read as visible with version 0, changeset -1, uid -1, empty user, and with timestamp 0 (dense) or -1 (others); a missing visible entry means visible.", "quantifier": "every block produced by any writer, of any size", "why_tests_cant": "all blocks", "anchors": ["src/osm/pbf/osm_data.rs: read_dense, read_info"]}
{"id": "C48", "title": "Negative or out-of-range string indexes are never silently resolved", "statement": "Reading a block in which a tag, role or user index lies outside the string table panics; whenever reading succeeds each returned string is the table entry at the given index.", "quantifier": "every decoded primitive block", "why_tests_cant": "arbitrary block contents", "anchors": ["src/osm/pbf/osm_data.rs: read_dense, read_nodes, read_ways, read_relations, read_info"]}
{"id": "C49", "title": "Bounding box parsing range check", "statement": "BoundingBox::from_str succeeds only if at least four comma separated numbers are given with left/right in [-180,180] and bottom/top in [-90,90], returns them in that order, and never accepts NaN.", "quantifier": "every string (given the standard f64 parser)", "why_tests_cant": "arbitrary strings", "anchors": ["src/osm/model/bounding_box.rs: FromStr for BoundingBox"]}
{"id": "C50", "title": "parallel_for_each terminates and never deadlocks", "statement": "On every file over which blob iteration ends, parallel_for_each makes finitely many steps under every schedule (the number is bounded by the file, not by the schedule), and as long as no call of the function fails it can always continue until it has finished: full queues, idle workers and the shutdown never block each other for ever.", "quantifier": "every file, every number of workers >= 1, every function, every interleaving", "why_tests_cant": "deadlocks and livelocks depend on the interleaving", "anchors": ["src/osm/pbf/reader.rs: Reader::parallel_for_each", "src/osm/pbf/parallel_element_iteration_command.rs: ParallelElementIterationCommand::execute"]}
{"id": "C51", "title": "A file written by ParallelWriter reads back", "statement": "The file a ParallelWriter leaves after write_header, any sequence of write_element/write_elements calls and close is a valid file: Reader::new accepts it and returns the header information, and elements() yields exactly the written elements (as C01-C03 say what a written element becomes), each once; if the input was displaced by no more than the buffer can repair, they come in sorted order.", "quantifier": "every file info, compression, buffer size, block size, number of encoders, schedule and sequence of calls that is not rejected", "why_tests_cant": "ranges over all inputs and all interleavings of the ordering, encoding and writing threads", "anchors": ["src/osm/pbf/parallel_writer.rs: ParallelWriter", "src/osm/pbf/reader.rs: Reader::new, elements"]}
{"id": "C52", "title": "ParallelWriter's threads never deadlock", "statement": "Once the blocks are submitted the encoding and writing threads finish after a number of steps bounded by the number of blocks, under every schedule; as long as no block fails to serialize (never in a release build) some thread can always take a step until close can return, whatever the order in which encoders finish and although both queues are bounded.", "quantifier": "every number of blocks, every number of encoders >= 1, every interleaving", "why_tests_cant": "absence of deadlock under every schedule", "anchors": ["src/osm/pbf/parallel_writer.rs: EncodeFileBlockCommand, WriteBlobCommand, close"]}
{"id": "C53", "title": "Writing a dump and reading it back returns the elements", "statement": "Writing a stream of elements with the dump writer and reading the directory with the dump reader yields every node, way and relation version exactly once, in order of (id, version), with its id, version, changeset, visibility, node list, members (as a multiset) and tags (as a multiset); timestamps to the second, coordinates to 1e-7 degrees, the user recorded for the changeset. If timestamps are whole seconds, coordinates lie on the grid and changesets and users are consistent, the elements are identical up to the order of tags and members.", "quantifier": "every stream of elements in the ranges of the Rust types with four digit years, text that survives escaping and distinct (id, version) pairs, whatever the order of hash maps and the clock", "why_tests_cant": "composition of writer, external sort and merge joins over arbitrary streams", "anchors": ["src/osm/apidb_dump/write/writer.rs", "src/osm/apidb_dump/read/reader.rs", "src/osm/apidb_dump/read/element_iterator.rs"]}
{"id": "C54", "title": "The table of contents shipped with the dump writer describes the files it writes", "statement": "The toc.dat template the writer copies into every dump lists every table once, and the ten object tables with exactly the columns and file names the writer uses, so the dump reader finds every table.", "quantifier": "every dump written", "why_tests_cant": "relates 60 kB of binary template to the scanner's behaviour at every offset", "anchors": ["src/osm/apidb_dump/write/toc/toc.dat", "src/osm/apidb_dump/read/reader.rs: get_table_def_strings", "src/osm/apidb_dump/write/toc.rs"]}
{"id": "C55", "title": "Which streams can be dumped", "statement": "Writing and closing a dump succeeds exactly for the streams all of whose timestamps fall in the years -262143 to 262142; otherwise the writer panics, it never returns an error for the content of an element.", "quantifier": "every stream of elements with arbitrary i64 timestamps", "why_tests_cant": "all streams and all timestamps", "anchors": ["src/osm/apidb_dump/write/writer.rs", "src/osm/apidb_dump/sql.rs"]}
{"id": "C56", "title": "Bytes are decoded as the wire format and the .proto files say", "statement": "For every byte string, the decoder of a blob header, blob, header block or primitive block returns exactly the message that the protobuf wire format and the .proto definitions assign to it (varints of up to ten bytes, unknown fields and groups skipped, last value of a scalar wins, repeated scalars packed, unpacked or split over several fields, embedded messages merged, the last member of a oneof, strings valid UTF-8), and is refused exactly when they assign none; the encoders write bytes that mean the message. Consequently the elements and header information read from a blob of any file are those its bytes mean.", "quantifier": "every byte string, including files written by other programs and malformed ones", "why_tests_cant": "all byte strings; foreign encoders use forms this encoder never produces", "anchors": ["src/osm/pbf/format/fileformat.proto", "src/osm/pbf/format/osmformat.proto", "src/osm/pbf/file_block.rs: deserialize", "src/osm/pbf/osm_data.rs: new", "src/osm/pbf/osm_header.rs: from_bytes"]}
{"id": "C57", "title": "Exactly what a block keeps of a mixed list", "statement": "For every list of elements handed to write_elements, the block that is written reads back as exactly the nodes of the list if it contains a node, else exactly the ways if it contains a way, else exactly the relations, in order; nothing is lost if and only if all elements have one type.", "quantifier": "all lists of elements, of any length and mix of types, in debug and release builds", "why_tests_cant": "the dropped elements depend on the mix; a test shows it for one mix, not that nothing else is ever lost or reordered", "anchors": ["src/osm/pbf/osm_data.rs: OsmData::serialize", "src/osm/pbf/writer.rs: Writer::write_elements"]}
{"id": "C58", "title": "Any sequence of calls on a sequential Writer", "statement": "After write_header and any sequence of write_element, write_elements and close calls that returned, the file on disk reads back as: the elements given one by one, in order and without sentinels, except fewer than 8000 most recent ones (none after close); and one block per write_elements call, in order, which is in the file when the call returns and so can overtake pending elements. The file only grows; cut at any byte it is refused or reads as the elements of its first blocks.", "quantifier": "all finite sequences of calls, all elements, both compressions, all byte positions of a crash", "why_tests_cant": "unbounded space of interleavings of three calls, and of crash points", "anchors": ["src/osm/pbf/writer.rs: Writer::write_element, write_elements, close, write_blob", "src/osm/pbf/element_accumulator.rs: ElementAccumulator::add, elements"]}
{"id": "C59", "title": "Exactly which streams the sequential Writer accepts", "statement": "A sequence of write_element calls followed by close succeeds if and only if the stream without sentinels is nodes, then ways, then relations, with at least one way before the first relation; otherwise it panics (provided blocks can be serialized, which in a release build they always can).", "quantifier": "all finite streams of elements", "why_tests_cant": "an equivalence over all streams", "anchors": ["src/osm/pbf/element_accumulator.rs: ElementAccumulator::add", "src/osm/pbf/writer.rs"]}
{"id": "C60", "title": "Exact result of the bounding box calculation", "statement": "For every readable file, number of threads and schedule, the calculated bounding box is the least box containing those nodes that have only nodes before them in their block; the call panics if and only if there is no such node. All schedules give the same answer.", "quantifier": "all files, thread counts and schedules", "why_tests_cant": "thread schedules and file contents are unbounded", "anchors": ["src/osm/pbf/reader.rs: calc_bounding_box", "src/osm/pbf/calc_bounding_box_command.rs"]}
{"id": "C61", "title": "ParallelWriter interrupted at any moment", "statement": "If the process stops at any moment while a ParallelWriter is in use, whatever the threads were doing and at whatever byte of a write, the file left behind is refused by Reader::new or reads as exactly the (non-sentinel) elements of the first n blocks submitted, which are among the elements written; if the writer had closed and the file is complete, of all blocks.", "quantifier": "all call sequences, buffer and block sizes, thread schedules, and byte positions", "why_tests_cant": "crash points times schedules cannot be enumerated", "anchors": ["src/osm/pbf/parallel_writer.rs", "src/osm/pbf/writer.rs: write_blob"]}
{"id": "C62", "title": "FileInfo setters, feature queries and Writer::new", "statement": "Whatever FileInfo setters are called, in whatever order and how often, each getter shows the last value set for its field, or the value from before. is_required/is_optional answer membership in the feature lists. A file made with Writer::new is readable and its header carries the given program, source, replication fields and bounding box presence, requires OsmSchema-V0.6 and DenseNodes, requires HistoricalInformation if and only if the history flag was given, and announces Sort.Type_then_ID.", "quantifier": "all setter sequences, all arguments of Writer::new, all streams the writer accepts", "why_tests_cant": "setter sequences, texts and streams are unbounded", "anchors": ["src/osm/pbf/file_info.rs: with_*, set_*, is_required, is_optional", "src/osm/pbf/writer.rs: Writer::new"]}
{"id": "C63", "title": "Timestamps as ISO 8601 text", "statement": "timestamp_to_iso8601_seconds of a microsecond timestamp is the ISO 8601 text of the second the instant lies in (rounded down, also before 1970) in the proleptic Gregorian calendar, or an error exactly when the instant is outside the years -262143 to 262142; never a panic. Two timestamps have the same text exactly when they lie in the same second, and in the years 0 to 9999 the texts sort as the instants do. The replication timestamp pbf-info prints is the text of the header field whenever that is representable.", "quantifier": "all 64-bit timestamps", "why_tests_cant": "all 2^64 values; calendar arithmetic has many boundary cases", "anchors": ["src/osm/converters/mod.rs: timestamp_to_iso8601_seconds", "examples/pbf-info.rs"]}
{"id": "C64", "title": "Copying a PBF file through a filter", "statement": "A program that reads a file, filters its elements and writes the rest with the header of the input (pbf-io) has exactly one outcome for every input, arbitrary bytes included. If it succeeds, the output is readable, its header is the header of the input with the program name replaced, and its elements are those not filtered out, in order, each as writing and reading changes it. An input in the order the writer accepts is always copied in a release build if no way is filtered out. A copy of a copy has exactly the same elements. pbf-io filters out exactly the nodes tagged natural=tree. Counting programs report the exact numbers of elements and tourism tags.", "quantifier": "all input files (any bytes), filters, program names and compression types", "why_tests_cant": "input files and filters are unbounded", "anchors": ["examples/pbf-io.rs", "examples/count-pbf-elements.rs", "src/osm/pbf/reader.rs: Reader::new, elements", "src/osm/pbf/writer.rs"]}
{"id": "C67", "title": "Only legal values are read", "statement": "Whatever bytes a file consists of, every element, header or block the reader yields is a legal value of the data model: never a sentinel, integers in range, all strings UTF-8 texts, coordinates and box edges finite numbers of at most 2^63 nanodegrees, also in runs that end in a panic later.", "quantifier": "all byte strings as files, all codecs, debug and release builds", "why_tests_cant": "all byte strings, malicious ones included", "anchors": ["src/osm/pbf/reader.rs: elements, blocks", "src/osm/pbf/osm_data.rs", "src/osm/pbf/osm_header.rs"]}
{"id": "C68", "title": "Bounding boxes of blocks and headers", "statement": "The bounding box of a data block is the least box around the nodes at its front (all nodes, in a block of one type) and absent exactly when the block does not begin with a node; a header block has its header box. Merging any sequence of optional boxes into a FileInfo gives the least box around all of them and its own and changes no other field. The default box contains exactly the points with longitude within 180 and latitude within 90 degrees.", "quantifier": "all lists of elements, all sequences of boxes, all finite or infinite coordinates", "why_tests_cant": "floating point comparisons over all values and unbounded lists", "anchors": ["src/osm/pbf/osm_data.rs: compute_bounding_box", "src/osm/pbf/file_block.rs: compute_bounding_box", "src/osm/pbf/file_info.rs: merge_bounding_box", "src/osm/model/bounding_box.rs"]}
{"id": "C65", "title": "Converting an apidb dump to a PBF file", "statement": "The apidb-to-pbf program has exactly one outcome for every directory. For a dump whose keys are consistent, with coordinates within 180 degrees, it produces a readable PBF file with the header it announces and exactly the elements of the dump: nodes, ways and relations, each by id and version, with their own tags, way nodes, members and author; times lose their fraction of a second and nothing else changes, and a dump with whole-second times is converted exactly. The exception is a dump with relations but no ways, on which the program always panics.", "quantifier": "all dump directories, all codecs, debug and release builds", "why_tests_cant": "dumps are unbounded; joins over ten tables", "anchors": ["examples/apidb-to-pbf.rs", "src/osm/apidb_dump/read/reader.rs", "src/osm/pbf/writer.rs"]}
{"id": "C66", "title": "Converting a PBF file to a dump and back", "statement": "The pbf-to-apidb program has exactly one outcome for every input, arbitrary bytes included: a readable file becomes a dump exactly when its timestamps are in the calendar, otherwise the program panics. If the elements are of the kind the library itself writes (whole seconds, the 1e-7 degree grid), within the limits of the dump format (years 0 to 9999, no separators in user names, each version once, one user per changeset, one name per user) and there is a way or no relation, converting the dump back gives a readable PBF file with exactly the same elements in order of type, id and version, only the order of tags and of members may change.", "quantifier": "all input files (any bytes), all codecs, escaping and sorting crates meeting their contract", "why_tests_cant": "files are unbounded; composition of two formats", "anchors": ["examples/pbf-to-apidb.rs", "examples/apidb-to-pbf.rs", "src/osm/apidb_dump/write/writer.rs", "src/osm/apidb_dump/read/reader.rs"]}
{"id": "C69", "title": "What the reader does with any bytes at all", "statement": "Every sequence of bytes stands for exactly one list of blocks and one way of ending, given by the wire format alone: fewer than four bytes left, or a blob header that is cut off or is not a BlobHeader message, ends the iteration silently; a header length of 2 GiB or more, and a body that is cut off, of unknown type or invalid, panics. The block iterator yields exactly those blocks. Reader::new succeeds exactly if the first block is a header all of whose required features are supported, and panics exactly if the first blob has an invalid body or huge header length; elements() yields exactly the elements of the data blocks behind the first header, up to the next header block. A debug build yields the same or panics after a prefix of it.", "quantifier": "all byte sequences, all codecs, debug and release builds", "why_tests_cant": "the inputs are all byte sequences", "anchors": ["src/osm/pbf/blob_iterator.rs", "src/osm/pbf/file_block_iterator.rs", "src/osm/pbf/file_block.rs", "src/osm/pbf/reader.rs", "src/osm/pbf/element_iterator.rs"]}
{"id": "C70", "title": "The raw blobs of any file, and when iterating over them ends", "statement": "For any file, blobs() yields exactly the chain of blob headers obtained by following the stated sizes (which may be negative) from offset 0; any number of calls to next() finds exactly a prefix of that chain. It panics exactly if the chain arrives at a header length of 2 GiB or more. The iteration ends if and only if the chain visits no offset twice.", "quantifier": "all byte sequences, any number of calls to next()", "why_tests_cant": "the inputs are all byte sequences; non-termination cannot be observed", "anchors": ["src/osm/pbf/blob_iterator.rs", "src/osm/pbf/blob_desc.rs", "src/osm/pbf/reader.rs"]}
{"id": "C71", "title": "The parallel copying pipeline: safe inputs and unlucky schedules", "statement": "For examples/parallel-pbf-io.rs (parallel_for_each, a filter, ThreadLocalAccumulator batches, ParallelWriter): whatever the schedule, if it runs to its end its output is a readable file with the header of the input, the program name replaced, and exactly the kept elements, each once. If the kept elements fit in the ordering buffer (number + block size <= buffer size + 1), no schedule fails, gets stuck or runs for ever in a release build, the output is in order, and it is in exactly the order of the input if that is sorted without duplicates. If they do not fit, then for every sorted input whose later blocks alone exceed the buffer and for any two or more workers there is a schedule in which the ordering thread panics, so the result depends on the scheduler.", "quantifier": "all input files, filters, codecs, numbers of workers, buffer and block sizes, all schedules (existence of a schedule for the negative part)", "why_tests_cant": "thread schedules; the failing schedule needs one worker to be slow and a large file", "anchors": ["examples/parallel-pbf-io.rs", "src/osm/pbf/reader.rs", "src/osm/pbf/thread_local_accumulator.rs", "src/osm/pbf/parallel_writer.rs"]}
{"id": "C72", "title": "The order of elements, sentinels included", "statement": "For any two elements, Sentinel included, cmp, eq, same_type and the is_* predicates are characterised exactly: cmp is Less if the first precedes the second (type, id, version, Sentinel last) or the first is a Sentinel and the second is not; Greater if the second precedes the first and the first is not a Sentinel; Equal exactly for the same type, id and version, which is also exactly eq. cmp is antisymmetric for exactly the pairs with no or two sentinels, and Less fails to be transitive exactly when a Sentinel stands between two elements in the wrong order or around one.", "quantifier": "all pairs and triples of elements", "why_tests_cant": "relations over all triples", "anchors": ["src/osm/model/element.rs"]}
{"id": "C73", "title": "Which written headers can be read back", "statement": "Writing a header never fails. Of the headers that fit in the format, exactly those that have some content and require only supported features can be opened again, with the fields that were written; one that requires an unsupported feature is refused with an error and an entirely empty one makes Reader::new panic. The writer checks neither.", "quantifier": "all FileInfo values whose header is below 2 GiB, all codecs, debug and release builds", "why_tests_cant": "unbounded strings and feature lists", "anchors": ["src/osm/pbf/writer.rs", "src/osm/pbf/reader.rs", "src/osm/pbf/file_info.rs"]}
{"id": "C74", "title": "When closing a ParallelWriter returns", "statement": "After any calls that were accepted, close ends its flushing loop if and only if the block size is at least 1 or nothing was written, and the blocks submitted are then determined by the calls. With block size 0, which the constructor accepts, every block submitted before is empty.", "quantifier": "all call sequences, buffer and block sizes, sort implementations meeting the contract", "why_tests_cant": "non-termination; all call sequences", "anchors": ["src/osm/pbf/parallel_writer.rs"]}
{"id": "C75", "title": "Which rows of a dump are read, and as what", "statement": "A row of a dump table is read if and only if every column the table needs is there under its name and has an admissible text; it is then read as exactly what it says, and any other row makes the reader panic. Admissible are: integers of one or more decimal digits with an optional + or - sign, within 64 (or 32, 16) bits; the booleans t and f; times \"year-month-day hour:minute:second\" of an existing date with an optional decimal fraction (digits after the ninth without effect, white space and leap seconds not considered); member types n, Node, w, Way, r, Relation; any text for tags, roles and names; for redaction_id any text, an unreadable one counting as none.", "quantifier": "all tables, all column orders, all rows of any cells without tab and line feed, any unescaping function", "why_tests_cant": "all texts of all columns", "anchors": ["src/osm/apidb_dump/sql.rs", "src/osm/apidb_dump/read/table_reader.rs", "src/osm/apidb_dump/read/table_fields.rs", "src/osm/apidb_dump/read/relation_member_record.rs", "src/osm/apidb_dump/read/user_record.rs"]}
{"id": "C76", "title": "What is read from a dump with missing rows", "statement": "For any dump directory whose rows are well formed and whose objects, changesets and users have distinct keys - whether or not dependent rows have their object and objects their changeset and user - the elements read are nodes, ways and relations, each type by id and version and followed by one sentinel, up to the first object whose changeset or whose changeset's user is not in the dump: there the reader panics; if there is no such object it ends. An object carries its own tags, node references and members (way nodes by sequence number, members within a type by id) unless a dependent row without an object sorts before it in that table: then it carries none. Versions and user ids are reduced to 32 bits.", "quantifier": "all dump directories with well formed rows and distinct primary keys; all sorts and unescaping functions within their contracts", "why_tests_cant": "all combinations of missing rows", "anchors": ["src/osm/apidb_dump/read/element_iterator.rs", "src/osm/apidb_dump/read/reader.rs", "src/osm/apidb_dump/read/node_relations_reader.rs", "src/osm/apidb_dump/read/way_relations_reader.rs", "src/osm/apidb_dump/read/relation_relations_reader.rs"]}
{"id": "C77", "title": "Order of tags and members after a dump", "statement": "If the sorting crate compares text columns by some strict total order, a stream written to a dump and read back has, for every object, its tags in the order of their escaped keys and its members in the order of type name (\"Node\", \"Relation\", \"Way\" as texts), id and escaped role; node references keep their order. Hence the members of a relation come back as they were written if and only if they were written in that order, and so do the tags of any object whose keys are distinct.", "quantifier": "all readable streams, all total orders of texts, all sorts, escaping and unescaping functions within their contracts", "why_tests_cant": "all permutations of tags and members, all texts", "anchors": ["src/osm/apidb_dump/read/table_pkey.rs: TablePkey::new", "src/osm/apidb_dump/read/relation_relations_reader.rs", "src/osm/apidb_dump/write/writer.rs", "src/osm/apidb_dump/read/reader.rs"]}
{"id": "C78", "title": "Which disordered streams are rejected and which are written out of order", "statement": "For a block size of at least one and elements other than sentinels: the ordering thread panics if and only if some element precedes the first element of the block that was passed on last before the call writing it. Otherwise closing passes on all blocks, and they are in order if and only if no element precedes any element passed on before the call writing it. So a file is silently out of order exactly for the streams with an element of the second kind and none of the first.", "quantifier": "all buffer and block sizes, sorts within the contract of slice::sort, sequences of write_element and write_elements calls", "why_tests_cant": "all streams and all ways to divide them into calls", "anchors": ["src/osm/pbf/parallel_writer.rs: assert_order", "src/osm/pbf/parallel_writer.rs: flush_sorted_top", "src/osm/pbf/parallel_writer.rs: flush_all_sorted"]}
{"id": "C79", "title": "Header bounding boxes: what a copy does to them", "statement": "Writing a header and reading it back rounds every edge of its bounding box toward zero to whole nanodegrees; every further copy keeps each edge or moves it one nanodegree toward zero; copying again and again comes to rest after finitely many copies. Boxes of whole degrees come back unchanged, and an edge on the 1e-7 degree grid of positions stays nearest to its grid line.", "quantifier": "all bounding boxes within 180 degrees, all sequences of copies, whatever else the headers hold", "why_tests_cant": "all boxes and all numbers of copies", "anchors": ["src/osm/pbf/osm_header.rs: from_bytes", "src/osm/pbf/osm_header.rs: serialize"]}
{"id": "C80", "title": "A dump whose writer was stopped", "statement": "Let the process stop at any moment while an API DB dump is written or closed, every table file holding any prefix of what was written to it and a closed file all of it. As long as no row of changesets has reached the disk (in particular until the last call of write_element and the rows of users are done), reading the directory yields no object. If the files are cut between rows, the directory reads as the dump of exactly the rows on disk: the objects in order of id and version, each with the rows there are, up to the first object whose changeset or user is missing, which panics. Once the file of users is closed nothing is missing that would panic: reading ends normally with all nodes and relations, and only the ways whose rows happened to reach the disk.", "quantifier": "all element sequences, moments of the stop, lengths of the table files at the stop, iteration orders of the hash maps, clocks", "why_tests_cant": "all crash points and all combinations of flushed buffers", "anchors": ["src/osm/apidb_dump/write/writer.rs: close", "src/osm/apidb_dump/write/table_data_writers.rs: close", "src/osm/apidb_dump/write/table_data_writer.rs: close", "src/osm/apidb_dump/read/reader.rs: elements"]}
{"id": "C81", "title": "The low level calls of the writer, and copying a file block by block", "statement": "After any sequence of write_header, write_element, write_elements, write_file_block and close the file consists of exactly these blocks in this order: a header for each write_header and each header block given; for each list or data block given one block with the nodes if there are nodes, else the ways if there are ways, else the relations; the single elements collected in blocks of at most 8000 of one type, written when full, at the next type, or on close. A call only appends, and any prefix of the file reads as the first of these blocks. Such a file opens if and only if its first block is a header with supported features, and elements() yields the elements up to the next header and nothing behind it. A file copied block by block from Reader::blocks to write_file_block opens with the same information and has as many elements as the original if and only if no block of the original mixes types, and then the same elements.", "quantifier": "all call sequences, elements, file informations, compressions, crash points; all readable input files", "why_tests_cant": "all interleavings of the calls and all input files", "anchors": ["src/osm/pbf/writer.rs: write_header", "src/osm/pbf/writer.rs: write_file_block", "src/osm/pbf/writer.rs: write_blob", "src/osm/pbf/reader.rs: blocks", "src/osm/pbf/element_accumulator.rs: add"]}
{"id": "C82", "title": "A sequential writer on a disk that fails", "statement": "Let any write of the file fail after any number of its bytes. If all calls returned Ok the file is the one a disk without failures would hold. A program that stops at the first call that returns Err leaves a file that extends what was there before the call, is a prefix of what the call was to write, and reads as exactly the blocks written before (then ends or panics). A program that goes on, when failed writes leave nothing behind, leaves a file that is in order and reads to its end without an error, with exactly the blocks of the failed calls missing: the writer forgets the elements of a block before it tries to write it, so a repeated close() returns Ok, writes nothing and the elements are lost. After a write that left something behind, whatever is called later and with whatever success, the blocks written before are what the file reads as first. Every element given one by one is in the file, still pending, or in a block whose call returned Err.", "quantifier": "all call sequences, elements, compressions, all combinations of failing writes and numbers of bytes they leave", "why_tests_cant": "all combinations of calls and failures", "anchors": ["src/osm/pbf/writer.rs: write_blob", "src/osm/pbf/writer.rs: write_element", "src/osm/pbf/writer.rs: close", "src/osm/pbf/element_accumulator.rs: elements"]}
{"id": "C83", "title": "Dump directories that lack a file, a table or a column", "statement": "Reader::new on a dump directory returns Err if there is no table of contents, if a listed table of interest lacks one of the columns its record has (whatever else is there), or if the data file of a listed table is missing; it succeeds whichever of the ten tables are listed as long as those are in order. elements() then panics if users is not listed, panics if changesets is not listed, returns Err if any of the eight object tables is not listed, and succeeds if all ten are: a dump of fewer tables cannot be read, not even in part.", "quantifier": "all directories, tables of contents, sets of listed tables, column lists and rows", "why_tests_cant": "all sets of tables and columns", "anchors": ["src/osm/apidb_dump/read/reader.rs: new", "src/osm/apidb_dump/read/element_iterator.rs: new", "src/osm/apidb_dump/read/element_iterator.rs: index_users", "src/osm/apidb_dump/read/element_iterator.rs: index_changesets", "src/osm/apidb_dump/read/table_fields.rs", "src/osm/apidb_dump/read/table_pkey.rs"]}
{"id": "C84", "title": "User names with TABs in a dump", "statement": "A dump written from elements whose user names are any one-line UTF-8 text always opens. If the current name of any user has 1 to 11 or 14 to 19 TABs, elements() panics and nothing of the dump can be read. If elements() returns, every node, way and relation comes back as in C53 with its user name cut at the first TAB and nothing else changed. elements() never returns Err on such a dump.", "quantifier": "all element lists storable in a dump, all one-line user names, all hash map orders, all sorting libraries that sort, all directories holding the dump", "why_tests_cant": "all names and numbers of TABs; a name with TABs shifts the columns after it", "anchors": ["src/osm/apidb_dump/write/writer.rs: write_users", "src/osm/apidb_dump/read/user_record.rs", "src/osm/apidb_dump/read/element_iterator.rs: index_users"]}
{"id": "C85", "title": "ParallelWriter: write_header late, repeated or never, and a disk that fails", "statement": "Whenever and however often write_header is called, and whatever write fails: a file that exists holds at most one header, at its beginning, and reads as a beginning of what was given to the writer. While the writing thread is alive the file is exactly as if write_header had been called first. If close finds nothing failed, either nothing was to be written or all blocks are in the file. Without write_header there is never a file. Called after elements were given it can be too late: then the writing thread panics on the first block and no file is ever written. After any failing write the writing thread never writes again, and if more than 512 blocks and the number of encoders are still to come the program is stuck for ever, because the queues fill.", "quantifier": "all calls, block lists, numbers of encoders, schedules, moments of write_header calls, failing writes and numbers of bytes they leave", "why_tests_cant": "all schedules and failures", "anchors": ["src/osm/pbf/parallel_writer.rs: write_header", "src/osm/pbf/parallel_writer.rs: WriteBlobCommand", "src/osm/pbf/parallel_writer.rs: close", "src/osm/pbf/writer.rs: write_blob"]}
{"id": "C86", "title": "parallel_for_each when the function fails or a blob cannot be decoded", "statement": "When parallel_for_each comes to its end although some calls returned Err or panicked and some blobs could not be decoded: every blob was taken by exactly one worker; for it that worker made all the promised calls in order (the elements, then Sentinel), or those up to and including the first call that failed, or none if the blob could not be decoded; nothing else was called. At every moment no call has been made twice. The number of steps is bounded, failures or not. If failing commands stop their worker and all workers have stopped with more than 1024 blobs to come, the call never returns.", "quantifier": "all files, functions (with any effect and any failures), numbers of threads and schedules, whether workers go on after a failure or not", "why_tests_cant": "all schedules and patterns of failures", "anchors": ["src/osm/pbf/reader.rs: parallel_for_each", "src/osm/pbf/parallel_element_iteration_command.rs: execute"]}
{"id": "C87", "title": "Dump Readers and their temporary directories", "statement": "Opening a dump Reader succeeds or fails by the dump alone, whatever the temporary directory holds. A Reader then yields exactly its own dump, whatever Readers are opened before or afterwards, successfully or not, in the same temporary directory or in others, provided those opened afterwards use another temporary directory or read the same dump. When a later Reader opens another dump with the same table of contents in the same temporary directory, elements() of the earlier Reader yields that other dump, without any error.", "quantifier": "all dumps, temporary directories, earlier contents of them, and sequences of Reader::new calls with any results, sorting the tables in any order", "why_tests_cant": "all sequences of calls, directories and dumps", "anchors": ["src/osm/apidb_dump/read/reader.rs: Reader::new, sort_tables, elements", "src/osm/apidb_dump/read/table_def.rs: build_sorted_path", "src/osm/apidb_dump/read/table_reader.rs: TableIterator::new"]}
{"id": "C88", "title": "Any sequence of write_element and close calls of the dump writer", "statement": "Whatever the sequence of write_element and close calls (close may be followed by more), every table holds, one after another, the text it would have in separate dumps of the elements written between two closes, each with its end marker, followed by the rows written after the last close; in particular an object whose versions are on both sides of a close is current twice. Only users, changesets and changeset_tags are written anew at each close, for all that was written so far. The calls all succeed exactly when every timestamp is an instant of the calendar; otherwise one of them panics.", "quantifier": "all sequences of calls, elements, clocks and hash orders", "why_tests_cant": "all histories of calls", "anchors": ["src/osm/apidb_dump/write/writer.rs: write_element, close, flush_current_object_lines", "src/osm/apidb_dump/write/table_data_writers.rs: flush_buffers, close", "src/osm/apidb_dump/write/current_object.rs"]}
{"id": "C89", "title": "The dump writer on a disk that fails", "statement": "write_element and close return the first error of the disk and may be called again afterwards. If every call returns Ok the writer did exactly what it does on a disk that never fails, and after a close that returns Ok all of it is in the files. Whatever fails, a history table gets from every call that returns Ok all its rows (from close the end marker), and from a call that fails the beginning of them; nothing is taken back. If the first failing call is a write_element or the final close, what is on disk is what a process leaves that was stopped there: every table file is the beginning of the file of the finished dump. But retrying a failed write_element is not safe: there are runs in which the second attempt and close return Ok and a node written before is missing from the current nodes while the retried one is there twice.", "quantifier": "all sequences of calls, all failures of writes and flushes (in every table, after any part of the rows of a call, with any part of the buffers on disk), elements, clocks and hash orders", "why_tests_cant": "all failures of the disk at every write", "anchors": ["src/osm/apidb_dump/write/writer.rs: write_element, close, flush_current_object_lines, write_users, write_changesets", "src/osm/apidb_dump/write/table_data_writer.rs: TableDataWriter, close", "src/osm/apidb_dump/write/current_object.rs"]}
{"id": "C90", "title": "Reading a PBF file from a disk that fails", "statement": "Any open, seek or read may return an error, a read also after some bytes. Reader::new then returns what it returns on a sound disk, or an error, or panics. A loop over blocks() yields exactly a beginning of the blocks of the file and then ends like at the end of the file (error while looking for the next blob) or panics (error while reading a blob); every beginning is possible with either ending. Likewise elements(), block by block, provided the block it skips first could be read; if not, it may yield nothing at all without an error, although the disk has recovered. parallel_for_each (and so count_objects) treats a beginning of the blobs, leaves the calls of unreadable ones out, makes no other call and none twice; for every beginning there is an error for which it comes to its end with just these blobs treated and no failed command.", "quantifier": "all files, all failures of open, seek and read, all schedules and functions", "why_tests_cant": "all failures of the disk", "anchors": ["src/osm/pbf/blob_iterator.rs: BlobIterator::next", "src/osm/pbf/file_block.rs: from_blob_desc", "src/osm/pbf/file_block_iterator.rs", "src/osm/pbf/element_iterator.rs: ElementIterator::new", "src/osm/pbf/reader.rs: Reader::new, parallel_for_each"]}
{"id": "C91", "title": "Sequential and parallel reading of the same file", "statement": "When elements() comes to its end and parallel_for_each returns, for any schedule and any number of tasks, the elements passed to the function are those that elements() yields, each as often, and in addition those behind a second header block of the file (where elements() stops). So count-pbf-elements and count_objects (or parallel-count-pbf-elements) report the same numbers of nodes, ways and relations exactly for the objects before a second header block; on a file with one header block the numbers are equal.", "quantifier": "all files, all numbers of tasks, all schedules and functions", "why_tests_cant": "a test reads the fixtures, which have one header block, with one schedule", "anchors": ["src/osm/pbf/reader.rs: elements, parallel_for_each, count_objects", "src/osm/pbf/element_iterator.rs: ElementIterator::next", "src/osm/pbf/parallel_element_iteration_command.rs", "examples/count-pbf-elements.rs", "examples/parallel-count-pbf-elements.rs"]}
{"id": "C92", "title": "Iterating a dump whose tables are on a failing disk", "statement": "Any open or read of the sorted tables may fail while elements() of a dump Reader is used. If a file cannot be opened, elements() panics. A failed read is taken for the end of the table. When the reads of a table fail for good, the iteration is exactly that of a dump cut between two rows, and every such cut can be the effect; when this strikes only tables of objects, the iteration ends without an error with the first nodes, ways and relations, each with the first of its tags, nodes and members. Whatever fails, also if reads succeed again afterwards, the objects yielded are the first of each kind, unchanged but for tags, nodes and members; these may then be those of other objects (the reader goes on in the middle of a row).", "quantifier": "all dumps, all failures of open and of reads, recovering or not", "why_tests_cant": "all failures of the disk at all positions", "anchors": ["src/osm/apidb_dump/read/table_reader.rs: TableIterator::new, TableIterator::next", "src/osm/apidb_dump/read/element_iterator.rs: ElementIterator::new, next", "src/osm/apidb_dump/read/node_relations_reader.rs", "src/osm/apidb_dump/read/way_relations_reader.rs", "src/osm/apidb_dump/read/relation_relations_reader.rs"]}
{"id": "C93", "title": "Which rows stop the reading of a dump", "statement": "In a dump whose id, version and sequence columns hold numbers, any text may stand in the other columns. Reader::new succeeds. elements() panics if and only if some row of users or of changesets cannot be read. A node, way or relation row that cannot be read, or whose changeset or whose changeset's user is not there, makes the iteration panic before the Sentinel that follows the objects of its kind. If every row of every table can be read and every reference to a changeset and a user resolves, the iteration ends without a panic. SQL NULL (\\N) in any column other than redaction_id and the texts makes a row unreadable; a changeset without bounding box (min_lat etc. NULL) is enough. If every way node (or relation member) belongs to a way (relation) that is there, one of them that cannot be read (node_id NULL, member_type unknown) makes the iteration panic before the Sentinel behind the ways (relations).", "quantifier": "all dumps in directory format, all rows and texts", "why_tests_cant": "every row of the tables, with every text in every column", "anchors": ["src/osm/apidb_dump/read/table_reader.rs: create_node, create_way, create_relation, create_changeset, create_user, TableIterator::next", "src/osm/apidb_dump/read/element_iterator.rs: ElementIterator::new, index_users, index_changesets, next", "src/osm/apidb_dump/sql.rs: parse_sql_time, parse_sql_bool", "src/osm/apidb_dump/read/way_relations_reader.rs, relation_relations_reader.rs"]}
{"id": "C94", "title": "Counts, bounding boxes and parallel copies of damaged files", "statement": "Blobs may be undecodable or unreadable, and looking for the next blob may fail at any point. When count_objects, BoundingBoxCalculator::calc or the parallel copying program then comes to its end, for every number of threads and schedule, the result is that of the blobs that could be had, of a beginning of the blobs of the file (of all of them if the search for blobs met no error): the exact numbers of nodes, ways and relations in them; the least box around their leading nodes (a panic exactly if there is none); one batch of kept elements for each of them. Nothing of any other blob takes part, nothing is counted or copied twice.", "quantifier": "all bytes, sets of undecodable and unreadable blobs, errors while looking for blobs, numbers of threads, schedules", "why_tests_cant": "every schedule and every combination of damaged blobs and I/O errors", "anchors": ["src/osm/pbf/reader.rs: count_objects, parallel_for_each", "src/osm/pbf/bounding_box_calculator.rs: calc", "src/osm/pbf/calc_bounding_box_command.rs: execute", "examples/parallel-pbf-io.rs"]}
{"id": "C95", "title": "What a stopped conversion leaves behind", "statement": "pbf-io and apidb-to-pbf read element by element and write as they go; the input may turn out to be damaged anywhere, or may not be in an order the writer accepts. However the program ends, if the input could be opened the output is a valid file: it reads to its end, has the header the program set, and its elements are a beginning of the kept elements of the input, unchanged. Of the elements handed over with success fewer than 8000 are missing; none if the program ended well; and if the kept elements are in order and can be written, nothing but the reader stops it. The program reports Err only if the input could not be opened. pbf-to-apidb stopped by the reader leaves table files from which the dump reader yields no element at all.", "quantifier": "all input bytes and dumps, undamaged or not, filters, compression types, ends of the reader, orders of elements", "why_tests_cant": "every place at which an input can be damaged and every input order", "anchors": ["examples/pbf-io.rs", "examples/apidb-to-pbf.rs", "examples/pbf-to-apidb.rs", "src/osm/pbf/writer.rs: write_element, write_blob, close", "src/osm/pbf/element_accumulator.rs: add"]}
{"id": "C96", "title": "pbf-info prints the header, all of it and nothing else", "statement": "For every file that can be opened and whose replication timestamp (if it has one) lies in the years the calendar library knows, pbf-info prints each item of the header on a line under its own label, in the order of the header, and no other line with that label: the path, the box, the required and the optional features, program, source, the timestamp as its ISO 8601 text, sequence number, base URL, and true or false for the three features it asks for according to whether the header lists them. It ends well exactly if all three are listed, and panics otherwise. What follows the first blob of the file, damaged or not, makes no difference. A file that cannot be opened gives no line and the end of Reader::new; a timestamp beyond those years ends a debug build early, after the lines of the features and before those of the replication.", "quantifier": "all bytes, both builds, all ways of printing numbers", "why_tests_cant": "ranges over all headers and all continuations of the file", "anchors": ["examples/pbf-info.rs", "src/osm/pbf/file_info.rs", "src/osm/model/bounding_box.rs: Display", "src/osm/converters/mod.rs"]}
{"id": "C97", "title": "Nested calls of the element iterator", "statement": "The iterator over the elements calls itself once for each data block it finds empty or exhausted, each call inside the one before. Let a program have room for a number of such calls on its stack. If the data blocks of the file have a row of blocks without elements that together with the block before it and the block (or good end of the data) behind it needs more calls than there is room for, the iteration returns some of the first elements and then the stack overflows; otherwise it returns exactly the elements of all data blocks and ends as without the limit. A file made by a sequential writer with any calls of write_element, close and n calls of write_elements needs at most n+3 calls, 3 when write_elements is not used; a file of the parallel writer with a block size of at least 1 needs at most 2, whatever its size. n calls of write_elements with an empty list make a file that needs exactly n+1.", "quantifier": "all files, all limits; all sequences of calls of the writers", "why_tests_cant": "the number of nested calls depends on rows of blocks of any length, and the bound for the writers on all sequences of calls", "anchors": ["src/osm/pbf/element_iterator.rs: ElementIterator::next, create_element_iterator", "src/osm/pbf/element_accumulator.rs: ElementAccumulator::add, elements", "src/osm/pbf/writer.rs: write_elements"]}
{"id": "C98", "title": "Reading a file while it is being written", "statement": "Let a file only be appended to while it is read, so that at every moment it holds a beginning of what it will hold. If Reader::new returns, then what it returned is what it returns for the file as it is then and for the final file. A for loop over Reader::elements then yields at least all elements that a loop over the file as it was when the reader was made would yield, and only a beginning of those of the final file - in the same order, none twice, none in between left out - whatever the writer does meanwhile; both bounds are reached. The same holds for the blocks, and a complete file is read as without a writer. For a file that the sequential Writer makes with any calls (its writes only append), whenever the reader is made after the header: what is read corresponds to the first n elements written, n at least the number of elements in the blocks then in the file. parallel_for_each treats each blob of some beginning of the blobs of the final file completely, or, if the body was not there yet when the worker read it, not at all. The reader that catches up ends without an error, or panics; it never returns wrong elements.", "quantifier": "all final files and codecs, all moments at which the length, the header and the body of each blob are read; all sequences of calls of the writer; all schedules of the workers", "why_tests_cant": "the interleavings of the appends with the reads are unbounded", "anchors": ["src/osm/pbf/blob_iterator.rs: BlobIterator::next", "src/osm/pbf/file_block.rs: FileBlock::from_blob_desc", "src/osm/pbf/element_iterator.rs: ElementIterator", "src/osm/pbf/reader.rs: Reader::new, blocks, elements, parallel_for_each", "src/osm/pbf/writer.rs: write_blob"]}
{"id": "C99", "title": "Calling next again after the end", "statement": "Whatever number of times next is called: the iterator over the elements of any PBF file returns some first elements of the for loop, one after the other, and after the last one None for ever; no such call fails to return, it may only panic. The same holds for the iterator over the elements of a dump, and, for every file of blobs that state the sizes of their bodies - in particular every file left by a sequential writer after any calls, and every beginning of such a file - for the iterators over its blobs and its blocks (until one panics). For any other file the iterator over the blobs returns a blob after a None only if some blob states a negative size or the bytes at the place where the iteration ended are not a blob header; both occur. A program that calls next again when the writer has appended to the file (as tail -f does) can be given a blob that is not in the file.", "quantifier": "all files, dumps and codecs, any number of calls", "why_tests_cant": "iterator adaptors call next any number of times after the end, on files with any damage", "anchors": ["src/osm/pbf/element_iterator.rs: ElementIterator::next", "src/osm/pbf/blob_iterator.rs: BlobIterator::next", "src/osm/pbf/file_block_iterator.rs: FileBlockIterator::next", "src/osm/apidb_dump/read/element_iterator.rs: ElementIterator::next"]}
{"id": "C100", "title": "Going on after a panic", "statement": "A program catches the panics of an iterator over a PBF file (catch_unwind) and calls next again, until it returns None. If the search for the next blob meets no panic itself, the iterator over the blocks gives in this way exactly the blocks of the blobs that can be decoded, in order, with exactly one panic for each blob that cannot, at its place. Once Reader::elements has returned, the iterator over the elements gives exactly the elements of all data blocks that can be decoded (up to a header block behind the first block), with one panic for each blob that cannot. Reader::elements itself returns if and only if the first two blobs can be decoded. On an undamaged file nothing is caught and the elements are those of the for loop. When the panic is that of a header length of 2 GiB or more, the iterator goes on behind that length and, once more, as many bytes as the size the last blob stated; every blob found from there on is had as before, the numbering of the blobs going on without a gap.", "quantifier": "all files and codecs, any number of blobs that cannot be decoded, at any place", "why_tests_cant": "damaged blobs can be at any places, in any number", "anchors": ["src/osm/pbf/file_block_iterator.rs: FileBlockIterator::next", "src/osm/pbf/element_iterator.rs: ElementIterator::next, create_element_iterator", "src/osm/pbf/blob_iterator.rs: BlobIterator::next"]}
{"id": "C101", "title": "PBF files put one after another", "statement": "Files of well-formed blobs (in particular every file left by the sequential writer after any calls, or by ParallelWriter in any schedule) are concatenated (cat a.pbf b.pbf). Reader::blocks gives the blocks of the first, then of the second and so on, numbered through. Reader::new gives the header of the first, and Reader::elements gives exactly the elements of the first file and ends without an error, whatever follows the header of the second. If the second file is cut off anywhere, the elements read are still those of the first, and the loop ends in a panic instead of ending exactly if reading the piece alone panics before its first block. parallel_for_each, in every schedule, gives all elements of all files, each once; count_objects gives the sums; calc_bounding_box gives the least box around the boxes of the files that have one, and panics exactly if none has one.", "quantifier": "all lists of files, all writers and options, every schedule", "why_tests_cant": "files, their number and schedules are unbounded", "anchors": ["src/osm/pbf/reader.rs: Reader::new, elements, blocks, parallel_for_each, count_objects", "src/osm/pbf/element_iterator.rs: ElementIterator::next", "src/osm/pbf/blob_iterator.rs: BlobIterator::next", "src/osm/pbf/bounding_box_calculator.rs: calc"]}
{"id": "C102", "title": "Reading back a dump whose writer was closed several times", "statement": "A dump Writer is given any sequence of write_element and close calls that ends with close; the elements are readable as in C53, each user keeps one name and each changeset one user throughout. Whatever the table of contents and the (correct, end-marker-ignoring) sort do, a Reader opened on the directory gives exactly the sequence it would give on the directory of a single dump of all the elements: every node, way and relation once, ordered by id and version, as in C53, and equal to the element written when that is representable - although the tables contain end markers in the middle and the users and changesets several times. If users change names or changesets users between closes, every element still comes back once, with one of the users recorded for its changeset at a close and one of the names recorded for that user, the same for all elements of the changeset or user.", "quantifier": "all sequences of write_element and close calls, all elements, all sorts and archivers meeting the interface", "why_tests_cant": "the number of sections and elements is unbounded; the behaviour depends on the whole history of calls", "anchors": ["src/osm/apidb_dump/write/writer.rs: write_element, close", "src/osm/apidb_dump/read/reader.rs: Reader::new, sort_tables", "src/osm/apidb_dump/read/element_iterator.rs: ElementIterator::new, index_users, index_changesets"]}
{"id": "C103", "title": "Sorting makes a collection writable; merging files", "statement": "The elements of any collection (none of them a Sentinel), sorted with the order of the Element type by slice::sort, are in the order nodes, ways, relations. Writing them with a Writer succeeds exactly if the collection does not contain relations without containing a way; otherwise the writer panics. What is read back is in order by type, id and version and is, up to the places of the elements, element for element what was put in, within the documented precision. In particular the elements of any number of files this library wrote, put together, sorted and written give a file with exactly these elements - none lost, doubled or changed - in order.", "quantifier": "all collections of elements, all sorts meeting the contract of slice::sort, all sets of input files written by this library, both build modes, all compressions and header settings", "why_tests_cant": "the number and size of the collections and files is unbounded and the order of elements crosses Ord for Element, the Writer state machine, the block format and the Reader", "anchors": ["src/osm/model/element.rs: Ord for Element", "src/osm/pbf/writer.rs: Writer::write_element", "src/osm/pbf/file_block.rs: FileBlock::serialize", "src/osm/pbf/element_iterator.rs: ElementIterator"]}
{"id": "C104", "title": "Reading past the gaps of a dump", "statement": "A program reads a dump directory whose rows are well formed (with distinct primary keys) but in which changesets or users are missing, catches the panics of the element iterator (catch_unwind) and calls next again until it returns None. It gets, in order, exactly one answer for every node, way and relation by id and version and for every end mark: the element with its author, tags, nodes and members, as in C76, or - if and only if the changeset of the object or the user of that changeset is missing - a panic. Nothing else is lost, and the rows of an object of unknown author do not go to another object. A for loop gets the answers before the first panic.", "quantifier": "all dump directories with well-formed rows and distinct primary keys, any number of missing changesets and users at any places", "why_tests_cant": "any subset of the changesets and users may be missing", "anchors": ["src/osm/apidb_dump/read/element_iterator.rs: ElementIterator::next", "src/osm/apidb_dump/read/node_relations_reader.rs: NodeRelationsIterator::next", "src/osm/apidb_dump/read/way_relations_reader.rs: WayRelationsIterator::next", "src/osm/apidb_dump/read/relation_relations_reader.rs: RelationRelationsIterator::next"]}
{"id": "C105", "title": "Copies are byte for byte the same", "statement": "Reading loses nothing that writing would keep: a program that reads a file written by this library to its end and writes the elements it read gets, byte for byte, the file it would have got from the original elements - whatever compression, header and build it writes with - and with the header and compression of the original it gets the original file again. If the header has no bounding box the header as read serves as well (a bounding box may move, C79). Every copy, with any settings, reads as the file it was made from. The same holds of one block of nodes, ways or relations. So milliseconds, the last digits of positions and end marks change once, on the way to the first file, and never again.", "quantifier": "all files written by write_element and close from elements within range, in both builds, and all settings of the copy", "why_tests_cant": "all inputs: every rounding of positions, timestamps and string tables has to be idempotent, and blocks have to be cut in the same places", "anchors": ["src/osm/pbf/osm_data.rs: OsmData::serialize", "src/osm/pbf/dense_group_builder.rs: DenseGroupBuilder::new, add", "src/osm/pbf/element_accumulator.rs: ElementAccumulator::add", "src/osm/pbf/writer.rs: Writer::write_element, close"]}
