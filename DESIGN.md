# Formal model of libLAS in Rocq (Coq 8.16.1)

## Approach

The model is written in `rocq/theories/`. Model files (`*_Model.v`, `Bytes.v`,
`Outcome.v`, `Index_Cell.v`, `Index_Temp.v`, `Index_Scan.v`, `Index_Out.v`,
`Index_Query.v`, `Index_Build.v`, `Coord_Api.v`, ...) contain only definitions, each
citing the file and lines of `/repo` it models, and each saying where it
simplifies. Specification files (`*_Spec.v`, `Index_QuerySpec.v`) contain the small
independent vocabulary the theorems are stated in. Proof files contain the lemmas.
`Prop_*.v` files contain the property theorems, beside each an `Example`/`_meets`/
`_sample` showing a concrete non-trivial case that meets the hypotheses, and
`Print Assumptions`.

Where the property is false of the code there is a theorem with the suffix
`_refuted`: a concrete witness, run through the model, of the property failing.
It is accompanied by the exact description of what the code does instead, or by
the property with the condition under which it does hold (`_partial`, `_exact`).

Conventions

* A byte is a `Z` in `[0,256)`; a file/stream is a `list Z` with a position and
  state bits.
* Unsigned C++ arithmetic is written with an explicit `mod 2^w`.
* A C++ call is `outcome A` = `Ok a | Throw e | UB r`. Undefined behaviour (out
  of range vector access, out of range float-to-int conversion, null pointer,
  signed overflow, division by zero, uninitialised read, endless loop) is a separate
  constructor, never a default value. Theorems conclude `= Ok ...`, so they also
  say that no undefined behaviour occurs.
* Doubles are 64-bit patterns (in files) and Flocq `binary64` (in arithmetic);
  `f64_of_bits`/`f64_bits` connect them.
* Loops are structural recursion, or fuel with an explicit out-of-fuel result
  (`UBDiverge`) that the theorems exclude.

## Per property: what is modelled and how it is proved

| id | what is modelled | how it is proved |
|----|------------------|------------------|
| C01 | point byte record, all getters/setters with their raw offsets | frame/round-trip lemmas over list splicing |
| C02 | bit operations of the scan-flag byte | finite sweep over 256 x argument values lifted to all |
| C03 | classification byte | same, and induction over setter histories |
| C04 | format switch in SetTime/SetColor | case analysis + C01 |
| C05, C06 | GetX/SetX in Flocq binary64 | error analysis in R; witnesses outside the range |
| C07 | Point::SetHeader copy of attributes | C01 lemmas composed; witnesses for equal lengths and custom dimensions |
| C08 | Point::SetHeader zero check | guarded positive theorem, two witnesses |
| C09 | binary.hpp load/store loops | induction on width |
| C10 | VariableRecord | list lemmas |
| C11 | Header VLR vector and count | invariant over operation lists |
| C12 | Schema dimension table | computation per format, for any earlier state |
| C13 | AddDimension/CalculateSizes | invariant by induction over histories |
| C14 | SetDataFormatId exception path | exact result, witness |
| C15 | byte-level writer and reader of the header block | parser/printer round trip |
| C16 | GUID byte swap | exact result, witness |
| C17 | Header::operator== with pointer identity | witness (false for every header) |
| C18 | VLR writer and reader | induction on the list |
| C19 | padding arithmetic with int32/uint32 wrap | arithmetic |
| C20 | UpdatePointCount | splice lemma |
| C21-C23, C47 | writer state machine over streams (create, append, rewrite header) | induction over written points |
| C24-C29, C46 | reader state machine over streams, with filters | induction over calls / witnesses |
| C30 | cached reader state machine | refinement of the plain reader, invariant over histories |
| C31, C48 | header parser guards, short files | case analysis |
| C32-C34 | filters | case analysis, induction for the stateful one |
| C35 | Range/Bounds over binary64 | order reasoning through the real values |
| C36-C38 | chipper array algorithm, any sorting function | recursion invariants (Permutation, cross links), float error analysis of the partition boundaries |
| C39 | IndexCell run map | induction over the scanned points |
| C40 | temp file linked list | invariant over purge histories |
| C41 | VLR cell codec with continuation VLRs | round trip through `write_index` and `index_filter` |
| C42 | BuildIndex, SetFilterValues, Filter in binary64 | composition of C39-C41 with an error analysis of cell positions |
| C43 | TranslationTransform parser and effect | induction over the expression / operations |
| C44 | Summary::AddPoint, SetHeader, GetPTree | fold invariant |
| C45 | fixed-size char arrays | list lemmas |
| C49 | index iterator (Index_Query: iter, filter_one_vlr with an iterator, iter_at, iter_advance; Index_Calls: histories) against pages of the plain answer | invariant: where the iterator stands in cells, VLRs and answers; induction over cells, VLRs, calls |
| C50 | georeferencing VLRs of an opened file | composition of C22 with the VLR filter |
| C51 | Schema::SetDimension | exact result, witnesses |
| C52 | iterator.hpp over the reader and writer models (Iter_Model); spec: one cursor per reader (Iter_Spec) | simulation over histories; induction on the loop |
| C53 | reader, writer and iterators composed (Prop_Rewrite.rewrite_file) | layout lemma (Rewrite_Read), exact file for gaps 1 and 2 (Rewrite_Gap), induction on the number of rewrites |
| C54 | Ptree_Model (property tree of a schema, loading, GetVLR; XML text as a pair of functions) | Ptree_Proofs: every own tree is rejected; reader lemmas generalised to rejected schema VLRs (Reader_Open.falls_back) |
| C55 | Ptree_Model.pad_steps (operator<< of Dimension) | arithmetic; witness history |
| C56 | Index_File (IndexInit, FindIndex, ValidateIndex, ClearOldIndex, BuildIndex, SaveIndex*) over the reader, writer and index models | composition: Rewrite_Grow (header written with more VLRs), Index_Saved (build gives consistent VLRs), Index_Frame (other VLRs around do not matter), C42; re-build and stale index: for every file |
| C57 | CApi_Model (75 kinds of calls, 150 functions of c_api.cpp, over tables of VLRs, headers, points, readers) | case analysis over all calls (CApi_Proofs, CApi_More); witnesses |
| C58 | CApi_Model error stack | induction over calls; closed form of the reset loop |
| C59 | CApi_Model | set/get and frame lemmas of the header, VLR and point models lifted to tables (CApi_Store) |
| C60 | CApi_Model, `careful` in CApi_Spec | invariant over states (CApi_Safe.sound), frame by case analysis |
| C61 | CApi_Model over Reader_Model | simulation of the C++ reader (CApi_Read), then C24/C25 |
| C62 | Las2las_Model (process, RepairHeader, check_headers) over Reader, Writer, Rewrite and Summary models; Text_Model (16-digit decimal text of doubles) | the copy loop feeds the writer the delivered records (Las2las_Loop), the closed file is laid out as in C53 (Las2las_Copy/File), the summary's bounds are the extreme coordinates (Las2las_Points), text conversion is monotone and close (Text_Proofs) |
| C63 | the same, with split | induction over the files started (Las2las_Split) |
| C64 | Lasblock_Model: Load through the reader, write_tiles with ReadPointAt, over Chipper, Writer and Las2las models | C36/C37 for the blocks, at_exact for the records, generalised copy lemma (copy_bounds) for the files |
| C65 | CApiW_Model: the writer functions of c_api.cpp over Writer_Model, files as numbered byte lists, the point writer's own header | invariant `follows` over runs: the writer in the table is the C++ writer after the accepted points; case analysis for reports and frame |
| C66 | CApiW_Model | C65_completes, write_file_image, C61 |
| C67 | Ts2las_Model: header, record loop and output of ts2las over Stream_Model, Point_Model, Writer_Model | induction over the records with write_points; Ts2las_Spec gives the LAS record by byte offsets of the .bin file |
| C68 | Sha1_Model: the whole class over lists of bytes and 32-bit words as Z mod 2^32 | Sha1_Spec is FIPS 180-4; bitwise identities, schedule by induction, block-buffer invariant over addBytes |
| C69 | Col_Model: the reader, writer and main threads of las2col as a transition system, one step per critical section or unlocked access; any number of files, threads, columns | inductive invariant over all schedules (Col_Proofs), decreasing measure (Col_Live), witness schedules for the false parts |
| C70 | Cols_Model: readFile's loop over the C API reader with its per-letter cell writers, Expand1/Morton, the offset factor in double arithmetic, S64 parsing and the --parse switch; memory from malloc is a parameter | bit-level induction for Expand1, cell-by-cell induction over the points (Cols_Proofs), Flocq error bound for the decimal columns, witnesses for the false parts |
| C71 | Txt_Model: GetPointString/GetLabels letter by letter, write_points over the reader model, operator<< for integers and fixed doubles (exact round-half-even), GetStreamPrecision, delimiter and output name handling | digit-level induction with a separate decimal reader (Txt_Spec.number), induction over the reader's loop, Flocq error bounds for the default precision, witnesses for the false parts |
| C72 | Txt2las_Model: fgets in pieces of 511, parse() letter by letter (sscanf %d exactly, %lf and %f as parameters with a specification), both passes, quantised box, header, writer of the C API model, output name | induction over columns and rows with an invariant on the scanned point, Flocq bounds for the quantisation, composition with C71 for the round trip, witnesses for the false parts |
| C73 | Cli_Model: GetFilters option by option (dash splitting, comparison expressions, lexical_cast/atoi for integers, boost tokenizer, boxes, colours, order of the filters); lexical_cast<double> and atof are parameters | each option is a clause (filters that do not change and select a predicate), clauses compose by induction over filters and points, thinning in the middle by the C34 invariant; general counterexamples for the false parts |
| C74 | Hdropt_Model: the header part of GetTransforms option by option in program order (laskernel.cpp:864-1203, las2las.cpp:340-385), followed by the las2las loop of Las2las_Model; atof and the file system are parameters; options of reprojection, colour fetching and compression are not modelled | Hdropt_Proofs: the options compute one header in closed form (after); Hdropt_Write: a session of the writer for any header with gap at most two; layout of the new file by C53's machinery; counterexamples for all files of a kind |
| C75 | Transf_Model: TransformPoint, OptechScanAngleFixer and the two options of GetTransforms, las2las's loop with transforms; the reader's filter and end logic is Reader_Model, whose loop takes the transform as an argument; translation is Transform_Model (C43) | Transf_Proofs: the run with transforms follows the run without step by step, differing only in the point buffer (next_same, read_tr); Prop_Transf: each transform keeps the record's length; angles by computing all 256; then C62/C63's copy theorems; Prop_Transf2: witnesses |
| C76 | Lasinfo_Model: lasinfo's check_points, the assignment of the returned summary (with the identity of the object whose header the points refer to), the text of the summary and of a point; Summary_Model (C44), Reader_Model, Text_Model (what a property tree makes of a double), Txt_Model (numbers as text) | Lasinfo_Spec gives the layout and what each figure must be, without the summary; Lasinfo_Proofs: the loop feeds the summary the delivered points (check_feeds), the extremes stay records of the file's shape so that every attribute can be read from them; Lasinfo_Main: tallies, extremes of each letter, printed reals; Prop_Lasinfo/2: composition and layout |
| C77 | Minoff_Model: process of las2las with min_offset, SummarizeReader; Reader_Model, Summary_Model (C44), Point_Model.set_header (C07), Writer_Model, Las2las_Model.repair_file (C62), Text_Model (what a property tree makes of a double) | Minoff_Spec says what the new file is, record by record; Minoff_Proofs: a reset reader delivers the same records again, the summary's smallest point keeps the reader's header; Minoff_Move: the error of the minimum's text and of the coordinates leaves every coordinate storable, and set_header moves one record (C07, C08); Minoff_Main: header, session, repaired file; Prop_Minoff: composition and a two-record file |
| C78 | Wfilt_Model: Writer with its two lists, the four accessors, WritePoint, WriteHeader; Writer_Model | Wfilt_Spec says which points should be in the file, with no reference to the writer; Prop_Wfilt: induction over the history of calls, then the record counts and records of written files (C01, C03 machinery) tell the two files apart |
| C79 | Srs_Model: SpatialReference's two members and every function on them in the GDAL-less build, with the exceptions they throw and what they leave; Header_Model.set_georeference, Writer_Model, Reader_Model | Prop_SrsObj: an invariant over histories (only georeferencing records), closed forms of the calls, then the written and reread records (C50, C22 machinery); a history with all three kinds of record |
| C80 | Factory_Model: the two reader factories over Reader_Model's header reader and readers, with the stream passed on in the state the first reading leaves it; the guess from the name | Prop_Factory: what every step of ReadHeader leaves of the stream (data kept, never failed without eof), so reading again from 0 gives the same; names by the position of the last dot |

## Trusted base

* The Coq 8.16.1 kernel (including `vm_compute`), and the reading of /repo
  recorded in the comments. No plugin, no switched-off check, no axiom of our own.
* `Print Assumptions` of the claimed theorems lists one of two sets.
  - "Closed under the global context" for 94 theorems: `C03_step`, `C03_history`, `C03_read`, `C03_every_byte`, `C03_constructor`, `C04_color_absent`, `C04_fields_disjoint`, `C07_headers`, `C09_roundtrip`, `C09_little_image`, `C09_big_image`, `C09_little_load`, `C09_load_out_of_bounds`, `C09_big_endian_host_refuted`, `C10_user_id`, `C10_description`, `C10_total_size`, `C10_equality`, `C10_equality_sees_payload_refuted`, `C11_history`, `C11_step`, `C11_block_size`, `C12_standard_layout`, `C12_fresh`, `C12_bit_offsets_refuted`, `C13_history`, `C13_disjoint`, `C13_any_size_refuted`, `C13_remove_by_name_refuted`, `C14_rejected_format_characterised`, `C19_data_offset`, `C20_count_field`, `C20_closed_file`, `C21_layout`, `C32_value`, `C32_expression`, `C33_value_exclusion`, `C39_add_again_refuted`, `C40_history`, `C41_lengths`, `C43_parse`, `C43_signed_number_refuted`, `C45_system_id`, `C45_software_id`, `C45_file_signature`, `C47_write_header_again_exact`, `C51_replace`, `C51_unknown`, `C51_clash`, `C51_read_back_refuted`, `C51_size_refuted`, `C52_index_iterator_refuted`, `C54_own_record_rejected`, `C54_version_text`, `C55_listing_partial`, `C55_long_name_exact`, `C55_terminates_refuted`, `C68_digest`, `C68_any_length`, `C68_asked_again`, `C68_asked_again_refuted`, `C69_columns`, `C69_in_order`, `C69_aligned`, `C69_safe_until_teardown`, `C69_no_exceptions`, `C69_bounded`, `C69_stuck`, `C69_ends_refuted`, `C69_order_refuted`, `C69_teardown_refuted`, `C70_morton_distinguishes`, `C70_moffset_refuted`, `C71_labels`, `C71_output_name`, `C71_output_name_refuted`, `C72_output_name`, `C73_loose_instance`, `C74_rejected_instance`, `C78_ignored`, `C78_all_written`, `C78_getters`, `C78_idle_partial`, `C79_only_geo`, `C79_clear`, `C79_wkt`, `C79_copy`, `C79_wkt_lost_refuted`, `C79_proj4_refuted`, `C79_long_wkt_refuted`, `C79_stale_wkt_refuted`, `C80_file_type`, `C79_given`, `C79_not_understood`.
  - For the other 314, exactly the axioms of the standard library's real numbers,
    which Flocq's `binary64` (whose type carries a boundedness proof, and whose
    operations are specified in R) brings in:
    `ClassicalDedekindReals.sig_not_dec`, `ClassicalDedekindReals.sig_forall_dec`,
    `FunctionalExtensionality.functional_extensionality_dep`, `Classical_Prop.classic`
    (some of them list a subset).
* Flocq's definitions of binary64 addition, multiplication, division, square root,
  rounding and of the bit encoding are taken to be the ones of the C++ compiler:
  IEEE 754, round to nearest even, no extended precision, no contraction.

## What the model covers, and what it assumes

Modelled: `binary.hpp`; `classification.*`, `color.*`; `point.*` (all attribute
getters and setters, SetHeader, coordinates); `dimension.*`, `schema.*` (the
property tree of a schema, not its XML text); `variablerecord.*`; `header.*`; `detail/writer/*` and `writer.cpp` (header
block, VLRs, padding, points, append, UpdatePointCount, destructor);
`detail/reader/*` and `reader.cpp` (header block, VLRs, ReadNextPoint, ReadPointAt,
Seek, Reset, filters); `detail/reader/cachedreader.cpp`; `filter.*`;
`bounds.hpp`; `transform.*` (TranslationTransform); `utility.*` (Summary,
CoordinateSummary where listed above); `spatialreference.*` (GDAL-less build); `sha1.cpp`; `chipper.*`; `index.*`, `detail/index/*`
(cells, temporary file, output, build, query, iterator definitions).

Assumptions and simplifications (each also stated at the definition):

* Host: little endian; `NDEBUG`; no LASzip; no GDAL/libgeotiff (so no
  reprojection, no colour fetching); memory allocation succeeds.
* Streams: binary file streams with C++11 semantics (`Stream_Model.v`): reading
  past the end yields the available bytes and sets eofbit and failbit, seekg clears
  eofbit and does nothing under failbit, seeking past the end is allowed, writing
  past the end fills with zeros, badbit never occurs and writes do not fail.
* The XML text of a custom schema (property_tree) is a parameter of reader and
  writer models; theorems about files hold for every such function or concern
  files without that VLR, as their statements say.
* The creation date of a new header (clock) is a parameter.
* The reader's `SetHeader`, `bNeedHeaderCheck` and the fact that the point writer
  keeps the header of the first written point are not modelled; filters and
  transforms set on a Writer are never applied by the code (C78) and left out
  elsewhere.
* `std::sort` in the chipper is a parameter with the specification `is_sort`
  (inhabited: `insertion_sort`); NaN coordinates, for which the comparison is not a
  strict weak order, are excluded; memory-mapped storage is an allocator choice.
* `lexical_cast<double>` is a parameter of the transform parser.
* `Summary::GetPTree` is modelled as the numbers it stores, not as text, except in C62/C63: there a double
  stored in the tree passes through decimal text with 16 digits (Text_Model.v); the C library is taken to
  convert correctly rounded in both directions.
* las2las: the copying and splitting loop is C62/C63, the filter options C73, the
  header options C74, the transforms C75, --min-offset C77; reprojection, colour
  fetching and compression are not modelled.
* Index builder and query: the reader is the list of the point coordinates (no
  filters on it, file not truncated); the temporary file is a byte list whose reads
  and writes do not fail; the bytes gathered for one cell number fewer than 2^32;
  debug output left out. Finding, validating, clearing and saving an index go through
  the reader and writer models (Index_File.v, C56).

Not modelled: LASzip and GDAL/GeoTIFF code paths (external libraries), the C API functions on
GUIDs, schemas and spatial references (the others are CApi_Model.v and its extensions for readers
and writers; SpatialReference itself is Srs_Model.v), XML text (external property_tree), text output
(`operator<<`, except its termination in C55), the `apps/` programs las2ogr, las2pg, las2txt.c, lasindex, the
option parsing of boost::program_options, thread interleavings except those of las2col (C69),
allocation failure, big-endian hosts (except C09).

## Testing the theorems

`seeded/LOG.jsonl` records the wrong programs tried: for each, the edited model
definition, the claim it breaks, the lemmas and theorems that no longer compile, and
what was tightened when none failed. A mutant whose effect is unobservable through
the API (an equivalent program) is recorded as such.
