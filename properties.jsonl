{"id": "C01", "title": "Point attribute set/get", "statement": "On a point whose record buffer is long enough for its format, setting any one attribute (raw X/Y/Z, intensity, scan flags, return number, number of returns, scan direction, flight-line edge, classification, scan angle rank, user data, point source id, time, colour) and reading it back returns the value set, and every other attribute and every custom byte of the record is unchanged.", "quantifier": "all record contents, all attributes, all admissible values, formats 0-3, all record lengths >= the format's size", "why_tests_cant": "pairs of attributes times 2^160+ record contents; a single masked bit shared by two fields shows only for particular values", "anchors": ["src/point.cpp: Point::SetRawX/GetRawX .. SetColor/GetColor"]}
{"id": "C02", "title": "Scan flag bit packing", "statement": "Return number, number of returns, scan direction and edge-of-flight-line flags occupy disjoint bits of the flag byte: the flag byte is exactly rn + 8*nr + 64*dir + 128*edge, each setter accepts exactly the values the field can hold or keeps the low bits, and the four getters recover the four values.", "quantifier": "all 256 flag bytes and all argument values of the setters", "why_tests_cant": "claim is about all values, including out-of-range arguments", "anchors": ["src/point.cpp: SetReturnNumber, SetNumberOfReturns, SetScanDirection, SetFlightLineEdge"]}
{"id": "C03", "title": "Classification byte", "statement": "Class number (0-31) and the synthetic, key-point and withheld flags are stored losslessly and independently in one byte; class numbers over 31 are rejected with an exception and leave the object unchanged.", "quantifier": "all bytes, all class numbers, all flag combinations", "why_tests_cant": "all argument values and all prior states", "anchors": ["src/classification.cpp", "include/liblas/classification.hpp"]}
{"id": "C04", "title": "Format-dependent attributes", "statement": "Setting GPS time succeeds only for formats with time and setting colour only for formats with colour; otherwise an exception is thrown and the point is unchanged; reading an absent attribute gives 0 / black; time and colour occupy disjoint bytes in every format the library accepts.", "quantifier": "all formats 0-3, all records, all values", "why_tests_cant": "needs every record content and format", "anchors": ["src/point.cpp: SetTime, GetTime, SetColor, GetColor"]}
{"id": "C05", "title": "Raw coordinate survives scaling", "statement": "Reading a coordinate as a double and writing it back with the same header yields the same raw 32-bit integer.", "quantifier": "all 2^32 raw values, all scales and offsets with |offset| <= 2^50*scale and scale in a stated magnitude range", "why_tests_cant": "2^32 x 2^64 x 2^64 combinations of IEEE-754 roundings", "anchors": ["src/point.cpp: GetX, SetX", "include/liblas/detail/private_utility.hpp: sround"]}
{"id": "C06", "title": "Coordinate quantisation error", "statement": "Storing a coordinate value that is in range and reading it back gives a value within half a scale step plus a bounded floating-point rounding error.", "quantifier": "all finite doubles whose quantised value fits in int32, all scales/offsets in a stated range", "why_tests_cant": "floating-point rounding over an infinite-looking domain", "anchors": ["src/point.cpp: GetX, SetX"]}
{"id": "C07", "title": "Attaching a point to another header", "statement": "Moving a point to a header with another layout keeps every attribute the two layouts share (flags, intensity, class, angle, user data, source id, time and colour when both have them).", "quantifier": "all points, all source and target formats/record lengths, all scales and offsets", "why_tests_cant": "cross product of formats, contents and scales", "anchors": ["src/point.cpp: Point::SetHeader"]}
{"id": "C08", "title": "Header change keeps world coordinates", "statement": "Moving a point to a header with other scale/offset keeps its world coordinates up to the new quantum.", "quantifier": "all points and all header pairs", "why_tests_cant": "fails only for a specific record content (the all-zero record)", "anchors": ["src/point.cpp: Point::SetHeader"]}
{"id": "C09", "title": "Endian codec", "statement": "Storing an integer of 1, 2, 4 or 8 bytes in little- or big-endian order and loading it with the same order returns it; little- and big-endian images are each other's reversal; the bytes are the radix-256 digits.", "quantifier": "all widths, all values, signed and unsigned, both byte orders", "why_tests_cant": "2^64 values", "anchors": ["include/liblas/detail/binary.hpp", "include/liblas/detail/endian.hpp"]}
{"id": "C10", "title": "Variable record fields", "statement": "User id (<=16 chars) and description (<=32 chars) set on a variable record are read back exactly up to an embedded NUL; longer strings are rejected and leave the record unchanged; its total size is 54 + payload size.", "quantifier": "all strings, all records", "why_tests_cant": "all strings and lengths incl. boundary 16/32 and embedded NULs", "anchors": ["src/variablerecord.cpp"]}
{"id": "C11", "title": "VLR list operations", "statement": "Adding a VLR appends it; deleting by index removes exactly that one, out of range index is an error that changes nothing; deleting by (user id, record id) removes exactly the matching ones preserving the order of the others; after every operation sequence the reported VLR count equals the number of VLRs held.", "quantifier": "all operation sequences on a header", "why_tests_cant": "all histories", "anchors": ["src/header.cpp: AddVLR, DeleteVLR, DeleteVLRs, GetRecordsCount"]}
{"id": "C12", "title": "Standard record layouts", "statement": "For data formats 0,1,2,3 the schema has the LAS 1.2 fields in order at the specified byte/bit offsets, record lengths are 20, 28, 26, 34 bytes, and fields do not overlap.", "quantifier": "all four formats, any earlier schema state", "why_tests_cant": "layout must be independent of the history of format changes", "anchors": ["src/schema.cpp: update_required_dimensions, add_record0_dimensions, add_time, add_color, CalculateSizes"]}
{"id": "C13", "title": "Custom dimensions keep their place", "statement": "Adding custom dimensions after the standard ones gives each its own byte range following all previous ones, record length is the sum of sizes, and changing the data format keeps every custom dimension.", "quantifier": "all sequences of added dimensions and format changes", "why_tests_cant": "all histories", "anchors": ["src/schema.cpp: AddDimension, CalculateSizes, update_required_dimensions"]}
{"id": "C14", "title": "Rejected data format leaves header unchanged", "statement": "A data format that the library rejects with an exception leaves the header/schema as it was.", "quantifier": "all headers, all format ids", "why_tests_cant": "exception path, all prior states", "anchors": ["src/schema.cpp: SetDataFormatId", "src/header.cpp: SetDataFormatId"]}
{"id": "C15", "title": "Header block round trip", "statement": "Reading back a header block that the library wrote returns the same signature, source id, reserved, version, system id, software id, date, header size, data offset, format, record length, point count, per-return counts, scales, offsets and extents.", "quantifier": "all header values allowed by the setters (any bit pattern for the doubles), versions 1.1-1.2, formats 0-3", "why_tests_cant": "field values are unbounded combinations; an aliasing of two offsets shows only for specific values", "anchors": ["src/detail/writer/header.cpp: Header::write", "src/detail/reader/header.cpp: Header::ReadHeader"]}
{"id": "C16", "title": "Project id round trip", "statement": "The project GUID written in a file is the GUID read back.", "quantifier": "all GUIDs", "why_tests_cant": "symmetric GUIDs (e.g. nil) hide byte-order errors", "anchors": ["src/detail/writer/header.cpp:217-235", "src/detail/reader/header.cpp"]}
{"id": "C17", "title": "Header copies compare equal", "statement": "A copied header compares equal to its original.", "quantifier": "all headers", "why_tests_cant": "property of every object pair", "anchors": ["src/header.cpp: Header::operator=="]}
{"id": "C18", "title": "VLR block round trip", "statement": "Any list of VLRs written to a file is read back with the same user id, record id, description, reserved word, length and payload, in order, and reading consumes exactly the block size the header reports.", "quantifier": "all VLR lists whose declared length equals their payload size (< 65536)", "why_tests_cant": "all list lengths and payloads", "anchors": ["src/detail/writer/header.cpp: WriteVLRs", "src/detail/reader/header.cpp: ReadVLRs", "src/header.cpp: GetVLRBlockSize"]}
{"id": "C19", "title": "Point data offset", "statement": "A written header always has its point data offset at or after the end of the VLR block, so that point records never overlap header or VLRs.", "quantifier": "all headers and VLR lists, including ones with pre-existing padding", "why_tests_cant": "uint32 wrap-around and the history of VLR edits", "anchors": ["src/detail/writer/header.cpp:145-180"]}
{"id": "C20", "title": "Point count field", "statement": "Updating the point count of a file changes only the four bytes at offset 107, which then hold the number of points written, and leaves the stream positioned so that later points go where they should.", "quantifier": "all stream contents and counts", "why_tests_cant": "all file contents", "anchors": ["src/writer.cpp: Writer destructor", "src/detail/writer/writer.cpp: UpdatePointCount"]}
{"id": "C21", "title": "Written file layout", "statement": "After opening a writer on an empty stream, writing points p1..pn and closing, the file is header block, VLRs, padding, then exactly the n records in order; the count field is n.", "quantifier": "all n, all points, all headers", "why_tests_cant": "all sequences of writes", "anchors": ["src/detail/writer/writer.cpp", "src/detail/writer/point.cpp"]}
{"id": "C22", "title": "Write then read", "statement": "Reading a file produced by the writer yields exactly the points written, in order, and then end of data.", "quantifier": "all n, all points", "why_tests_cant": "composition of two state machines over all inputs", "anchors": ["src/writer.cpp", "src/reader.cpp"]}
{"id": "C23", "title": "Append", "statement": "Opening a writer on an existing file and writing m points preserves every byte of the file except the point count, places the m records at the end, and the count becomes old + m.", "quantifier": "all files and all m", "why_tests_cant": "all existing file contents", "anchors": ["src/detail/writer/header.cpp:86-130"]}
{"id": "C24", "title": "Unfiltered sequential reading", "statement": "Without filters, ReadNextPoint on a complete file returns records 1..n in order, then false forever; Reset starts over.", "quantifier": "all files, any number of calls", "why_tests_cant": "all call histories", "anchors": ["src/detail/reader/reader.cpp: ReadNextPoint, Reset"]}
{"id": "C25", "title": "Random access", "statement": "After any history of calls, ReadPointAt(i) returns record i for every i < n, and for i >= n reports an out-of-range error and changes nothing; Seek(i) makes the next sequential read return record i.", "quantifier": "all files, all i, all earlier histories of reads", "why_tests_cant": "all histories", "anchors": ["src/detail/reader/reader.cpp: ReadPointAt, Seek"]}
{"id": "C26", "title": "Random access does not disturb sequential reading", "statement": "Interleaving ReadPointAt with ReadNextPoint does not change the sequence ReadNextPoint returns.", "quantifier": "all interleavings", "why_tests_cant": "depends on the stream position hidden in the state", "anchors": ["src/detail/reader/reader.cpp: ReadPointAt, ReadNextPoint"]}
{"id": "C27", "title": "Filtered reading", "statement": "With filters installed, sequential reading returns exactly the points all filters accept, in file order, then false.", "quantifier": "all files, all filter functions", "why_tests_cant": "depends on the position of accepted/rejected points relative to the end of file", "anchors": ["src/detail/reader/reader.cpp: ReadNextPoint, FilterPoint"]}
{"id": "C28", "title": "Reader never returns data beyond the declared count", "statement": "Sequential reading never returns bytes that lie after the declared number of records.", "quantifier": "all files incl. trailing data, all filters", "why_tests_cant": "depends on run of rejected points at the end", "anchors": ["src/detail/reader/reader.cpp: ReadNextPoint"]}
{"id": "C29", "title": "Truncated files", "statement": "Reading a file truncated in the middle of the point data returns only complete records and then fails.", "quantifier": "all truncation points", "why_tests_cant": "all crash points", "anchors": ["include/liblas/detail/private_utility.hpp: read_n", "src/detail/reader/reader.cpp"]}
{"id": "C30", "title": "Cached reader equivalence", "statement": "A cached reader returns the same results as the plain reader for every sequence of ReadNextPoint, ReadPointAt, Seek and Reset calls.", "quantifier": "all cache sizes > 0, all files, all operation sequences", "why_tests_cant": "all histories; cache boundary cases", "anchors": ["src/detail/reader/cachedreader.cpp"]}
{"id": "C31", "title": "Malformed header rejection", "statement": "A header block with a wrong signature, bad version, a data offset smaller than the header, a bad compression bit or an unsupported format is rejected with an exception; the accepted headers are exactly the others.", "quantifier": "all header blocks", "why_tests_cant": "all byte strings", "anchors": ["src/detail/reader/header.cpp: ReadHeader"]}
{"id": "C32", "title": "Filters", "statement": "Inclusion filters accept exactly the points they describe: classification list and return list (an empty list restricts nothing), last-only, bounds, colour box, validation, value comparisons and their textual form; several filters together accept the points all of them accept.", "quantifier": "all points and filter parameters", "why_tests_cant": "all points", "anchors": ["src/filter.cpp", "include/liblas/filter.hpp"]}
{"id": "C33", "title": "Exclusion filters", "statement": "An exclusion filter accepts exactly the points the corresponding inclusion filter rejects.", "quantifier": "all points and filter parameters", "why_tests_cant": "all points", "anchors": ["src/filter.cpp"]}
{"id": "C34", "title": "Thinning", "statement": "A thinning filter with factor k (k >= 1), possibly after other filters, keeps of the points offered to it exactly those number k, 2k, 3k, ... (counted from 0): one in every k consecutive points, at a fixed phase.", "quantifier": "all sequences of points, all k >= 1", "why_tests_cant": "stateful filter: all histories", "anchors": ["src/filter.cpp: ThinFilter"]}
{"id": "C35", "title": "Bounds algebra", "statement": "Range/Bounds contains, overlaps, clip, grow, shift, equality behave as interval operations: clip is intersection, grow is the hull, contains is set inclusion, intersects is non-empty intersection.", "quantifier": "all ranges and bounds of any dimension", "why_tests_cant": "all values", "anchors": ["include/liblas/bounds.hpp"]}
{"id": "C36", "title": "Chipper partitions the points", "statement": "After chipping, every point of the file belongs to exactly one block.", "quantifier": "all point sets, all thresholds > 0", "why_tests_cant": "all point sets, sizes", "anchors": ["src/chipper.cpp"]}
{"id": "C37", "title": "Chipper block size", "statement": "No chip holds more points than the threshold, and block sizes are as balanced as the partition allows.", "quantifier": "all counts and thresholds", "why_tests_cant": "floating-point accumulation of partition boundaries", "anchors": ["src/chipper.cpp: Partition"]}
{"id": "C38", "title": "Chipper block bounds", "statement": "The bounds reported for a block are the exact minimum and maximum x/y of its points.", "quantifier": "all point sets", "why_tests_cant": "depends on sort order maintained through recursive splitting", "anchors": ["src/chipper.cpp: Emit"]}
{"id": "C39", "title": "Index cell point sets", "statement": "An index cell's run-length records represent exactly the set of point ids added to it, for any order and number of additions.", "quantifier": "all sequences of ids", "why_tests_cant": "run length limit 255, adjacency", "anchors": ["src/detail/index/indexcell.cpp", "src/index.cpp: BuildIndex"]}
{"id": "C40", "title": "Index temporary storage", "statement": "Cells purged to the temporary file any number of times are loaded back with exactly the records they held.", "quantifier": "all histories of purges", "why_tests_cant": "linked list in a file over all histories", "anchors": ["src/index.cpp: PurgePointsToTempFile, LoadCellFromTempFile"]}
{"id": "C41", "title": "Index VLR encoding", "statement": "The cells written to the index VLRs are decoded by the filter to the same point ids, for any cell contents and VLR continuation.", "quantifier": "all cells, including those larger than one VLR", "why_tests_cant": "65535-byte continuation boundary", "anchors": ["src/detail/index/indexoutput.cpp", "src/index.cpp: FilterOneVLR"]}
{"id": "C42", "title": "Index query completeness", "statement": "A query by bounds returns every point of the file inside the bounds and no other.", "quantifier": "all files, all query boxes", "why_tests_cant": "cell boundary arithmetic in floating point", "anchors": ["src/index.cpp: Filter, IdentifyCell, FilterOnePoint"]}
{"id": "C43", "title": "Translation transform", "statement": "A translation transform shifts the coordinates by the requested amounts, or throws when the stored integer would be at the representable limit.", "quantifier": "all points and parameter strings", "why_tests_cant": "all points", "anchors": ["src/transform.cpp: TranslationTransform"]}
{"id": "C44", "title": "Summary statistics", "statement": "After feeding points to a summary, the count, per-class, per-return counts and min/max attribute values are those of the multiset of points fed.", "quantifier": "all sequences of points", "why_tests_cant": "all histories", "anchors": ["src/utility.cpp: Summary::AddPoint"]}
{"id": "C45", "title": "Header text fields", "statement": "System id, software id and file signature setters accept exactly strings within their limit and read back what was set up to the first NUL; rejected values leave the header unchanged; padded reads have fixed length.", "quantifier": "all strings", "why_tests_cant": "all strings", "anchors": ["src/header.cpp: SetSystemId, SetSoftwareId, SetFileSignature"]}
{"id": "C46", "title": "Reset leaves the header as after opening", "statement": "After any number of Reset calls the header (including its VLR list) is the one obtained by opening the file.", "quantifier": "every file, every number of Reset calls", "why_tests_cant": "needs all files and all histories of resets", "anchors": ["src/detail/reader/reader.cpp ReaderImpl::Reset/ReadHeader", "src/detail/reader/header.cpp Header::ReadVLRs", "src/header.cpp Header::AddVLR"]}
{"id": "C47", "title": "Writing the header again keeps the points", "statement": "Calling WriteHeader again after points were written (for instance to store updated extents) keeps the number of points and the place where the next point goes.", "quantifier": "every header, every list of points written before the call", "why_tests_cant": "must hold for every number of points and every header", "anchors": ["src/writer.cpp Writer::WriteHeader", "src/detail/writer/header.cpp Header::write", "src/detail/writer/writer.cpp WriterImpl::WriteHeader"]}
{"id": "C48", "title": "Truncated header rejection", "statement": "A file that ends inside its public header block is never accepted.", "quantifier": "every byte string shorter than 227 bytes", "why_tests_cant": "all truncation points and all contents", "anchors": ["src/detail/reader/header.cpp Header::ReadHeader", "include/liblas/detail/private_utility.hpp read_n"]}
{"id": "C49", "title": "Paging through a box query", "statement": "An index iterator over a box query returns, call by call, consecutive chunks of the list the same query returns without an iterator: operator()(n) gives the chunk that starts at answer n, advance(1) the next one, jumps forwards and backwards land where they say, advancing by one until nothing comes yields every answer exactly once and in order, and no chunk is longer than the chunk size.", "quantifier": "every file with an index, every box, every chunk size, every history of calls", "why_tests_cant": "all positions at which a chunk can end (within a run, a sub-cell, a cell, a VLR) and all histories of jumps", "anchors": ["src/index.cpp: Index::Filter, FilterOneVLR, FilterPointSeries, IndexIterator::operator(), IndexIterator::advance, ResetPosition"]}
{"id": "C50", "title": "Georeferencing records of an opened file", "statement": "After opening a file, the spatial reference of the header holds exactly the variable length records of the file that carry georeferencing (user id LASF_Projection with number 34735, 34736 or 34737, or user id liblas with number 2112), in file order, and the header keeps all VLRs.", "quantifier": "every well-formed file without a schema VLR", "why_tests_cant": "all files and all combinations of VLRs", "anchors": ["src/detail/reader/header.cpp: Header::ReadVLRs", "src/spatialreference.cpp: IsGeoVLR, SetVLRs"]}
{"id": "C51", "title": "SetDimension", "statement": "Schema::SetDimension replaces exactly the dimension of that name, is read back by GetDimension, leaves every other dimension alone, and throws for an unknown name; the record length follows the sizes of the dimensions.", "quantifier": "every schema and every dimension", "why_tests_cant": "all schemas", "anchors": ["src/schema.cpp: Schema::SetDimension"]}
{"id": "C52", "title": "Iterators over readers and writers", "statement": "A loop from a reader iterator to the past-the-end iterator visits every record of the file exactly once and in file order; dereferencing gives the record the iterator stands on, an iterator keeps its record when it is copied or post-incremented, iterators are equal exactly when they stand on the same record, and std::copy from a reader iterator to a writer iterator produces a file with the same records. The iterator over the matches of an index visits them.", "quantifier": "every number of files, every file, every history of iterator operations", "why_tests_cant": "all histories of begin, copy, pre- and post-increment, dereference and comparison, over all files", "anchors": ["include/liblas/iterator.hpp: reader_iterator, writer_iterator, index_filter_iterator"]}
{"id": "C53", "title": "Rewriting a file", "statement": "Opening a file, creating a writer on a new stream with the reader's header, copying all points and closing gives a file with the same header values, the same project id, the same VLRs, the same records and the same length; doing so again and again changes nothing further.", "quantifier": "every file of a standard record layout, every number of rewrites", "why_tests_cant": "all header values, VLR lists, gaps between VLRs and records, and all numbers of repetitions", "anchors": ["src/detail/writer/header.cpp: Header::write, WriteLAS10PadSignature", "src/detail/reader/header.cpp: Header::ReadHeader", "src/writer.cpp: Writer::WritePoint", "include/liblas/iterator.hpp: writer_iterator"]}
{"id": "C54", "title": "Custom record layouts survive writing and reading", "statement": "A file written with a record layout that has fields of the user's own (Schema::AddDimension) and reopened has the same layout: the same field names, sizes, order and offsets; and every record comes back unchanged.", "quantifier": "every schema, every header, every sequence of points, every XML printer and parser that are inverse to each other", "why_tests_cant": "all layouts and point sequences; no unit test writes a custom layout", "anchors": ["src/schema.cpp: Schema::GetVLR, GetPTree, LoadDimensions, Schema(std::vector<VariableRecord> const&)", "src/dimension.cpp: Dimension::GetPTree", "src/detail/reader/header.cpp: Header::ReadVLRs", "include/liblas/external/property_tree/stream_translator.hpp"]}
{"id": "C55", "title": "Writing a file with a custom layout finishes", "statement": "Listing a schema on a stream, which the writer does on the standard output for every custom layout, takes an amount of work bounded by the number of fields, whatever the field names are.", "quantifier": "every schema and every field name", "why_tests_cant": "all name lengths; no test lists a name of more than 28 characters", "anchors": ["src/dimension.cpp: operator<<", "src/detail/writer/header.cpp: Header::write"]}
{"id": "C56", "title": "A saved index is found again and answers queries", "statement": "After Index::Prep has built an index of a LAS file and saved it (into a copy of the file, or into a file of its own), the copy has the same header values, other VLRs and point records; opening it again finds the index and accepts it, and Filter returns, for every box that meets the file, exactly the points in the box (up to rounding at its border). Building an index again replaces the old one.", "quantifier": "every file, every index parameter, every query box", "why_tests_cant": "all files and boxes; the index tests only look at a few sample files and never build twice", "anchors": ["src/index.cpp: Index::IndexInit, FindIndex, ClearOldIndex, ValidateIndex, BuildIndex, SaveIndexInLASFile, SaveIndexInStandAloneFile, LoadIndexVLR, Filter", "src/header.cpp: Header::AddVLR, DeleteVLR", "src/writer.cpp, src/reader.cpp"]}
{"id": "C57", "title": "C API: how a call ends", "statement": "Every C API function either does its work and reports nothing, or leaves exactly one new error that names the function, returns its documented failure value and changes no object; a setter fails exactly on the values the library refuses; no C++ exception leaves a call; a null handle is reported.", "quantifier": "every call with every argument in every state", "why_tests_cant": "all argument values and states; tests call each function a few times with good arguments", "anchors": ["src/c_api.cpp"]}
{"id": "C58", "title": "C API: the error stack", "statement": "Errors stay, newest on top, until they are popped or reset; the last error is the one of the last failed call; LASError_Reset clears them all.", "quantifier": "every history of calls", "why_tests_cant": "all histories of failing and succeeding calls", "anchors": ["src/c_api.cpp: LASError_*"]}
{"id": "C59", "title": "C API: what is set can be got back", "statement": "After a successful LASVLR_Set.., LASHeader_Set.. or LASPoint_Set.. with a value of the argument's type, the matching getter returns the value (coordinates within their resolution), and every other getter on the object answers as before; a VLR added to a header is its last and the record count goes up by one.", "quantifier": "every attribute, value, object and reachable state", "why_tests_cant": "all values, all pairs of setter and getter", "anchors": ["src/c_api.cpp: LASVLR_*, LASHeader_*, LASPoint_*"]}
{"id": "C60", "title": "C API: safe for careful callers, no side effects", "statement": "A program that passes live handles (or null), valid buffers, and does not destroy or reformat a header a point still uses never crashes; a call changes at most the one object it is meant to change.", "quantifier": "every sequence of calls on any number of objects", "why_tests_cant": "all interleavings of calls and objects", "anchors": ["src/c_api.cpp"]}
{"id": "C61", "title": "C API: reading a file", "statement": "LASReader_GetNextPoint, GetPointAt and Seek give the points and answers of the C++ reader; GetNextPoint until NULL gives every record once, in order, without an error. A point handle keeps denoting the point it was returned for.", "quantifier": "every file with the standard layout, every history of requests, any number of other open objects", "why_tests_cant": "all files and request histories", "anchors": ["src/c_api.cpp: LASReader_*"]}
{"id": "C62", "title": "las2las copies the points it is asked to copy", "statement": "Without a split option las2las writes one file that holds exactly the points the input delivers through the chosen filter, byte for byte and in their order, the input's variable length records, the input's header values, the number of points written, and the bounds and return counts of the points written; the bounds in the header contain every point.", "quantifier": "every input file of the standard layout (with or without bytes between VLRs and points), every filter predicate", "why_tests_cant": "all files, all scalings, all filters; the bounds pass through decimal text", "anchors": ["apps/las2las.cpp: process, main", "apps/laskernel.cpp: RepairHeader, check_headers", "src/utility.cpp", "src/writer.cpp"]}
{"id": "C63", "title": "las2las splits without losing points", "statement": "With split-mb or split-pts las2las writes files that together hold exactly the delivered points in order, no file larger than asked, each with the header values, bounds and return counts of its own points.", "quantifier": "every input file of the standard layout, every filter predicate, every split parameter", "why_tests_cant": "every file size relative to every limit, arithmetic in 32 bits", "anchors": ["apps/las2las.cpp: process"]}
{"id": "C64", "title": "lasblock puts every point in one tile", "statement": "lasblock --write-points -c N writes ceil(n/N) files that together hold every point of the input, byte for byte, exactly as often as it occurs there; no file is empty or has more than N points; each file has the input's header values and VLRs and the bounds, point count and return counts of its own points, and its bounds contain its points.", "quantifier": "every input file of the standard layout, every capacity, every correct std::sort", "why_tests_cant": "all files, all point distributions, all capacities; composition of reader, chipper, writer and header repair", "anchors": ["apps/lasblock.cpp: write_tiles, main", "src/chipper.cpp", "apps/laskernel.cpp: RepairHeader"]}
{"id": "C65", "title": "C API: writing a file", "statement": "A file written with LASWriter_Create, LASWriter_WritePoint and LASWriter_Destroy holds exactly the bytes the C++ writer writes from the header as it was at LASWriter_Create and the points as they were at each LASWriter_WritePoint, whatever other calls (on the header, the points, other writers) come in between; the calls succeed whenever the C++ writer does; a call that fails reports itself once and changes no other writer or file; a writer or file that cannot be opened, a null handle or a point that does not fit is reported.", "quantifier": "every interleaving of C API calls, every header, every sequence of points, write and append mode", "why_tests_cant": "all call sequences over any number of handles", "anchors": ["src/c_api.cpp: LASWriter_Create, LASWriter_WritePoint, LASWriter_WriteHeader, LASWriter_WriteOwnedHeader, LASWriter_SetHeader, LASWriter_Destroy, LASWriter_GetHeader", "include/liblas/liblas.hpp: Create, Cleanup", "src/detail/writer/writer.cpp", "src/detail/writer/point.cpp"]}
{"id": "C66", "title": "C API: write, then read", "statement": "Points written with LASWriter_WritePoint to a new file and read back with LASReader_GetNextPoint come back in order with the same record bytes, followed by NULL, and no call reports an error.", "quantifier": "every header a file can be written from, every sequence of points, every state of the program", "why_tests_cant": "all headers and point sequences, any other live objects", "anchors": ["src/c_api.cpp: LASWriter_Create, LASWriter_WritePoint, LASWriter_Destroy, LASReader_Create, LASReader_GetNextPoint, LASPoint_GetData"]}
{"id": "C67", "title": "ts2las converts every point", "statement": "ts2las turns a TerraSolid .bin file with n points into a LAS 1.2 file with exactly n points, in the same order, of format 0-3 according to the time and colour flags; raw coordinates, classification, intensity, time (in steps of 0.0002 s), colour and echo (as return number/number of returns) are those of the .bin record; scale is 1/Units and offset -Org*scale. A file of another kind or an unknown version is refused with status 1. A truncated .bin file yields the points that are there.", "quantifier": "every byte sequence given as input", "why_tests_cant": "all files, all numbers of points, every place where a file can end", "anchors": ["apps/ts2las.cpp: ReadHeader, CreateHeader, WritePoints, main", "apps/ts2las.hpp: ScanHdr, ScanPnt, ScanRow, read_n", "include/liblas/detail/private_utility.hpp: read_n, check_stream_state"]}
{"id": "C68", "title": "SHA-1 digests", "statement": "A SHA1 object fed any sequence of chunks of bytes returns from getDigest the FIPS 180-4 SHA-1 digest of their concatenation, however the bytes are cut into chunks and whatever the uninitialised buffer held. Asking again gives the same digest.", "quantifier": "every message, every cutting into chunks, every initial buffer content", "why_tests_cant": "all messages and all cuttings; test vectors cover finitely many", "anchors": ["src/detail/sha1.cpp: SHA1::addBytes, process, getDigest, lrot, storeBigEndianUint32", "include/liblas/detail/sha1.hpp"]}
{"id": "C69", "title": "las2col's columns under every thread schedule", "statement": "Whatever the scheduling of las2col's reader and writer threads, every column file holds the values of every input file exactly once, in the order of the command line, all columns in the same order; the program ends, and no thread touches a freed buffer or a destroyed mutex.", "quantifier": "every number of files, threads and columns, every schedule, every pattern of unreadable files, spurious wakeups included for safety", "why_tests_cant": "schedules cannot be enumerated by running; the lost wakeup needs a particular interleaving", "anchors": ["apps/las2col.c: main, readFile, writeFile, the dataLock mutex and its condition variables"]}
{"id": "C70", "title": "las2col's column contents", "statement": "For every LAS file and every --parse string of known letters, las2col's column for a letter holds exactly one cell per point of the file, in file order: the record's field (or, for X/Y/Z, the coordinate; for k, the Morton code interleaving the bits of x and y shifted by the global offset). Points skipped by --skip_invalid are left out and change no other cell; a letter that is no column is rejected; a file with fewer points than it declares yields no made-up values; --moffset sets the offset.", "quantifier": "every standard LAS file, every non-empty --parse string up to the program's 21 entries, every global offset that fits, every malloc content", "why_tests_cant": "must hold for every file, every combination of letters and every content of the memory malloc returns", "anchors": ["apps/las2col.c: readFile, Expand1, morton2D_encodeOscar, S64, main (the --parse switch)"]}
{"id": "C71", "title": "las2txt prints the points of the file", "statement": "For every LAS file and every --parse string, las2txt writes one line for each point the reader delivers, in file order and nothing else; each line has one field per letter, separated by the delimiter, and each field is the decimal notation of that field of that record (coordinates and times are the nearest decimals of the chosen precision). With --labels exactly one header line comes first. The default precision suffices to print the file's coordinates without loss; the table can be split back into exactly its fields; filters remove exactly the rejected points; any output name is written to.", "quantifier": "every standard LAS file, every parse string, delimiter, precision, labels flag, stateless filter, and every log10 accurate to 2^-40", "why_tests_cant": "must hold for every point record, every double (rounding of every value) and every combination of options", "anchors": ["apps/las2txt.cpp: GetPointString, GetLabels, write_points, main", "src/utility.cpp: GetStreamPrecision", "src/classification.cpp: GetClassName"]}
{"id": "C72", "title": "txt2las writes the rows of the table", "statement": "For every text that is a table (rows of columns separated by blanks, commas or tabs, each column a number its field can hold), every --parse string naming the columns and every scale and offset that can hold the coordinates, txt2las writes a LAS file that the reader accepts: one record per row, in the order of the text, with each named field holding the column's number (coordinates rounded to the nearest multiple of the scale, unnamed fields zero), the smallest point format with the named fields, the scale and offset that were asked for and correct counts by return. Text printed by las2txt is read back to the same raw coordinates and fields. The header's bounding box holds the points, lines of any length are one row, letters that are not columns of the format are reported, and no option makes the program access memory out of bounds.", "quantifier": "all tables (any number of rows and columns, any decimal texts in range), all parse strings containing x, y and z, all separators, scales and offsets, all standard files for the round trip", "why_tests_cant": "Decimal texts, scales and offsets are unbounded and the rounding of a coordinate depends on all of them; whether every row of every table is stored, and whether printing and reading compose to the identity, is a statement about all texts and all files.", "anchors": ["apps/txt2las.c:parse", "apps/txt2las.c:main", "src/c_api.cpp:LASPoint_SetX", "src/c_api.cpp:LASWriter_WritePoint", "apps/las2txt.cpp:write_points"]}
{"id": "C73", "title": "Filter options select the points they describe", "statement": "For every combination of the filtering options of las2las, las2txt, lasinfo and ts2las (--keep/drop-classes, --keep/drop-returns, --extent, --minx ... --maxz, --keep/drop-intensity, -scan-angle, -time, -color, --thin, --first/last-return-only, --valid_only), the program delivers exactly the points that satisfy every given condition as the help text words it, in file order; a text that does not have the documented form is reported, and no option text makes the program access memory out of bounds.", "quantifier": "all option values and texts (any lists, numerals of any length, boxes), all combinations of options, all sequences of points and all files", "why_tests_cant": "The options combine freely and each takes an unbounded set of texts; that the selection is the conjunction of the conditions is a statement about all combinations, all texts and all points.", "anchors": ["apps/laskernel.cpp:GetFilters", "apps/laskernel.cpp:IsDualRangeFilter", "apps/laskernel.cpp:MakeIntensityFilter", "include/liblas/filter.hpp:ContinuousValueFilter", "src/filter.cpp:ReturnFilter::filter"]}
{"id": "C74", "title": "Header options of las2las change exactly what they name", "statement": "For every combination of the header-modification options of las2las (--offset, --scale, --file-format, --point-format, --pad-header, --file-creation, --delete-vlr, --add-vlr, --software-identifier, --system-identifier) with texts of the documented form, the new file has exactly the requested values, every header value and VLR not named stays as it was, and the delivered points keep the attributes and coordinates they had, as far as the new format has them; no such run accesses memory out of bounds, and a text that does not have the documented form is reported.", "quantifier": "all option texts and combinations, all well-formed input files of the supported kind, all filters", "why_tests_cant": "Options combine freely with each other and with every file layout (versions, VLR lists, gaps, formats); that nothing else changes is a statement about all of them.", "anchors": ["apps/laskernel.cpp:GetTransforms", "apps/las2las.cpp:main", "src/detail/writer/header.cpp:write"]}
{"id": "C75", "title": "Point transforms of las2las act once on exactly the delivered points", "statement": "A program reading with point transforms installed sees the same records, in the same order, as without, each changed once by the transforms in the order of the command line, with the filters deciding on the untransformed point; las2las --point-translate and --fix-optech-scan-angle write exactly these records, count and summarise them, and leave the header values and VLRs alone; --fix-optech-scan-angle changes nothing but the scan angle, which becomes the nearest integer to 1.944445 times the old one, limited to -128..127; a point that is not delivered has no effect.", "quantifier": "all well-formed input files of the supported kind, all filters, all translation expressions, all point values, all split sizes", "why_tests_cant": "Filters, end of file, reading position and transforms interact in the reader's loop; that every point is transformed exactly once is a statement about all files and filters.", "anchors": ["src/detail/reader/reader.cpp:TransformPoint", "src/detail/reader/reader.cpp:ReadNextPoint", "apps/laskernel.cpp:OptechScanAngleFixer", "src/transform.cpp:TranslationTransform::transform", "apps/las2las.cpp:process"]}
{"id": "C76", "title": "lasinfo reports the points that are there", "statement": "lasinfo's point inspection of a readable file prints the declared number of points, the number of points the filters let through, for every attribute the smallest and largest value over exactly these points, the histogram of return numbers, of returns per pulse and of classes, and the number of withheld, key and synthetic points; coordinates and times are printed to the stated decimals; a file without such points gives the notice that there are none; --point N prints the values of record N, and for an N outside the file prints nothing and fails.", "quantifier": "every valid LAS file (any number of records and VLRs, formats 0-3, v1.0-1.2, any sane scaling), every stateless filter, every record index, every std::log10 accurate to 2^-40", "why_tests_cant": "Tests compare the listing of a few sample files; that each extreme, each count and each line is right for every file, and that no summary is read through a header that has been destroyed, is a statement about all histories of points.", "anchors": ["apps/lasinfo.cpp: check_points, main", "src/utility.cpp: Summary::AddPoint, Summary::operator=, Summary::GetPTree, operator<<(std::ostream&, Summary const&)", "src/point.cpp: Point::GetPTree, operator<<(std::ostream&, Point const&)"]}
{"id": "C77", "title": "las2las --min-offset moves no point", "statement": "las2las --min-offset writes exactly the delivered points in their order, with the smallest coordinate of each axis (16 digits) as the new offset: every attribute but the raw coordinates is unchanged, every point stays where it was to within half a scale step and a rounding error, and header values, VLRs, number of points, bounds and return counts are those of the points; without any point the run fails and writes no file.", "quantifier": "every standard LAS file that las2las can copy (at most two bytes before the records, C62; any number of records and VLRs, formats 0-3, v1.0-1.2, any sane scaling with |offset| up to 2^48 steps and a span below 2^31 steps), every stateless filter, new offsets equal to the old ones or visibly different", "why_tests_cant": "Tests shift one sample; that re-quantising every record of every file against a text-rounded minimum never leaves the 32-bit range and never moves a point is a statement about all files.", "anchors": ["apps/las2las.cpp: process (min_offset)", "apps/laskernel.cpp: SummarizeReader, RepairHeader", "src/point.cpp: Point::SetHeader"]}
{"id": "C78", "title": "A writer applies its filters and transforms", "statement": "For every history of SetFilters, SetTransforms, WritePoint and WriteHeader calls on a Writer, the file holds exactly the points all filters set at that time accept, each turned by the transforms set at that time, in order; GetFilters and GetTransforms return what was set last.", "quantifier": "every header, every schema rendering, every old content of the stream, every history of calls of any length, every filter and every transform (also one that throws)", "why_tests_cant": "A test tries one filter and one point; that no history of setters ever changes a byte of any file is a statement about all histories.", "anchors": ["src/writer.cpp: Writer::SetFilters, GetFilters, SetTransforms, GetTransforms, WritePoint, WriteHeader", "src/detail/writer/writer.cpp: WriterImpl::SetFilters, SetTransforms, WritePoint", "include/liblas/writer.hpp: Writer::SetFilters, SetTransforms", "src/c_api.cpp: LASWriter_SetOutputSRS, LASWriter_SetSRS"]}
{"id": "C79", "title": "A spatial reference keeps what it is given", "statement": "For every history of SetVLRs, AddVLR, ClearVLRs, ResetVLRs, SetWKT, SetProj4, SetVerticalCS, SetFromUserInput and assignments on a SpatialReference (build without GDAL and libgeotiff): it only ever holds georeferencing records, clearing one kind takes away exactly that kind, a WKT that is set can be got back and stands in one record, copies are equal, a refused call changes nothing, a definition that is not understood is reported and costs nothing, and whatever the reference holds is in every file written from a header it was set on and is read back from it.", "quantifier": "every history of calls of any length, every list of records, every text, every header and list of points a file can be written from", "why_tests_cant": "A test sets one WKT; that no history of calls smuggles in or loses a record, and that every file brings the reference back, are statements about all histories and files.", "anchors": ["src/spatialreference.cpp: SpatialReference::SetVLRs, AddVLR, IsGeoVLR, ClearVLRs, ResetVLRs, SetWKT, SetProj4, operator=", "src/header.cpp: Header::SetSRS, GetSRS, SetGeoreference", "src/c_api.cpp: LASSRS_AddVLR, LASSRS_SetWKT, LASSRS_SetProj4"]}
{"id": "C80", "title": "Factories make the same readers", "statement": "For every stream that is readable, wherever it stands, ReaderFactory::CreateWithStream (CreateCached) makes a reader exactly when Reader(stream) (a cached reader) can open the stream's bytes, and it is the same reader in every respect; a file asking for compression, or failing a header check, never gets a reader in a build without LASzip; opening does not depend on how much of the stream was read before; and InferFileTypeFromExtension says LAS (LAZ) exactly for names that end in .las (.laz) in small or capital letters.", "quantifier": "every file content of any length, every position and state of the stream, every day, every cache size, every schema parser, every name of any length", "why_tests_cant": "A test opens a few fresh streams and checks a few names; that no file content, stream position or name makes the factory's reader differ is a statement about all of them.", "anchors": ["src/factory.cpp: ReaderFactory::CreateWithStream, ReaderFactory::CreateCached, WriterFactory::InferFileTypeFromExtension", "src/detail/reader/header.cpp: Header::ReadHeader", "src/detail/reader/reader.cpp: ReaderImpl::ReadHeader"]}
