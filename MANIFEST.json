{
 "claims": [
  {
   "property": "C01",
   "status": "proved",
   "theorems": [
    "C01_set_get_frame",
    "C01_set_color_frame",
    "C01_history",
    "C01_fresh_point",
    "C01_layout"
   ],
   "note": ""
  },
  {
   "property": "C02",
   "status": "proved",
   "theorems": [
    "C02_flag_byte",
    "C02_any_argument"
   ],
   "note": ""
  },
  {
   "property": "C03",
   "status": "proved",
   "theorems": [
    "C03_step",
    "C03_history",
    "C03_read",
    "C03_every_byte",
    "C03_constructor"
   ],
   "note": ""
  },
  {
   "property": "C04",
   "status": "proved",
   "theorems": [
    "C04_time_absent",
    "C04_color_absent",
    "C04_time_present",
    "C04_fields_disjoint"
   ],
   "note": ""
  },
  {
   "property": "C05",
   "status": "proved",
   "theorems": [
    "C05_round_trip",
    "C05_raw_values",
    "C05_offset_refuted"
   ],
   "note": "get then set is the identity on the whole record for scales of magnitude 2^-900..2^900 and |offset| <= 2^50 |scale|; fails at |offset| = 2^53 |scale| (refuted witness)"
  },
  {
   "property": "C06",
   "status": "proved",
   "theorems": [
    "C06_quantisation",
    "C06_out_of_range",
    "C06_overflow_refuted"
   ],
   "note": "error at most |s|(1/2+2^-17) + 2^-53 |offset|; out of range is undefined behaviour (exact result)"
  },
  {
   "property": "C07",
   "status": "partial",
   "theorems": [
    "C07_attributes",
    "C07_custom_bytes",
    "C07_headers",
    "C07_same_length_refuted",
    "C07_custom_refuted"
   ],
   "note": "full statement proved except: equal record lengths with the attribute at another place (refuted), custom dimensions (refuted)"
  },
  {
   "property": "C08",
   "status": "partial",
   "theorems": [
    "C08_world_coordinates",
    "C08_zero_record_refuted",
    "C08_small_scales_refuted"
   ],
   "note": "proved for non-zero records whose scaling is the same or differs by at least 2^-51; false otherwise (witnesses)"
  },
  {
   "property": "C09",
   "status": "proved",
   "theorems": [
    "C09_roundtrip",
    "C09_little_image",
    "C09_big_image",
    "C09_little_load",
    "C09_load_out_of_bounds",
    "C09_big_endian_host_refuted"
   ],
   "note": "little-endian host; the big-endian-host variant of the code is refuted by C09_big_endian_host_refuted"
  },
  {
   "property": "C10",
   "status": "proved",
   "theorems": [
    "C10_user_id",
    "C10_description",
    "C10_total_size",
    "C10_equality",
    "C10_equality_sees_payload_refuted"
   ],
   "note": "text fields and sizes; additionally equality is shown to ignore the payload"
  },
  {
   "property": "C11",
   "status": "proved",
   "theorems": [
    "C11_history",
    "C11_step",
    "C11_block_size",
    "C11_set_records_count_refuted"
   ],
   "note": "the block size needs the count to match, which the public SetRecordsCount can break (refuted part)"
  },
  {
   "property": "C12",
   "status": "partial",
   "theorems": [
    "C12_standard_layout",
    "C12_fresh",
    "C12_bit_offsets_refuted"
   ],
   "note": "byte offsets and lengths proved; reported bit offsets are wrong in the code (refuted)"
  },
  {
   "property": "C13",
   "status": "proved",
   "theorems": [
    "C13_history",
    "C13_disjoint",
    "C13_any_size_refuted",
    "C13_remove_by_name_refuted"
   ],
   "note": "whole-byte custom dimensions with fresh names, fewer than 2^29 operations; without these conditions the property is false (refuted theorems)"
  },
  {
   "property": "C14",
   "status": "partial",
   "theorems": [
    "C14_rejected_format_characterised",
    "C14_unchanged_on_rejection_refuted"
   ],
   "note": "property is false of the code; what happens instead is proved for all headers and formats"
  },
  {
   "property": "C15",
   "status": "partial",
   "theorems": [
    "C15_header_roundtrip",
    "C15_version_1_0",
    "C15_source_id_refuted"
   ],
   "note": "proved for versions 1.1-1.3; for version 1.0 the source id is lost (exact result and refutation)"
  },
  {
   "property": "C16",
   "status": "partial",
   "theorems": [
    "C16_guid_exact",
    "C16_guid_roundtrip_refuted"
   ],
   "note": "property is false of the code: GUID fields are byte-swapped on writing only; exact result proved"
  },
  {
   "property": "C17",
   "status": "partial",
   "theorems": [
    "C17_copy_equality_refuted"
   ],
   "note": "property is false of the code for every header"
  },
  {
   "property": "C18",
   "status": "proved",
   "theorems": [
    "C18_vlr_roundtrip"
   ],
   "note": "headers without a schema VLR, block below 2^31 bytes; the VLRs written are those of written_vlrs (IO_Spec.v)"
  },
  {
   "property": "C19",
   "status": "partial",
   "theorems": [
    "C19_data_offset",
    "C19_header_overlap_refuted"
   ],
   "note": "offset at or after the VLR block for every new file; header sizes below 227 overlap the header block (refuted part)"
  },
  {
   "property": "C20",
   "status": "partial",
   "theorems": [
    "C20_count_field",
    "C20_closed_file",
    "C20_next_point_refuted"
   ],
   "note": "count field and closing proved; the stream position after an update is wrong (refuted part)"
  },
  {
   "property": "C21",
   "status": "proved",
   "theorems": [
    "C21_layout"
   ],
   "note": ""
  },
  {
   "property": "C22",
   "status": "proved",
   "theorems": [
    "C22_write_then_read"
   ],
   "note": ""
  },
  {
   "property": "C23",
   "status": "partial",
   "theorems": [
    "C23_append_partial",
    "C23_records_partial",
    "C23_bytes_preserved_refuted",
    "C23_trailing_bytes_refuted"
   ],
   "note": "everything after the header block, the header values and the record positions are proved; byte-exact preservation of the header block is false"
  },
  {
   "property": "C24",
   "status": "proved",
   "theorems": [
    "C24_sequential"
   ],
   "note": ""
  },
  {
   "property": "C25",
   "status": "proved",
   "theorems": [
    "C25_random_access"
   ],
   "note": ""
  },
  {
   "property": "C26",
   "status": "partial",
   "theorems": [
    "C26_interleaving_exact",
    "C26_undisturbed_refuted"
   ],
   "note": "property is false of the code; the exact behaviour of every history is proved for files ending with their last record"
  },
  {
   "property": "C27",
   "status": "partial",
   "theorems": [
    "C27_filtered_exact",
    "C27_all_accepted_refuted"
   ],
   "note": "property is false of the code for an accepted last record after two rejected ones; exact result proved for every stateless filter"
  },
  {
   "property": "C28",
   "status": "partial",
   "theorems": [
    "C28_sequential",
    "C28_filtered_refuted",
    "C28_after_random_access_refuted"
   ],
   "note": "proved without filters and random access, false with them"
  },
  {
   "property": "C29",
   "status": "partial",
   "theorems": [
    "C29_truncated_exact",
    "C29_complete_records_only_refuted"
   ],
   "note": "property is false: one point made of left-over bytes is returned; exact result proved"
  },
  {
   "property": "C30",
   "status": "partial",
   "theorems": [
    "C30_exact",
    "C30_equivalent_partial",
    "C30_read_at_then_next_refuted",
    "C30_seek_end_refuted",
    "C30_seek_reset_refuted",
    "C30_seek_past_end_refuted",
    "C30_filtered_refuted"
   ],
   "note": "Exact behaviour of the cached reader for every cache size and every history that does not seek past the end; equal to the plain reader on ReadNextPoint/Seek/Reset histories without a Reset between a Seek and the first read. Missing because false (witnesses): ReadPointAt mixed with ReadNextPoint, Seek to or past the end, early Seek and Reset, filters."
  },
  {
   "property": "C31",
   "status": "proved",
   "theorems": [
    "C31_rejected",
    "C31_accepted"
   ],
   "note": "header block complete (see C48 for shorter files) and VLR block present, no schema VLR"
  },
  {
   "property": "C32",
   "status": "partial",
   "theorems": [
    "C32_classification",
    "C32_returns",
    "C32_last_return",
    "C32_validation",
    "C32_color",
    "C32_bounds2",
    "C32_bounds3",
    "C32_value",
    "C32_expression",
    "C32_filters_conjoin",
    "C32_color6_exact",
    "C32_read_classes_partial"
   ],
   "note": "Proved for every well-formed point and every list/box/limit. The six-number colour constructor exchanges the green and blue upper limits (C32_color6_exact), and a 3-d bounds without height ignores z (C35_flat_bounds_refuted), so the property as stated fails there."
  },
  {
   "property": "C33",
   "status": "partial",
   "theorems": [
    "C33_color_exclusion",
    "C33_value_exclusion",
    "C33_list_exclusion_exact_refuted",
    "C33_other_exclusion_exact_refuted",
    "C33_exclusion_is_complement_refuted"
   ],
   "note": "True for colour and value filters; false for classification, return, last-only, validation and bounds filters, whose exact behaviour in exclusion mode is proved."
  },
  {
   "property": "C34",
   "status": "proved",
   "theorems": [
    "C34_thinning",
    "C34_thinning_count",
    "C34_factor_one_refuted"
   ],
   "note": "For every factor in [1,2^32), every list of stateless filters before it and every point sequence; factor 1 drops the first point."
  },
  {
   "property": "C35",
   "status": "partial",
   "theorems": [
    "C35_contains_value",
    "C35_contains_range",
    "C35_clip_range",
    "C35_grow_range",
    "C35_grow_value",
    "C35_overlaps_range",
    "C35_shift_range",
    "C35_scale_range",
    "C35_clip_bounds",
    "C35_grow_bounds",
    "C35_contains_bounds",
    "C35_intersects_partial",
    "C35_contains_point",
    "C35_set_get",
    "C35_overlap_is_common_point_refuted",
    "C35_intersects_refuted",
    "C35_grow_from_empty_refuted",
    "C35_volume_refuted",
    "C35_equal_symmetric_refuted",
    "C35_negative_scale_refuted",
    "C35_flat_bounds_refuted"
   ],
   "note": "Contains, clip, grow, shift are the interval operations for finite ranges; overlap, intersects, volume, grow from empty, equality across dimensions are not (witnesses)."
  },
  {
   "property": "C36",
   "status": "partial",
   "theorems": [
    "C36_every_point_in_one_block_partial",
    "C36_point_in_exactly_one_block_partial",
    "C36_empty_file_refuted",
    "C36_huge_file_refuted"
   ],
   "note": "proved for every correct std::sort, both modes (sorting, copying), finite coordinates, 1 <= n < 2^32 points, threshold > 0 and n * number of blocks <= 2^50; refuted for the empty file (undefined behaviour) and for 2^32-6 points in blocks of 512 (boundary drift loses a point); NaN coordinates (undefined behaviour of std::sort) not covered"
  },
  {
   "property": "C37",
   "status": "partial",
   "theorems": [
    "C37_block_sizes_partial",
    "C37_zero_threshold_refuted",
    "C36_huge_file_refuted"
   ],
   "note": "same runs as C36: ceil(n/threshold) blocks, none empty or above the threshold, sizes differing by at most one; threshold 0 divides by zero"
  },
  {
   "property": "C38",
   "status": "partial",
   "theorems": [
    "C38_exact_bounds_partial"
   ],
   "note": "same runs as C36; the bounds are attained and not exceeded by the points of the block"
  },
  {
   "property": "C39",
   "status": "partial",
   "theorems": [
    "C39_records_partial",
    "C39_rejoin_refuted",
    "C39_add_again_refuted"
   ],
   "note": "Proved for every sequence of points BuildIndex can scan in which no rejected point separates two points of one cell; with such a point, and for AddPointRecord of an id already starting a record, the property is false (witnesses proved)."
  },
  {
   "property": "C40",
   "status": "partial",
   "theorems": [
    "C40_temp_partial",
    "C40_history",
    "C40_unnamed_refuted"
   ],
   "note": "C40_history: any sequence of purges of ascending records is loaded back exactly. C40_temp_partial: the same through BuildIndex's scan for every memory limit. Without a temporary file name the load dereferences a null FILE (witness)."
  },
  {
   "property": "C41",
   "status": "partial",
   "theorems": [
    "C41_decode_partial",
    "C41_lengths",
    "C41_hidden_refuted",
    "C41_length_refuted",
    "C41_wild_refuted"
   ],
   "note": "For all cells that fit their fields, any VLR continuation: a query without filters returns exactly the recorded ids. With a box it is C42 (no crowded cell after an empty one); otherwise false (C41_hidden_refuted). C41_lengths: without continuation every VLR is consistent; with one the last VLR is not (witness)."
  },
  {
   "property": "C42",
   "status": "partial",
   "theorems": [
    "C42_query_partial",
    "C42_edge_refuted",
    "C42_sliver_refuted",
    "C42_far_refuted",
    "C42_zbin_refuted",
    "C42_flat_refuted"
   ],
   "note": "Through build_index, set_filter_values and index_filter, in double arithmetic, for every file and box without z binning: every point in the box by a margin of 2^-48 of the bounds is returned, once, and (per axis on which the common part of box and file is at least 2^-51 long) none further out than the margin. The exact form is false (witnesses): edges on cell borders, slivers, far boxes, z binning."
  },
  {
   "property": "C43",
   "status": "partial",
   "theorems": [
    "C43_parse",
    "C43_signed_number_refuted",
    "C43_limit_throws",
    "C43_signed_overflow_refuted",
    "C43_one_operation",
    "C43_sequence",
    "C43_out_of_range_refuted"
   ],
   "note": "Parsing, the exact effect of every operation sequence and the exact throw condition are proved when signed subtraction wraps; under the C++ rules the limit check overflows for every stored x other than -1 and INT_MAX, an out-of-range result is undefined behaviour rather than an exception, and a signed number is taken for a subtraction (witnesses)."
  },
  {
   "property": "C44",
   "status": "partial",
   "theorems": [
    "C44_extremes",
    "C44_counts",
    "C44_no_returns_refuted",
    "C44_empty_refuted",
    "C44_late_header_refuted",
    "C44_other_format_refuted",
    "C44_other_scale_refuted"
   ],
   "note": "Full statement for every non-empty sequence of points of one format, with no header or the points' own header given first (counters are 32-bit). Missing because false (witnesses): return 0 is dropped or reported as return 1; an empty summary is a null dereference; a header given late, or of another format or scale."
  },
  {
   "property": "C45",
   "status": "proved",
   "theorems": [
    "C45_system_id",
    "C45_software_id",
    "C45_file_signature"
   ],
   "note": ""
  },
  {
   "property": "C46",
   "status": "partial",
   "theorems": [
    "C46_reset_vlrs_exact",
    "C46_reset_idempotent_refuted"
   ],
   "note": "property is false of the code; exact result proved for every number of resets"
  },
  {
   "property": "C47",
   "status": "partial",
   "theorems": [
    "C47_write_header_again_exact",
    "C47_count_kept_refuted"
   ],
   "note": "property is false of the code; exact result proved"
  },
  {
   "property": "C48",
   "status": "partial",
   "theorems": [
    "C48_short_file_partial",
    "C48_truncated_header_refuted"
   ],
   "note": "proved below 219 bytes, false for 219-226"
  },
  {
   "property": "C49",
   "status": "partial",
   "theorems": [
    "C49_pages_partial",
    "C49_enumerate_partial",
    "C49_zero_refuted",
    "C49_box_refuted"
   ],
   "note": "For every built index without z binning, every box, chunk size >= 1 and history of calls: each call returns the chunk of the plain answer that starts at its target, wherever the last chunk ended. Missing: z binning, chunk size 0 (false, witness) and the constructors from a box, which do not clip it (undefined, witness)."
  },
  {
   "property": "C50",
   "status": "proved",
   "theorems": [
    "C50_georeference"
   ],
   "note": "For every well-formed file without a schema VLR (las_file, no_schema_vlr)."
  },
  {
   "property": "C51",
   "status": "partial",
   "theorems": [
    "C51_replace",
    "C51_unknown",
    "C51_clash",
    "C51_read_back_refuted",
    "C51_size_refuted"
   ],
   "note": "Exact effect in every case. Missing because false (witnesses): a position another dimension has makes the call a silent no-op, and the record length is not recomputed."
  },
  {
   "property": "C52",
   "status": "partial",
   "theorems": [
    "C52_history",
    "C52_visit",
    "C52_copy",
    "C52_post_increment_refuted",
    "C52_two_passes_refuted",
    "C52_copy_at_end_refuted",
    "C52_index_iterator_refuted"
   ],
   "note": "Any number of files and any history: exactly the cursor-per-reader machine of Iter_Spec; the loop and std::copy are right. Missing because false (witnesses): iterators do not keep their record over a post-increment or a second begin, copies do not notice the end, and the index iterator never yields anything."
  },
  {
   "property": "C53",
   "status": "partial",
   "theorems": [
    "C53_rewrite_partial",
    "C53_iterated",
    "C53_gap_undefined",
    "C53_rewrite_refuted",
    "C53_trailing_refuted",
    "C53_source_id_refuted"
   ],
   "note": "At most two bytes between VLRs and records (not one in version 1.0): header values, VLRs (georeferencing ones last) and records survive any number of rewrites; the project id is byte-swapped each time. Missing because false (witnesses): three or more bytes in between make the writer read past a literal for every such file; one or two leave zero bytes at the end; version 1.0 loses the source id. Not covered: custom record layouts, version 1.0 with a gap of one byte."
  },
  {
   "property": "C54",
   "status": "partial",
   "theorems": [
    "C54_custom_partial",
    "C54_own_record_rejected",
    "C54_fields_survive_refuted",
    "C54_version_text"
   ],
   "note": "For every custom layout and every XML codec that is inverse on its tree: header values and all records come back, but the layout that comes back is the standard one plus one field 'extra'. The rest is false (witness, and C54_own_record_rejected for every schema): the version is written as 1.0 and read as an integer; C54_version_text: with an integer there, names, sizes, order and offsets would load. XML text itself is not modelled."
  },
  {
   "property": "C55",
   "status": "partial",
   "theorems": [
    "C55_listing_partial",
    "C55_long_name_exact",
    "C55_terminates_refuted"
   ],
   "note": "Bounded for names of at most 28 characters; otherwise false: 30 minus the length of the quoted name wraps and the padding loop runs about 2^64 times."
  },
  {
   "property": "C56",
   "status": "partial",
   "theorems": [
    "C56_embedded_partial",
    "C56_alone_partial",
    "C56_reindex_refuted",
    "C56_stale_refuted"
   ],
   "note": "For files whose bounds contain their points, without z bins, up to 10 million points and no cell of more than 13000 (files of at most 13000 points have none): embedded and stand-alone indexes are saved, found, accepted and answer every box. Missing because false (for every such file): building again on a file with an index reads past the end of the VLR list; an out-of-date index is not replaced when the build is not forced, and hides the new one. Not covered: z bins, more crowded cells, gaps of 133 bytes or more before the records."
  },
  {
   "property": "C57",
   "status": "partial",
   "theorems": [
    "C57_reports_partial",
    "C57_contained_partial",
    "C57_refused",
    "C57_seek_refuted",
    "C57_is_valid_refuted",
    "C57_null_header_refuted"
   ],
   "note": "All modelled functions (errors, VLRs, headers, points, readers). False (witnesses): LASReader_Seek past the end returns LE_None; LASPoint_IsValid(NULL) is 3; the null check of LASHeader functions dereferences the pointer. A rejected LASHeader_SetDataFormatId may change the header (C14). Not covered: exceptions from LASPoint_SetHeader; functions on writers, GUIDs, schemas, spatial references."
  },
  {
   "property": "C58",
   "status": "partial",
   "theorems": [
    "C58_history",
    "C58_last_error",
    "C58_reset_exact",
    "C58_reset_refuted"
   ],
   "note": "For every history. LASError_Reset leaves the older half of the errors: exact theorem and witness."
  },
  {
   "property": "C59",
   "status": "partial",
   "theorems": [
    "C59_set_get",
    "C59_others",
    "C59_coordinates",
    "C59_vlr_data",
    "C59_add_vlr",
    "C59_data_refuted",
    "C59_returns_refuted"
   ],
   "note": "Every state a careful program reaches. False (witnesses): LASVLR_SetData does not set the record length, so the data cannot be got back and a wrong record length reads out of bounds; return counts 5 and 6 can be set but not got."
  },
  {
   "property": "C60",
   "status": "partial",
   "theorems": [
    "C60_safe",
    "C60_frame",
    "C60_dangling_refuted",
    "C60_format_refuted",
    "C60_equal_refuted"
   ],
   "note": "Every sequence of calls on any number of objects. Without the side conditions it is false (witnesses): a point keeps the address of a destroyed header; a header reformatted under a point makes LASPoint_GetTime read out of bounds; LASPoint_Equal compares addresses."
  },
  {
   "property": "C61",
   "status": "partial",
   "theorems": [
    "C61_same_as_cpp",
    "C61_cursor",
    "C61_all_points",
    "C61_alias_refuted"
   ],
   "note": "For every readable file and request history, whatever other objects exist. False (witness): the handle returned by GetNextPoint is the same each time, so an earlier point changes."
  },
  {
   "property": "C62",
   "status": "partial",
   "theorems": [
    "C62_copy_partial",
    "C62_bounds_close",
    "C62_empty",
    "C62_bounds_refuted",
    "C62_filter_refuted"
   ],
   "note": "Every readable file of the standard layout with at most two bytes of gap, finite positive scales, and every filter predicate. Bounds are those of the points written, to 16 digits. False (witnesses): the bounds pass through 16-digit text and may exclude a point; an accepted last point is dropped after two rejected ones (C27). When nothing is delivered the input's bounds and return counts remain. Not modelled: reprojection, format/scale/offset change and other edit options, compressed files."
  },
  {
   "property": "C63",
   "status": "partial",
   "theorems": [
    "C63_split_partial",
    "C63_nothing_lost",
    "C63_last_refuted",
    "C63_size_refuted",
    "C63_large_limit_refuted"
   ],
   "note": "Every file as in C62, every split parameter. False (proved for every file): the last file keeps the input's bounds and return counts and a byte-swapped project id; every size-limited file except the last exceeds the limit; a limit above 2048 MB wraps and puts one point in each file."
  },
  {
   "property": "C64",
   "status": "partial",
   "theorems": [
    "C64_tiles_partial",
    "C64_nothing_lost",
    "C64_empty_refuted",
    "C64_zero_refuted",
    "C64_bounds_refuted"
   ],
   "note": "End to end (reader, chipper, writer, header repair) for files as in C62 with at least one point, within the drift bound of C36. False (proved): a file without points and capacity 0 are undefined behaviour for every file; the bounds are rounded to 16 digits and may exclude a point (witness). Not modelled: --compressed, the .kdx index output."
  },
  {
   "property": "C65",
   "status": "partial",
   "theorems": [
    "C65_same_as_cpp",
    "C65_completes",
    "C65_reports",
    "C65_frame",
    "C65_destroy_twice",
    "C65_null_writer_refuted",
    "C65_unopened_refuted",
    "C65_refused_refuted",
    "C65_short_point_refuted",
    "C65_owned_header_refuted",
    "C65_set_get_header",
    "C65_write_header",
    "C65_record_length_refuted"
   ],
   "note": "Any interleaving of the modelled C API calls. False (proved for every state): LASWriter_WritePoint uses a null writer; a file that cannot be opened gives a null stream that is used; a refused header comes after the file was emptied; a short point is read past its end; LASWriter_WriteOwnedHeader after points leaves a file that declares none; LASWriter_WriteHeader after points declares another record length than the one points keep being written with. Not modelled: the SRS setters, LASzip, two writers on one file."
  },
  {
   "property": "C66",
   "status": "proved",
   "theorems": [
    "C66_round_trip"
   ],
   "note": "From C65, C22 and C61. Headers and points as in C22."
  },
  {
   "property": "C67",
   "status": "partial",
   "theorems": [
    "C67_points",
    "C67_refused",
    "C67_truncated_refuted",
    "C67_last_point_refuted"
   ],
   "note": "Every complete .bin file of an accepted version with a non-negative count: every byte of every record; the colour bytes are taken in the order red, blue, green. False for truncated files: if more than the last point is missing an uncaught exception ends the program (proved for every such file, release build); if exactly the last one is missing the one before is written twice. Not covered: negative counts, a last record cut in the middle; filter options (stored and never applied)."
  },
  {
   "property": "C68",
   "status": "partial",
   "theorems": [
    "C68_digest",
    "C68_any_length",
    "C68_asked_again",
    "C68_asked_again_refuted"
   ],
   "note": "Equal to an independent transcription of FIPS 180-4 for every message below 2^32 bytes and every cutting; above, the length field is taken modulo 2^32 (proved exactly), so the digest is not SHA-1's. False: a second getDigest differs (the padding has gone into the state; proved what it is, for any bytes added in between)."
  },
  {
   "property": "C69",
   "status": "partial",
   "theorems": [
    "C69_columns",
    "C69_in_order",
    "C69_aligned",
    "C69_safe_until_teardown",
    "C69_no_exceptions",
    "C69_bounded",
    "C69_stuck",
    "C69_ends_refuted",
    "C69_order_refuted",
    "C69_teardown_refuted"
   ],
   "note": "Proved for every schedule: each file once in every column, same order in all columns, columns aligned at every moment, command-line order for one reading thread or no more files than threads, nothing freed is touched before teardown, runs finite (without spurious wakeups) and the only way to get stuck characterised. False: it always ends (a wakeup can be lost for the plainest command line), command-line order with two threads and three files, and a reading thread can lock the mutex after it is destroyed. Critical sections are atomic steps; file contents are abstract."
  },
  {
   "property": "C70",
   "status": "partial",
   "theorems": [
    "C70_columns",
    "C70_program",
    "C70_morton_distinguishes",
    "C70_decimal_close",
    "C70_decimal_refuted",
    "C70_skip_first_refuted",
    "C70_skip_refuted",
    "C70_short_file_refuted",
    "C70_unknown_letter_refuted",
    "C70_moffset_refuted"
   ],
   "note": "Proved: every cell of every column for every standard file when all points are valid or --skip_invalid is off; the Morton column is the exact bit interleaving and separates distinct (x,y); decimal columns are within 1 + 2^-18 units. Combined with C69: the whole program's output for every schedule. False: --skip_invalid (a leading invalid point makes the next one be stored out of bounds, a later one overwrites the point before), short files show what malloc returned, decimal columns truncate (29*0.01 gives 28), unknown letters call a null function, --moffset accepts no number. Not modelled: --check, allocation failure."
  },
  {
   "property": "C71",
   "status": "partial",
   "theorems": [
    "C71_lines",
    "C71_labels",
    "C71_reads_back",
    "C71_precision",
    "C71_exact_decimals",
    "C71_filtered",
    "C71_output_name",
    "C71_whole_scale_refuted",
    "C71_empty_parse_refuted",
    "C71_alike_refuted",
    "C71_class_name_refuted",
    "C71_output_name_refuted"
   ],
   "note": "Proved: the exact text for every standard file, parse string and delimiter; the table is recovered by splitting when the delimiter cannot occur in a number and no class name is printed; with scales 10^-p and offsets that are multiples of them the default decimals print every coordinate exactly. False: whole scales (undefined conversion of -inf), empty parse strings, offsets that are no multiple of the scale (different points print alike), class names contain the default delimiter, a filter can lose the last accepted point (C27), output names that start with \"stdou\". Not modelled: option parsing, --header, --xml (ignored by the program), --verbose; std::log10 is a parameter accurate to 2^-40."
  },
  {
   "property": "C72",
   "status": "partial",
   "theorems": [
    "C72_points",
    "C72_round_trip",
    "C72_scanners",
    "C72_instance",
    "C72_output_name",
    "C72_negative_box_refuted",
    "C72_unknown_letter_refuted",
    "C72_long_line_refuted",
    "C72_missing_axis_refuted",
    "C72_returns_refuted",
    "C72_no_letters_refuted",
    "C72_long_id_refuted"
   ],
   "note": "Proved: every good table (any number of rows; lines up to 511 characters) becomes a standard file with exactly one record per row, nearest coordinates, exact fields, right format, scales, offsets and return counts; las2txt followed by txt2las restores raw coordinates and fields (class: last five bits) for decimal scales. sscanf's %lf and %f are parameters that must read decimal numbers correctly (such scanners exist: C72_scanners). False: bounding box of negative coordinates, box against points with unknown letters, lines over 511 characters, missing axes (uninitialised memory), counts when the second pass rejects a line, parse strings without x, y, z, r and identifiers of 31 characters (buffer overruns), output names with short extensions. Missing: the box for non-negative coordinates, tables with lines that cannot be parsed."
  },
  {
   "property": "C73",
   "status": "partial",
   "theorems": [
    "C73_filters_partial",
    "C73_conjunction_partial",
    "C73_read_partial",
    "C73_example",
    "C73_instance",
    "C73_drop_classes_refuted",
    "C73_drop_returns_refuted",
    "C73_open_box_refuted",
    "C73_extent_and_sides_refuted",
    "C73_extent_and_minx_refuted",
    "C73_negative_angle_refuted",
    "C73_help_color_refuted",
    "C73_short_color_refuted",
    "C73_flagged_class_refuted",
    "C73_plain_number_refuted",
    "C73_thin_refuted",
    "C73_negative_intensity_refuted",
    "C73_negative_upper_angle",
    "C73_negative_instance",
    "C73_loose_color_refuted",
    "C73_loose_instance"
   ],
   "note": "Proved for every command line that uses the keep options, the value and colour drop options, full boxes, thinning, return and validity options in any combination: exactly the points meeting every condition come through (with --thin k: the k-th, 2k-th, ... of those selected by the options before it), also when reading a file. False: --drop-classes and --drop-returns (drop everything or fail), boxes without --minx or --miny (drop everything), --extent with the sides (hull instead of intersection, or out of bounds), negative scan angles, the help's own colour example, incomplete colours (out of bounds), flagged points of a kept class, plain numbers, negative intensities as upper bounds (taken modulo 2^16 instead of reported), colour numbers followed by anything (12abc is 12, a word is 0), --thin against its help text."
  },
  {
   "property": "C74",
   "status": "partial",
   "theorems": [
    "C74_edit_partial",
    "C74_attributes",
    "C74_instance",
    "C74_colors_refuted",
    "C74_scale_refuted",
    "C74_moved_refuted",
    "C74_delete_refuted",
    "C74_pad_refuted",
    "C74_widen_refuted",
    "C74_delete_crs_refuted",
    "C74_add_crs_refuted",
    "C74_texts_refuted",
    "C74_min_refuted",
    "C74_rejected",
    "C74_delete_all",
    "C74_replace",
    "C74_rejected_instance"
   ],
   "note": "Proved for every combination of --offset, --scale, --file-format, --point-format (records not getting longer), --file-creation, --add-vlr, --software-identifier and --system-identifier typed in the documented form, every translatable file and filter: the file written has the requested values, everything else as before, the delivered records cut to the new length. False: coordinates move when scale or offset is changed (stored integers are kept), colours turn into bytes of the time when going from format 1/3 to 2, deleting any ordinary VLR, padding by more than two bytes and longer formats read or write out of bounds, VLRs of the coordinate system can be neither deleted nor added, malformed texts of --file-format and --file-creation are accepted, --offset with min in it. Malformed options are refused whatever the others are; --delete-vlr with several pairs leaves exactly the VLRs no pair names in the header the new file is begun with. Not covered: --add-schema, output split over several files, files with one byte between VLRs and points in version 1.0."
  },
  {
   "property": "C75",
   "status": "partial",
   "theorems": [
    "C75_reading",
    "C75_random",
    "C75_copy_partial",
    "C75_split_partial",
    "C75_optech",
    "C75_no_options",
    "C75_translate_refuted",
    "C75_rejected_refuted",
    "C75_instance"
   ],
   "note": "Reading in order and by index, whole and split copies are proved for every file, filter and transform list that works on each point of the file; for --fix-optech-scan-angle alone without any condition, with the exact new angle. False: under the rules of C++ --point-translate overflows a signed integer at the first ordinary point (C43), and a transform is also run on a last point no filter accepted, whose failure stops the program. Missing: translations failing on some points, GDAL reprojection and colour transforms."
  },
  {
   "property": "C76",
   "status": "partial",
   "theorems": [
    "C76_summary_partial",
    "C76_digits",
    "C76_empty",
    "C76_point",
    "C76_point_absent",
    "C76_dangling_refuted",
    "C76_bad_time_refuted",
    "C76_whole_scale_refuted",
    "C76_instance"
   ],
   "note": "The whole text of the inspection and of --point is proved, line by line, for every file, filter and index. False: the summary's smallest and largest point keep the address of the header of the temporary that check_points returned, which is destroyed before the text is made (C76_dangling_refuted: every inspection of every file reads it; the text theorems are therefore about a machine where its memory still holds the values); a scale that is a whole number, such as 1, makes the conversion of -inf to an integer (undefined); if no delivered time is a finite number the program fails instead of printing."
  },
  {
   "property": "C77",
   "status": "partial",
   "theorems": [
    "C77_min_offset_partial",
    "C77_empty",
    "C77_zero_record_refuted",
    "C77_instance"
   ],
   "note": "Proved for every delivered record that is not all zeros, from the file to the file (two passes over one reader, the summary, the text of the minimum, the moved points, the repaired header). False: a record whose bytes are all zero keeps its bytes (Point::SetHeader takes it for a fresh point), so its point jumps to the new offset (C77_zero_record_refuted). Not covered: spans of 2^31 steps and more (undefined conversion), new offsets within 2^-51 of the old ones but not equal (SetHeader takes them for equal), reprojection, splitting."
  },
  {
   "property": "C78",
   "status": "partial",
   "theorems": [
    "C78_ignored",
    "C78_all_written",
    "C78_getters",
    "C78_idle_partial",
    "C78_filter_refuted",
    "C78_transform_refuted",
    "C78_instance"
   ],
   "note": "The claim is false: the documentation (writer.hpp:93-107) says filters and transforms are applied to every point before it is written, and the code stores both lists and never looks at them. Proved for every history: the file is the one of the same calls without the setters (C78_ignored, also when the header is rewritten in between), every point handed over is written as it is, the getters are right, and the file is the one asked for when no filter rejects and no transform changes a point (C78_idle_partial). Refuted in every well-formed session with a rejected point (C78_filter_refuted) or a changed record (C78_transform_refuted). LASWriter_SetOutputSRS and LASWriter_SetSRS act only through SetTransforms and so reproject nothing. Not modelled: the compressing writer."
  },
  {
   "property": "C79",
   "status": "partial",
   "theorems": [
    "C79_only_geo",
    "C79_clear",
    "C79_wkt",
    "C79_copy",
    "C79_given",
    "C79_not_understood",
    "C79_written",
    "C79_wkt_lost_refuted",
    "C79_proj4_refuted",
    "C79_long_wkt_refuted",
    "C79_stale_wkt_refuted",
    "C79_instance"
   ],
   "note": "Proved: only georeferencing records are ever held, ClearVLRs is exact, a WKT of at most 65534 bytes can be got back and makes one record, copies are equal, and the records reach the file and come back (up to what follows the first NUL of texts). False: a reference read from a file has no text even when its records hold one (C79_wkt_lost_refuted), SetProj4 reports nothing, takes nothing and deletes the records (C79_proj4_refuted), a WKT that is too long is refused after the records are gone (C79_long_wkt_refuted), SetVLRs keeps the text of the records it replaces (C79_stale_wkt_refuted). Not covered: builds with GDAL or libgeotiff, GetPTree."
  },
  {
   "property": "C80",
   "status": "partial",
   "theorems": [
    "C80_same_reader",
    "C80_same_cached",
    "C80_anywhere",
    "C80_refused",
    "C80_file_type",
    "C80_read_stream_refuted",
    "C80_instance",
    "C80_compressed_instance"
   ],
   "note": "Proved for every stream without failbit: the two readers are equal, so every later call is. False: over a stream that was read to its end Reader works and the factory throws, since only Reader clears the stream's state first (C80_read_stream_refuted). Not covered: builds with LASzip, CreateWithImpl, locales other than C; that the refusal of compressed files is a configuration_error is shown on one file."
  }
 ]
}