{
 "claims": [
  {
   "property": "C01",
   "status": "proved",
   "theorems": [
    "C01_make_type_parts",
    "C01_make_type_injective",
    "C01_make_type_unknown",
    "C01_recompose",
    "C01_cpp_traits"
   ],
   "note": "all enumerator triples; recomposition over all non-negative integers"
  },
  {
   "property": "C02",
   "status": "proved",
   "theorems": [
    "C02_bswap32",
    "C02_bswap64"
   ],
   "note": "all words"
  },
  {
   "property": "C03",
   "status": "proved",
   "theorems": [
    "C03_coord_view_copy"
   ],
   "note": "source and destination must not overlap"
  },
  {
   "property": "C05",
   "status": "proved",
   "theorems": [
    "C05_wkb_read"
   ],
   "note": "geometries of at most 256 node levels and blobs below 32 GiB"
  },
  {
   "property": "C06",
   "status": "partial",
   "theorems": [
    "C06_wkb_read_terminates",
    "C06_read_in_bounds_refuted",
    "C06_sequences_in_bounds_refuted",
    "C06_wkb_read_in_bounds_partial"
   ],
   "note": "false in general: the remaining-size counter is not updated after coordinates, and a 32-bit product wraps; termination holds for all inputs, bounds hold for blobs announcing a point or linestring below 2^32 ordinates"
  },
  {
   "property": "C07",
   "status": "partial",
   "theorems": [
    "C07_append_partial",
    "C07_huge_sequence_refuted"
   ],
   "note": "false for a sequence of 2^32 or more ordinates (32-bit product wraps, heap overflow); every other geometry is proved, from any writer state"
  },
  {
   "property": "C08",
   "status": "proved",
   "theorems": [
    "C08_visitor",
    "C08_too_deep",
    "C08_too_big"
   ],
   "note": "all trees, all batchings, any writer state; nesting beyond 30 gives EINVAL, a feature starting at 2^31 bytes or more EOVERFLOW"
  },
  {
   "property": "C09",
   "status": "proved",
   "theorems": [
    "C09_write_read"
   ],
   "note": "both interfaces; at most 256 node levels, which is what the reader accepts"
  },
  {
   "property": "C10",
   "status": "proved",
   "theorems": [
    "C10_history"
   ],
   "note": "all histories from a new or finished writer"
  },
  {
   "property": "C11",
   "status": "partial",
   "theorems": [
    "C11_append_refuted",
    "C11_visit_refuted",
    "C11_earlier_features_partial"
   ],
   "note": "false for the features after a failure (misaligned offsets or validity bits); earlier features survive any later history"
  },
  {
   "property": "C12",
   "status": "partial",
   "theorems": [
    "C12_unbalanced_refuted",
    "C12_nested_partial"
   ],
   "note": "false for unbalanced calls (uninitialised level 0 entries are read); properly nested calls are safe from any state"
  },
  {
   "property": "C13",
   "status": "proved",
   "theorems": [
    "C13_view_visit",
    "C13_wkb_visit"
   ],
   "note": "all trees, any byte order, any encoding"
  },
  {
   "property": "C14",
   "status": "partial",
   "theorems": [
    "C14_truncated_refuted",
    "C14_truncated",
    "C14_view_visit_terminates",
    "C14_surplus_partial"
   ],
   "note": "false for lists that end inside a collection (missing return in GeoArrowGeometryVisitNode): C14_truncated says for every proper prefix of every node list that it is rejected if it ends in the rings of a polygon and read past its end otherwise; termination for all lists and rejection of surplus nodes hold"
  },
  {
   "property": "C17",
   "status": "proved",
   "theorems": [
    "C17_native_visit",
    "C17_native_visit_error",
    "C17_view_visit",
    "C17_view_visit_error",
    "C17_wkb_visit",
    "C17_wkb_visit_error",
    "C17_wkt_visit",
    "C17_wkt_visit_error"
   ],
   "note": "WKT, WKB, geometry views and native arrays; any input, any view state, any visitor failure point"
  },
  {
   "property": "C18",
   "status": "partial",
   "theorems": [
    "C18_flat_multipoint_refuted",
    "C18_grammar_partial"
   ],
   "note": "false for whitespace after the first parenthesis of a flat multipoint; every other text of the grammar is accepted"
  },
  {
   "property": "C19",
   "status": "partial",
   "theorems": [
    "C19_terminates_in_bounds",
    "C19_whole_text_refuted",
    "C19_whole_text_partial"
   ],
   "note": "termination and bounds for all inputs; success with unread text is possible only after a NUL"
  },
  {
   "property": "C20",
   "status": "proved",
   "theorems": [
    "C20_canonical",
    "C20_too_deep",
    "C20_too_big"
   ],
   "note": "all typed trees, batchings, settings and writer states; nesting beyond 32 gives EINVAL; the number printer is any that writes at most 40 characters"
  },
  {
   "property": "C21",
   "status": "partial",
   "theorems": [
    "C21_flat_empty_refuted",
    "C21_mixed_dims_refuted",
    "C21_roundtrip_partial"
   ],
   "note": "false for flat multipoints mixing empty and other points, and for members whose dimensions differ from the multi-geometry; proved for all others, any parser that inverts the printer on the ordinates"
  },
  {
   "property": "C22",
   "status": "partial",
   "theorems": [
    "C22_after_null_refuted",
    "C22_no_null_before_partial",
    "C22_prefix_partial",
    "C22_format_wkt_partial"
   ],
   "note": "false for elements after a null (feat_end returns before the limit is applied); exact for all elements before the first null, and every element is a prefix"
  },
  {
   "property": "C23",
   "status": "proved",
   "theorems": [
    "C23_history"
   ],
   "note": "all histories from a new or finished writer"
  },
  {
   "property": "C46",
   "status": "partial",
   "theorems": [
    "C46_no_feature_refuted",
    "C46_after_error_refuted",
    "C46_any_order_partial"
   ],
   "note": "false before the first feature and after an error (uninitialised level entries are read); any order of calls from feat_start to the first error is safe"
  },
  {
   "property": "C47",
   "status": "proved",
   "theorems": [
    "C47_only_wkt"
   ],
   "note": "all byte strings and reader states, any number parser"
  },
  {
   "property": "C04",
   "status": "partial",
   "theorems": [
    "C04_swapped_missing_dim_refuted",
    "C04_copy_partial",
    "C04_num_coords"
   ],
   "note": "false for byte-swapped nodes copied to an output with a dimension they lack (the NaN constant is swapped too); proved for all others, any layout of distinct cells"
  },
  {
   "property": "C15",
   "status": "partial",
   "theorems": [
    "C15_empty_member_refuted",
    "C15_rebuild_partial",
    "C15_without_coordinates",
    "C15_too_deep"
   ],
   "note": "false for geometries with members or rings but no coordinate at all (sizes are not set; C15_without_coordinates says exactly what becomes of each); proved for all others after any history; nesting beyond 31 gives EINVAL"
  },
  {
   "property": "C16",
   "status": "partial",
   "theorems": [
    "C16_swapped_refuted",
    "C16_copy_partial"
   ],
   "note": "false for byte-swapped sources (the swap flag stays set); proved for native byte order and sequences below 2^32 ordinates, with arbitrary later contents of the source memory"
  },
  {
   "property": "C48",
   "status": "partial",
   "theorems": [
    "C48_null_then_ring_refuted",
    "C48_after_error_refuted",
    "C48_any_order_partial",
    "C48_null"
   ],
   "note": "false for a ring after a null and for calls after an error; any order of calls from feat_start to the first error is safe"
  },
  {
   "property": "C49",
   "status": "partial",
   "theorems": [
    "C49_missing_dims_refuted",
    "C49_interleaved_partial",
    "C49_separated_partial"
   ],
   "note": "false for the missing dimensions (all four pointers are set); proved for the ordinates within the dimensions"
  },
  {
   "property": "C27",
   "status": "proved",
   "theorems": [
    "C27_window",
    "C27_consecutive"
   ],
   "note": "all seven native types, all offsets at every level, any earlier history of the view; consecutive windows for any visitor"
  },
  {
   "property": "C28",
   "status": "partial",
   "theorems": [
    "C28_safe",
    "C28_accepts_partial",
    "C28_rejects_partial",
    "C28_surplus_buffer_refuted",
    "C28_no_buffers_refuted"
   ],
   "note": "false for the number of buffers of the coordinate array itself, which is not checked; every other wrong count is rejected, and valid arrays are visited inside their buffers"
  },
  {
   "property": "C29",
   "status": "proved",
   "theorems": [
    "C29_boxes",
    "C29_ring",
    "C29_other_dimensions"
   ],
   "note": "all XY box arrays; other dimensions are refused with ENOTSUP"
  },
  {
   "property": "C43",
   "status": "proved",
   "theorems": [
    "C43_set_range",
    "C43_get",
    "C43_appends"
   ],
   "note": "all histories of runs, any contents of fresh memory"
  },
  {
   "property": "C30",
   "status": "proved",
   "theorems": [
    "C30_finish",
    "C30_arrays"
   ],
   "note": "every buildable type, any sequence of AppendBuffer, ReserveBuffer and SetOwnedBuffer calls; the null count set by the writer is part of C24"
  },
  {
   "property": "C50",
   "status": "partial",
   "theorems": [
    "C30_finish",
    "C50_offset_append_refuted",
    "C50_coords_append_refuted",
    "C50_mixed_coords_refuted"
   ],
   "note": "holds for AppendBuffer, ReserveBuffer and SetOwnedBuffer (run_ops is Ok in C30_finish); refuted for OffsetAppend after a buffer of odd size, and for CoordsAppend after ReserveBuffer or AppendBuffer on a coordinate buffer"
  },
  {
   "property": "C24",
   "status": "partial",
   "theorems": [
    "C24_append",
    "C24_same_partial",
    "C24_refused",
    "C24_same_refuted"
   ],
   "note": "all histories below 2^31 entries per level; false for geometries without coordinates that still have rings or members, which are read back without them; C26_append_refuted is the other limit"
  },
  {
   "property": "C25",
   "status": "partial",
   "theorems": [
    "C25_visit_partial",
    "C25_sequences",
    "C25_refused",
    "C25_leak_refuted",
    "C25_multipoint_leak_refuted",
    "C25_split_refuted",
    "C25_merge_refuted",
    "C25_mixed_refuted"
   ],
   "note": "false for collections that mix points with sequences (a coordinate moves to the next feature), multipoints in arrays of sequences of sequences, linestrings in collections in arrays of multipolygons, and for mixing Append and the visitor; proved for all other features, any batching, any number of arrays"
  },
  {
   "property": "C26",
   "status": "partial",
   "theorems": [
    "C26_append_partial",
    "C26_append_refuted",
    "C26_visit_partial",
    "C26_overflow_partial"
   ],
   "note": "offsets wrap silently with Append; exact below 2^31 entries; the visitor returns EOVERFLOW at coordinate 2^31 for the features of C25_visit_partial"
  },
  {
   "property": "C37",
   "status": "partial",
   "theorems": [
    "C37_boxes_partial",
    "C37_after_error_refuted"
   ],
   "note": "every encoding, any number of batches, any earlier use of the reader; false after a batch that failed, whose first features are in the next output"
  },
  {
   "property": "C38",
   "status": "proved",
   "theorems": [
    "C38_box",
    "C38_box_split",
    "C38_types",
    "C38_types_split"
   ],
   "note": "every encoding, any split into batches that can be read; the kernel's start is not modelled beyond its initial state"
  },
  {
   "property": "C45",
   "status": "partial",
   "theorems": [
    "C45_to_wkb_partial",
    "C45_to_wkb_same_partial",
    "C45_to_wkt_partial",
    "C45_to_native_partial",
    "C45_to_native_same_partial",
    "C45_chain_partial",
    "C45_refused"
   ],
   "note": "as_geoarrow kernel from arrays of any encoding to WKB, WKT and native arrays, and chains of conversions. Missing: inputs that a writer refuses (too deep, too large), features the text or the native layout cannot express."
  },
  {
   "property": "C31",
   "status": "partial",
   "theorems": [
    "C31_round_trip_partial",
    "C31_reread",
    "C31_refuted"
   ],
   "note": "metadata that were read from any text are written and read again without a change; for metadata made otherwise: all edge and CRS types; every CRS that is JSON text or has no backslash; false for a backslash in any other CRS (the size counts escapes that are not written)"
  },
  {
   "property": "C32",
   "status": "partial",
   "theorems": [
    "C32_partial",
    "C32_refuted"
   ],
   "note": "a NUL byte inside an array or object makes the reader loop forever; without NUL bytes it returns"
  },
  {
   "property": "C33",
   "status": "partial",
   "theorems": [
    "C33_partial",
    "C33_refuted"
   ],
   "note": "one byte after the end is read for some texts that are then refused; never more, never for a text that is accepted, and without influence on the result"
  },
  {
   "property": "C34",
   "status": "partial",
   "theorems": [
    "C34_edges",
    "C34_crs_type_partial",
    "C34_crs_type_refuted"
   ],
   "note": "edges: exact for every text; crs_type: the documented names are read correctly, but so is any string of the same length"
  },
  {
   "property": "C35",
   "status": "partial",
   "theorems": [
    "C35_bounds",
    "C35_value_partial",
    "C35_value_refuted"
   ],
   "note": "sizes and bounds for every CRS; the text is exact for strings that escape only quotes, backslashes and slashes; other escapes lose their backslash"
  },
  {
   "property": "C51",
   "status": "partial",
   "theorems": [
    "C51_json_partial",
    "C51_accepted_partial",
    "C51_refuted"
   ],
   "note": "every JSON object with distinct names, except for the crs_type of C34; accepted texts are characterised exactly, and are not only JSON"
  },
  {
   "property": "C36",
   "status": "partial",
   "theorems": [
    "C36_created",
    "C36_unsupported",
    "C36_from_type",
    "C36_recognised_partial",
    "C36_from_storage_partial",
    "C36_refuted",
    "C36_size_refuted"
   ],
   "note": "every type and every integer for creation; every well-formed schema for recognition; false for extension names that only begin with geoarrow.wkb, and for fixed-size lists whose size does not fit 32 bits"
  },
  {
   "property": "C52",
   "status": "partial",
   "theorems": [
    "C52_set_partial",
    "C52_set_from",
    "C52_set_from_succeeds",
    "C52_refuted"
   ],
   "note": "all schemas and entries; false for a CRS with a backslash that is not JSON text (the size counts bytes that are not written)"
  },
  {
   "property": "C39",
   "status": "proved",
   "theorems": [
    "C39_safe",
    "C39_visits"
   ],
   "note": "every byte string, whatever earlier calls left behind; the blob is taken with the overload for a pointer and a size"
  },
  {
   "property": "C40",
   "status": "partial",
   "theorems": [
    "C40_decodes",
    "C40_extra",
    "C40_truncated",
    "C40_accepted",
    "C40_invalid",
    "C40_standard",
    "C40_view_partial",
    "C40_view_refuted"
   ],
   "note": "complete for the overload that takes a pointer and a 32-bit size; the overload for buffer views is wrong for blobs of 4 GiB and more"
  },
  {
   "property": "C53",
   "status": "proved",
   "theorems": [
    "C53_vertices",
    "C53_edges"
   ],
   "note": "every encoding, all target coordinate types of the library"
  },
  {
   "property": "C41",
   "status": "proved",
   "theorems": [
    "C41_visits",
    "C41_elements",
    "C41_slices",
    "C41_init"
   ],
   "note": "all native types but boxes (C54), any view history, offsets, slices and validity; VisitEdges only compiles for the array's own coordinate type"
  },
  {
   "property": "C42",
   "status": "partial",
   "theorems": [
    "C42_partial",
    "C42_refuted"
   ],
   "note": "false for XYZ and XYM (the initializer has four of six values); true for XY and XYZM"
  },
  {
   "property": "C54",
   "status": "proved",
   "theorems": [
    "C54_bounds"
   ],
   "note": "every dimensionality, all slices"
  },
  {
   "property": "C55",
   "status": "partial",
   "theorems": [
    "C55_interleaved",
    "C55_null",
    "C55_separated",
    "C55_iterators_partial",
    "C55_index_partial",
    "C55_index_refuted"
   ],
   "note": "false for operator[] of a dimension iterator when the stride is not 1; proved for everything else"
  },
  {
   "property": "C56",
   "status": "proved",
   "theorems": [
    "C56_visits",
    "C56_throws"
   ],
   "note": "arrays with 32-bit offsets, the only ones for which the class compiles with a view"
  },
  {
   "property": "C44",
   "status": "partial",
   "theorems": [
    "C44_fixed",
    "C44_scientific",
    "C44_one_decimal",
    "C44_integer",
    "C44_special",
    "C44_fallback_partial",
    "C44_fallback_refuted"
   ],
   "note": "complete for the build with ryu, where the text is exactly the shortest decimal of the double, rounded; for precisions whose text fits 40 characters (C58); the fallback without ryu is false at precision 0, where it drops the zeros of integers, and proved for other precisions from the C library's rendering"
  },
  {
   "property": "C57",
   "status": "partial",
   "theorems": [
    "C57_reads_back_partial",
    "C57_one_number",
    "C57_distinct",
    "C57_small_refuted",
    "C57_wkt_roundtrip_partial",
    "C57_chain_partial"
   ],
   "note": "the stated numbers are all kept; of the others some are not (C57_small_refuted: 0.3 and the next double, and -0); the round trips have the limits of C21 and C45; C62 proves them for the parser of the library, without hypotheses about it"
  },
  {
   "property": "C58",
   "status": "partial",
   "theorems": [
    "C58_fits",
    "C58_short",
    "C58_precision_refuted"
   ],
   "note": "precisions up to 37, which includes all that the WKT writer uses; at 38 a 41st character is written"
  },
  {
   "property": "C59",
   "status": "partial",
   "theorems": [
    "C59_names",
    "C59_refused",
    "C59_as_geoarrow",
    "C59_as_geoarrow_refused",
    "C59_format_wkt",
    "C59_box",
    "C59_box_agg",
    "C59_box_refused",
    "C59_types",
    "C59_visit_void",
    "C59_void",
    "C59_no_output"
   ],
   "note": "whole sessions of all eight kernels; limits: extension names that only begin with geoarrow.wkb (C36), a CRS of more than 10^9 bytes for the boxes, options as in C60, features as in C22, C37 and C45; start is called once"
  },
  {
   "property": "C60",
   "status": "partial",
   "theorems": [
    "C60_integer_partial",
    "C60_range_refuted",
    "C60_long_refuted",
    "C60_text_refuted"
   ],
   "note": "integers of at most 15 characters that an int holds; a larger one is undefined behaviour, a longer one is cut, and a text that is no number is taken for zero"
  },
  {
   "property": "C61",
   "status": "partial",
   "theorems": [
    "C61_values_partial",
    "C61_values_refuted",
    "C61_to_string_partial",
    "C61_to_string_length",
    "C61_to_string_length_refuted",
    "C61_to_string_refuted"
   ],
   "note": "any history of objects; a CRS given to WithCrs that is not JSON must not have a backslash (with one, later changes of the type throw or alter it); texts of at most 10^9 bytes; schemas whose extension name is not a longer geoarrow.wkb (C36); ToString is ambiguous about the CRS type and does not limit the CRS when fewer than 4 bytes are asked for"
  },
  {
   "property": "C62",
   "status": "proved",
   "theorems": [
    "C62_numbers",
    "C62_errors",
    "C62_words",
    "C62_any_text",
    "C62_parser",
    "C62_wkt_roundtrip",
    "C62_chain",
    "C62_whole_text_refuted"
   ],
   "note": "texts of fewer than 2^27 bytes; limbs of big integers are exact or the outcome is undefined behaviour, which is excluded; that a text is refused if something follows the number is false (C62_whole_text_refuted: POINT (1abc 2-3) is read), and not part of the property"
  },
  {
   "property": "C63",
   "status": "partial",
   "theorems": [
    "C63_accepted",
    "C63_numbers",
    "C63_parser",
    "C63_wkt_roundtrip",
    "C63_builds_agree_partial",
    "C63_builds_agree_refuted"
   ],
   "note": "all but the last claim is proved for every strtod that follows the C standard (strtod_ok); both builds read the same double if the number has up to 63 bytes and a finite nearest double that is zero only for zero, and otherwise need not (C63_builds_agree_refuted: longer numbers, 1e999, 1x)"
  },
  {
   "property": "C64",
   "status": "partial",
   "theorems": [
    "C64_wkt_partial",
    "C64_wkt_as_made",
    "C64_wkb_partial",
    "C64_native_partial",
    "C64_no_settings",
    "C64_no_writer",
    "C64_flat_refuted",
    "C64_late_refuted"
   ],
   "note": "false of SetFlatMultipoint, which sets the precision instead (C64_flat_refuted), and of settings made after the visitor was first asked for (C64_late_refuted); C64_wkt_as_made describes all sessions with WKT; features that the writers refuse are excluded as in C45 and C49"
  },
  {
   "property": "C65",
   "status": "partial",
   "theorems": [
    "C65_visits",
    "C65_released_partial",
    "C65_one_array",
    "C65_released_refuted"
   ],
   "note": "false of all but the last array that is given to one reader: they are never released (C65_released_refuted); the rest is proved"
  },
  {
   "property": "C66",
   "status": "proved",
   "theorems": [
    "C66_dispatch",
    "C66_native",
    "C66_wkb"
   ],
   "note": ""
  },
  {
   "property": "C67",
   "status": "partial",
   "theorems": [
    "C67_once",
    "C67_not_before",
    "C67_arrays_partial",
    "C67_null_refuted",
    "C67_appended_refuted"
   ],
   "note": "freed exactly once and not before its time: proved for every program. The arrays are as they should be when no container is at NULL and nothing is appended to memory that was given. Refuted: an empty container (data() NULL) makes Finish fail with ENOMEM; an append to given memory fails with ENOMEM, deletes the object, and the next Finish gives an array of uninitialized memory. AppendCoords on a builder with given memory is not modelled."
  },
  {
   "property": "C68",
   "status": "partial",
   "theorems": [
    "C68_safe_partial",
    "C68_released_partial",
    "C68_unsupported_refuted",
    "C68_restarted_refuted",
    "C68_buffer_refuted",
    "C68_schema_refuted",
    "C68_array_refuted",
    "C68_box_refuted",
    "C68_deep_copy_refuted"
   ],
   "note": "safe for every program and every schedule of failures for objects, buffers and schemas (deep copies: when buffers can grow); nothing is left when only allocations for objects fail, kernels are started once and no unsupported writer is asked for. Refuted: writers of large and view types leak; a kernel that is started twice leaks its reader; a buffer or schema that cannot be allocated leaks; a native writer or a box kernel whose array cannot be allocated uses freed memory; so does a geometry after a deep copy that failed half way. Only blocks are modelled, not what is in them."
  },
  {
   "property": "C69",
   "status": "partial",
   "theorems": [
    "C69_message_partial",
    "C69_place_refuted",
    "C69_success",
    "C69_parsers",
    "C69_error_set"
   ],
   "note": "texts of fewer than 2^63 bytes; that no text with the same word at the place is readable holds unless an opening parenthesis is expected: in a multipoint the reader skips whitespace only after it has looked for one (C69_place_refuted); number parsers that refuse the empty word and accept 0, as both do (C69_parsers); visitors that do not fail"
  },
  {
   "property": "C70",
   "status": "partial",
   "theorems": [
    "C70_values_partial",
    "C70_storage_refuted",
    "C70_metadata_refuted",
    "C70_equal",
    "C70_invalid",
    "C70_status_refuted",
    "C70_registry",
    "C70_received_refuted"
   ],
   "note": "for every Arrow C++ that imports, exports and compares storage types as it should (arrow_ok); arguments as in C61; changes of the type only between types with the same storage. Refuted: WithGeometryType, WithDimensions and WithCoordType keep the storage type of the old type, so that the type cannot be read back or is read as another one that is called equal; Make from a GeometryDataType drops its CRS and edge type; the With methods throw instead of returning a Status; WKT and boxes are never registered"
  },
  {
   "property": "C71",
   "status": "partial",
   "theorems": [
    "C71_message_partial",
    "C71_place_partial",
    "C71_success",
    "C71_needed_refuted",
    "C71_found_refuted",
    "C71_type_refuted"
   ],
   "note": "inputs of fewer than 2^62 bytes, where reading beyond the input is excluded as in C06. Refuted: the number of bytes that coordinates need wraps at 2^35, the number of bytes that are there does not count the coordinates that were read before, and a type that does not exist is blamed on what follows it if nothing does, so that the place is too late. That the bytes before the place can otherwise be continued is proved unless the place directly follows the type of a geometry with parts that has the headers of 255 levels before it"
  },
  {
   "property": "C72",
   "status": "partial",
   "theorems": [
    "C72_message_partial",
    "C72_success",
    "C72_message_refuted"
   ],
   "note": "metadata of fewer than 2^31 - 100 bytes; with 2 GiB the size becomes a negative precision, which printf ignores, so that memory after the metadata is read (C72_message_refuted). The byte that the reader itself may read after the end is the subject of C33"
  },
  {
   "property": "C73",
   "status": "partial",
   "theorems": [
    "C73_offers_partial",
    "C73_offers_refuted"
   ],
   "note": "multi-geometries with members of their kind; lists of fewer than 2^31 entries: a polygon with a longer ring is refused with EOVERFLOW after its number of rings was appended, so that the array cannot be finished (C73_offers_refuted)"
  },
  {
   "property": "C74",
   "status": "partial",
   "theorems": [
    "C74_message_partial",
    "C74_reason_partial",
    "C74_storage_partial",
    "C74_box_refuted",
    "C74_list_refuted"
   ],
   "note": "well-formed schemas, fewer than 2^31 children; what nanoarrow says is left open. False for boxes whose maxima do not follow the order of the minima, where the number of the child is that of the minimum (C74_box_refuted), and for fixed-size lists of several children inside lists, of which child 0 is blamed (C74_list_refuted)"
  },
  {
   "property": "C75",
   "status": "partial",
   "theorems": [
    "C75_message_partial",
    "C75_reason",
    "C75_refused",
    "C75_large_refuted"
   ],
   "note": "native types, and arrays on which no memory is read that is not there (see C28_no_buffers_refuted). False for large serialized types, whose arrays are refused as list arrays (C75_large_refuted)"
  },
  {
   "property": "C76",
   "status": "partial",
   "theorems": [
    "C76_visit_partial",
    "C76_accepted",
    "C76_surplus",
    "C76_rings_refuted",
    "C76_build",
    "C76_build_refused"
   ],
   "note": "building is complete; visiting for lists on which no memory is read that is not there (C14_truncated says which those are among the lists that end too early). False for lists that end in the rings of a polygon, which are refused without a message (C76_rings_refuted)"
  },
  {
   "property": "C77",
   "status": "partial",
   "theorems": [
    "C77_message_partial",
    "C77_twice",
    "C77_silent_refuted"
   ],
   "note": "false for output types that cannot be written: they are refused and the message stays what it was (C77_silent_refuted). Also missing: what C74 leaves open about schemas, numbers for 'type' that are no type, and a CRS of more than 10^9 bytes"
  },
  {
   "property": "C78",
   "status": "proved",
   "theorems": [
    "C78_names",
    "C78_void"
   ],
   "note": ""
  },
  {
   "property": "C79",
   "status": "partial",
   "theorems": [
    "C79_message_partial",
    "C79_multipoint_refuted",
    "C79_exact",
    "C79_wkt",
    "C79_wkt_told",
    "C79_deep_refuted"
   ],
   "note": "false for arrays of multipoints: the message says that the feature cannot be converted to LINESTRING (C79_multipoint_refuted). Geometries nested too deeply for the WKT writer, and too many coordinates, are refused and the message stays as it was (C79_deep_refuted, C79_exact)"
  },
  {
   "property": "C80",
   "status": "proved",
   "theorems": [
    "C80_errno",
    "C80_text",
    "C80_vertices",
    "C80_edges",
    "C80_good"
   ],
   "note": "C80_errno: codes; C80_vertices and C80_edges: the message about an element that is no encoding, with `wkb_defect` of CppErrorSpec.v for what each name means; C80_good: no exception otherwise"
  },
  {
   "property": "C81",
   "status": "partial",
   "theorems": [
    "C81_parts_partial",
    "C81_parts_refuted",
    "C81_thrown",
    "C81_simple_multi",
    "C81_extension",
    "C81_names"
   ],
   "note": "false for geometry collections, for which the message names a call and a code (C81_parts_refuted); proved for all other enumerators, without metadata"
  }
 ]
}