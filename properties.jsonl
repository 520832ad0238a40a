{"id": "C01", "title": "Type identifiers decompose and recompose without loss", "statement": "For every supported combination of geometry type, dimensions and coordinate layout, GeoArrowMakeType returns a type id whose GeoArrowGeometryTypeFromType, GeoArrowDimensionsFromType and GeoArrowCoordTypeFromType give back exactly that combination; distinct combinations get distinct ids; and any combination with an unknown part yields UNINITIALIZED. Conversely recomposing the parts of any native type id gives the id back.", "quantifier": "all enumerator triples and all integers used as type ids", "why_tests_cant": "the enumerators are arithmetic encodings; a test samples some of them, while injectivity and inversion are statements about all integers", "anchors": ["src/geoarrow/geoarrow_type_inline.h: GeoArrowMakeType, GeoArrowGeometryTypeFromType, GeoArrowDimensionsFromType, GeoArrowCoordTypeFromType", "src/geoarrow/geoarrow_type.h: enum GeoArrowType", "src/geoarrow/hpp/geometry_type_traits.hpp: TypeTraits"]}
{"id": "C02", "title": "Byte swapping reverses the eight (four) bytes and is its own inverse", "statement": "Swapping a 32 or 64 bit word yields the word whose bytes are in the opposite order; swapping twice is the identity, so big-endian and little-endian WKB carry the same numbers bit for bit.", "quantifier": "all 2^32 and 2^64 words", "why_tests_cant": "2^64 inputs", "anchors": ["src/geoarrow/geoarrow_type_inline.h: GEOARROW_BSWAP32/64, _GeoArrowBswap32/64"]}
{"id": "C03", "title": "Copying coordinates between dimensionalities keeps each ordinate in its place", "statement": "GeoArrowCoordViewCopy from any source dimensions to any destination dimensions writes, for each copied coordinate, the source ordinate of the same meaning (x, y, z, m), NaN where the source lacks that dimension, drops dimensions the destination lacks, and leaves every destination coordinate outside the requested window untouched.", "quantifier": "all source/destination dimensions, layouts (any stride), offsets, lengths and coordinate values", "why_tests_cant": "quantifies over all coordinate buffers, strides and windows", "anchors": ["src/geoarrow/geoarrow_type_inline.h: GeoArrowMapDimensions, GeoArrowCoordViewCopy"]}
{"id": "C04", "title": "Copying coordinates out of a geometry view gives each ordinate or NaN, whatever the source byte order", "statement": "GeoArrowGeometryViewCopyCoordsGeneric writes the coordinates of the geometry in depth-first order to the given columns and nothing else; GeoArrowGeometryViewNumCoords tells how many there are; each requested dimension that the geometry has is the decoded ordinate and each requested dimension it lacks is NaN, for native and byte-swapped (big-endian) nodes alike.", "quantifier": "all geometry views, node byte-order flags, source and destination dimensions", "why_tests_cant": "quantifies over all node arrays and coordinate values", "anchors": ["src/geoarrow/geoarrow_type_inline.h: GeoArrowGeometryViewCopyCoordsGeneric, GeoArrowGeometryViewNumCoords"]}
{"id": "C05", "title": "The WKB reader decodes every well-formed WKB blob to the geometry it encodes", "statement": "For every geometry tree and every way of encoding it as WKB (each (sub)geometry in either byte order; ISO type codes, or EWKB flags with or without an SRID), GeoArrowWKBReaderRead succeeds and returns the depth-first node list of that tree with the same types, dimensions and ordinates bit for bit; bytes after the geometry are ignored.", "quantifier": "all geometry trees of nesting depth below the documented limit, all encodings", "why_tests_cant": "an infinite family of trees times encodings", "anchors": ["src/geoarrow/wkb_reader.c: GeoArrowWKBReaderRead, WKBReaderReadNodeGeometry, WKBReaderReadNodeCoordinates"]}
{"id": "C06", "title": "The WKB reader never reads outside its input", "statement": "For every byte string, valid or not, GeoArrowWKBReaderRead only touches bytes inside the given buffer and every coordinate sequence it hands out lies inside the buffer.", "quantifier": "all byte strings", "why_tests_cant": "out-of-bounds reads need not crash, and the inputs are unbounded", "anchors": ["src/geoarrow/wkb_reader.c: WKBReaderReadNodeCoordinates, WKBReaderReadUInt32, WKBReaderReadEndian"]}
{"id": "C07", "title": "The WKB writer (append interface) produces the little-endian ISO WKB of the geometry", "statement": "GeoArrowWKBWriterAppend of the node list of a geometry appends exactly the little-endian ISO WKB encoding of that geometry, with an empty point written as NaN ordinates.", "quantifier": "all geometry trees and all previous writer contents", "why_tests_cant": "infinite family of trees", "anchors": ["src/geoarrow/wkb_writer.c: GeoArrowWKBWriterAppend, GeoArrowWKBWriterAppendBuffer*"]}
{"id": "C08", "title": "The WKB writer (visitor interface) produces the same bytes for every chunking of coordinates", "statement": "Feeding the events of a geometry to the WKB writer visitor appends exactly the little-endian ISO WKB encoding, no matter how each coordinate sequence is split over coords() calls, for every nesting depth the writer accepts; deeper input is rejected with EINVAL.", "quantifier": "all geometry trees, all splittings of their sequences into coords() calls", "why_tests_cant": "chunkings and depths are unbounded", "anchors": ["src/geoarrow/wkb_writer.c: feat_start_wkb, geom_start_wkb, ring_start_wkb, coords_wkb, ring_end_wkb, geom_end_wkb, feat_end_wkb"]}
{"id": "C09", "title": "WKB written by the library is read back as the same geometry", "statement": "Reading the bytes that the WKB writer (either interface) produced for a geometry returns that geometry (an empty point becomes a point of NaNs).", "quantifier": "all geometry trees", "why_tests_cant": "round trip over an infinite domain", "anchors": ["src/geoarrow/wkb_writer.c", "src/geoarrow/wkb_reader.c"]}
{"id": "C10", "title": "The WKB writer's arrays are well-formed after any history of appended features", "statement": "After any sequence of successfully appended geometries and nulls, Finish returns an array whose length is the number of features, whose i-th element is exactly the i-th feature's bytes (empty for a null), whose validity bits and null count say exactly which features were null, and whose offsets start at 0 and never decrease; the writer then behaves like a freshly initialised one.", "quantifier": "all histories of features (any length, any mixture of nulls), repeated over batches", "why_tests_cant": "quantifies over all histories", "anchors": ["src/geoarrow/wkb_writer.c: GeoArrowWKBWriterAppend, GeoArrowWKBWriterAppendNull, GeoArrowWKBWriterFinish, null_feat_wkb, feat_end_wkb"]}
{"id": "C11", "title": "A failed WKB append does not disturb the features already written or later ones", "statement": "If appending one geometry fails, the features appended before and after it still occupy the elements of the finished array.", "quantifier": "all histories containing failing appends", "why_tests_cant": "quantifies over histories and failure points", "anchors": ["src/geoarrow/wkb_writer.c: GeoArrowWKBWriterAppend"]}
{"id": "C12", "title": "The WKB writer visitor does not corrupt memory when events arrive in an unexpected order", "statement": "As the visitor contract promises, any sequence of visitor calls (well-nested or not) either succeeds or returns an error; it never writes outside the output buffer or uses uninitialised state.", "quantifier": "all event sequences", "why_tests_cant": "all finite sequences over an infinite alphabet", "anchors": ["src/geoarrow/wkb_writer.c: ring_end_wkb, geom_end_wkb", "src/geoarrow/geoarrow_type.h: struct GeoArrowVisitor"]}
{"id": "C13", "title": "Visiting a geometry view emits exactly the events of its tree", "statement": "For the node list of any geometry, GeoArrowGeometryViewVisit emits feat_start, then for each (sub)geometry geom_start/\u2026/geom_end with its type and dimensions, ring_start/ring_end around each polygon ring, and the coordinates in order (decoded to native byte order), then feat_end; the concatenation of the coords() batches of a sequence is the sequence and each batch holds at most 3072 bytes.", "quantifier": "all geometry trees, all byte-order flags", "why_tests_cant": "infinite family of trees; chunk boundary behaviour at every length", "anchors": ["src/geoarrow/geometry.c: GeoArrowGeometryViewVisit, GeoArrowGeometryVisitNode, GeoArrowGeometryVisitSequence"]}
{"id": "C14", "title": "Visiting a malformed node list is rejected without reading outside it", "statement": "For every finite node list, GeoArrowGeometryViewVisit either emits the events of the tree it encodes or returns an error code, and never inspects nodes beyond the list.", "quantifier": "all node lists (any sizes and types)", "why_tests_cant": "all malformed inputs", "anchors": ["src/geoarrow/geometry.c: GeoArrowGeometryVisitNode"]}
{"id": "C15", "title": "Building a geometry from events and visiting it again reproduces the events", "statement": "Feeding the events of any geometry (any chunking, nesting below the limit of 31) to the visitor of GeoArrowGeometryInitVisitor and then visiting the result gives the same geometry.", "quantifier": "all geometry trees and chunkings", "why_tests_cant": "round trip over an infinite domain; buffer reallocation at every growth point", "anchors": ["src/geoarrow/geometry.c: GeoArrowGeometryInitVisitor, feat_start_geometry, geom_start_geometry, ring_start_geometry, coords_geometry, feat_end_geometry"]}
{"id": "C16", "title": "A deep copy denotes the same geometry and owns its coordinates", "statement": "After GeoArrowGeometryDeepCopy the destination denotes the same geometry as the source, in whatever byte order the source nodes were, and all its coordinate pointers lie inside memory it owns.", "quantifier": "all geometry views, all byte-order flags", "why_tests_cant": "quantifies over all node arrays", "anchors": ["src/geoarrow/geometry.c: GeoArrowGeometryDeepCopy, GeoArrowGeometryShallowCopy"]}
{"id": "C17", "title": "Every reader emits properly nested events, even when it fails part-way", "statement": "On any input the sequence of visitor calls made by the WKT reader, the WKB reader, the geometry view visitor and the native array visitor is a prefix of a properly nested sequence, and a visitor's error code stops the reader and is returned unchanged.", "quantifier": "all inputs and all visitor failure points", "why_tests_cant": "all inputs times all failure points", "anchors": ["src/geoarrow/wkt_reader.c", "src/geoarrow/wkb_reader.c", "src/geoarrow/geometry.c", "src/geoarrow/array_view.c"]}
{"id": "C18", "title": "The WKT reader accepts every WKT text of the grammar and emits its events", "statement": "For every geometry and every rendering of it as WKT, with any amount of whitespace where the grammar allows it, the WKT reader emits exactly the events of that geometry, coordinates batched in groups of at most 64.", "quantifier": "all geometry trees, all whitespace placements, all number spellings accepted by the number parser", "why_tests_cant": "infinite language", "anchors": ["src/geoarrow/wkt_reader.c: GeoArrowWKTReaderVisit, ReadTaggedGeometry and the Read* functions"]}
{"id": "C19", "title": "The WKT reader terminates on every input, within the input", "statement": "For every byte string the WKT reader stops after a number of steps bounded by the input length, never reads beyond it, and reports success only if it consumed the whole text.", "quantifier": "all byte strings", "why_tests_cant": "termination and bounds for all inputs", "anchors": ["src/geoarrow/wkt_reader.c: GeoArrowWKTReaderVisit, GeoArrowWKTSkipWhitespace, GeoArrowWKTPeekUntil"]}
{"id": "C20", "title": "The WKT writer emits the canonical text of each geometry", "statement": "Feeding the events of any geometry (any chunking) to the WKT writer visitor appends its canonical WKT: upper-case tag, dimension tag, EMPTY for empty (sub)geometries, nested parentheses with comma separation, flat or nested MULTIPOINT as configured, and each ordinate printed by the number printer.", "quantifier": "all geometry trees, chunkings, settings of precision and flat multipoint", "why_tests_cant": "infinite family", "anchors": ["src/geoarrow/wkt_writer.c: geom_start_wkt, ring_start_wkt, coords_wkt, ring_end_wkt, geom_end_wkt"]}
{"id": "C21", "title": "Text written by the WKT writer is read back as the same geometry", "statement": "If the number parser inverts the number printer, then for every geometry the WKT reader applied to the text produced by the WKT writer emits that geometry again.", "quantifier": "all geometry trees (typed multi-geometries), both multipoint styles", "why_tests_cant": "round trip over an infinite domain", "anchors": ["src/geoarrow/wkt_writer.c", "src/geoarrow/wkt_reader.c"]}
{"id": "C22", "title": "The WKT element size limit holds for every element", "statement": "With max_element_size_bytes = n >= 0 set, every element of the finished WKT array is at most n bytes long and is a prefix of the unlimited text.", "quantifier": "all feature histories with nulls, all limits", "why_tests_cant": "quantifies over histories", "anchors": ["src/geoarrow/wkt_writer.c: feat_end_wkt, coords_wkt, WKTWriter max_element_size_bytes", "src/geoarrow/kernel.c: format_wkt"]}
{"id": "C23", "title": "The WKT writer's arrays are well-formed after any history of features", "statement": "After any history of visited features and nulls, Finish yields length = number of features, element i = text of feature i (empty for null), validity bits and null count exactly the nulls, offsets from 0 and non-decreasing; afterwards the writer is as new.", "quantifier": "all histories, repeated over batches", "why_tests_cant": "all histories", "anchors": ["src/geoarrow/wkt_writer.c: feat_start_wkt, null_feat_wkt, feat_end_wkt, GeoArrowWKTWriterFinish"]}
{"id": "C24", "title": "Native arrays written by Append read back as the appended geometries", "statement": "For each native type (point \u2026 multipolygon, any dimensions, separated or interleaved) and every sequence of nulls and geometries that type can hold, GeoArrowNativeWriterAppend/AppendNull then Finish give an array that GeoArrowArrayViewVisitNative reads back as the same sequence of geometries (in the array's dimensions).", "quantifier": "all histories of geometries and nulls, all six native types, four dimensionalities, two layouts", "why_tests_cant": "all histories", "anchors": ["src/geoarrow/native_writer.c: GeoArrowNativeWriterAppend, GeoArrowNativeWriterAppendNull, GeoArrowNativeWriterFinish", "src/geoarrow/array_view.c: GeoArrowArrayViewVisitNative"]}
{"id": "C25", "title": "Native arrays written through the visitor read back as the visited features", "statement": "Visiting a sequence of features into a native writer and reading the finished array back yields the same non-empty coordinate sequences feature by feature; no feature's coordinates ever appear in another feature.", "quantifier": "all histories of features accepted by the writer", "why_tests_cant": "all histories", "anchors": ["src/geoarrow/native_writer.c: GeoArrowNativeWriterInitVisitor and its *_point, *_multipoint, *_multilinestring, *_multipolygon callbacks"]}
{"id": "C26", "title": "Native writer offsets are valid or an error is returned", "statement": "Every offset buffer of an array returned by the native writer starts at 0, is non-decreasing, and its last value is the length of its child; when the running total no longer fits a 32-bit offset an error is returned instead of wrapping.", "quantifier": "all histories, including more than 2^31-1 coordinates", "why_tests_cant": "needs more than 2^31 coordinates to observe", "anchors": ["src/geoarrow/native_writer.c: GeoArrowNativeWriterAppendSize", "src/geoarrow/builder.c: GeoArrowBuilderFinish"]}
{"id": "C27", "title": "Visiting a slice of a native array is the slice of the visit", "statement": "For every native array (any offset at any nesting level), visiting elements [o, o+n) emits exactly the events of those elements, and visiting in consecutive windows is the same as visiting once.", "quantifier": "all arrays, all offsets at every level, all windows", "why_tests_cant": "all arrays and windows", "anchors": ["src/geoarrow/array_view.c: GeoArrowArrayViewSetArray, GeoArrowArrayViewVisitNative*"]}
{"id": "C28", "title": "Setting an array checks its structure before using it", "statement": "GeoArrowArrayViewSetArray fails with EINVAL for every array whose buffer or child counts do not match the type, and after success every window inside the array can be visited with every access inside the arrays' buffers provided the buffers are as long as the Arrow specification demands.", "quantifier": "all array structures", "why_tests_cant": "all array shapes", "anchors": ["src/geoarrow/array_view.c: GeoArrowArrayViewSetArrayInternal, GeoArrowArrayViewSetArrayBox, GeoArrowArrayViewSetArraySerialized"]}
{"id": "C29", "title": "Boxes are visited as closed rectangles", "statement": "Visiting a box array emits for each non-null box a polygon with one closed five-point ring running through its corners, or an empty polygon when a minimum exceeds a maximum.", "quantifier": "all box arrays", "why_tests_cant": "all ordinates", "anchors": ["src/geoarrow/array_view.c: GeoArrowArrayViewVisitNativeBox"]}
{"id": "C30", "title": "Builder buffers end up in the array with consistent lengths", "statement": "After any sequence of buffer appends, GeoArrowBuilderFinish returns an array tree whose lengths are exactly those implied by the buffers: list lengths are offsets-1 (0 for an empty offsets buffer), coordinate lengths are values per dimension, the outer length is the outermost level's, and null_count is that set by the writer.", "quantifier": "all sequences of buffer appends, all types", "why_tests_cant": "all histories", "anchors": ["src/geoarrow/builder.c: GeoArrowBuilderFinish, GeoArrowBuilderFinishInternal, GeoArrowSetArrayLengthFromBufferLength"]}
{"id": "C31", "title": "Serialized metadata has the announced size and parses back to the same metadata", "statement": "For every metadata view (edge type, CRS type, CRS text), GeoArrowMetadataSerialize returns the exact number of bytes of the JSON it writes, and parsing that JSON gives back the same edge type, CRS type and (after unescaping) the same CRS text.", "quantifier": "all CRS texts, edge types, CRS types", "why_tests_cant": "all strings, notably with quotes and backslashes", "anchors": ["src/geoarrow/metadata.c: GeoArrowMetadataSerialize, GeoArrowMetadataSerializedSize, GeoArrowMetadataViewInit"]}
{"id": "C32", "title": "Parsing metadata terminates on every input", "statement": "GeoArrowMetadataViewInit returns for every byte string.", "quantifier": "all byte strings", "why_tests_cant": "non-termination cannot be observed by a test that passes", "anchors": ["src/geoarrow/metadata.c: FindList, FindObject, SkipUntil"]}
{"id": "C33", "title": "Parsing metadata never reads outside its input", "statement": "GeoArrowMetadataViewInit reads only bytes inside the given view, for every byte string.", "quantifier": "all byte strings", "why_tests_cant": "an overread of one byte is invisible to tests", "anchors": ["src/geoarrow/metadata.c: FindString, FindList, FindObject, ParseJSONMetadata"]}
{"id": "C34", "title": "Only the documented spellings of edges and crs_type are accepted", "statement": "Metadata parsing maps \"edges\" and \"crs_type\" to an enumerator exactly when the value is the documented spelling of that enumerator.", "quantifier": "all byte strings as values", "why_tests_cant": "all strings", "anchors": ["src/geoarrow/metadata.c: GeoArrowMetadataViewInit edges/crs_type branches"]}
{"id": "C35", "title": "Unescaping a CRS inverts JSON string escaping and respects the output size", "statement": "GeoArrowUnescapeCrs returns the unescaped text for every quoted CRS and the text itself otherwise, writes at most n bytes, and returns the size that would be needed.", "quantifier": "all strings and buffer sizes", "why_tests_cant": "all strings and sizes", "anchors": ["src/geoarrow/metadata.c: GeoArrowUnescapeCrs"]}
{"id": "C36", "title": "Schemas created for a type are recognised as that type", "statement": "For every supported type, GeoArrowSchemaInitExtension followed by GeoArrowSchemaViewInit gives back the same type, geometry type, dimensions and coordinate layout; and a schema is only recognised as a type if its extension name and storage match.", "quantifier": "all types; all schemas for the converse", "why_tests_cant": "converse ranges over all schemas", "anchors": ["src/geoarrow/schema.c: GeoArrowSchemaInit, GeoArrowSchemaInitExtension", "src/geoarrow/schema_view.c: GeoArrowSchemaViewInit"]}
{"id": "C37", "title": "The box kernel returns the tight bounding box of each feature", "statement": "For every batch, the i-th output box is the minimum and maximum of the x and y ordinates of feature i ignoring NaNs (Inf/-Inf when there are none), and is null exactly when the feature is null.", "quantifier": "all batches of features, all ordinates including NaN, infinities and negative zero", "why_tests_cant": "all ordinates and histories", "anchors": ["src/geoarrow/kernel.c: box kernel callbacks"]}
{"id": "C38", "title": "Aggregate kernels do not depend on how the input is split into batches", "statement": "For box_agg and unique_geometry_types_agg, the result depends only on the concatenation of the pushed batches; box_agg is the tight box of all coordinates, and unique_geometry_types_agg returns exactly the sorted set of ISO codes of the non-empty features' geometry types.", "quantifier": "all batch splittings of all inputs", "why_tests_cant": "all histories", "anchors": ["src/geoarrow/kernel.c: kernel_push_batch_agg, finish_push_batch box_agg, unique_geometry_types_agg"]}
{"id": "C39", "title": "The C++ WKB parser never reads outside its input", "statement": "WKBParser::Parse reads only inside the blob for every byte string, every sequence it records lies inside the blob, and on success the cursor is the end of the geometry.", "quantifier": "all byte strings", "why_tests_cant": "all inputs", "anchors": ["src/geoarrow/hpp/wkb_util.hpp: WKBParser"]}
{"id": "C40", "title": "The C++ WKB parser decodes every well-formed blob and classifies the rest", "statement": "For every encoding of a geometry, Parse returns OK and the geometry with its SRIDs; with extra bytes it returns TOO_MANY_BYTES, with any missing bytes TOO_FEW_BYTES.", "quantifier": "all trees, encodings and truncation points", "why_tests_cant": "infinite family", "anchors": ["src/geoarrow/hpp/wkb_util.hpp: WKBParser, WKBGeometry"]}
{"id": "C41", "title": "Vertex and edge iteration over native arrays visits each vertex and edge once, nulls excluded", "statement": "VisitVertices over any native array (sliced or not, with or without nulls) calls back with exactly the vertices of the non-null elements in order, and VisitEdges with exactly the pairs of consecutive vertices of each sequence.", "quantifier": "all arrays, slices, validity bitmaps", "why_tests_cant": "all arrays", "anchors": ["src/geoarrow/hpp/array_util.hpp: CoordSequence, ListSequence, Array"]}
{"id": "C42", "title": "The empty box of every dimensionality is empty", "statement": "Box::Empty() has minimum +infinity and maximum -infinity in each of its dimensions.", "quantifier": "all dimensionalities", "why_tests_cant": "finite, listed because a user relies on it and no test covers all dimensionalities", "anchors": ["src/geoarrow/hpp/array_util.hpp: BoxXY, BoxXYZ, BoxXYM, BoxXYZM"]}
{"id": "C43", "title": "Validity bitmaps built by incremental appends hold exactly the appended bits", "statement": "After any sequence of bitmap appends of runs of bits, bit i of the buffer is the i-th appended bit, bytes beyond are untouched, and the size is the total.", "quantifier": "all sequences of runs of any length", "why_tests_cant": "all histories and alignments", "anchors": ["src/vendor/nanoarrow/nanoarrow.h: ArrowBitmapAppend, ArrowBitsSetTo, ArrowBitGet"]}
{"id": "C44", "title": "Printing with precision keeps the number's integer digits", "statement": "The number printer strips only trailing zeros of the fractional part: the printed text denotes the same decimal value as the fixed-precision rendering.", "quantifier": "all renderings and precisions", "why_tests_cant": "all numbers and precisions", "anchors": ["src/geoarrow/double_print.c: GeoArrowPrintDouble"]}
{"id": "C45", "title": "Converting an array between encodings preserves every feature", "statement": "Reading a WKB array with the array reader into the WKT, WKB or native array writer gives an array of the same length with the same nulls whose elements denote the same geometries.", "quantifier": "all input arrays", "why_tests_cant": "all arrays", "anchors": ["src/geoarrow/array_reader.c: GeoArrowArrayReaderVisit", "src/geoarrow/array_writer.c", "src/geoarrow/kernel.c: as_geoarrow"]}
{"id": "C46", "title": "The WKT writer visitor does not corrupt memory when events arrive in an unexpected order", "statement": "As the visitor contract promises, any sequence of visitor calls (well-nested or not) on the WKT writer either succeeds or returns an error; it never writes outside the output buffer or uses uninitialised state.", "quantifier": "all sequences of visitor calls, coordinate batches of any size and all settings", "why_tests_cant": "all event sequences; an overflow of the estimated buffer size depends on the ordinates", "anchors": ["src/geoarrow/wkt_writer.c: visitor callbacks, GeoArrowWKTWriterInitVisitor"]}
{"id": "C47", "title": "The WKT reader accepts only WKT", "statement": "Whenever the WKT reader reports success, the text (up to its end or a NUL) is a rendering of some geometry in the WKT grammar, and the events delivered are exactly those of that geometry.", "quantifier": "all byte strings, any earlier use of the reader", "why_tests_cant": "all inputs", "anchors": ["src/geoarrow/wkt_reader.c: GeoArrowWKTReaderVisit"]}
{"id": "C48", "title": "Building a geometry does not corrupt memory when events arrive in an unexpected order", "statement": "As the visitor contract promises, any sequence of visitor calls on a GeoArrowGeometry visitor either succeeds or returns an error; it never reads or writes outside its buffers and never divides by zero.", "quantifier": "all sequences of visitor calls after any earlier history, coordinate batches of any size", "why_tests_cant": "all event sequences and buffer growth points", "anchors": ["src/geoarrow/geometry.c: GeoArrowGeometryInitVisitor and its callbacks, GeoArrowGeometryReserveCoords, GeoArrowGeometryReallocCoords"]}
{"id": "C49", "title": "A node set to interleaved or separated coordinates denotes exactly those coordinates", "statement": "After GeoArrowGeometryNodeSetInterleaved (GeoArrowGeometryNodeSetSeparated) on a buffer of coordinates stored one after the other (one dimension after the other), the node is a sequence of those coordinates, and the dimensions it lacks read as NaN, as the documentation of the struct requires.", "quantifier": "all dimensions, coordinate buffers and geometry types", "why_tests_cant": "all buffers", "anchors": ["src/geoarrow/geoarrow_type_inline.h: GeoArrowGeometryNodeSetInterleaved, GeoArrowGeometryNodeSetSeparated", "src/geoarrow/geoarrow_type.h: struct GeoArrowGeometryNode"]}
{"id": "C50", "title": "Appending to builder buffers stays within their memory", "statement": "No mix of GeoArrowBuilderAppendBuffer, GeoArrowBuilderReserveBuffer, GeoArrowBuilderSetOwnedBuffer, GeoArrowBuilderOffsetAppend and GeoArrowBuilderCoordsAppend on existing buffers writes outside the memory of a buffer, and what was appended is still there when the array is finished.", "quantifier": "all types and all sequences of calls", "why_tests_cant": "overflows appear only for particular sizes and orders of calls", "anchors": ["src/geoarrow/builder.c: GeoArrowBuilderReserveBuffer", "src/geoarrow/geoarrow_type_inline.h: GeoArrowBuilderAppendBuffer, GeoArrowBuilderOffsetAppend, GeoArrowBuilderCoordsReserve, GeoArrowBuilderCoordsAppend"]}
{"id": "C51", "title": "JSON metadata is read as what it says", "statement": "GeoArrowMetadataViewInit accepts every JSON object whose members are strings, null, arrays or objects, in any order and with any white space, ignores the members it does not know, gives the edge type, the CRS and its type that the others say, refuses what says something else, and accepts nothing that is not JSON.", "quantifier": "all JSON texts; all byte strings for the converse", "why_tests_cant": "infinite family of texts, nested without bound", "anchors": ["src/geoarrow/metadata.c: GeoArrowMetadataViewInit, GeoArrowMetadataViewInitJSON, ParseJSONMetadata, FindString, FindList, FindObject"]}
{"id": "C52", "title": "Setting the extension metadata of a schema changes nothing else", "statement": "GeoArrowSchemaSetMetadata and GeoArrowSchemaSetMetadataFrom leave the schema with exactly one entry of extension metadata, which reads back as what was set, keep all other entries of its key-value metadata in their order, change nothing else of the schema, and the schema is recognised as the same type as before.", "quantifier": "all schemas, all entries they hold, all metadata; all source schemas", "why_tests_cant": "entries and texts are unbounded, and duplicate keys are legal", "anchors": ["src/geoarrow/metadata.c: GeoArrowSchemaSetMetadata, GeoArrowSchemaSetMetadataFrom, GeoArrowSchemaSetMetadataInternal", "src/vendor/nanoarrow/nanoarrow.c: ArrowMetadataBuilderSet"]}
{"id": "C53", "title": "Iterating over a parsed WKB geometry gives its vertices and edges", "statement": "After a successful WKBParser::Parse, VisitVertices calls back with every vertex of the geometry exactly once, in order, converted to the coordinate type that was asked for, and VisitEdges with every edge (a point being an edge from itself to itself), through all levels of nesting, in either byte order.", "quantifier": "all geometries, encodings and target coordinate types", "why_tests_cant": "infinite family of geometries, nested without bound", "anchors": ["src/geoarrow/hpp/wkb_util.hpp: WKBGeometry::VisitVertices, WKBGeometry::VisitEdges, WKBSequence::Visit", "src/geoarrow/hpp/array_util.hpp: UnalignedCoordSequence"]}
{"id": "C54", "title": "The bounds of box arrays are those of their boxes", "statement": "LowerBound() and UpperBound() of a C++ box array, sliced or not, are point arrays of the same length with the same nulls, whose i-th coordinates are the minima and the maxima of box i in every dimension.", "quantifier": "all box arrays of the four dimensionalities, all slices and validity bitmaps", "why_tests_cant": "all arrays and offsets", "anchors": ["src/geoarrow/hpp/array_util.hpp: BoxArray::LowerBound, BoxArray::UpperBound, BoxXY, BoxXYZ, BoxXYM, BoxXYZM"]}
{"id": "C55", "title": "Coordinate sequences over memory of the caller show that memory", "statement": "A CoordSequence initialized with InitInterleaved or InitSeparated, and its slices, give the coordinates in the memory for any stride; iterating over one dimension with dbegin and dend, by any mix of ++, +=, * and [], gives that ordinate of each coordinate.", "quantifier": "all memory, strides, lengths, slices and iterator positions", "why_tests_cant": "all strides and positions; a stride of 1 hides errors", "anchors": ["src/geoarrow/hpp/array_util.hpp: CoordSequence::InitInterleaved, CoordSequence::InitSeparated, CoordSequence::dbegin, CoordSequence::dend, StridedIterator"]}
{"id": "C56", "title": "Iterating over WKB arrays visits each vertex and edge once, nulls excluded", "statement": "VisitVertices and VisitEdges over any C++ WKB array, sliced or not, with or without nulls, call back with exactly the vertices and edges of the elements that are not null, in order, and throw if one of them is not the encoding of a geometry.", "quantifier": "all WKB arrays, elements, slices, validity bitmaps and target coordinate types", "why_tests_cant": "all arrays; the parser and the geometry are used again for each element", "anchors": ["src/geoarrow/hpp/wkb_util.hpp: WKBArray, WKBBlobSequence, WKBSequenceIterator", "src/geoarrow/hpp/array_util.hpp: BinarySequence, Array"]}
{"id": "C57", "title": "Numbers printed with enough digits read back as the same double", "statement": "For a double that is zero, an integer below 2^53 or at least 10^(16-p) in magnitude, the text printed at precision p denotes a decimal that rounds to this double and to no other; at the default precision of 16 these are all doubles of magnitude at least 1. So geometries written as WKT and read with a correctly rounding parser come back with the same bits, and different numbers are printed differently.", "quantifier": "all 2^64 doubles, precisions 0 to 16, all geometries", "why_tests_cant": "2^64 doubles; the printer's table lookups are approximations that must never be off by one", "anchors": ["src/geoarrow/double_print.c: GeoArrowPrintDouble", "src/geoarrow/ryu/d2s.c: d2d, d2sfixed_buffered_n, d2sexp_buffered_n", "src/geoarrow/wkt_writer.c: WKTWriterWriteDoubleUnsafe"]}
{"id": "C58", "title": "Printing a number writes at most 40 characters", "statement": "GeoArrowPrintDouble writes at most 40 characters to the memory it is given, whatever the double and the precision, and returns how many.", "quantifier": "all 2^64 doubles and all precisions", "why_tests_cant": "2^64 doubles times all precisions; an overrun corrupts memory silently", "anchors": ["src/geoarrow/double_print.c: GeoArrowPrintDouble", "src/geoarrow/ryu/d2s.c: to_chars_fixed, to_chars_uint64, copy_special_str", "src/geoarrow/wkt_writer.c: WKTWriterWriteDoubleUnsafe"]}
{"id": "C59", "title": "A kernel that is started for a schema does its whole job", "statement": "A kernel is created for eight names and no other. Started with the schema of any GeoArrow type it gives the right output schema: as_geoarrow the requested type with exactly the extension metadata of the input, the box kernels a box that says the same CRS, the others their plain type. Pushing any batches of features of that type and finishing then gives exactly the converted arrays, texts, boxes, types or nulls of these features. Schemas that are not GeoArrow, target types that cannot be written, edges that are not planar and invalid metadata are refused when it is started.", "quantifier": "all schemas, extension metadata, options, numbers and contents of batches, and all eight kernels", "why_tests_cant": "whole sessions over all schemas and batches; errors show only in some combinations of schema, option and history", "anchors": ["src/geoarrow/kernel.c: GeoArrowKernelInit, kernel_visitor_start, finish_start_as_geoarrow, finish_start_format_wkt, schema_box, kernel_push_batch, kernel_finish_void_agg, kernel_push_batch_void"]}
{"id": "C60", "title": "Kernel options are read as the integers they are", "statement": "An integer option of a kernel has exactly the value that its text denotes; a missing one has its default or is refused if it is required; a text that is not an integer, or is one that does not fit, is refused.", "quantifier": "all option metadata, keys and texts", "why_tests_cant": "unbounded texts; truncation and out-of-range values are not noticed by ordinary values", "anchors": ["src/geoarrow/kernel.c: kernel_get_arg_long", "src/vendor/nanoarrow/nanoarrow.c: ArrowMetadataGetValue"]}
{"id": "C61", "title": "Type objects of the C++ interface are values", "statement": "A GeometryDataType has the type, edge type, CRS type and CRS it was made with, whatever happens to other objects: copies, moves, assignments and destructions in any order never change another object and no memory that is gone is read. WithGeometryType, WithCoordType, WithDimensions, WithEdgeType, WithCrs, WithCrsLonLat, Simple and Multi change exactly that attribute and throw if there is no such type; the schema and the extension metadata of an object give an equal object again; and ToString tells types and edges apart and shows no more of the CRS than asked for.", "quantifier": "all sequences of constructions, copies, moves, assignments, modifications and destructions, with any types, schemas, metadata and CRS", "why_tests_cant": "the objects hold pointers into their own strings, so that lifetime errors depend on the history, the allocator and the lengths of the strings", "anchors": ["src/geoarrow/hpp/geometry_data_type.hpp: GeometryDataType", "src/geoarrow/metadata.c: GeoArrowMetadataSerialize, GeoArrowUnescapeCrs, GeoArrowMetadataSetLonLat"]}
{"id": "C62", "title": "Numbers are read as the nearest double", "statement": "Of a text that starts with a number - perhaps a minus sign, digits with at most one point, perhaps an exponent - the longest number is read, as the double nearest to it, and of two nearest ones as the even one, however many digits there are and whatever the rounding mode. A number beyond the largest double, and one that is not zero although zero is the nearest double, is refused. Of other texts, infinities and not-a-numbers are read, in either case and with their sign, and all others are refused; nothing else happens with any text. So WKT that the library wrote with numbers that its printer keeps is read back as the same doubles.", "quantifier": "all texts of bytes up to 2^27 bytes, with any number of digits and any exponent, in every rounding mode", "why_tests_cant": "the texts that are hard to round lie next to half-way points between doubles, with hundreds of digits, and errors concern one number in billions", "anchors": ["src/geoarrow/double_parse_fast_float.cc: GeoArrowFromChars", "src/geoarrow/fast_float.h: from_chars_float_advanced, parse_number_string, compute_float, digit_comp, parse_infnan", "src/geoarrow/wkt_reader.c: ReadOrdinate"]}
{"id": "C63", "title": "Builds without fast_float read the same numbers", "statement": "In a build without fast_float a text is read as a number exactly if it has 1 to 63 bytes, none of them NUL, and the C library's strtod takes all of it; nothing outside the text and its copy is touched. Numbers of up to 63 bytes are read as the nearest double, WKT that the library wrote is read back as in other builds, and both builds read the same doubles.", "quantifier": "all texts, and all strtod functions that follow the C standard", "why_tests_cant": "the buffer of 64 bytes is exceeded by one length only, and the other build is another program", "anchors": ["src/geoarrow/double_parse_std.c: GeoArrowFromChars", "src/geoarrow/double_parse_fast_float.cc: GeoArrowFromChars"]}
{"id": "C64", "title": "Writer objects of the C++ interface write what they are given, with their settings", "statement": "Through an ArrayWriter any sequence of features, given to its visitor in any pieces, and any number of Finish calls give one array per Finish that holds exactly the features since the one before: as WKT, as WKB, or as a native array. SetPrecision and SetFlatMultipoint set the precision and the form of multipoints of all texts that are written afterwards; writers that are not of WKT throw for them, and types that cannot be written are refused with an exception.", "quantifier": "all types, features, sequences of method calls and ways to split the features among calls", "why_tests_cant": "whole histories of calls; a setting may act on another setting or be ignored after the first use", "anchors": ["src/geoarrow/hpp/array_writer.hpp: ArrayWriter", "src/geoarrow/array_writer.c: GeoArrowArrayWriterSetPrecision, GeoArrowArrayWriterInitVisitor, GeoArrowArrayWriterFinish"]}
{"id": "C65", "title": "Reader objects of the C++ interface read the array they were given last, and release what they own", "statement": "Through an ArrayReader every visit passes on exactly the features asked for, of the array that was set last, whether ownership was given (SetArray) or not (SetArrayNonOwning). An array whose ownership was given is released exactly once, at the latest when the reader is destroyed, also if it was refused; no other array is released, and no array that was released is read.", "quantifier": "all types, arrays and sequences of method calls, and releases by the user, in every order", "why_tests_cant": "leaks and double releases depend on the history of calls", "anchors": ["src/geoarrow/hpp/array_reader.hpp: ArrayReader", "src/geoarrow/hpp/internal.hpp: ArrayHolder", "src/geoarrow/array_reader.c: GeoArrowArrayReaderSetArray, GeoArrowArrayReaderVisit"]}
{"id": "C66", "title": "Generic C++ code is called with the array class of the type", "statement": "GEOARROW_DISPATCH_ARRAY_CALL calls generic code with the array class of exactly the geometry type and dimensions of a type identifier, or of WKB, and throws for every other number; so generic code that visits vertices or edges sees those of the array's elements that are not null.", "quantifier": "all type identifiers, and all arrays and views of them", "why_tests_cant": "forty-nine types times all arrays; a wrong class reads other memory than the array's and may go unnoticed", "anchors": ["src/geoarrow/hpp/geometry_type_traits.hpp: GEOARROW_DISPATCH_ARRAY_CALL, GEOARROW_DISPATCH_NATIVE_ARRAY_CALL, ResolveArrayType", "src/geoarrow/geoarrow_type_inline.h: GeoArrowGeometryTypeFromType, GeoArrowDimensionsFromType"]}
{"id": "C67", "title": "Memory that is given to a builder is freed once, not before its time, and shown by the array", "statement": "An object that is moved into an ArrayBuilder with SetBufferWrapped is deleted exactly once: when another one takes its place, when the call is refused, when the builder is destroyed, or when the array that it went to is released; and never while an array that shows its memory is not released. The arrays that Finish gives hold exactly the bytes that were given or appended, for any mixture of SetBufferWrapped, AppendToBuffer and AppendToOffsetBuffer; a call that fails changes nothing.", "quantifier": "all types, containers (also without elements), and programs of method calls, releases and destruction in any order, with failing calls among them", "why_tests_cant": "double frees and leaks depend on the whole history; the failing paths inside the vendored buffer code are not reached by tests", "anchors": ["src/geoarrow/hpp/array_writer.hpp: ArrayBuilder", "src/geoarrow/builder.c: GeoArrowBuilderSetOwnedBuffer, GeoArrowBuilderReserveBuffer, GeoArrowBuilderFinish, GeoArrowBuilderReset", "src/vendor/nanoarrow/nanoarrow.c: ArrowBufferDeallocatorReallocate, ArrowArrayFinalizeBuffers"]}
{"id": "C68", "title": "Objects release the memory they allocated, and use no other, whichever allocations fail", "statement": "A program initializes, uses and resets geometries, array readers, array writers and kernels, and releases the schemas and arrays it was given. Whichever of the allocations on the way fail, no call frees memory twice or uses memory that was freed, a failing init leaves nothing behind, and once everything was reset and released no memory is left.", "quantifier": "every sequence of calls on one object of every sort, every choice of which buffers must grow and which calls are refused, every schedule of failing allocations", "why_tests_cant": "tests run with an allocator that does not fail; a leak on an error path is seen only if that allocation fails in a test, and there are as many schedules as subsets of allocations", "anchors": ["src/geoarrow/geometry.c: GeoArrowGeometryInit, GeoArrowGeometryReset, GeoArrowGeometryDeepCopy", "src/geoarrow/array_reader.c: GeoArrowArrayReaderInitFromType, GeoArrowArrayReaderReset", "src/geoarrow/array_writer.c: GeoArrowArrayWriterInitFromType, GeoArrowArrayWriterReset", "src/geoarrow/native_writer.c: GeoArrowNativeWriterInit, GeoArrowNativeWriterFinish", "src/geoarrow/builder.c: GeoArrowBuilderInitFromType, GeoArrowBuilderFinish", "src/geoarrow/kernel.c: GeoArrowKernelInit, kernel_release_visitor, box_finish"]}
{"id": "C69", "title": "WKT errors name the first place where the text stops being WKT, and what could stand there", "statement": "If the WKT reader refuses a text, the error message is 'Expected X at byte N', where the first N bytes can be continued with X to a text that is readable, and what stands at byte N is not X; every text with the same first N bytes and the same word at byte N is refused too, with the same message. If the text is readable the message is not touched. Messages that do not fit the error object are cut and end with a zero byte.", "quantifier": "all texts, number parsers, states that earlier texts left the reader in, and previous messages", "why_tests_cant": "the position depends on every character before it, and the last claim is about all other texts with the same beginning", "anchors": ["src/geoarrow/wkt_reader.c: SetParseErrorAuto, GeoArrowWKTReaderVisit", "src/geoarrow/util.c: GeoArrowErrorSet"]}
{"id": "C70", "title": "Extension types of Arrow C++ match their storage and survive being written and read", "statement": "An extension type of Arrow C++ that was obtained with any of the Make and With methods has the GeoArrow type, edge type and CRS that the methods ask for, the storage type of that GeoArrow type, and its extension name. Reading back the storage type, the name and the serialized metadata gives an equal extension type of the same value, if the names were registered. Types are equal only if their GeoArrow type, edge type and CRS are. What cannot be made is a Status, not an exception.", "quantifier": "all sequences of Make, With and copy calls with any arguments, interleaved with writing and reading, and all contents of fresh memory", "why_tests_cant": "types times metadata texts times sequences of changes; a mismatch shows only in another process that reads the file", "anchors": ["src/geoarrow/hpp/arrow_extension_type.hpp: GeometryExtensionType", "src/geoarrow/hpp/geometry_data_type.hpp: GeometryDataType"]}
{"id": "C71", "title": "WKB errors say truthfully what is wrong, and where", "statement": "If the WKB reader refuses bytes, the error message is one of five, and what it says is so: at the byte it names there is no byte for the byte order, or fewer than four bytes for a number, or fewer bytes than the coordinates whose number it gives need (the message says how many they need and how many there are), or a type word with a type that is none of the seven; or the geometries are nested more than 255 deep. The bytes before the named place can be continued to something readable. After a success the message is not touched.", "quantifier": "all byte strings, byte orders that earlier calls left the reader in, and previous messages", "why_tests_cant": "the numbers in the message depend on everything that was read before, in nested geometries of any shape; the last claim but one is about all continuations", "anchors": ["src/geoarrow/wkb_reader.c: WKBReaderReadEndian, WKBReaderReadUInt32, WKBReaderReadNodeCoordinates, WKBReaderReadNodeGeometry, GeoArrowWKBReaderRead", "src/geoarrow/util.c: GeoArrowErrorSet"]}
{"id": "C72", "title": "Metadata errors quote what is wrong", "statement": "If extension metadata are refused, the error message says so truthfully: either that they are not valid, quoting them, and then no beginning of them is valid; or that characters follow an object, quoting these, and then what is before them is valid, and they do not begin with whitespace. Quotes end at a NUL byte and at the size of the message. Nothing beyond the metadata is read for the message. After a success the message is not touched.", "quantifier": "all byte strings, whatever follows them in memory, and previous messages", "why_tests_cant": "which of the two messages is right depends on whether any beginning of the text is valid; reading beyond a buffer only shows with certain memory", "anchors": ["src/geoarrow/metadata.c: GeoArrowMetadataViewInit, GeoArrowMetadataViewInitJSON, ParseJSONMetadata", "src/geoarrow/util.c: GeoArrowErrorSet", "src/vendor/nanoarrow/nanoarrow.c: ArrowErrorSet"]}
{"id": "C73", "title": "A geometry that a native array does not take is refused without a trace", "statement": "Of the geometries that are offered to a native writer (GeoArrowNativeWriterAppend), each that the array cannot hold is refused with EINVAL and an error message that says truthfully why: more than one coordinate for an array of points, several members for an array of single geometries, or another kind of geometry, naming both. Every other call succeeds, and the finished array is the one that these calls alone would have made.", "quantifier": "all sequences of geometries and nulls, of all kinds in all kinds of arrays, and any number of arrays from one writer", "why_tests_cant": "the refused calls may come anywhere among others, and what they might leave behind shows only in what comes after them", "anchors": ["src/geoarrow/native_writer.c: GeoArrowNativeWriterAppend, GeoArrowNativeWriterAppendSize, GeoArrowNativeWriterFinish", "src/geoarrow/geoarrow_type_inline.h: GeoArrowGeometryTypeString"]}
{"id": "C74", "title": "Error messages about schemas are true", "statement": "When a schema is viewed (GeoArrowSchemaViewInit, GeoArrowSchemaViewInitFromStorage) and refused, the error message says something that is true of the schema: the extension name that it calls unrecognized is no name of a type, the parent, child or format that it blames is the one that is not as it must be, and the names, numbers of children and sizes that it says it found are there. A schema of which such a message is true is refused. When the schema is accepted the message stays as it was.", "quantifier": "all schemas with any formats, names, metadata and nesting", "why_tests_cant": "the messages are made in nested parsers from counters and names of the schema, and tests compare them for a few schemas", "anchors": ["src/geoarrow/schema_view.c: GeoArrowSchemaViewInit, GeoArrowSchemaViewInitInternal, GeoArrowParseNestedSchema, GeoArrowParsePointStruct, GeoArrowParsePointFixedSizeList, GeoArrowParseBox, GeoArrowParseBoxChild"]}
{"id": "C75", "title": "Error messages about native arrays are true", "statement": "When an array is given to a view (GeoArrowArrayViewSetArray) and refused, the error message says something that is true of the array: a list array, a coordinate array or one of its children has a number of buffers or children that it must not have for the type of the view. An array of which such a message is true is never taken. When the array is taken the message stays as it was.", "quantifier": "all arrays, for views of all types after any number of earlier arrays", "why_tests_cant": "every combination of numbers of buffers and children at every level is a case, and tests try a few", "anchors": ["src/geoarrow/array_view.c: GeoArrowArrayViewSetArray, GeoArrowArrayViewSetArrayInternal, GeoArrowArrayViewSetArrayBox"]}
{"id": "C76", "title": "Error messages about geometries are true", "statement": "When a list of nodes is visited (GeoArrowGeometryViewVisit, GeoArrowGeometryVisit) and the visit fails though no call of the visitor did, the error message says something that is true of the list: a node has a type that there is not, or there are nodes after those of the geometry. When a call of the visitor that builds a geometry fails, the message is true of the call and of those before it: the call needs a geometry and none was begun, more was ended than was begun, or the nesting is 31 deep. When all succeeds the message stays as it was.", "quantifier": "all lists of nodes, and all sequences of calls for a feature", "why_tests_cant": "every shape of list and every order of calls is a case, and tests try a few", "anchors": ["src/geoarrow/geometry.c: GeoArrowGeometryVisitNode, GeoArrowGeometryViewVisit, GeoArrowGeometryVisit, geom_start_geometry, ring_start_geometry, coords_geometry, ring_end_geometry, geom_end_geometry, feat_end_geometry"]}
{"id": "C77", "title": "Messages of kernels that are not started are true", "statement": "When a kernel cannot be started, the error message says something that is true of the schema, its extension metadata or the options: the schema is not one of its extension name, the metadata are not GeoArrow metadata, their edges are not planar and the kernel computes boxes, or the option 'type' is missing; and an as_geoarrow kernel that is started a second time says so. When it can be started the message stays as it was.", "quantifier": "all kernels, all well-formed schemas, all options", "why_tests_cant": "schemas, metadata and options can be wrong in endless ways, and tests try a few", "anchors": ["src/geoarrow/kernel.c: kernel_visitor_start, kernel_get_arg_long, finish_start_as_geoarrow, schema_box, finish_start_box, finish_start_box_agg", "src/geoarrow/array_reader.c: GeoArrowArrayReaderInitFromSchema"]}
{"id": "C78", "title": "There is one scalar function and it gives nulls", "statement": "GeoArrowScalarUdfFactoryInit accepts the name void and refuses every other with ENOTSUP and a message that quotes the name, cut if it is too long. The results of void are of the null type, and there are exactly as many nulls as rows, for any arguments.", "quantifier": "all names without NUL, all arguments, all numbers of rows", "why_tests_cant": "names of any length are possible, also those that do not fit the message", "anchors": ["src/geoarrow/scalar_udf.c: GeoArrowScalarUdfFactoryInit, GeoArrowScalarUdfVoidInit, GeoArrowScalarUdfVoidExecute"]}
{"id": "C79", "title": "Messages of the visitors that write are true", "statement": "When a feature is refused while it is visited into a native array, the error message says something that is true of it: it has more than one coordinate and the array is one of points, or it has more than one sequence and the array is one of linestrings. When the WKT writer refuses the start of a geometry with a message, the geometry is of no type or has no dimensions, as the message says. In all other cases, and always when the feature is accepted, the message stays as it was.", "quantifier": "all kinds, layouts and dimensions of native arrays, all features visited before, all features; all states of the WKT writer and all events", "why_tests_cant": "features can have any number of parts and be preceded by any others, and tests only compare a few messages", "anchors": ["src/geoarrow/native_writer.c: feat_end_point, feat_end_multipoint, GeoArrowNativeWriterInitVisitor", "src/geoarrow/wkt_writer.c: geom_start_wkt, WKTWriterCheckLevel"]}
{"id": "C80", "title": "Messages of C++ exceptions are true", "statement": "When a C function called by the C++ classes fails, the exception has the code that it returned, and its message names the call, the code and the text of the error, if there is one; when it succeeds nothing is thrown. When an element of a WKB array cannot be parsed while vertices or edges are visited, the callback has been called for exactly the elements before it, and the message of the exception has the index of that element in the slice and an error that its bytes have: too few bytes, bytes left over, or a byte order or a geometry type that do not exist.", "quantifier": "all codes, calls and texts of errors, built without GEOARROW_DEBUG; all WKB arrays with 32-bit offsets, slices, elements and dimensions of the visited coordinates", "why_tests_cant": "the defect can be at any byte of any element, after any number of others, and tests only compare a few messages", "anchors": ["src/geoarrow/hpp/exception.hpp: GEOARROW_THROW_NOT_OK, ErrnoException", "src/geoarrow/hpp/wkb_util.hpp: WKBParser::ErrorToString, WKBBlobSequence, WKBArray"]}
{"id": "C81", "title": "Messages of exceptions of C++ type objects are true", "statement": "Making a C++ type object of a geometry type, dimensions and a coordinate type throws exactly when there is no such type, and the message names the three. Simple() and Multi() throw exactly for types that are of none of the six simple and multi geometry types, and the message names the geometry type. extension_name() throws exactly when the type has no extension name, and the message has the number of the type.", "quantifier": "all enumerators of geometry types, dimensions and coordinate types; all type identifiers", "why_tests_cant": "the combinations are many and the identifiers unbounded, and tests only check that something is thrown", "anchors": ["src/geoarrow/hpp/geometry_data_type.hpp: GeometryDataType::Make, Simple, Multi, extension_name", "src/geoarrow/geoarrow_type_inline.h: GeoArrowGeometryTypeString, GeoArrowDimensionsString, GeoArrowCoordTypeString"]}
