# geoarrow-c: a machine-checked model in Rocq (Coq 8.16)

The code under study is `/repo` (geoarrow/geoarrow-c at the pinned commit).
The model and theorems live in `rocq/theories`. Nothing in `/repo` is built or run.

## Layout

| File pattern | Contents |
|---|---|
| `Base*.v` | bytes, machine words, outcomes (success, error code, undefined behaviour), list lemmas |
| `*Spec.v` | small specifications that do not mention the model (geometry trees, events, WKB grammar, WKT text, ...) |
| `*Model.v` | Gallina transcription of the C/C++ code, one definition per function, with file and line citations |
| `*Proofs.v` | lemmas |
| `Properties*.v` | the property theorems only, each closed by `exact`, with an `Example` and `Print Assumptions` |

`tools/props.py` generates `properties.jsonl`.

## Conventions of the model

* A byte is an `N` below 256. Machine words are `N` (unsigned) or `Z` (signed), with every wrap the C code can
  perform written out (`mod 2^32`, `mod 2^64`, two's complement for `int32_t`).
* A `double` is its 64-bit pattern. Comparisons of doubles are defined on patterns (sign-magnitude key, NaN
  unordered, -0 equal to +0), so no axiom about reals or primitive floats is used.
* Undefined behaviour (read or write outside a buffer, use of an uninitialised variable, signed overflow) is a
  separate outcome `UB`, never a normal value. Error returns carry the error code.
* Loops whose termination is not structural take fuel. Running out of fuel is its own outcome, and the theorems
  state that it does not occur.
* Memory allocation is assumed to succeed (no `ENOMEM` paths), except where a capacity is part of the logic.
* The number printer and parser (ryu/`snprintf`, fast_float/`strtod`) are universally quantified functions in the
  WKT theorems, with the exact assumption about them in the theorem statement. C58 and C62 discharge the assumptions for ryu
  and fast_float.
* A little-endian host is modelled (`GEOARROW_NATIVE_ENDIAN == 0x01`).

## Specification objects

* `geom`: a geometry tree (point / linestring with a coordinate list; polygon with rings; four kinds of
  collections with children), each node with its own dimensions.
* `geom_events g evs`: `evs` is a correct event sequence for `g`, with every way of cutting a coordinate sequence into
  `coords` batches allowed.
* `repr_geom m lvl nodes g`: in memory `m`, the depth-first node list `nodes` denotes `g` (pointers, strides and byte-order
  flags are resolved by reading memory).
* `wkb` (relation): a byte string is a WKB encoding of `g`, each header in either byte order, ISO or EWKB codes.

## Plan per property

| Id | What is modelled | How it is proved |
|---|---|---|
| C01 | type id arithmetic over `Z` | case analysis on finite enumerators lifted to all integers with `lia` |
| C02 | shift/mask expressions on `N` | bit-level lemmas; equality with "reverse the byte list" |
| C03 | `GeoArrowMapDimensions`, `GeoArrowCoordViewCopy` over a strided word memory | loop invariants |
| C04 | `CopyCoordsGeneric` | loop invariant for native order; refutation for swapped nodes with a missing dimension |
| C05 | the WKB reader state machine with pointers as offsets | induction on the tree against the relation `wkb` |
| C06 | same; a read outside the buffer is `UB` | refutation by witness; safe sub-domain proved as partial |
| C07 | `GeoArrowWKBWriterAppend*` over nodes in memory | induction on the tree |
| C08 | WKB writer visitor state machine | induction on the tree with a stack invariant, any chunking |
| C09 | composition of C05, C07, C08 | corollary |
| C10 | writer state (offsets, values, validity) under op lists | `fold_left` invariant |
| C11 | same | refutation by witness |
| C12 | same, any event list | refutation by witness; well-formed order proved safe |
| C13 | `VisitNode`/`VisitSequence` | induction on the tree |
| C14 | same on arbitrary node lists | refutation by witness; what holds is proved: termination, surplus nodes, and for lists that end too early exactly which are rejected and which are read past their end (induction on the geometry over all prefixes) |
| C15 | geometry builder visitor with buffer reallocation | stack invariant; refutation for the all-empty case |
| C16 | `DeepCopy` | refutation for swapped nodes, proof for native ones |
| C17 | readers with a failing visitor | "emitted events are a prefix of a nested sequence", by induction on execution |
| C18 | WKT reader over byte lists | induction on the grammar; refutation for one whitespace placement |
| C19 | WKT reader on arbitrary input | fuel bound by input length; refutation for embedded NUL |
| C20 | WKT writer visitor | induction on the tree with a stack invariant |
| C21 | composition of C18 and C20 | corollary; refutation for flat multipoints with empty children |
| C22 | `max_element_size_bytes` logic | refutation after a null; proof for histories without nulls |
| C23 | WKT writer arrays | `fold_left` invariant |
| C24 | native writer `Append` and array view | history invariant relating buffers to the list of geometries |
| C25 | native writer visitors | history invariant; refutation for mixed collections |
| C26 | offsets with explicit int32 wrap | invariant below 2^31; refutation at the boundary |
| C27 | native array view visit | induction on windows |
| C28 | `SetArray*` checks | structural induction on the array tree |
| C29 | box visit | case analysis on comparisons |
| C30 | `GeoArrowBuilderFinish` | structural induction |
| C31 | metadata serialiser and parser | induction on text; refutation for a backslash |
| C32 | parser loops with fuel | refutation: a state that repeats forever; partial for NUL-free input |
| C33 | parser with bounds-checked reads | refutation by witness |
| C34 | `strncmp` logic | refutation by witness |
| C35 | unescape loop | induction on text |
| C36 | schema construction and recognition, with the part of nanoarrow's schema view that they use | case analysis over types; induction on schemas for recognition; refutation of the converse for names beginning with geoarrow.wkb |
| C37 | box kernel visitor | induction on event lists |
| C38 | aggregate kernels | monoid argument over batches |
| C39 | C++ WKB parser | invariant "cursor inside buffer" |
| C40 | C++ WKB parser | induction on the tree |
| C41 | C++ array iteration | induction |
| C42 | `Box::Empty` | refutation for two dimensionalities, equality for the others |
| C43 | nanoarrow bitmap | induction on runs |
| C44 | the vendored Ryu printer (shortest decimal, table scaling, digit output) and the `snprintf` fallback | number theory of the scaling (below), loop invariants of the digit loops, induction on text; refutation of the fallback at precision 0 |
| C45 | array reader feeding array writers | composition |
| C46 | WKT writer visitor on any call sequence | state invariant; refutation before the first feature and after an error |
| C47 | WKT reader on arbitrary input | induction on the execution against the grammar relation |
| C48 | geometry builder on any call sequence | state invariant; refutations for null-then-ring and calls after an error |
| C49 | `NodeSetInterleaved`, `NodeSetSeparated` | arithmetic on the layout; refutation for the missing dimensions |
| C50 | builder calls over bounds-checked buffers | invariant on sizes and capacities; refutations for mixed calls |
| C51 | metadata reader against a JSON grammar | induction on the grammar and on the loops; refutation by a trailing comma |
| C52 | setting extension metadata on a schema | induction on the entries; refutation by a backslash in the CRS |
| C53 | vertex and edge visits of the C++ WKB geometry | induction on the tree |
| C54 | C++ box arrays | coordinates of the sequence with half of the pointers; existence of the bounds from validity |
| C55 | `CoordSequence` over raw memory, `StridedIterator` | pointer arithmetic for all strides; refutation of `operator[]` |
| C56 | C++ WKB arrays: `BinarySequence`, `WKBSequenceIterator` over the parser of C40 | induction on the elements, any state of the reused parser |

| C57 | composition of C44 with C21 and C45 | rounding intervals of doubles are disjoint; refutation below 1 |
| C58 | stores to 40 characters of memory; outside is `UB` | length of the printed text; refutation at precision 38 |
| C59 | `GeoArrowKernelInit`, start, push_batch and finish of all kernels, on schemas as in C36 | composition of C36, C52, C31 with C22, C37, C38, C45 |
| C60 | `kernel_get_arg_long` with `atoi`; a number that is no int is `UB` | induction on the metadata and the digits; refutations |
| C61 | every operation of `GeometryDataType` on a store of objects whose views point into named strings; a view of a string that was assigned, moved or destroyed is `UB` to read | simulation of a specification in which objects are values; finite check that the texts of types differ |
| C62 | fast_float: the digits eight at a time, the product with a 128-bit power of five, the comparison of long digits with half-way points, infinities; results that do not fit in the big integers are `UB` | certificates of neighbouring fractions as for C44 show that the truncated product rounds correctly; longest-match specification of texts; composition with C57 |
| C63 | `double_parse_std.c` with `strtod` as a parameter | case analysis on the length and the bytes of the text; number texts contain no NUL; agreement by composition with C62 |
| C64 | `ArrayWriter` of C++ over the array writers of C45: the constructor, settings, the visitor that is made once, `Finish` | invariant of sessions that is generic in the encoding, with the histories of C09, C23 and C49 as instances |
| C65 | `ArrayReader` of C++ in a program that owns numbered arrays: what the reader holds, what its view points into, whose release callbacks were called; reading a released array is `UB` | invariants of programs; visits by the reader theorem of `ArrayReaderProofs.v` |
| C66 | the dispatch macros as functions from numbers to array classes | arithmetic on type numbers; composition with C41 and C56 |
| C67 | `OwnedModel.v`: the builder of C30 with the allocators of its buffers (nanoarrow's deallocators, their failing reallocation, what Finish does with NULL buffers), and programs that destroy builders and release arrays | conservation: at every step the objects given are a permutation of those deleted, held by the builder and held by arrays; arrays by C30, as each call that fills a buffer is one of C30's; witnesses for containers at NULL and for appends to given memory |
| C68 | `AllocModel.v`: a heap of numbered blocks whose allocations fail as a given schedule says, and the init, grow, finish and reset functions of geometries, readers, writers, builders and kernels on it; programs with one object of every sort | separation by lists: the live blocks are a permutation of what the objects hold and what was lost, and every pointer that is kept is in one of the two; one lemma per function, then induction over the calls; witnesses for every way to lose or misuse memory |
| C69 | `WktErrorModel.v`: the reader as a function from what is left to what is left or what was expected, `SetParseErrorAuto`, `GeoArrowErrorSet` and `%ld` | one lemma per function: a refusal comes with a completion and with stability under changes after the word; a simulation with the reader that makes calls (`WktErrorLink.v`) carries both to `wkt_visit` |
| C70 | `ArrowExtModel.v`: extension types as storage type, `GeometryDataType` (C61) and name, over a parameter for the types of Arrow C++; the registry as a list of names | invariant on top of C61's: the storage type is that of the value's type; induction over the calls; writing metadata again gives the same text; concrete witnesses with an Arrow that keeps schemas as they are |
| C71 | `WkbErrorModel.v`: the WKB reader without its nodes, and with the messages | simulation with the reader of C05 and C06; invariant: `size_bytes` is exact until coordinates were read, and more than 7 afterwards, so that a number or byte that is missing is missing at the end; for the place, a failed read is completed by empty linestrings and rings (`WkbErrorPlace.v`: the prefix is replayed, and more fuel changes nothing); concrete witnesses |
| C72 | `MetadataErrorModel.v`: the messages, with `%.*s` as a function of the memory it may read | the grammar of accepted texts of C51: a text with an accepted beginning is read to the end of its object; concrete witness of symbolic length |
| C73 | `NativeOfferModel.v`: sessions that go on after a failed call, with the messages | the invariant of C24; a refused geometry leaves the state as it was; concrete witness of symbolic length |
| C74 | `SchemaErrorModel.v`: the functions of `SchemaModel.v` with their messages | the model with messages erases to the one without; case analysis of each parser against `SchemaErrorSpec.v`, which says when each message is true; the converse from C36; concrete witnesses for boxes and fixed-size lists |
| C75 | `ArrayViewErrorModel.v`: the functions of `ArrayViewModel.v` with their messages | the model with messages erases to the one without; induction on the lists around the coordinates; the converse from C28; concrete witness for a large type |
| C76 | `GeomErrorModel.v`: the visit of `GeomVisitModel.v` and the building visitor of `GeomBuildModel.v` with their messages | the visit with messages erases to the one without; induction on its fuel over lists split at the node; trees by induction on the fuel; building by an invariant that ties the level to the calls so far; concrete witness for a polygon without its ring |
| C77 | `KernelErrorModel.v`: the start functions of `KernelStartModel.v` with their messages, on top of those of `SchemaErrorModel.v` and `MetadataErrorModel.v` | the start with messages erases to the one without; every step that stops says something true (C72, C74), by composition; concrete witness for a type that is refused without a message |
| C78 | `KernelErrorModel.v`: the scalar functions | by cases on the name, with the cut of `error_set` |
| C79 | `VisitorErrorModel.v`: the messages of the visitors of `NativeWriterModel.v` and `WktWriterModel.v`, event by event | no operation of the builder or the bitmap gives EINVAL, so the message is set exactly when a visitor does; with C25, that is when the feature cannot be held |
| C80 | `CppErrorModel.v`: the messages of `GEOARROW_THROW_NOT_OK` and of the loops over WKB arrays | digits by induction; for WKB, induction on the elements before the bad one, with C39's account of each result of the parser; where a wrong byte order or type was found or the bytes end, by induction on the depth, completing what is cut off (`CppErrorWhere.v`) |
| C81 | `CppTypeErrorModel.v`: the exceptions of `geometry_data_type.hpp` with their messages | all enumerators by cases; the number of a type by induction on its digits |

For C62, `tools/fast_float_tables.py` also writes neighbouring fractions for each power of ten (`FastFloatCertificates.v`);
`FastFloatScaled.v` checks them and proves that the truncated product decides rounding for every mantissa, which is what
`FastFloatCompute.v` uses. The rest is exact arithmetic (`FastFloatCompare.v`, `FastFloatHalfway.v`) and induction on texts.

For C44 the hard step is that the truncated 128-bit table entries give the exact floors. For every binary exponent
`RyuCertificates.v` (generated by `tools/ryu_certificates.py`) holds neighbouring fractions that enclose the exact scaling
factor and the table's one. `RyuScaled.v` checks them with `vm_compute`, and proves that a factor between such neighbours has
the same floors for all mantissas. The certificates are therefore not trusted.

## Trusted base

* Coq's kernel (`coqc` 8.16.1, re-checked with `coqchk`), including its `vm_compute` conversion.
* `Print Assumptions` follows every theorem of the `Properties*.v` files. Each of them prints
  "Closed under the global context": no axiom is used, not even of the standard library. (Checkers that list the axioms of all
  loaded libraries also report `Coq.ssr.ssrunder.Under_rel.*`, seven parameters of a standard-library module that comes with
  ssreflect's tactics. No theorem depends on them.)
* The transcription of the C/C++ source into `*Model.v`. Each definition cites the lines it models.
* The specifications in `*Spec.v`, and the grammar in `WktGrammar.v` and `WktReadable.v`.
* `tools/ryu_tables.py` and `tools/fast_float_tables.py`, which copied the tables of `ryu/d2s_full_table.h` into `RyuTables.v` and
  that of `fast_float.h` into `FastFloatTables.v`. Theorems about them are proved from the copies.
* For C62, that multiplication and division of doubles follow IEEE 754 (`ieee_round` in `FastFloatModel.v` when rounding to nearest;
  otherwise only that a product that is a double is exact).

### What is modelled

| Source (src/geoarrow) | Model | Left out |
|---|---|---|
| `geoarrow_type_inline.h`, `geoarrow_type.h` (types) | `TypesModel.v`, `CoordsModel.v` | |
| `wkb_reader.c` | `WkbReaderModel.v` | |
| `wkb_writer.c` | `WkbWriterModel.v` | allocation failure |
| `wkt_reader.c` | `WktReaderModel.v` | C stack depth; the number parser is a parameter, instantiated in `PropertiesFastFloat.v` |
| `double_parse_fast_float.cc`, `fast_float.h` | `FastFloatModel.v` | limbs of big integers (exact, or `UB` where they do not fit); zeros skipped one at a time, not eight; the exponent is unbounded, which is exact for texts below 2^27 bytes; other characters, formats and number types; platforms without 128-bit products |
| `double_parse_std.c` | `StdParseModel.v` | `strtod`, a parameter that satisfies `strtod_ok` (`StdParseSpec.v`) in the theorems |
| `wkt_writer.c` | `WktWriterModel.v` | allocation failure; the printer is a parameter, instantiated in `PropertiesPrint.v` |
| `double_print.c`, `ryu/d2s.c`, `ryu/common.h`, `ryu/digit_table.h`, `ryu/d2s_intrinsics.h` | `RyuModel.v` | the variants without 128-bit integers and with small tables, `RYU_DEBUG` |
| `geometry.c` | `GeomVisitModel.v`, `GeomBuildModel.v`, `CopyCoordsModel.v`, `NodesModel.v` | allocation failure |
| `array_view.c` | `ArrayViewModel.v` | what a failed call leaves in the view |
| `array_reader.c`, `array_writer.c` | `ArrayReaderModel.v`, `ConversionModel.v` | options set through the void interface |
| `builder.c`, `native_writer.c` | `BuilderModel.v`, `NativeWriterModel.v` | overflow of the 64-bit counters |
| `kernel.c` | `KernelModel.v`, `KernelStartModel.v` | |
| `metadata.c` | `MetadataModel.v` | C stack depth |
| `schema.c`, `schema_view.c` | `SchemaModel.v` | error messages (see below) |
| `nanoarrow.c`: bitmap, buffer, metadata builder, schema view of the types that occur | `BitmapModel.v`, `BufferModel.v`, `SchemaModel.v` | the rest of nanoarrow |
| `hpp/wkb_util.hpp`, `hpp/array_util.hpp`, `hpp/coord*.hpp` parts | `CppWkbModel.v`, `CppArrayModel.v`, `CppCoordModel.v` | instantiations for other ordinate types than double |
| `hpp/geometry_data_type.hpp` | `CppDataTypeModel.v` | copies that a compiler may elide |
| `hpp/array_writer.hpp`: `ArrayWriter` | `CppWriterModel.v` | the constructor from a schema; texts of exceptions |
| `hpp/array_writer.hpp`: `ArrayBuilder`, and memory given with `GeoArrowBuilderSetOwnedBuffer` | `OwnedModel.v` | the constructor from a schema; `AppendCoords` together with given memory; the overload of `SetBufferWrapped` with a view, which cannot be instantiated |
| memory of `geometry.c`, `array_reader.c`, `wkt_reader.c`, `wkb_reader.c`, `array_writer.c`, `wkt_writer.c`, `wkb_writer.c`, `native_writer.c`, `builder.c`, `kernel.c` | `AllocModel.v` | what is in the memory (the other models); the parts of one ArrowArray are one block; which buffers grow is given by the caller; a call on an object that is not initialized is not made |
| `hpp/array_reader.hpp`: `ArrayReader`, `hpp/internal.hpp`: `ArrayHolder` | `CppReaderModel.v` | what a failed call leaves in the view (not to be used); `View()`; the constructor from a schema |
| `hpp/geometry_type_traits.hpp` | `CppDispatchModel.v`, `TypesModel.v` | |
| `hpp/arrow_extension_type.hpp` | `ArrowExtModel.v` | Arrow C++ itself, a parameter that satisfies `arrow_ok` (`ArrowExtSpec.v`) in the theorems; texts of statuses; `MakeArray`, which only calls Arrow |
| `util.c`: `GeoArrowErrorSet`; messages of `wkt_reader.c` | `WktErrorModel.v` | failures of `vsnprintf`; messages of visitors that fail |
| messages of `wkb_reader.c` | `WkbErrorModel.v` | `long` of 32 bits |
| messages of `metadata.c` | `MetadataErrorModel.v` | messages of 2^31 bytes, for which `vsnprintf` fails |
| messages of `GeoArrowNativeWriterAppend` | `NativeOfferModel.v` | - |
| messages of `GeoArrowSchemaViewInit`, `GeoArrowSchemaViewInitFromStorage` | `SchemaErrorModel.v` | messages of nanoarrow, which are a parameter |
| messages of `GeoArrowArrayViewSetArray` | `ArrayViewErrorModel.v` | what a failed call leaves in the view |
| messages of `geometry.c` | `GeomErrorModel.v` | messages set by a visitor that is not the building one |
| messages of starting a kernel | `KernelErrorModel.v` | messages of nanoarrow, which are a parameter; messages of pushing and finishing |
| messages of the visitors of `native_writer.c` and `wkt_writer.c` | `VisitorErrorModel.v` | messages of `GeoArrowNativeWriterFinish` |
| `hpp/exception.hpp`, messages of `hpp/wkb_util.hpp` | `CppErrorModel.v` | `GEOARROW_DEBUG`; texts of the other exceptions |
| messages of `hpp/geometry_data_type.hpp` | `CppTypeErrorModel.v` | messages of `Make` from schemas (`GEOARROW_THROW_NOT_OK` as in C80) |
| `scalar_udf.c` | `KernelErrorModel.v` | the factory object and the release callbacks |

Not modelled: `visitor.c`'s void visitor, the R and Python bindings, `GeoArrowMalloc` and the other one-line functions of `util.c`, and the
error messages of other components than the WKT, WKB and metadata readers, the native writer, schema views, array views, geometries, the start of kernels and the visitors that write.

### Simplifications

* `size_t` and pointers have 64 bits; the host is little-endian; `int` has 32 bits.
* Allocation succeeds. Contents of new memory are arbitrary where they can be seen (`junk`).
* 64-bit lengths, offsets and counters do not overflow where the code only adds to them; the theorems bound sizes where 32 bits
  are involved.
* Nested validity bitmaps of native arrays are ignored, as in the code.
* The validity bitmaps of the WKB and WKT writers are lists of bits, packed in `ConversionModel.binary_memory`; C43 relates
  packing and reading of nanoarrow's bitmaps.
* Recursion in the metadata reader, the WKT reader and the C++ WKB parser is not limited by a stack.
* Texts of error messages are not modelled, only the returned code, except those of the WKT reader (C69), the WKB reader (C71), the metadata reader (C72), appending to native arrays (C73), viewing schemas (C74) and arrays (C75), visiting and building geometries (C76), starting kernels (C77), naming scalar functions (C78), visiting into native arrays and WKT (C79) and C++ exceptions for returned codes and WKB arrays (C80) and for type objects (C81); a C++ exception is the outcome `Err THROWN`.
