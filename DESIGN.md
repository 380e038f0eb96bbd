# Formal model of dlisio in Rocq - design

The plan was written before the proofs; everything else is kept current as the model grows.
`MANIFEST.json` maps each property of `properties.jsonl` to its theorems.

## Layout

All files are in `rocq/theories`. Models hold no proofs; specifications use no function
of the model they specify (only its data types); `*Proofs*.v` hold lemmas; `Prop*.v`
hold the theorems named after the properties, examples that meet their hypotheses, and
`Print Assumptions`.

| model | of (in /repo) | specification | theorems |
|---|---|---|---|
| `Bytes` | bytes, big-endian numbers, two's complement (no dlisio code) | | |
| `DlisTypes` | `lib/src/dlis/types.cpp` | `SpecTypes` | `PropTypes` C01-C10 |
| (as for C07, C08, C31) | the cases excluded by these | | `PropExact` C07, C08, C31 |
| `DlisCore` | `lib/src/dlis/dlisio.cpp` | `SpecCore` | `PropCore` C11-C17 |
| `Stream` | `lib/src/file.cpp` over lfp, results with a log, error handler interface | | |
| `DlisIo` | `lib/src/dlis/io.cpp` | `SpecIo` | `PropIo` C14, C18-C22 |
| `DlisRecords` | `lib/src/dlis/records.cpp` | `SpecRecords` | `PropRecords` C23-C27, C63 |
| `PyBase` | CPython UTF-8 decoding, dates | | |
| `DlisFdata` | `python/dlisio/ext/dlis.cpp` 269-733 (read_fdata, read_noform) | `SpecFdata` | `PropFdata` C28-C32 |
| `DlisStore` | `python/dlisio/dlis/file.py` (ObjectStore, LogicalFile queries) | `SpecDlisStore` | `PropDlisStore` C35, C36 |
| `DlisSchema`, `DlisObject` | `python/dlisio/dlis/basicobject.py`, `utils/valuetypes.py`, `utils/linkage.py`, the class tables of all 22 object classes, `Channel.frame` | `SpecDlisObject` | `PropDlisObject` C37, C39 |
| (as for C39) | Channel.frame and Channel.curves if references do not resolve | `SpecDlisParent` | `PropDlisParent` C39, C67 |
| `DlisFrame` | `frame.py` dtype/fmtstr/fmtstrchannel/mkunique, `channel.py` dtype/fmtstr/curves, `utils/fdata.py`, `utils/reprc.py` | `SpecDlisFrame` | `PropDlisFrame` C10, C33, C34 |
| `DlisCurves` | `Frame.curves`, `Frame.index`, `Channel.curves`, `Noformat.data`, fingerprints and `utils/fdata.py` on the objects of a loaded file | `SpecDlisCurves` | `PropDlisCurves` C65-C68, `PropDlisNul` C65, C66 |
| `DlisClasses` | properties of all metadata classes (transcribed by a script), `Group.objects`, `Wellref.coordinates`, `Frame.encrypted`, listings and `unknowns`, `load` of `LogicalFile` | `SpecDlisClasses` | `PropDlisClasses` C69-C71 |
| `DlisDescribe` | `describe` of objects: `basicobject.py` 283-352, `utils/describe.py`, `describe_attr` of all classes (what is written and in which order, not the layout); `describe` of logical and physical files: `file.py` 99-118, 377-382, 614-656 (all logical files with one error handler) | `SpecDlisDescribe` | `PropDlisDescribe` C74, `PropDlisDescribeFile` C75 |
| `Dimensional` | `utils/dimensional.py`, the values/samples of Parameter, Computation, Measurement | `SpecDimensional` | `PropDimensional` C38 |
| `Lfp`, `DlisLoad` | lfp plain files and visible records (external); `dlis/load.py` and what it calls | `SpecDlisLoad` | `PropDlisLoad` C61, C62 |
| `LisTypes` | `lib/src/lis/types.cpp`, `pack.cpp` | `SpecLisTypes` | `PropLisTypes` C40, C41, C64 |
| `LisIo` | `lib/src/lis/io.cpp` | `SpecLisIo` | `PropLisIo` C42-C47 |
| `LisProtocol` | `lib/src/lis/protocol.cpp` | `SpecLisProtocol` | `PropLisProtocol` C48-C50 |
| `LisCurves` | `ext/lis.cpp` 102-565, `lis/curves.py` | `SpecLisCurves` | `PropLisCurves` C52-C54 |
| `LisPy`, `LisInfo` | `lis/dataformatspec.py`, `lis/curves.py`, `lis/information_record.py` | `SpecLisPy` | `PropLisPy` C51, C55-C57 |
| `Tapemark`, `LisLoad` | `lib/src/tapemark.cpp`, `lis/load.py` | `SpecLisLoad` | `PropLisLoad` C58, C59, C61 |
| `LisFile` | `lis/file.py`: LogicalFile, parse_record, HeaderTrailer; `lis/curves.py` on loaded files | `SpecLisFile` | `PropLisFile` C72, C73 |
| `Handles` | file handles: `lib/src/file.cpp` close, opening in `lib/src/dlis/io.cpp` 28-66 and `lib/src/lis/io.cpp` 577-631, the control flow of `dlis/load.py` and `lis/load.py` with exceptions, close of logical and physical files | `SpecHandles` | `PropHandles` C76, C77 |
| `DlisEncodings` | sessions: `common/settings.py` set_encodings while a logical file is open, every query with the encodings then in force, the index dict made at load | `SpecDlisEncodings` | `PropDlisEncodings` C78 |
| `DlisLabel` | `dlis/file.py` storage_label and the conversions of `ext/dlis.cpp` storage_label | `SpecDlisLabel` | `PropDlisLabel` C79 |
| (as for C62) | `dlis/load.py` on any plain file | `SpecDlisSurvey` | `PropDlisSurvey` C80 |
| `DlisTypes` | `types.cpp` dlis_isinglo | `SpecIsinglo` | `PropIsinglo` C81 |
| (as for C23, C35-C37, C62) | load, queries and attributes together | `SpecDlisMeta`, `SpecDlisCut` (files) | `PropDlisMeta` C82, `PropDlisBytes` C65 |
| (as for C58) | lis load on any bytes | `SpecLisAny` | `PropLisAny` C83 |
| (as for C61, C80) | error handlers | `SpecHandler` | `PropHandler` C84 |
| `DlisLayout` | the layout of `describe`: `utils/describe.py` 130-142, 216-301, and `textwrap.fill` of Python (the regular expression that finds words, and where words are broken, are parameters) | `SpecLayout` | `PropLayout` C85 |
| (as for C62, C80) | dlis load: damaged and cut files | `SpecDlisPrefix` | `PropDlisPrefix` C86 |
| (as for C62, C65) | dlis load: files that end too early | `SpecDlisCut` | `PropDlisCut` C87 |
| `LisTable` | `lis/information_record.py` table, with mnemonics that may not decode | `SpecLisTable` | `PropLisTable` C88 |
| `LisText` | `lis/curves.py`: names that may be bytes | `SpecLisText` | `PropLisText` C90 |
| (as for C72, C73, C83) | lis load: damaged files | `SpecLisAny` | `PropLisBefore` C89 |
| `CommonPy` | `ext/core.cpp` strings, `common/errorhandler.py` | `SpecCommon` | `PropCommon` C60, C61 |

## Conventions

* A byte is `Coq.Init.Byte.byte` (256 values), so no side conditions "byte in range".
* A C++ reader `const char* f(const char* xs, T*)` is a function
  `list byte -> option (T * list byte)`; the returned list is the returned
  pointer.  `None` means that the C++ code would read outside the buffer
  (undefined behaviour): the model makes out-of-bounds reads visible.
* A C++ writer is a function producing the bytes written.
* Results are `Ok`, `Exn` (with the kinds of error a caller can tell apart), `UB`
  (undefined behaviour) or `Fuel`, with the list of logged severities.  Theorems
  exclude `UB` and `Fuel` by stating an `Ok` or `Exn` result.
* C integer arithmetic is on `Z` with the wrap-around or truncation written out
  where the code narrows.
* Loops over input are structural on the input or carry fuel computed from the
  length of the input.
* A theorem `..._refuted` proves with a witness that a part of a property is false
  of the code; `..._partial` proves the rest, under the hypothesis it states.

## Plan per property

C01-C05, C09, C10: codec theorems over `DlisTypes`; the encoders of the
specification are written from RP66 (arithmetic), not from the code.  C02 is
false for 0x4000..0xBFFF (see Findings), so it is a refutation plus the
theorem for the remaining range.
C06-C08, C40, C41: float readers as integer bit manipulation producing IEEE bit
patterns/Flocq binary32; the specification is the exact dyadic value.
C11, C12, C15, C59: decision rules; specification as arithmetic on the raw bytes.
C13, C18, C19: writer specification (segment a payload, add trailers), round trip
by induction on segments.
C14: search = first occurrence; specification by "exists prefix, no earlier hit".
C16: string format; injectivity by decimal-digit parsing; refutation across types.
C17, C30, C34: semantics of format strings by induction.
C20, C21, C22: induction on the list of records laid out in a stream; truncation
as `firstn`.
C23-C27: EFLR parser on an EFLR writer specification; induction on
template/object list.  C25 refuted in one branch.
C28, C29, C32: loop invariants of read_fdata; specification `flat_map`.
C31: refutation (bytes >= 0x80) plus theorem for ASCII.
C07, C08, C31 and C54 also have theorems about the cases where the value is wrong: the exact outcome, and that it is wrong exactly there.
C33, C57: pigeonhole/uniqueness on label lists; refutations with witnesses.
C35: state machine over cache operations, invariant "cache = pool restricted".
C36-C39: decision rules over lists of objects.
C42-C46: LIS stream proofs by induction on physical records; refutations for
padding inside records.
C47: filter of a sorted list between two tells.
C48-C50: parser proofs: round trip, progress, bounds safety (model returns an
explicit out-of-bounds error that is proved unreachable).
C51: fold over components.
C52-C54: LIS frame unpacking; index interpolation with explicit int8 narrowing.
C55-C56: decision rules, refutations.
C58: induction over delimiter events with a heap of header/trailer cells.
C60: first-success semantics, with codecs as parameters.
C61: dispatch theorem with arbitrary handlers.
C62: induction over the loading loop with the physical-tell arithmetic.
C65-C68: composition of C19, C28, C34-C37 and C62: what load makes of a written file, what
the store answers after any history, which records the index gives for a fingerprint.
C69-C71: tables of documented properties written down from the documentation, against the
tables of the code; C35/C37 for what they give; induction over uses of `Group.objects`.
C74: a table of the documented captions, written down independently of the code; each row is
read by C37, and the options filter what is written.
C75: the counts by C35 for each type, induction over the types and over the logical files.
C76-C77: the loads of C61/C62 and C58 run in a world that records what happens to handles and
survives exceptions; an invariant on the open handles over the rounds; induction over calls.
What the system answers to each request to open something is arbitrary.
C72-C73: composition of C44-C50, C53 and C58 on the records of a loaded file.
C78: two stores that differ only in which sets have been parsed answer alike and stay alike
(a bisimulation, for any decoder and matcher); switching caching empties the cache, which is
all that depends on the encodings of the past.
C79: composition of C11 and C62; the outcomes as a relation that is shown to be a function.
C80: a survey of the file as an inductive relation that covers every plain file; totality by the termination measure of C62, uniqueness by the uniqueness of the searches and of maximal runs of records.
C81: the writer on sign, exponent and fraction, by cases of the exponent modulo 4; then the reader of C07 on its result.
C82: the sets that load finds are those written (C65_loaded, C65_unlabelled, C87), what is read for an object is determined by what is written (by cases of the rules of C23), so the candidates of a query are the written objects with the same properties, and what C37 says of stored values holds of written ones.
C83: a beginning ([so_far]) is followed by anything; every run of the indexer is a sequence of events (delimiter, file) that match sections, and a good beginning fixes the first of them; what follows is shown to give ordered and stored entries only.
C84: the run under a handler is related to the run under one that never raises ([follows]): equal, or cut off at the first report that raises. The relation is kept by sequencing, and by the places where exceptions are caught, as reading a record reports minor problems only.
C85: the loop of textwrap consumes a chunk or a character each time, unless an empty chunk is left over before the first line and there is no room (the hang); what is dropped is white space, so what is to be seen is kept.
C86: the loop is followed up to the damaged logical file ([leads], the course of C62 up to a position); there the indexes only grow behind the known records, and so do sets and rows; files found stay found. Cut files: the survey of C80 from there on is that of one logical file, because a cut of the records meets no FILE-HEADER and the medium ends behind it.
C87: what is left of a record is no record (by induction on its segments), so the course of C62 ends with the damaged case; visible records of a prefix end without an error only where a visible record ends. C87_between: the prefix is itself a well formed file. The files found are then sound as in C65.
C88: C72 gives the contents of every record and what is parsed from them, C49 the components, C51 the table; the order of the columns and the last entry of a cell are shown to determine the table.
C89: loading gives the sections in front of the damage (C83, C61); the proofs of C72, C73 and C88 need no more than the index and the records of one logical file.
C90: where names decode, the functions are those of `LisCurves` (refinement by the decoded names); a name that does not decode stays in the list through every renaming, or the renaming raises.

## Findings

Behaviour of the code that contradicts the property as a user would expect it.  Each
is a theorem with a concrete witness (by evaluation of the model on concrete bytes).

| theorem | finding |
|---|---|
| `C02_uvari_roundtrip_refuted` | `dlis_uvario` writes 0x4000..0xBFFF in two bytes when asked for width <= 2, losing the top bits |
| `C07_isingl_unnormalised_refuted`, `C07_isingl_zero_fraction_refuted` | unnormalised IBM floats and zeros with an exponent decode to wrong numbers |
| `C07_isingl_underflow` | IBM floats between 2^-127 and 2^-126 come out with their distance to 2^-127 doubled |
| `C08_vsingl_roundtrip_refuted` | `dlis_vsinglo` overflows the exponent for magnitudes from 2^127 |
| `C08_vsingl_every_float` | infinity is written as the VAX float -2^-128 |
| `C13_pad_count_in_segment_refuted` | a padded segment that is not longer than its trailer has its pad count read from before the segment |
| `C16_injective_types_refuted` | objects of different types can have the same fingerprint if a type contains `.`/`-` sequences |
| `C17_varsize_rejects_invalid_refuted` | `dlis_pack_varsize` accepts an invalid specifier behind a text specifier |
| `C21_incomplete_indexed_refuted` | a file that ends inside the last payload of a record has that record indexed as complete |
| `C25_left_refuted` | the log says "value is left as in template" but the value becomes zeros |
| `C63_in_bounds_refuted` | EFLR parsing reads behind truncated records |
| `C29_in_bounds_refuted` | text columns are read past the end of a record before the damage is noticed |
| `C30_damaged_refuted` | a damaged row ends the array depending on which channels are wanted |
| `C31_refuted` | characters from 0x80 of text columns are sign-extended to invalid code points |
| `C33_refuted` | a channel named FRAMENO, or channels named like generated labels, make curves() raise even with strict=False |
| `C34_no_dimension` | a channel without dimension makes all curves of its frame unreadable |
| `C35_order_refuted`, `C35_empty_refuted` | order of nameless queries and the meaning of the empty name depend on caching |
| `C35_shared_refuted` | the list an exact query returns is the cache: a caller that changes it changes what later queries find |
| `C36_empty_refuted`, `C36_nan_refuted` | the empty name finds an object of another name; byte-identical duplicates with a NaN are "ambiguous" |
| `C37_date_refuted` | a defaulted date attribute is 1900-00-00 and raises |
| `C37_empty_refuted` | a reference with an empty name resolves to an object of another name |
| `C37_untyped_refuted` | objects with a problem in a set without type cannot be read |
| `C37_stash_refuted` | an unknown attribute without value makes the whole stash raise |
| `C38_zero_refuted`, `C38_text_refuted` | a dimension of zero loses all values; trailing NULs of text are lost |
| `C39_unresolved_refuted` | one unresolvable reference in any frame makes Channel.frame raise for every channel |
| `C41_f32low_zero_refuted` | a zero with a large exponent is read as NaN |
| `C42_found_refuted`, `C42_truncated_refuted` | pad bytes that are not aligned, and length 0x2020, are mistaken |
| `C44_padded_refuted` | size and position of a record ignore the padding inside it |
| `C46_separated_refuted` | a delimiter after data records only joins their index |
| `C52_zero_rate_refuted` | sample rate 0 is accepted and the index is written outside the array |
| `C53_in_bounds_refuted` | bytes behind a record end up in the array |
| `C54_rate_refuted` | the sub-sample index is an 8-bit number, wrong from rate 128 on; wrong in the first frame |
| `C54_behind` | at rates from 128 on the index of rows from the 128th on goes back behind the previous frame |
| `C55_suppressed_refuted` | suppressed channels are keys of curves_metadata() but not columns |
| `C56_spec_block_type_refuted` | `spec_block_type` reads entry 1 instead of entry 2 |
| `C57_refuted` | labels X, X, X(0) are not made unique |
| `C59_plain_refuted` | a valid plain LIS file can be taken for a tape image |
| `C60_refuted` | text is cut at its first NUL byte |
| `C61_lis_refuted` | damage right behind a closed logical file is not reported |
| `C61_dlis_refuted` | a raising MINOR action while the label is looked for is swallowed and reported again as CRITICAL |
| `C65_nul_refuted` | a frame whose name contains a NUL has rows, but curves() is empty, without a message |
| `C65_foreign_refuted` | a frame has the rows of another frame, whose name is cut at a NUL, in place of its own, without a message |
| `C66_foreign_refuted` | a NOFORMAT object returns the data of another one, whose name is cut at a NUL, without a message |
| `C68_column_refuted` | frame.index is not a column of curves() if the mnemonic of the first channel is repeated |
| `C69_untyped_refuted` | f.unknowns raises if an object is in a set without a type |
| `C69_same_refuted` | of unknown objects with the same type and name only the last is listed |
| `C70_missing_refuted` | documented properties that do not exist: Group.object_type, .object_list, .group_list, Path.frame_type, Wellref.coordinate |
| `C71_valueless_refuted`, `C71_type_refuted` | Group.objects raises for a list without value and for names without OBJECT-TYPE |
| `C71_state_refuted` | group['OBJECT-LIST'] changes when group.objects is used |
| `C71_coordinates_raise`, `C71_lost_refuted` | an empty coordinate attribute makes all coordinates unavailable; a coordinate is lost if names are equal |
| `C71_encrypted_refuted` | frame.encrypted is True where frame['ENCRYPTED'] is False |
| `C72_one_bad_refuted` | one record that cannot be parsed makes all records of its type inaccessible by the method |
| `C73_foreign_refuted` | a format specification of another logical file is not refused: the data of this file are silently decoded with it |
| `C74_tolerances_refuted` | Coefficient.describe shows the plus tolerances as minus tolerances and the other way around |
| `C74_zone_refuted`, `C74_units_refuted` | the description of a zone and the unit of an index channel are taken for labels: with a text like DOMAIN or SPACING another attribute is shown |
| `C74_splice_refuted` | Splice.describe raises whenever the output channel exists |
| `C74_index_refuted` | Frame.describe raises if the first channel is not in the file |
| `C74_stash_refuted` | describe raises if an attribute unknown to the class has no value |
| `C74_zones_refuted` | the values of a parameter with one value for each zone are described as invalid |
| `C74_date_refuted` | a reference that is a date that does not exist is shown with the values of another attribute |
| `C75_type_refuted` | describe of a logical file raises if a set has a type that is not text, though everything in the file can be read |
| `C85_hang_refuted`, `C85_hang_row_refuted` | describe(width=w) goes on forever if a name or the first of several texts starts with a blank and w is less than what is to the left of it |
| `C85_lost_refuted` | of a value of blanks, or several empty texts, describe does not write the caption either |
| `C76_short_refuted` | dlis.load of a file shorter than 12 bytes raises and leaves its handle open |
| `C76_reopen_refuted` | if the file cannot be opened again after a logical file was found (too many open files, for instance), dlis.load closes the handle of that logical file twice |
| `C76_twice_refuted` | close() is not idempotent: closing a logical file inside the with-statement that also closes it is a double close, and reading it then is a use after free |
| `C77_leak_refuted` | lis.load raises for data records that end in a delimiter and leaves the handle open |
| `C78_stale_refuted` | after set_encodings alone, cached objects are found under their old names only |
| `C78_curves_refuted` | after set_encodings, also with cache_metadata, curves() of a frame whose name is not UTF-8 returns an array without rows: the keys of the index were decoded at load |
| `C79_encodings_refuted` | storage_label() raises UnicodeDecodeError for a label whose identifier is not UTF-8, whatever set_encodings was given |
| `C80_lost_refuted` | a FILE-HEADER inside a visible record makes load raise, whatever the error handler; the logical files found before are lost |
| `C80_outside_refuted` | load reads outside a metadata record that ends inside the type of its set |
| `C81_subnormal_refuted` | dlis_isinglo writes subnormal floats as if they had a leading one |
| `C81_nan_refuted` | a NaN written with dlis_isinglo may be read back as infinity |

Seen while reading and modelling, without a theorem of its own:
a DTIME that fails after the reference was dropped leaves a dangling slot in the array;
time zones of dates are dropped; a record whose rows consume no bytes is an endless loop;
a truncated object name yields no rows silently; `read_noform` underflows for records
shorter than their frame name; files shorter than 12 bytes cannot be loaded; a second
storage unit label in a plain file ends indexing with CRITICAL; a logical file that starts
inside a visible record is opened at the wrong position; `fmtstrchannel` omits the leading
`i` and loses channels when one is repeated; `Channel.curves` uses the strict mode of
`Frame.curves` so that one duplicated name makes all channels unreadable; problems of a set
are reported on first access only; `fileheader` is None if there are several;
index keys that decode to the same text replace each other, so that a frame reads the rows of
another; `describe` leaves out texts of NUL characters as empty.

## Trusted base

* Coq 8.16.1's kernel (and its virtual machine, for the proofs by `vm_compute`).
* Axioms.  `Print Assumptions` gives "Closed under the global context" for the theorems
  without floating point, and for the rest exactly these four axioms of the standard
  library, all by way of Coq.Reals and Flocq:
  `ClassicalDedekindReals.sig_not_dec`, `ClassicalDedekindReals.sig_forall_dec`,
  `FunctionalExtensionality.functional_extensionality_dep`, `Classical_Prop.classic`.
  The lists at the time of writing:
  * `PropCommon`: all closed.
  * `PropCore`: four axioms in C17_measure_agrees, C17_concat, C17_characters, C17_invalid, C17_announced_size; the others closed.
  * `PropDimensional`: four axioms in C38_values, C38_measurement, C38_absent; the others closed.
  * `PropDlisClasses`: C69_class and C71_encrypted closed; four axioms in the others.
  * `PropDlisCurves`: C65_sound closed; four axioms in the others.
  * `PropDlisNul`: the same four.
  * `PropDlisDescribe`, `PropDlisDescribeFile`: all with the four axioms.
  * `PropDlisEncodings`: all with the four axioms.
  * `PropDlisFrame`: four axioms in C34_curves, C34_no_dimension; the others closed.
  * `PropDlisLabel`: four axioms in C79_labelled, C79_unlabelled, C79_course; the others closed.
  * `PropDlisSurvey`: four axioms in C80_any, C80_decides; the others closed.
  * `PropIsinglo`: four axioms in C81_value, C81_precision, C81_subnormal_refuted, C81_nan_refuted; the others closed.
  * `PropDlisMeta`: four axioms in all (by way of the floats of the store).
  * `PropLisAny`: closed.
  * `PropHandler`: C84_plain, C84_queries and C84_curves use the four axioms of the reals (sig_not_dec, sig_forall_dec, functional_extensionality_dep, classic), by way of the models; the others are closed.
  * `PropLayout`: closed.
  * `PropDlisPrefix`: the axioms of the reals (through RecordsProofs3, as for C62).
  * `PropDlisCut`, `PropDlisBytes`: the axioms of the reals (as for C62, C65).
  * `PropLisTable`: the axioms of the reals (as for C72), except `C88_one_table`, which is closed.
  * `PropLisBefore`: the axioms of the reals (as for C72).
  * `PropLisText`: the axioms of the reals (as for C72).
  * `PropDlisLoad`: four axioms in C62_labelled, C62_unlabelled, C62_course, C61_dlis; the others closed.
  * `PropDlisObject`: four axioms in C37_read_partial, C37_history, C37_one_result, C37_keyerror, C37_escalates, C37_stash_partial, C39_frame_partial, C37_date_refuted, C37_empty_refuted, C37_untyped_refuted, C37_stash_refuted, C39_unresolved_refuted; the others closed.
  * `PropDlisParent`: the four axioms in C39_exact and C67_without_frame.
  * `PropDlisStore`: all with the four axioms.
  * `PropFdata`: four axioms in C28_append, C28_rows, C28_terminates, C29_damaged_partial, C29_unreadable, C29_no_exception, C29_exact, C29_in_bounds_refuted, C30_projection_partial, C30_damaged_refuted, C31_text_partial, C31_refuted; the others closed.
  * `PropHandles`: all closed.
  * `PropIo`: all closed.
  * `PropLisCurves`: all with the four axioms.
  * `PropLisFile`: C72_contents and C72_once closed; four axioms in the others.
  * `PropLisIo`: all closed.
  * `PropLisLoad`: all closed.
  * `PropLisProtocol`: four axioms in C48_exact, C48_safe, C49_exact, C49_safe; the others closed.
  * `PropLisPy`: four axioms in C55_match_partial, C55_suppressed_refuted, C55_keys, C56_entries_partial, C56_spec_block_type_refuted, C56_index, C56_sample_rates, C56_directional_spacing, C57_refuted; the others closed.
  * `PropLisTypes`: four axioms in C40_fixed, C41_f16, C41_f32, C41_f32low, C41_f32low_zero_refuted, C64_unpack, C64_exact, C64_sizes; the others closed.
  * `PropRecords`: four axioms in C23_roundtrip, C63_kept, C63_terminates, C63_in_bounds_refuted, C25_rules, C25_left_refuted, C26_set, C26_history, C27_exact, C27_returns, C63_marked; the others closed.
  * `PropTypes`: four axioms in C06_fshort_exact, C07_isingl_exact_partial, C07_isingl_out_of_range, C07_isingl_unnormalised_refuted, C07_isingl_zero_fraction_refuted, C08_vsingl_decode, C08_vsingl_roundtrip, C08_vsingl_roundtrip_refuted, C10_sizes; the others closed.
  * `PropExact`: four axioms in C07_isingl_right_iff, C07_isingl_unnormalised, C07_isingl_underflow, C08_vsingl_every_float, C08_vsingl_roundtrip_iff, C31_text_iff; the others closed.
* That the model is the code: it was transcribed by hand, function by function, from
  /repo; every definition cites the lines.  The class tables of `DlisSchema` were
  transcribed by a script from the class bodies.
* External code, modelled by its documentation:
  * lfp: a logical stream is a sequence of bytes followed by a clean end or by a
    truncation; `eof` is "the last read was short"; seeking never fails; a read that
    throws leaves the position at the end; plain files and visible records as in
    `Lfp.v`.  What opening a tape image yields is an arbitrary oracle.  Closing a protocol
    closes those below it; one that cannot be opened leaves the one below as it was.
  * CPython: strict UTF-8 decoding, range of `datetime`, truth of values, insertion
    order of dicts, an arbitrary order for sets, white space of `str.strip`.
  * numpy: fields of a structured type are packed, its names and titles must be distinct;
    item sizes of the basic types; `np.array`, `reshape`, limits of dimensions and sizes;
    fixed-width text drops trailing NULs.
  * pybind11: argument conversions, and exceptions (not_implemented, io_error, eof_error,
    other) become NotImplementedError, OSError, EOFError, RuntimeError.
  * Codecs of strings, matchers of names and actions of error handlers are arbitrary
    functions (the theorems are for all of them).  In `DlisStore`/`DlisObject` decoding
    (`dec`) is total, that is, names and values decode or are returned as bytes.
    In `LisPy`/`LisCurves` the mnemonics of channels decode to text; `LisText` has both
    cases (numpy refuses bytes as names of columns, so that curves() raises for others), as
    has `LisTable`.
  * The C and C++ libraries: `std::pow` with base 2 or 16 is exact, no contraction to
    fused operations, IEEE 754 `float`/`double`, `std::stoll`/`strtol`, `isspace` in the C
    locale (bytes from 0x80 are not space).
  * The host is little-endian with 8-bit bytes, two's complement.
* Memory behind the buffer of a record is an arbitrary list of bytes (`after`) where the
  code reads it; otherwise a read past the end is `UB`.

Not modelled: allocation failure, reference counts, overflow of the `int` number of frames,
payloads of NaN in conversions by the FPU, the texts of log messages (only severities and,
for EFLR parsing, which message), the textual form of numbers, dates and arrays,
exceptions that come from outside at any point (KeyboardInterrupt), the `matcher` classes other
than exact and arbitrary ones, documentation and
build files.
