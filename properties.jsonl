{"id": "C01", "title": "UVARI decoding follows the RP66 prefix rule", "statement": "Decoding a variable-length integer (UVARI/ORIGIN) looks only at the two top bits of the first byte to choose a 1, 2 or 4 byte form, consumes exactly that many bytes, and returns the unsigned big-endian number left after masking those bits (0..127, 0..16383, 0..2^30-1).", "quantifier": "every byte string that holds a complete UVARI, and every trailing data after it", "why_tests_cant": "2^32 encodings times arbitrary trailing data; tests sample boundary values only", "anchors": ["lib/src/dlis/types.cpp:dlis_uvari", "lib/src/dlis/types.cpp:dlis_origin"]}
{"id": "C02", "title": "UVARI write/read round trip", "statement": "Writing a non-negative integer below 2^30 with the UVARI writer in any admissible width and reading it back yields the same integer and the same length, never disturbing the bytes after it.", "quantifier": "every integer in [0,2^30) and every requested width", "why_tests_cant": "the domain has 2^30 values times widths; existing tests try a handful and miss the broken range 0x4000..0xBFFF", "anchors": ["lib/src/dlis/types.cpp:dlis_uvario", "lib/src/dlis/types.cpp:dlis_uvari"]}
{"id": "C03", "title": "Fixed-width integers are big-endian two's complement, both ways", "statement": "For SSHORT, SNORM, SLONG, USHORT, UNORM and ULONG, decoding any byte pattern yields the integer that the big-endian two's complement (or unsigned) reading prescribes, and writer and reader are mutually inverse.", "quantifier": "all byte patterns and all representable integers of each of the six types", "why_tests_cant": "2^32 patterns for the long forms", "anchors": ["lib/src/dlis/types.cpp:dlis_snorm", "lib/src/dlis/types.cpp:dlis_slong", "lib/src/dlis/types.cpp:dlis_ulong", "lib/src/dlis/types.cpp:dlis_slongo"]}
{"id": "C04", "title": "Composite names round trip (IDENT, ASCII, UNITS, OBNAME, OBJREF, ATTREF)", "statement": "For every identifier of at most 255 bytes, every origin below 2^30 and every copy number, writing an IDENT, ASCII, UNITS, OBNAME, OBJREF or ATTREF and reading it back returns exactly the same fields and stops exactly at the byte after the value.", "quantifier": "all identifiers up to 255 bytes with any byte content, all origins, all copy numbers, all trailing data", "why_tests_cant": "strings are unbounded in content and the fields nest", "anchors": ["lib/src/dlis/types.cpp:dlis_ident", "lib/src/dlis/types.cpp:dlis_ascii", "lib/src/dlis/types.cpp:dlis_obname", "lib/src/dlis/types.cpp:dlis_objref", "lib/src/dlis/types.cpp:dlis_attref", "lib/src/dlis/types.cpp:dlis_obnameo"]}
{"id": "C05", "title": "DTIME round trip", "statement": "Every date with year 1900..2155, time zone and month in 0..15, day/hour/minute/second in a byte and milliseconds in 0..65535 survives writing and reading; decoding of any eight bytes yields fields in these ranges.", "quantifier": "all 2^64 eight-byte patterns and all in-range field tuples", "why_tests_cant": "product of eight fields", "anchors": ["lib/src/dlis/types.cpp:dlis_dtime", "lib/src/dlis/types.cpp:dlis_dtimeo", "lib/src/dlis/types.cpp:dlis_year", "lib/src/dlis/types.cpp:dlis_yearo"]}
{"id": "C06", "title": "Low precision floats (FSHORT) decode to the exact RP66 value", "statement": "An FSHORT sample with 12-bit two's complement mantissa M and 4-bit unsigned exponent E is returned as exactly M * 2^(E-11); no rounding occurs.", "quantifier": "all 65536 bit patterns, stated over exact dyadic numbers", "why_tests_cant": "the claim is about the real value of a float computation, not about a list of examples", "anchors": ["lib/src/dlis/types.cpp:dlis_fshort"]}
{"id": "C07", "title": "IBM single floats (ISINGL) decode to the exact System/360 value", "statement": "An ISINGL with sign s, 7-bit exponent e and 24-bit fraction f is returned as (-1)^s * f * 2^-24 * 16^(e-64), computed without losing bits whenever that value is a normal single-precision number.", "quantifier": "all 2^32 bit patterns in the non-overflowing range", "why_tests_cant": "2^32 patterns, floating point semantics", "anchors": ["lib/src/dlis/types.cpp:dlis_isingl", "lib/src/dlis/types.cpp:dlis_isinglo"]}
{"id": "C08", "title": "VAX single floats (VSINGL) decode to the VAX F value", "statement": "A VSINGL with sign s, exponent e>0 and fraction f is returned as (-1)^s * (0.5 + f*2^-24) * 2^(e-128); e=0,s=0 is 0 and e=0,s=1 is the undefined marker (NaN). Writing a normal float that is representable and reading it back is the identity.", "quantifier": "all 2^32 VAX words; all normal floats for the round trip", "why_tests_cant": "2^32 patterns, floating point semantics", "anchors": ["lib/src/dlis/types.cpp:dlis_vsingl", "lib/src/dlis/types.cpp:dlis_vsinglo"]}
{"id": "C09", "title": "IEEE samples are bit-transparent", "statement": "FSINGL, FDOUBL, CSINGL, CDOUBL, FSING1/2 and FDOUB1/2 transfer every IEEE bit pattern (including NaN payloads, signed zero, subnormals) unchanged in both directions and in field order.", "quantifier": "all 32/64-bit patterns of every component", "why_tests_cant": "2^64 patterns", "anchors": ["lib/src/dlis/types.cpp:dlis_fsingl", "lib/src/dlis/types.cpp:dlis_fdoubl", "lib/src/dlis/types.cpp:dlis_fsing2", "lib/src/dlis/types.cpp:dlis_cdoubl"]}
{"id": "C10", "title": "Declared type sizes match what the decoders consume", "statement": "For every representation code with a fixed size, the advertised size equals the number of bytes its decoder consumes and is rejected as negative for undefined codes; the Python format-character table and numpy type table cover exactly the codes 1..27.", "quantifier": "all integers as representation code, all byte inputs", "why_tests_cant": "relation between tables and decoders for every input", "anchors": ["lib/src/dlis/types.cpp:dlis_sizeof_type", "python/dlisio/dlis/utils/reprc.py"]}
{"id": "C11", "title": "Storage unit label is accepted exactly when its fields are valid", "statement": "Parsing the 80-byte storage unit label returns the sequence number, version 1.0, layout and maximum record length precisely as written when the numeric fields are blank-padded decimals and the layout is RECORD; otherwise the caller gets an error or an 'unknown' layout, never a fabricated number.", "quantifier": "all 80-byte labels", "why_tests_cant": "256^80 labels", "anchors": ["lib/src/dlis/dlisio.cpp:dlis_sul", "lib/src/dlis/dlisio.cpp:sulv1", "lib/src/dlis/dlisio.cpp:is_sul_number_field_valid", "lib/src/dlis/dlisio.cpp:parse_revision", "python/dlisio/ext/dlis.cpp:storage_label"]}
{"id": "C12", "title": "Visible record and segment headers decode exactly", "statement": "Length, version, attribute bits and type of visible-record and logical-record-segment headers are the big-endian fields at the fixed offsets, each attribute flag reports exactly its own bit, and nothing else in the file influences them.", "quantifier": "all 4-byte headers, all 256 attribute bytes", "why_tests_cant": "2^32 headers", "anchors": ["lib/src/dlis/dlisio.cpp:dlis_vrl", "lib/src/dlis/dlisio.cpp:dlis_lrsh", "lib/src/dlis/dlisio.cpp:dlis_segment_attributes"]}
{"id": "C13", "title": "Segment trailers are trimmed exactly", "statement": "The trailing padding, trailing length and checksum announced by the attribute bits are removed from a segment and nothing else is: for any body and any admissible pad count the trimmed segment equals the body; when the announced trailer is larger than the segment the caller is told so.", "quantifier": "all attribute bytes, all bodies, all pad counts", "why_tests_cant": "unbounded bodies times 8 flag combinations", "anchors": ["lib/src/dlis/dlisio.cpp:dlis_trim_record_segment", "lib/src/dlis/io.cpp:trim_segment"]}
{"id": "C14", "title": "Searching for the storage label and first visible record finds the first occurrence", "statement": "Opening a file with leading garbage positions on the first occurrence of the label / visible-record marker within the searched window, and an occurrence at a position too early to be a real header is reported, never silently used; with the short look-ahead a hit always means offset 0.", "quantifier": "all file prefixes", "why_tests_cant": "unbounded prefix contents, including marker fragments", "anchors": ["lib/src/dlis/dlisio.cpp:dlis_find_sul", "lib/src/dlis/dlisio.cpp:dlis_find_vrl", "lib/src/dlis/io.cpp:findsul", "lib/src/dlis/io.cpp:findvrl"]}
{"id": "C15", "title": "Component descriptors decode exactly and exclusively", "statement": "Each EFLR component byte has exactly one role, and set, object and attribute flags are reported only for the matching role with the flags RP66 assigns; any other combination is refused.", "quantifier": "all 256 descriptors times all roles", "why_tests_cant": "exclusive and exhaustive case analysis", "anchors": ["lib/src/dlis/dlisio.cpp:dlis_component", "lib/src/dlis/dlisio.cpp:dlis_component_set", "lib/src/dlis/dlisio.cpp:dlis_component_object", "lib/src/dlis/dlisio.cpp:dlis_component_attrib"]}
{"id": "C16", "title": "Object fingerprints identify objects", "statement": "The fingerprint of an object has the documented T.-I.-O.-C. form, the announced length is exact, and within one object type two different (name, origin, copy number) triples never share a fingerprint; across types they should be distinct as well.", "quantifier": "all types, names, origins and copy numbers of any length", "why_tests_cant": "string ambiguity needs a search over unbounded strings", "anchors": ["lib/src/dlis/dlisio.cpp:dlis_object_fingerprint", "lib/src/dlis/dlisio.cpp:dlis_object_fingerprint_size", "python/dlisio/ext/dlis.cpp:fingerprint"]}
{"id": "C17", "title": "Frame unpacking: measuring and unpacking agree", "statement": "For every format string and record, the number of source bytes consumed and destination bytes written reported by the measuring call equal those of the unpacking call, a format of fixed-size types has the statically announced size, and unpacking a concatenated format equals unpacking its parts one after the other.", "quantifier": "all format strings, all records", "why_tests_cant": "unbounded formats and data", "anchors": ["lib/src/dlis/dlisio.cpp:dlis_packf", "lib/src/dlis/dlisio.cpp:dlis_packflen", "lib/src/dlis/dlisio.cpp:dlis_pack_size", "lib/src/dlis/dlisio.cpp:dlis_pack_varsize"]}
{"id": "C18", "title": "Reading a logical record returns the bytes the producer wrote", "statement": "If a producer splits any payload into any number of segments and adds any mix of padding, checksum and trailing length, reading the record at its offset returns exactly the payload, with the type and attributes of the first segment, independent of what follows in the file.", "quantifier": "all payloads, all segmentations, all trailer mixes, all surrounding data", "why_tests_cant": "unbounded segment counts", "anchors": ["lib/src/dlis/io.cpp:extract", "lib/src/dlis/io.cpp:trim_segment"]}
{"id": "C19", "title": "Reading the first N bytes of a record is a prefix read", "statement": "Reading only the first N bytes of a record yields exactly the first min(N, len) bytes of the full read whenever the full read succeeds.", "quantifier": "all records, all N", "why_tests_cant": "unbounded", "anchors": ["lib/src/dlis/io.cpp:extract"]}
{"id": "C20", "title": "Indexing a logical file finds every record exactly once", "statement": "Indexing a logical file made of any sequence of well-formed logical records returns the start offset of every record exactly once, in file order, split into metadata and data records, reports nothing as broken, and stops exactly before the next FILE-HEADER record or at end of data.", "quantifier": "all sequences of well-formed records of any number of segments", "why_tests_cant": "unbounded files", "anchors": ["lib/src/dlis/io.cpp:findoffsets"]}
{"id": "C21", "title": "Damage at the end of a file does not affect the records before it", "statement": "If a file is cut at any point, indexing still returns exactly the records that lie completely before the cut; at most one record is reported as broken and no offset is invented.", "quantifier": "all well-formed files, all truncation points", "why_tests_cant": "all crash points of a copy/transfer", "anchors": ["lib/src/dlis/io.cpp:findoffsets"]}
{"id": "C22", "title": "Frame data is attributed to the right frame, in order", "statement": "The data-record index maps every frame (or no-format object) to exactly the offsets of its unencrypted, non-empty data records in file order; encrypted records, other record types and empty records contribute nothing.", "quantifier": "all sequences of data records", "why_tests_cant": "unbounded sequences, interleavings of frames", "anchors": ["lib/src/dlis/io.cpp:findfdata"]}
{"id": "C23", "title": "Metadata objects read back as written", "statement": "For every object set written per RP66 (set, template with defaults, objects with attributes inherited, overridden or marked absent), reading it returns the objects in order, each with its name and, for each template attribute, the overridden or inherited label, count, type, units and value, and without attributes marked absent.", "quantifier": "all templates, all object lists, all attribute values of the modelled types", "why_tests_cant": "unbounded nesting of templates and objects", "anchors": ["lib/src/dlis/records.cpp:parse_template", "lib/src/dlis/records.cpp:parse_objects", "lib/src/dlis/records.cpp:parse_set_component"]}
{"id": "C24", "title": "An object's attributes behave like a map keyed by label", "statement": "Setting, removing and looking up attributes on an object behaves as a finite map keyed by attribute label with last-write-wins; other labels are never affected and lookup of an absent label fails.", "quantifier": "all histories of set/remove operations", "why_tests_cant": "histories are unbounded", "anchors": ["lib/src/dlis/records.cpp:basic_object::set", "lib/src/dlis/records.cpp:basic_object::remove", "lib/src/dlis/records.cpp:basic_object::at"]}
{"id": "C25", "title": "Missing attribute values are defaulted as the log says", "statement": "When an object overrides an attribute's count or type without giving a value, the value used is the one the attached log entry announces: left as in the template, or count copies of the type's default.", "quantifier": "all counts, types and template values", "why_tests_cant": "combinatorial in count/template size/type", "anchors": ["lib/src/dlis/records.cpp:patch_missing_value"]}
{"id": "C26", "title": "Object sets are parsed once; repeated queries agree", "statement": "Querying the objects of a set any number of times, interleaved with queries to other sets, returns the same objects and the same log every time.", "quantifier": "all query histories", "why_tests_cant": "histories are unbounded", "anchors": ["lib/src/dlis/records.cpp:object_set::objects", "lib/src/dlis/records.cpp:object_set::parse"]}
{"id": "C27", "title": "Pool queries return exactly the matching objects", "statement": "Querying by type (and name) returns exactly the objects of matching, parsable sets in file order, whose name matches; nothing is lost, duplicated or reordered.", "quantifier": "all pools, all matchers (arbitrary predicates)", "why_tests_cant": "matcher is user code, pools unbounded", "anchors": ["lib/src/dlis/records.cpp:pool::get", "lib/src/dlis/records.cpp:pool::types", "python/dlisio/ext/dlis.cpp:parse_objects"]}
{"id": "C28", "title": "Curves contain one row per frame, in recorded order", "statement": "frame.curves() returns the rows obtained by unpacking each record of the frame from front to back, all records in index order, with no row lost, repeated or invented, regardless of how many rows share a record and of internal buffer growth.", "quantifier": "all record lists, all formats, all numbers of rows per record", "why_tests_cant": "buffer growth and row bookkeeping for unbounded data", "anchors": ["python/dlisio/ext/dlis.cpp:read_fdata", "python/dlisio/ext/dlis.cpp:read_fdata_record", "python/dlisio/ext/dlis.cpp:read_fdata_frame"]}
{"id": "C29", "title": "A damaged data record only costs its own tail", "statement": "If a data record cannot be unpacked completely and the error is not escalated, the rows of all other records and the rows before the damage in that record are returned unchanged.", "quantifier": "all positions of damage in all record lists", "why_tests_cant": "all crash points", "anchors": ["python/dlisio/ext/dlis.cpp:read_fdata"]}
{"id": "C30", "title": "Reading one column equals projecting all columns", "statement": "Unpacking with a prefix/columns/suffix format split returns exactly the corresponding columns of the full unpacking.", "quantifier": "all formats, all splits, all data", "why_tests_cant": "unbounded", "anchors": ["python/dlisio/ext/dlis.cpp:read_fdata", "python/dlisio/ext/dlis.cpp:read_fdata_frame", "python/dlisio/dlis/frame.py:fmtstrchannel"]}
{"id": "C31", "title": "Text samples keep their characters", "statement": "An IDENT or UNITS curve sample is returned with one code point per stored byte equal to that byte, zero-padded to 255.", "quantifier": "all byte strings up to 255 bytes", "why_tests_cant": "256^255 strings; tests use ASCII only", "anchors": ["python/dlisio/ext/dlis.cpp:read_curve_sample"]}
{"id": "C32", "title": "No-format data is the concatenation of record payloads", "statement": "noformat.data() returns, in index order, the concatenation of each record's bytes after the object name.", "quantifier": "all record lists", "why_tests_cant": "unbounded", "anchors": ["python/dlisio/ext/dlis.cpp:read_noform"]}
{"id": "C33", "title": "Curve columns have unique names in channel order", "statement": "The structured type of a frame has FRAMENO first, then one column per channel in order; names are unique, equal to the mnemonic when that is unique and enriched with origin and copy number otherwise; strict=False yields a usable type for every channel list.", "quantifier": "all channel lists", "why_tests_cant": "name collisions need search over unbounded lists", "anchors": ["python/dlisio/dlis/frame.py:Frame.dtype", "python/dlisio/dlis/frame.py:mkunique"]}
{"id": "C34", "title": "Column layout agrees with the bytes written", "statement": "For every channel list with fixed-size types the numpy row size equals the number of bytes the unpacker writes per frame, and each column starts where the previous ended.", "quantifier": "all channel lists, dimensions and fixed-size representation codes", "why_tests_cant": "unbounded", "anchors": ["python/dlisio/dlis/frame.py:fmtstr", "python/dlisio/dlis/channel.py:Channel.fmtstr", "python/dlisio/dlis/utils/reprc.py", "python/dlisio/ext/dlis.cpp:read_curve_sample"]}
{"id": "C35", "title": "Object queries do not depend on query history or caching", "statement": "find() with the exact matcher returns the same objects whatever was queried before and whether or not metadata caching is on.", "quantifier": "all histories of find() and cache_metadata() calls", "why_tests_cant": "histories are unbounded", "anchors": ["python/dlisio/dlis/file.py:ObjectStore.find", "python/dlisio/dlis/file.py:ObjectStore.__getitem__", "python/dlisio/dlis/file.py:LogicalFile.cache_metadata"]}
{"id": "C36", "title": "object() is unambiguous", "statement": "object(type, name, origin, copynr) returns an object that satisfies every given criterion; it raises if none does, and raises if several different ones do.", "quantifier": "all object stores and criteria", "why_tests_cant": "unbounded stores", "anchors": ["python/dlisio/dlis/file.py:LogicalFile.object"]}
{"id": "C37", "title": "Attribute access applies default, shape and linkage rules", "statement": "Reading a metadata attribute returns the documented default when absent or empty, the first element for scalars, the list for vectors, the reversed list for reversed vectors, and resolves references element-wise, with None for unresolvable ones.", "quantifier": "all attribute tables and values", "why_tests_cant": "combinatorial", "anchors": ["python/dlisio/dlis/basicobject.py:__getitem__", "python/dlisio/dlis/utils/valuetypes.py", "python/dlisio/dlis/utils/linkage.py"]}
{"id": "C38", "title": "Reshaping multi-dimensional values loses nothing", "statement": "For values with a valid dimension the samples produced contain every value exactly once in order; dimensions that do not divide the value count are refused, and the inferred shape is used only in the documented cases.", "quantifier": "all value lists and dimension lists", "why_tests_cant": "unbounded", "anchors": ["python/dlisio/dlis/utils/dimensional.py:validshape", "python/dlisio/dlis/utils/dimensional.py:sampling"]}
{"id": "C39", "title": "A channel reports its unique parent frame", "statement": "channel.frame is the frame that lists the channel when exactly one does and None otherwise.", "quantifier": "all frame/channel reference graphs", "why_tests_cant": "unbounded graphs", "anchors": ["python/dlisio/dlis/channel.py:Channel.frame"]}
{"id": "C40", "title": "LIS integers and fixed point decode exactly", "statement": "I8, I16, I32 decode as big-endian two's complement; F32FIX decodes to the 16.16 fixed-point value rounded once to single precision.", "quantifier": "all bit patterns", "why_tests_cant": "2^32 patterns", "anchors": ["lib/src/lis/types.cpp:lis_i32", "lib/src/lis/types.cpp:lis_i16", "lib/src/lis/types.cpp:lis_f32fix"]}
{"id": "C41", "title": "LIS floating point formats decode to their LIS79 values", "statement": "F16, F32 and F32LOW decode to fraction * 2^exponent as LIS79 prescribes, exactly whenever the value is a normal single.", "quantifier": "all bit patterns", "why_tests_cant": "2^32 patterns", "anchors": ["lib/src/lis/types.cpp:lis_f16", "lib/src/lis/types.cpp:lis_f32", "lib/src/lis/types.cpp:lis_f32low"]}
{"id": "C42", "title": "LIS physical record headers are found across padding", "statement": "Reading the next physical record header skips any run of pad bytes and returns the header that follows it, positioned just after; at end of data it reports EOF and on a cut header truncation.", "quantifier": "all pad lengths, all headers, all following data", "why_tests_cant": "unbounded padding; header/padding ambiguity", "anchors": ["lib/src/lis/io.cpp:read_physical_header", "lib/src/lis/protocol.cpp:is_padbytes"]}
{"id": "C43", "title": "LIS records read back as written", "statement": "If a record payload is split over any number of physical records (with or without trailers and padding between them), read_record returns exactly the payload and type.", "quantifier": "all payloads and splits", "why_tests_cant": "unbounded", "anchors": ["lib/src/lis/io.cpp:read_record"]}
{"id": "C44", "title": "LIS indexing positions on the next record", "statement": "After indexing a record the stream stands exactly at the first byte after its last physical record, and the index entry records the type and start.", "quantifier": "all records, with and without padding", "why_tests_cant": "unbounded", "anchors": ["lib/src/lis/io.cpp:index_record"]}
{"id": "C45", "title": "LIS predecessor/successor consistency check is exact", "statement": "A record is accepted as consistent exactly when every physical record but the first has the predecessor bit and every one but the last the successor bit and none other has them.", "quantifier": "all sequences of headers", "why_tests_cant": "unbounded sequences", "anchors": ["lib/src/lis/io.cpp:attr_consistent"]}
{"id": "C46", "title": "LIS logical files are delimited correctly", "statement": "Indexing returns exactly the records up to the file trailer / before the next delimiter or file header, in order, split in explicit and implicit records; delimiters form their own one-record index.", "quantifier": "all record sequences", "why_tests_cant": "unbounded", "anchors": ["lib/src/lis/io.cpp:index_records"]}
{"id": "C47", "title": "LIS data records belong to the preceding format specification", "statement": "For each data format specification record, the data records associated are exactly those between it and the next specification record (or the end), in order.", "quantifier": "all indices", "why_tests_cant": "unbounded", "anchors": ["lib/src/lis/io.cpp:implicits_of"]}
{"id": "C48", "title": "LIS format specification parsing is faithful and memory-safe", "statement": "Any DFSR written per LIS79 is read back with the same entries and spec blocks; for any other bytes, parsing either fails with an error or reads only bytes inside the record and always terminates.", "quantifier": "all records, including malformed ones", "why_tests_cant": "all inputs; out-of-bounds reads are silent", "anchors": ["lib/src/lis/protocol.cpp:parse_dfsr", "lib/src/lis/protocol.cpp:read_entry_block", "lib/src/lis/protocol.cpp:read_spec_block0", "lib/src/lis/protocol.cpp:read_spec_block1"]}
{"id": "C49", "title": "LIS information records parse faithfully and safely", "statement": "Component blocks of an information record are read back as written; malformed records give an error, never an out-of-bounds read or an endless loop.", "quantifier": "all records", "why_tests_cant": "all inputs", "anchors": ["lib/src/lis/protocol.cpp:parse_info_record", "lib/src/lis/protocol.cpp:read_component_block"]}
{"id": "C50", "title": "LIS header/trailer fields are the documented slices", "statement": "File, reel and tape headers/trailers are split into the documented fixed-width fields; shorter records are refused.", "quantifier": "all records", "why_tests_cant": "all inputs", "anchors": ["lib/src/lis/protocol.cpp:parse_file_record", "lib/src/lis/protocol.cpp:parse_reel_tape_record", "lib/src/lis/protocol.cpp:parse_text_record"]}
{"id": "C51", "title": "Information tables place every entry", "statement": "table() has one row per type-0 component and one column per mnemonic; the cell is the last component with this mnemonic in that row, the fill value otherwise.", "quantifier": "all component lists", "why_tests_cant": "unbounded", "anchors": ["python/dlisio/lis/information_record.py:InformationRecord.table"]}
{"id": "C52", "title": "LIS curves: row size and consumption agree with the format specification", "statement": "For every format specification that passes validation, reading one frame consumes exactly the sum of the channels' reserved sizes and fills exactly one row per sample of the numpy type.", "quantifier": "all valid specifications, all sample rates", "why_tests_cant": "unbounded channel lists", "anchors": ["python/dlisio/lis/curves.py:dfsr_fmtstr", "python/dlisio/lis/curves.py:dfsr_dtype", "python/dlisio/lis/curves.py:validate_dfsr", "python/dlisio/ext/lis.cpp:read_frame"]}
{"id": "C53", "title": "LIS curves: every sample lands in its row and column", "statement": "curves() returns, for the requested rate, every sample of every selected channel at the row of its frame and sub-sample, in record order, without loss or shift.", "quantifier": "all data records", "why_tests_cant": "pointer arithmetic over unbounded data", "anchors": ["python/dlisio/ext/lis.cpp:read_frame", "python/dlisio/ext/lis.cpp:read_data_record", "python/dlisio/ext/lis.cpp:read_data_records"]}
{"id": "C54", "title": "LIS fast channels: the index is interpolated linearly", "statement": "For a sampling rate r, the r index values of a frame are equally spaced between the previous and the current recorded index, the last being the recorded one.", "quantifier": "all rates 1..255 and all index values", "why_tests_cant": "integer width effects only show for large rates", "anchors": ["python/dlisio/ext/lis.cpp:indexchannel"]}
{"id": "C55", "title": "LIS curve metadata keys match curve columns", "statement": "curves_metadata() has exactly the column names that curves() with the same arguments returns, in the same order, each mapped to its spec block.", "quantifier": "all format specifications, rates and strictness", "why_tests_cant": "unbounded channel lists", "anchors": ["python/dlisio/lis/curves.py:curves_metadata", "python/dlisio/lis/curves.py:dfsr_dtype"]}
{"id": "C56", "title": "LIS format-specification properties read their own entry", "statement": "Each DataFormatSpec property returns the value of the entry block that LIS79 assigns to it, or the documented default.", "quantifier": "all entry lists", "why_tests_cant": "all entry combinations", "anchors": ["python/dlisio/lis/dataformatspec.py:DataFormatSpec"]}
{"id": "C57", "title": "De-duplicated LIS mnemonics are unique and ordered", "statement": "With strict=False, duplicated mnemonics get numbered suffixes so that the resulting column names are pairwise different and in order.", "quantifier": "all mnemonic lists", "why_tests_cant": "collisions need search", "anchors": ["python/dlisio/lis/curves.py:unique_mnemonics", "python/dlisio/lis/curves.py:mkunique"]}
{"id": "C58", "title": "LIS logical files know their reel and tape", "statement": "Every logical file refers to the header of the reel/tape it was recorded in and to the trailer that closes that reel/tape, for any interleaving of reels, tapes and files.", "quantifier": "all sequences of delimiters and files", "why_tests_cant": "unbounded histories with shared mutable state", "anchors": ["python/dlisio/lis/load.py:FileIndexer.adjust_reel_tape", "python/dlisio/lis/load.py:FileIndexer.index_logical_file"]}
{"id": "C59", "title": "Tape image detection is exact", "statement": "A file is treated as tape image exactly if its first 12 bytes are a little-endian mark of type 0 or 1 whose previous pointer is below its next pointer.", "quantifier": "all 12-byte prefixes", "why_tests_cant": "2^96 prefixes", "anchors": ["lib/src/tapemark.cpp:valid_tapemark", "lib/src/tapemark.cpp:parse_tapemark"]}
{"id": "C60", "title": "Strings decode by the configured encodings, in order, without loss", "statement": "A string in the file is returned as its UTF-8 text if it is valid UTF-8, else by the first configured encoding that accepts it, else as raw bytes; no character is dropped.", "quantifier": "all byte strings, all encoding lists", "why_tests_cant": "all inputs, user-configurable codecs", "anchors": ["python/dlisio/ext/core.cpp:decode_str", "python/dlisio/common/settings.py"]}
{"id": "C61", "title": "Error severity selects the user's action", "statement": "Each reported problem triggers exactly the user's action for its severity; with a non-raising action for critical problems, loading continues with what has been indexed so far, and by default a critical problem raises.", "quantifier": "all handlers, all problem sequences", "why_tests_cant": "arbitrary user handlers and sequences", "anchors": ["python/dlisio/common/errorhandler.py:ErrorHandler.log"]}
{"id": "C62", "title": "Loading splits a file into its logical files", "statement": "dlis.load returns one logical file per FILE-HEADER delimited section, in order, each with exactly its own records, for any number of sections.", "quantifier": "all well-formed multi-file inputs", "why_tests_cant": "unbounded number of sections; positions are re-computed from physical tells", "anchors": ["python/dlisio/dlis/load.py:FileIndexer", "python/dlisio/dlis/load.py:load"]}
{"id": "C63", "title": "Damaged metadata is contained", "statement": "When the record of an object set is damaged after some complete objects, all objects before the damage are returned and the interruption is recorded in the set's log; reading any record ends, and never touches memory outside the record.", "quantifier": "all object sets, all damaged tails, all records", "why_tests_cant": "all positions and all kinds of damage", "anchors": ["lib/src/dlis/records.cpp:parse_objects", "lib/src/dlis/records.cpp:parse"]}
{"id": "C64", "title": "LIS frame unpacking is element-wise", "statement": "Unpacking a LIS row with a format string yields, for every format character in turn, the native value of the next sample; the measured number of bytes read and written is that of the samples; a format character without a numeric type is reported as an error; reads never go beyond the samples of the format.", "quantifier": "all format strings, all data", "why_tests_cant": "unbounded formats and data", "anchors": ["lib/src/lis/pack.cpp:lis_packf", "lib/src/lis/pack.cpp:lis_packflen", "lib/src/lis/types.cpp:lis_sizeof_type"]}
{"id": "C65", "title": "Curves of a frame in a loaded file", "statement": "For a frame of a loaded logical file, frame.curves() has one row per row in the data records that belong to that frame, in the order of the file, and the item at a row and a channel is that row's sample of that channel, whatever was queried before and whatever the records of other frames hold.", "quantifier": "all files, all frames, all histories of queries", "why_tests_cant": "unbounded files, interleavings of records and histories of a caching object store", "anchors": ["python/dlisio/dlis/frame.py:Frame.curves", "python/dlisio/dlis/utils/fdata.py:curves", "python/dlisio/dlis/load.py:load"]}
{"id": "C66", "title": "Data of a NOFORMAT object", "statement": "noformat.data() is the concatenation, in the order of the file, of what the data records of that object hold behind its name.", "quantifier": "all files, all objects", "why_tests_cant": "unbounded files and interleavings of records", "anchors": ["python/dlisio/dlis/noformat.py:Noformat.data", "python/dlisio/dlis/utils/fdata.py:noform"]}
{"id": "C67", "title": "Curves of a channel", "statement": "channel.curves() of a channel that is listed by one frame is the channel's column of the curves of that frame: one item per row, the samples of that channel.", "quantifier": "all files, all channels, all histories of queries", "why_tests_cant": "unbounded files and histories", "anchors": ["python/dlisio/dlis/channel.py:Channel.curves", "python/dlisio/dlis/channel.py:Channel.frame"]}
{"id": "C68", "title": "Index of a frame", "statement": "frame.index is None for a frame without channels, FRAMENO for a frame without INDEX-TYPE and otherwise the name of the first channel; it is the name of a column of frame.curves().", "quantifier": "all frames, all histories of queries", "why_tests_cant": "all frames and naming conflicts between channels", "anchors": ["python/dlisio/dlis/frame.py:Frame.index"]}
{"id": "C69", "title": "Listings of a logical file", "statement": "An object is presented by the class of its set's type if that type is one of the standard ones and as unknown otherwise; f.channels, f.frames and so on list all objects of the type; f.unknowns lists all other objects, by type and fingerprint, each object under its own fingerprint; a file with UPDATE objects is warned about; load() raises only if the reporting of a problem in a set does.", "quantifier": "all files, all histories of queries", "why_tests_cant": "unbounded files and histories of a caching object store; all types", "anchors": ["python/dlisio/dlis/file.py:LogicalFile.unknowns", "python/dlisio/dlis/file.py:LogicalFile.load", "python/dlisio/dlis/file.py:LogicalFile.promote"]}
{"id": "C70", "title": "Documented properties of metadata objects", "statement": "Every documented property of every metadata class gives the values of the RP66 attribute that it is documented to give, in the documented form (one value, list, reversed list, truth) with references resolved to objects of the documented types.", "quantifier": "all classes, all their documented properties, all objects, all histories of queries", "why_tests_cant": "about 150 properties, all values, all files", "anchors": ["python/dlisio/dlis/channel.py:Channel", "python/dlisio/dlis/tool.py:Tool", "python/dlisio/dlis/origin.py:Origin"]}
{"id": "C71", "title": "Groups, well references and encrypted frames", "statement": "group.objects gives the objects that the group's OBJECT-LIST refers to, however often it is used; wellref.coordinates maps the names of the three coordinates to their values; frame.encrypted holds exactly for frames that have the attribute ENCRYPTED.", "quantifier": "all files, all objects, all histories of queries and uses", "why_tests_cant": "unbounded files and histories, state in the objects", "anchors": ["python/dlisio/dlis/group.py:Group.objects", "python/dlisio/dlis/wellref.py:Wellref.coordinates", "python/dlisio/dlis/frame.py:Frame.encrypted"]}
{"id": "C72", "title": "Records of a LIS logical file", "statement": "The methods of a LIS logical file (data_format_specs, job_identification, wellsite_data, tool_string_info, operator_command_inputs, operator_response_inputs, system_outputs_to_operator, flic_comment) give all records of their type, in file order, each parsed from exactly its own bytes, wherever the device is positioned; header() and trailer() give the one record of that kind, or None with a message; the header() and trailer() of the reel and tape of a loaded file are the delimiters around it; a record that cannot be parsed does not hide other records.", "quantifier": "all files, all positions of the device, all types of records", "why_tests_cant": "unbounded files of any arrangement of records, padding and headers", "anchors": ["python/dlisio/lis/file.py:LogicalFile.parse_records", "python/dlisio/lis/file.py:parse_record", "python/dlisio/lis/file.py:HeaderTrailer"]}
{"id": "C73", "title": "LIS curves from the bytes of a file", "statement": "lis.curves(f, dfsr) for the n-th format specification of a loaded file gives the rows of the data records between it and the next format specification, in order and in the documented columns; nothing else is returned; a format specification of another logical file is refused.", "quantifier": "all files, all format specifications, all sample rates", "why_tests_cant": "composition of loading, indexing, reading and unpacking for unbounded files", "anchors": ["python/dlisio/lis/curves.py:curves", "python/dlisio/lis/file.py:LogicalFile.data_format_specs", "python/dlisio/lis/load.py:load"]}
{"id": "C74", "title": "describe() says what the attributes say", "statement": "obj.describe() of a metadata object writes its type, name, origin and copy number, then the documented captions of its class in order, each with the value and unit of the attribute it stands for, and then the attributes its class does not know under their own labels; the letters of `exclude` leave out exactly the head, the attributes, the unknown attributes, the empty values, the values of wrong dimensions or the units; values are shown as invalid exactly if they do not fit the dimensions; describe() changes nothing that later queries can see.", "quantifier": "all logical files whose attributes can be read, all objects of all classes, all values of exclude, all earlier queries", "why_tests_cant": "22 classes with free combinations of present, absent, empty and misshapen attributes, texts that look like labels, and unbounded histories", "anchors": ["python/dlisio/dlis/basicobject.py:BasicObject.describe", "python/dlisio/dlis/utils/describe.py", "python/dlisio/dlis/frame.py:Frame.describe_attr", "python/dlisio/dlis/coefficient.py:Coefficient.describe_attr", "python/dlisio/dlis/zone.py:Zone.describe_attr"]}
{"id": "C75", "title": "describe() of files counts what is in them", "statement": "LogicalFile.describe() shows the ID of the file header (Unknown unless there is exactly one), the number of frames and channels, and every type of objects in the file exactly once with the number of its objects, the types of RP66 under 'Known objects' and all others under 'Unknown objects'; it raises exactly if some set of objects cannot be parsed under the error handler or has a type that is not text. PhysicalFile.describe() shows the number of logical files and the first three for each of them in order. Neither changes what later queries give.", "quantifier": "all logical files with a readable header, all physical files of any number of them, all earlier queries, all orders of the set of types", "why_tests_cant": "unbounded numbers of sets, types, objects and earlier queries", "anchors": ["python/dlisio/dlis/file.py:LogicalFile.describe", "python/dlisio/dlis/file.py:LogicalFile.__repr__", "python/dlisio/dlis/file.py:PhysicalFile.describe"]}
{"id": "C76", "title": "DLIS: no file handle is leaked, closed twice or used after it was closed", "statement": "If dlis.load() returns, every logical file has a file handle of its own, it is open, and no other handle that load opened is; closing one logical file leaves the others usable, and closing all leaves nothing open. If load raises, at whatever point, every handle it opened has been closed exactly once. A handle is never used or closed after it was closed as long as the user reads and closes no logical file after closing it.", "quantifier": "all files, all error handlers, all points at which opening, reading or a user's action can fail, all sequences of calls on the returned files", "why_tests_cant": "the failure points are external (limits of the system, disk) and any of an unbounded number of rounds can fail; misuse of a closed handle is undefined behaviour and need not be visible", "anchors": ["python/dlisio/dlis/load.py:load", "python/dlisio/dlis/load.py:FileIndexer", "python/dlisio/dlis/file.py:PhysicalFile.close", "python/dlisio/dlis/file.py:LogicalFile.close", "lib/src/dlis/io.cpp:open", "lib/src/file.cpp:stream::close"]}
{"id": "C77", "title": "LIS: no file handle is leaked, closed twice or used after it was closed", "statement": "The same as C76 for lis.load() and the logical files it returns.", "quantifier": "all files, all error handlers, all points at which opening, reading or a user's action can fail, all sequences of calls on the returned files", "why_tests_cant": "as for C76; every record that delimits logical files is read through a handle of its own", "anchors": ["python/dlisio/lis/load.py:load", "python/dlisio/lis/load.py:FileIndexer", "python/dlisio/lis/file.py:PhysicalFile.close", "python/dlisio/lis/file.py:LogicalFile.close", "lib/src/lis/io.cpp:open"]}
{"id": "C78", "title": "DLIS: encodings can be changed while a file is open", "statement": "Whatever was read before and with whatever encodings, after set_encodings(e) followed by cache_metadata(b) every query of a logical file gives the same answer as for a file that is loaded after set_encodings(e) and has had cache_metadata(b) called; with caching off set_encodings alone is enough; attributes without references are read with the new encodings at once. The same for curves() and the data of no-format objects.", "quantifier": "all files that load, all codecs, all sequences of queries and changes of encodings before and after, all matchers and error handlers", "why_tests_cant": "the cache, the parsed sets and the index are state shared by all queries; staleness shows only for some histories and some names", "anchors": ["python/dlisio/common/settings.py:set_encodings", "python/dlisio/ext/core.cpp:decode_str", "python/dlisio/dlis/file.py:ObjectStore", "python/dlisio/dlis/file.py:LogicalFile.cache_metadata", "python/dlisio/dlis/utils/fdata.py:curves"]}
{"id": "C79", "title": "DLIS: storage_label gives the label of the file", "statement": "For a loaded file, LogicalFile.storage_label() of each of its logical files gives the sequence number, version, layout, maximum record length and identifier of the storage unit label that precedes it; None if the file has no label. Of a label with unreadable fields it gives defaults and a RuntimeWarning; a version other than 1.0 raises ValueError. The identifier is decoded like other text in the file.", "quantifier": "all files that load, behind any protocol; all labels of 80 bytes; whether or not warnings are turned into exceptions", "why_tests_cant": "80 arbitrary bytes, of which most invalid combinations are never written by the tools that make test files; labels may come late or be repeated", "anchors": ["python/dlisio/dlis/file.py:LogicalFile.storage_label", "python/dlisio/ext/dlis.cpp:storage_label", "lib/src/dlis/dlisio.cpp:dlis_sul", "python/dlisio/dlis/load.py"]}
{"id": "C80", "title": "DLIS: load with an error handler that never raises", "statement": "With an error handler that never raises, dlis.load of a plain file returns all logical files up to the end of the file or up to the first thing that is no record; each with its label and every metadata and data record that can be read, whatever the other records are like. It raises only if there is no visible record where one has to be. It does not touch memory outside its records, and does not lose logical files it has already found.", "quantifier": "all plain files of at least 12 bytes, valid or not; all positions of labels, visible records and FILE-HEADERs", "why_tests_cant": "arbitrary damaged files; a record of any kind may be damaged in any place, and what is lost with it shows only in comparison with the undamaged rest", "anchors": ["python/dlisio/dlis/load.py:load", "python/dlisio/ext/dlis.cpp:extract", "lib/src/dlis/io.cpp:findoffsets", "lib/src/dlis/io.cpp:findvrl", "lib/src/dlis/io.cpp:findsul", "lib/src/dlis/io.cpp:findfdata", "lib/src/dlis/records.cpp:parse_objects"]}
{"id": "C81", "title": "IBM single floats (ISINGL): writer", "statement": "Writing a normal single-precision float as ISINGL gives the normalised System/360 number that is the float's value rounded towards zero to the precision of that format. Read back, nonzero floats that fit come back bit by bit and all normal floats with a relative error below 2^-20; both zeros come back as +0. Subnormal floats and NaNs are written as what they are.", "quantifier": "all 2^32 bit patterns", "why_tests_cant": "2^32 patterns; the unit test has four values (0, 153, -153, -118.625), all of which fit", "anchors": ["lib/src/dlis/types.cpp:dlis_isinglo", "lib/src/dlis/types.cpp:dlis_isingl", "lib/include/dlisio/dlis/types.h:dlis_isinglo"]}
{"id": "C82", "title": "DLIS: metadata from the bytes of a file to Python", "statement": "Of a file that was written as RP66 says, find(), object() and the attributes of objects give what was written: exactly the objects that were written with the type and name that are asked for, in their order; for each attribute the value the object was given, or inherits from the template, or the default of its type, each turned into Python and shaped by the class; and for a reference the object that was written with that type, origin, copy number and name, or None if there is none.", "quantifier": "all files with a storage label of any number of logical files, sets, templates and objects, in any division into segments and visible records; all histories of queries", "why_tests_cant": "unbounded files and histories; a value passes through visible records, segments, templates, overrides, the object store and its cache, the conversion and the lookup of references, which tests exercise one at a time and on few files", "anchors": ["python/dlisio/dlis/load.py:load", "python/dlisio/dlis/file.py:LogicalFile.find", "python/dlisio/dlis/file.py:LogicalFile.object", "python/dlisio/dlis/basicobject.py:BasicObject.__getitem__", "python/dlisio/dlis/utils/valuetypes.py", "python/dlisio/dlis/utils/linkage.py", "lib/src/dlis/records.cpp", "lib/src/dlis/io.cpp"]}
{"id": "C83", "title": "LIS: damage in a file does not reach back", "statement": "Whatever a file holds, lis.load returns or raises the exception of the error handler, with at most one report. The logical files, reels and tapes before the first damage are loaded exactly as they would be without it, and so are the records of the logical file that is damaged up to the damage. All entries of all indexes are records that are in the file, in order, without overlaps, also across logical files. Damage is reported.", "quantifier": "all byte sequences of at least 12 bytes that do not start with a tape mark, with any beginning of any number of reels, tapes, logical files and records and any continuation; all error handlers", "why_tests_cant": "arbitrary bytes after arbitrary beginnings; tests have a handful of damaged files", "anchors": ["python/dlisio/lis/load.py:load", "python/dlisio/lis/load.py:FileIndexer", "lib/src/lis/io.cpp:iodevice::index_record", "lib/src/lis/io.cpp:iodevice::index_records", "lib/src/lis/io.cpp:iodevice::read_physical_header"]}
{"id": "C84", "title": "The error handler decides where a call ends, and nothing else", "statement": "A call under any error handler does what it does under one that never raises: as long as the handler raises for none of the problems that are reported, the result, the reports and the state left behind are the same; otherwise the call ends with an exception at the first problem for which it raises. So a file that loads under a strict handler gives the same under a laxer one.", "quantifier": "all files, devices, states of the object store, queries, frames and error handlers (for dlis.load: handlers that do not raise for minor problems, otherwise only the first half; for curves and unformatted data: handlers that raise for critical problems if they raise for minor ones)", "why_tests_cant": "a relation between two runs, for every file and every handler", "anchors": ["python/dlisio/common/errorhandler.py:ErrorHandler", "lib/src/dlis/io.cpp:findfdata", "lib/src/dlis/io.cpp:extract", "python/dlisio/ext/dlis.cpp:read_fdata", "python/dlisio/ext/dlis.cpp:read_noform", "python/dlisio/dlis/load.py:load", "python/dlisio/lis/load.py:load", "python/dlisio/dlis/basicobject.py:BasicObject.__getitem__", "lib/src/dlis/records.cpp:pool::get"]}
{"id": "C85", "title": "describe() lays out what it says within the width", "statement": "For any positive width and any indent, describe() ends and writes all titles, captions, values and units it has, in order, in lines that start with the indent (values that need more lines: with blanks under the value) and are no longer than the width, if there is room behind the captions at all. Width and indent change the layout only.", "quantifier": "all documents (sequences of titles, headings, tables of captions and values, and texts), all widths and indents, and all ways of splitting a text into words that textwrap may have", "why_tests_cant": "all texts, widths and indents; that it ends at all depends on both", "anchors": ["python/dlisio/dlis/utils/describe.py:describe_text", "python/dlisio/dlis/utils/describe.py:describe_dict", "python/dlisio/dlis/utils/describe.py:describe_array", "python/dlisio/dlis/utils/describe.py:describe_header", "python/dlisio/dlis/basicobject.py:BasicObject.describe"]}
{"id": "C86", "title": "DLIS: damage in a file does not reach back", "statement": "If dlis.load returns, the logical files that are whole in front of the first damage are returned as if nothing else was in the file, in order and before all others. The logical file that is damaged has the metadata and the rows of its records in front of the damage, in order and before anything found behind them. If the damage is that the file ends too early, and the error handler never raises, then load does not raise: the last logical file it returns is the one that was cut.", "quantifier": "all storage unit labels, all sequences of logical files, all beginnings of a further one, all bytes that follow; all error handlers; all positions where a file may be cut behind the first record of a logical file; tape images and other protocols as any device that gives these streams", "why_tests_cant": "arbitrary bytes behind arbitrary files, and every position of a cut; tests have a handful of damaged files", "anchors": ["python/dlisio/dlis/load.py:load", "python/dlisio/ext/dlis.cpp:findoffsets", "lib/src/dlis/io.cpp:findoffsets", "lib/src/dlis/io.cpp:findfdata", "python/dlisio/ext/dlis.cpp:extract"]}
{"id": "C87", "title": "DLIS: a file that ends too early is noticed, and what it holds can be used", "statement": "If a DLIS file ends inside a logical file, behind its first record, dlis.load reports exactly one critical problem: it raises if the error handler does, and otherwise returns the logical files before and the one that is cut. These consist of exactly the records that are whole, so that all queries, curves and rows are those of a file that holds these records and no more. The same holds for the logical files in front of any other damage, if load returns.", "quantifier": "all storage unit labels, all sequences of logical files, all positions where the file may end, all error handlers; for other damage all bytes that may follow", "why_tests_cant": "every position of every file; whether a cut is noticed depends on where visible records, logical records and segments end relative to it, which a few cut files do not cover", "anchors": ["python/dlisio/dlis/load.py:load", "python/dlisio/ext/dlis.cpp:findoffsets", "lib/src/dlis/io.cpp:findoffsets", "lib/src/dlis/io.cpp:findfdata", "python/dlisio/dlis/frame.py:curves"]}
{"id": "C88", "title": "LIS: the tables of a file come from its bytes", "statement": "job_identification(), wellsite_data() and tool_string_info() of a logical file give one information record per record of their type, in the order of the file, if all of these are made of components. If such a record is a component that names a table and then rows of components, table_name() gives that name and table() one row per row and one column per mnemonic, in the order in which the mnemonics first occur; a cell is the last component of its row with that mnemonic, the fill value if there is none. If a mnemonic does not decode, table() raises.", "quantifier": "all LIS files, plain or through any sequence of devices such as tape images; all tables, all ways of decoding strings; all other records of the file", "why_tests_cant": "unbounded numbers of records, rows and mnemonics, repeated and missing ones in every order, split over physical records anywhere", "anchors": ["python/dlisio/lis/file.py:job_identification", "python/dlisio/lis/file.py:wellsite_data", "python/dlisio/lis/file.py:tool_string_info", "python/dlisio/lis/information_record.py:table", "python/dlisio/lis/information_record.py:table_name", "lib/src/lis/protocol.cpp:parse_info_record"]}
{"id": "C89", "title": "LIS: what is in front of damage can be used", "statement": "If lis.load returns for a file that is damaged, or ends too early, then the logical files in front of the damage give all their records, headers, trailers, tables and curves exactly as those of a file without damage. If the damage is a record that does not fit into the file, has an unknown type or is no first part of a record, this holds for the damaged logical file with the records it has in front of the damage as well, and exactly one critical problem is reported.", "quantifier": "all LIS files, plain or (for damage of these kinds) through any devices, with any number of good logical files followed by any bytes; all records, tables, format specifications and sample rates; all error handlers", "why_tests_cant": "what follows is arbitrary, and could change offsets, reels, tapes or the index of files before it in ways a few damaged files do not show", "anchors": ["python/dlisio/lis/load.py:load", "python/dlisio/lis/file.py:parse_records", "python/dlisio/lis/curves.py:curves", "python/dlisio/lis/information_record.py:table", "lib/src/lis/io.cpp:index_record"]}
{"id": "C90", "title": "LIS: curves with mnemonics that do not decode", "statement": "lis.curves returns an array only if the mnemonics of all columns that are read decode, and it is then named by the decoded texts. A mnemonic that does not decode makes it raise, in strict and non-strict mode, if its channel is read, and has no effect if the channel is suppressed or has another sample rate. curves_metadata returns such mnemonics as bytes, in their place, and raises if one of them is repeated.", "quantifier": "all decoders, format specifications, records, sample rates and modes", "why_tests_cant": "whether undecodable names are harmless depends on which channels are read, for all combinations of rates, suppressed channels, repeated names and encodings", "anchors": ["python/dlisio/lis/curves.py:curves", "python/dlisio/lis/curves.py:dfsr_dtype", "python/dlisio/lis/curves.py:curves_metadata", "python/dlisio/lis/curves.py:mkunique"]}
