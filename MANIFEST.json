{
 "claims": [
  {
   "property": "C01",
   "status": "proved",
   "theorems": [
    "C01_uvari_decode"
   ],
   "note": ""
  },
  {
   "property": "C02",
   "status": "partial",
   "theorems": [
    "C02_uvari_roundtrip_partial",
    "C02_uvari_roundtrip_refuted",
    "C02_uvari_width"
   ],
   "note": "Full statement is false: 0x4000..0xBFFF with requested width <= 2 is written in two bytes and loses its top bits; proved as an exact iff plus a refutation witness."
  },
  {
   "property": "C03",
   "status": "proved",
   "theorems": [
    "C03_decode",
    "C03_roundtrip",
    "C03_write_of_read"
   ],
   "note": ""
  },
  {
   "property": "C04",
   "status": "proved",
   "theorems": [
    "C04_decode",
    "C04_roundtrip",
    "C04_ascii_roundtrip"
   ],
   "note": "ASCII round trip excludes the lengths hit by the C02 defect."
  },
  {
   "property": "C05",
   "status": "proved",
   "theorems": [
    "C05_dtime_roundtrip",
    "C05_dtime_decode",
    "C05_year"
   ],
   "note": ""
  },
  {
   "property": "C06",
   "status": "proved",
   "theorems": [
    "C06_fshort_exact"
   ],
   "note": ""
  },
  {
   "property": "C07",
   "status": "partial",
   "theorems": [
    "C07_isingl_right_iff",
    "C07_isingl_unnormalised",
    "C07_isingl_underflow",
    "C07_isingl_exact_partial",
    "C07_isingl_out_of_range",
    "C07_isingl_unnormalised_refuted",
    "C07_isingl_zero_fraction_refuted"
   ],
   "note": "Exact for normalised IBM floats in the range of normal singles; C07_isingl_right_iff: for these and zeros with a small exponent only. C07_isingl_unnormalised and C07_isingl_underflow: what comes out otherwise."
  },
  {
   "property": "C08",
   "status": "proved",
   "theorems": [
    "C08_vsingl_every_float",
    "C08_vsingl_roundtrip_iff",
    "C08_vsingl_decode",
    "C08_vsingl_roundtrip",
    "C08_vsingl_roundtrip_refuted"
   ],
   "note": "Decoding is fully specified (C08_vsingl_decode). C08_vsingl_roundtrip: all normal floats below 2^127, which are those that VAX floats have; C08_vsingl_roundtrip_iff: no others but +0; C08_vsingl_every_float: what becomes of the others, which are written without an error (C08_vsingl_roundtrip_refuted)."
  },
  {
   "property": "C09",
   "status": "proved",
   "theorems": [
    "C09_decode",
    "C09_decode_double",
    "C09_roundtrip",
    "C09_write_of_read"
   ],
   "note": ""
  },
  {
   "property": "C10",
   "status": "proved",
   "theorems": [
    "C10_tables",
    "C10_sizes",
    "C10_variable"
   ],
   "note": ""
  },
  {
   "property": "C11",
   "status": "proved",
   "theorems": [
    "C11_label_fields",
    "C11_label_too_small",
    "C11_number_unique"
   ],
   "note": ""
  },
  {
   "property": "C12",
   "status": "proved",
   "theorems": [
    "C12_headers",
    "C12_attribute_bits",
    "C12_encryption_packet"
   ],
   "note": ""
  },
  {
   "property": "C13",
   "status": "proved",
   "theorems": [
    "C13_trim_exact",
    "C13_trim_reports",
    "C13_trim_total",
    "C13_pad_count_in_segment_refuted"
   ],
   "note": "Complete. C13_pad_count_in_segment_refuted shows an inadmissible case beside it: a padded segment no longer than its checksum and trailing length makes the pad count be read before the segment."
  },
  {
   "property": "C14",
   "status": "proved",
   "theorems": [
    "C14_find_sul",
    "C14_find_vrl",
    "C14_open_at_label",
    "C14_open_at_visible_record",
    "C14_open_ends"
   ],
   "note": "Library searches on a buffer and the stream-level searches built on them."
  },
  {
   "property": "C15",
   "status": "proved",
   "theorems": [
    "C15_role",
    "C15_flags",
    "C15_mismatch",
    "C15_names"
   ],
   "note": ""
  },
  {
   "property": "C16",
   "status": "partial",
   "theorems": [
    "C16_form",
    "C16_rejects",
    "C16_exact_size",
    "C16_injective",
    "C16_injective_types_partial",
    "C16_injective_types_refuted"
   ],
   "note": "Injective per type, and across types when the types contain no '.', as RP66 types do; false in general (refutation)."
  },
  {
   "property": "C17",
   "status": "proved",
   "theorems": [
    "C17_measure_agrees",
    "C17_concat",
    "C17_characters",
    "C17_invalid",
    "C17_announced_size",
    "C17_size_announced_when",
    "C17_varsize",
    "C17_varsize_rejects_invalid_refuted"
   ],
   "note": "An invalid specifier after a text specifier is not rejected by pack_varsize (refutation)."
  },
  {
   "property": "C18",
   "status": "proved",
   "theorems": [
    "C18_roundtrip",
    "C18_sound",
    "C18_terminates",
    "C18_in_bounds"
   ],
   "note": "Round trip and soundness. Pad counts outside the segment are read from earlier data or before the buffer (see C13)."
  },
  {
   "property": "C19",
   "status": "proved",
   "theorems": [
    "C19_prefix"
   ],
   "note": ""
  },
  {
   "property": "C20",
   "status": "proved",
   "theorems": [
    "C20_index",
    "C20_any_stream"
   ],
   "note": ""
  },
  {
   "property": "C21",
   "status": "partial",
   "theorems": [
    "C21_truncated_partial",
    "C21_short",
    "C21_incomplete_indexed_refuted"
   ],
   "note": "Holds when the medium reports the truncation. When it simply ends inside the last payload of a record, the incomplete record is indexed as complete (refutation); C21_short gives the exact outcome for every cut."
  },
  {
   "property": "C22",
   "status": "proved",
   "theorems": [
    "C22_index",
    "C22_damaged_skipped"
   ],
   "note": ""
  },
  {
   "property": "C23",
   "status": "proved",
   "theorems": [
    "C23_roundtrip"
   ],
   "note": ""
  },
  {
   "property": "C24",
   "status": "proved",
   "theorems": [
    "C24_map",
    "C24_frame"
   ],
   "note": ""
  },
  {
   "property": "C25",
   "status": "partial",
   "theorems": [
    "C25_rules",
    "C25_announced_partial",
    "C25_left_refuted"
   ],
   "note": "C25_rules: the value for every template attribute and component. C25_announced_partial: every message but one is truthful. 'value is left as in template' is not (C25_left_refuted)."
  },
  {
   "property": "C26",
   "status": "proved",
   "theorems": [
    "C26_set",
    "C26_history"
   ],
   "note": ""
  },
  {
   "property": "C27",
   "status": "proved",
   "theorems": [
    "C27_exact",
    "C27_returns",
    "C27_sets"
   ],
   "note": ""
  },
  {
   "property": "C28",
   "status": "proved",
   "theorems": [
    "C28_append",
    "C28_rows",
    "C28_terminates"
   ],
   "note": ""
  },
  {
   "property": "C29",
   "status": "partial",
   "theorems": [
    "C29_damaged_partial",
    "C29_unreadable",
    "C29_no_exception",
    "C29_exact",
    "C29_in_bounds_refuted"
   ],
   "note": "C29_exact: whatever the record holds, the array has exactly the complete rows at the start of its data and a message if anything is left. C29_damaged_partial gives the outcome for cut numbers, invalid UTF-8 and invalid dates. Missing: a cut text column is read past the end of the record before the damage is noticed, which is undefined behaviour (C29_in_bounds_refuted)."
  },
  {
   "property": "C30",
   "status": "partial",
   "theorems": [
    "C30_projection_partial",
    "C30_damaged_refuted"
   ],
   "note": "Holds for intact records. On damaged ones the full and the split reading may differ in the number of rows (C30_damaged_refuted)."
  },
  {
   "property": "C31",
   "status": "partial",
   "theorems": [
    "C31_text_iff",
    "C31_text_partial",
    "C31_refuted"
   ],
   "note": "Holds for characters below 128, and only for those (C31_text_iff). Others are sign-extended to invalid code points (C31_refuted)."
  },
  {
   "property": "C32",
   "status": "proved",
   "theorems": [
    "C32_payloads",
    "C32_append",
    "C32_unreadable"
   ],
   "note": ""
  },
  {
   "property": "C33",
   "status": "partial",
   "theorems": [
    "C33_columns",
    "C33_names",
    "C33_strict",
    "C33_missing",
    "C33_default",
    "C33_distinct",
    "C33_repeated",
    "C33_relaxed_partial",
    "C33_refuted"
   ],
   "note": "Proved for every list of channels: columns, their order and types (any mode); names are the labels and the type exists exactly if labels and fingerprints are distinct (strict); any channels with ordinary names work, told apart by origin and copy number, and repeated ones with strict=False are numbered. Missing: strict=False for every list, which is false (C33_refuted): a channel called FRAMENO, or one called like another's label, cannot be read in either mode; C33_relaxed_partial needs tidy labels."
  },
  {
   "property": "C34",
   "status": "proved",
   "theorems": [
    "C34_layout",
    "C34_curves",
    "C34_formats",
    "C34_no_dimension"
   ],
   "note": "Row width, packing and the width of each column for every list of channels, any mode; end to end, the value at a row and column of the array is that channel's sample in that row. A channel without dimension makes the curves of its frame unreadable (C34_no_dimension)."
  },
  {
   "property": "C35",
   "status": "partial",
   "theorems": [
    "C35_exact_partial",
    "C35_history",
    "C35_any",
    "C35_objects",
    "C35_uncached",
    "C35_empty",
    "C35_order_refuted",
    "C35_shared_refuted",
    "C35_empty_refuted"
   ],
   "note": "After any history of find, object, fileheader, type queries and cache_metadata: an exact query gives exactly the objects of that type and name in file order, for every name while the store caches (the default) and for every non-empty name otherwise (C35_exact_partial, C35_history); any matcher and no name gives the same objects up to order (C35_any, C35_objects), in file order when not caching (C35_uncached). Findings: the order of nameless queries depends on caching (C35_order_refuted); the empty name means any name without the cache (C35_empty, C35_empty_refuted). Text conversions are parameters; the texts used must survive them. A list given for an exact query is the cache itself: emptying it makes later queries find nothing (C35_shared_refuted)."
  },
  {
   "property": "C36",
   "status": "partial",
   "theorems": [
    "C36_found_partial",
    "C36_object_partial",
    "C36_fileheader",
    "C36_nan_refuted",
    "C36_empty_refuted"
   ],
   "note": "Exact in both directions, for every name while the store caches (the default) and for non-empty names otherwise; equality of duplicates is specified with IEEE comparison. C36_empty_refuted: without the cache the empty name finds an object of another name. C36_nan_refuted: byte-identical duplicates with a NaN are reported as ambiguous."
  },
  {
   "property": "C37",
   "status": "partial",
   "theorems": [
    "C37_tables",
    "C37_read_partial",
    "C37_history",
    "C37_one_result",
    "C37_keyerror",
    "C37_escalates",
    "C37_stash_partial",
    "C37_date_refuted",
    "C37_empty_refuted",
    "C37_untyped_refuted",
    "C37_stash_refuted"
   ],
   "note": "C37_read_partial: after any history, the stored values of the key turn one by one into Python values (references into the object they name or None, text stripped) and take the shape of the class rule; C37_one_result: this determines the result; C37_tables: all 22 class tables are well formed; C37_keyerror, C37_escalates, C37_history, C37_stash_partial. Partial because the full statement is false: C37_date_refuted (a date without a value raises), C37_empty_refuted (reference with an empty name resolves to another object without the cache), C37_untyped_refuted, C37_stash_refuted."
  },
  {
   "property": "C38",
   "status": "partial",
   "theorems": [
    "C38_shape",
    "C38_inferred",
    "C38_samples_partial",
    "C38_empty",
    "C38_values",
    "C38_measurement",
    "C38_absent",
    "C38_zero_refuted",
    "C38_text_refuted"
   ],
   "note": "Full statement for positive integer dimensions and values of one kind, for the functions and for the properties of Parameter, Computation and Measurement objects of any file after any history. Two values are not kept: a dimension of zero is accepted and loses everything (C38_zero_refuted), numpy drops NUL characters at the end of text (C38_text_refuted)."
  },
  {
   "property": "C39",
   "status": "partial",
   "theorems": [
    "C39_frame_partial",
    "C39_unresolved_refuted",
    "C39_exact"
   ],
   "note": "C39_exact: for all files and histories, channel.frame raises exactly if some entry of some frame is not the name of a channel of the file; otherwise it is the only frame listing the channel (equal frames count as one), or None. C39_frame_partial: the same for files in which everything resolves. Partial because the full statement has no such exception and is false (C39_unresolved_refuted), and because lists of channels with escalated problems or empty names are left to C37."
  },
  {
   "property": "C40",
   "status": "proved",
   "theorems": [
    "C40_ints",
    "C40_fixed"
   ],
   "note": ""
  },
  {
   "property": "C41",
   "status": "proved",
   "theorems": [
    "C41_f16",
    "C41_f32",
    "C41_f32low",
    "C41_f32low_zero_refuted"
   ],
   "note": "F16, F32: exact. F32LOW: exact for normal numbers, infinite when too large; a zero fraction with exponent above 142 is read as NaN (refutation), numbers with exponent below -134 as zero."
  },
  {
   "property": "C42",
   "status": "partial",
   "theorems": [
    "C42_found_partial",
    "C42_found_refuted",
    "C42_eof",
    "C42_truncated_partial",
    "C42_truncated_refuted",
    "C42_any"
   ],
   "note": "Holds when the padding can be told from the header: at least two pad bytes with the header aligned to 4 bytes, or none and a length other than 0x2020. A single pad byte, an unaligned length 0x2020, and a header cut after two or three pad bytes with four bytes left are handled wrongly (refutations). C42_any holds for every file."
  },
  {
   "property": "C43",
   "status": "proved",
   "theorems": [
    "C43_read",
    "C43_indexed"
   ],
   "note": ""
  },
  {
   "property": "C44",
   "status": "partial",
   "theorems": [
    "C44_position_partial",
    "C44_padded_refuted",
    "C44_any"
   ],
   "note": "Holds when there is no padding inside the record; with padding between its physical records the size and the position are too small (C44_padded_refuted). C44_any holds for every file."
  },
  {
   "property": "C45",
   "status": "proved",
   "theorems": [
    "C45_exact"
   ],
   "note": ""
  },
  {
   "property": "C46",
   "status": "partial",
   "theorems": [
    "C46_closed",
    "C46_delimiter",
    "C46_separated_partial",
    "C46_end",
    "C46_damaged",
    "C46_any",
    "C46_separated_refuted"
   ],
   "note": "All ways an index ends. A delimiter or file header after data records only (no other record) is not separated from them (C46_separated_refuted). C46_any holds for every file."
  },
  {
   "property": "C47",
   "status": "proved",
   "theorems": [
    "C47_belongs"
   ],
   "note": ""
  },
  {
   "property": "C48",
   "status": "proved",
   "theorems": [
    "C48_exact",
    "C48_safe",
    "C48_indicators"
   ],
   "note": ""
  },
  {
   "property": "C49",
   "status": "proved",
   "theorems": [
    "C49_exact",
    "C49_safe"
   ],
   "note": ""
  },
  {
   "property": "C50",
   "status": "proved",
   "theorems": [
    "C50_file",
    "C50_reel_tape",
    "C50_text"
   ],
   "note": ""
  },
  {
   "property": "C51",
   "status": "proved",
   "theorems": [
    "C51_table",
    "C51_forms",
    "C51_lossless"
   ],
   "note": ""
  },
  {
   "property": "C52",
   "status": "partial",
   "theorems": [
    "C52_accepts",
    "C52_rejects",
    "C52_frame_partial",
    "C52_zero_rate_refuted"
   ],
   "note": "Acceptance is an equivalence; consumption and row size hold for every frame. Rate 0 is accepted but writes outside the array (refuted part)."
  },
  {
   "property": "C53",
   "status": "partial",
   "theorems": [
    "C53_rows",
    "C53_exact_partial",
    "C53_in_bounds_refuted",
    "C53_ends"
   ],
   "note": "Rows are exact for all rates 1-255 (C53_rows; the index values above rate 127 are those of C54). Conversely up to bytes from behind the record when the last channel is suppressed or a text (C53_exact_partial, C53_in_bounds_refuted)."
  },
  {
   "property": "C54",
   "status": "partial",
   "theorems": [
    "C54_last_partial",
    "C54_line_partial",
    "C54_behind",
    "C54_first",
    "C54_integer",
    "C54_rate_refuted"
   ],
   "note": "Proved for the first 127 rows of frames of any rate with an error bound from Flocq, and for the last row of rates up to 127. False otherwise (C54_rate_refuted): C54_behind and C54_first give the index of all the other rows."
  },
  {
   "property": "C55",
   "status": "partial",
   "theorems": [
    "C55_match_partial",
    "C55_suppressed_refuted",
    "C55_keys"
   ],
   "note": "C55_match_partial holds when no channel is suppressed (negative reserved size); C55_suppressed_refuted shows that suppressed channels are keys of curves_metadata() but not columns of curves(). C55_keys says what curves_metadata() returns in every case."
  },
  {
   "property": "C56",
   "status": "partial",
   "theorems": [
    "C56_entries_partial",
    "C56_spec_block_type_refuted",
    "C56_index",
    "C56_sample_rates",
    "C56_directional_spacing"
   ],
   "note": "spec_block_type reads entry 1 instead of 2 (C56_spec_block_type_refuted); all the other properties are as stated (C56_entries_partial, C56_index, C56_sample_rates, C56_directional_spacing)."
  },
  {
   "property": "C57",
   "status": "partial",
   "theorems": [
    "C57_numbered_partial",
    "C57_same_length",
    "C57_refuted",
    "C57_unchanged"
   ],
   "note": "Unconditional uniqueness is false (C57_refuted: labels X, X, X(0)); proved for labels that do not look like numbered ones, in particular for labels of equal length."
  },
  {
   "property": "C58",
   "status": "proved",
   "theorems": [
    "C58_plain",
    "C58_devices",
    "C58_ends"
   ],
   "note": "Plain files: any layout of delimiters, lone EOFs and logical files (closed, open, last) loads to exactly these files with their reel and tape. Tape images: same for any sequence of opened devices (opening is an oracle). C58_ends: loading a plain file terminates."
  },
  {
   "property": "C59",
   "status": "proved",
   "theorems": [
    "C59_detected",
    "C59_not_detected",
    "C59_otherwise",
    "C59_first_byte",
    "C59_mark",
    "C59_plain_refuted"
   ],
   "note": "Exact in both directions, including the offset at which reading starts. C59_plain_refuted: a valid plain file whose first physical record is 256 bytes long can be mistaken for a tape image and cannot be loaded."
  },
  {
   "property": "C60",
   "status": "partial",
   "theorems": [
    "C60_text_partial",
    "C60_nul",
    "C60_refuted"
   ],
   "note": "C60_text_partial: for any codec and any list of encodings, text without a NUL byte. C60_refuted: text is cut at the first NUL byte before UTF-8 and the encodings are tried."
  },
  {
   "property": "C61",
   "status": "partial",
   "theorems": [
    "C61_dispatch",
    "C61_default",
    "C61_message",
    "C61_dlis",
    "C61_dlis_refuted",
    "C61_lis_continues",
    "C61_lis_refuted"
   ],
   "note": "The handler itself (C61_dispatch, C61_default, C61_message), loading of LIS files (C61_lis_continues) and of DLIS files (C61_dlis). Two exceptions are proved: C61_lis_refuted (damage right behind a closed logical file is not reported at all) and C61_dlis_refuted (a raising MINOR action during extraction is swallowed and reported again as CRITICAL). What the handler changes in general is C84; which logical files are returned for damaged files is C80, C83, C86 and C87. Partial because damage other than that of the record structure is treated in C22_damaged_skipped and C63 for single calls only."
  },
  {
   "property": "C62",
   "status": "proved",
   "theorems": [
    "C62_labelled",
    "C62_unlabelled",
    "C62_course",
    "C62_ends"
   ],
   "note": "C62_labelled and C62_unlabelled for plain files, C62_course for any protocol (tape images) given what opening yields, C62_ends: loading a plain file always ends."
  },
  {
   "property": "C63",
   "status": "partial",
   "theorems": [
    "C63_kept",
    "C63_terminates",
    "C63_severity",
    "C63_marked",
    "C63_in_bounds_refuted"
   ],
   "note": "Objects before the damage are kept and parsing always ends (proved). That parsing stays inside the record is false: truncated fields are read past the end (C63_in_bounds_refuted)."
  },
  {
   "property": "C64",
   "status": "proved",
   "theorems": [
    "C64_unpack",
    "C64_exact",
    "C64_sizes"
   ],
   "note": ""
  },
  {
   "property": "C65",
   "status": "partial",
   "theorems": [
    "C65_file_partial",
    "C65_loaded",
    "C65_sound",
    "C65_curves_partial",
    "C65_strict_partial",
    "C65_nul_refuted",
    "C65_unlabelled",
    "C65_course",
    "C65_foreign_refuted"
   ],
   "note": "From the bytes of a file to the array, for all frames, all histories and both modes: C65_loaded (labelled), C65_unlabelled, C65_course (any protocol, tape images too), C65_curves_partial; C65_strict_partial in terms of the channels alone; C65_file_partial: all in one, also for files that are damaged behind the frame or cut. Hypotheses left: the channels of the frame resolve and have known codes and dimensions (C33, C37), and names decode so that the records can be recognised; a frame name with a NUL gives an empty array (C65_nul_refuted), and can replace the rows of another frame (C65_foreign_refuted)."
  },
  {
   "property": "C66",
   "status": "partial",
   "theorems": [
    "C66_data_partial",
    "C66_foreign_refuted"
   ],
   "note": "All objects of all loaded files whose names decode so that their records can be recognised; false for names with a NUL: C66_foreign_refuted, and C65_nul_refuted for frames."
  },
  {
   "property": "C67",
   "status": "partial",
   "theorems": [
    "C67_curves_partial",
    "C67_without_frame"
   ],
   "note": "All channels listed by one frame, or by frames that are the same, after any history, under the hypotheses of C39 and C65. C67_without_frame: channels of no single frame give None, and channels of files with a reference that does not resolve raise."
  },
  {
   "property": "C68",
   "status": "partial",
   "theorems": [
    "C68_index",
    "C68_column_partial",
    "C68_column_refuted"
   ],
   "note": "C68_index is the full statement about the index. That it names a column needs that the first mnemonic is not repeated; otherwise it is false (C68_column_refuted)."
  },
  {
   "property": "C69",
   "status": "partial",
   "theorems": [
    "C69_class",
    "C69_type",
    "C69_listing",
    "C69_unknowns",
    "C69_updates",
    "C69_load",
    "C69_untyped_refuted",
    "C69_same_refuted"
   ],
   "note": "All files, after any history. f.unknowns raises for objects without a type (C69_untyped_refuted), and of objects with the same fingerprint it has one (C69_same_refuted)."
  },
  {
   "property": "C70",
   "status": "partial",
   "theorems": [
    "C70_properties_partial",
    "C70_one_result",
    "C70_missing_refuted"
   ],
   "note": "All documented properties of all 22 classes, under the hypotheses of C37 (problems not escalated, dates exist, names referred to not empty). Five documented properties do not exist (C70_missing_refuted)."
  },
  {
   "property": "C71",
   "status": "partial",
   "theorems": [
    "C71_group_partial",
    "C71_coordinates_partial",
    "C71_coordinates_raise",
    "C71_encrypted",
    "C71_valueless_refuted",
    "C71_type_refuted",
    "C71_state_refuted",
    "C71_lost_refuted",
    "C71_encrypted_refuted"
   ],
   "note": "Groups under the hypotheses of C37; OBJECT-LIST without value and names without OBJECT-TYPE raise (refuted). Coordinates for text names and attributes with values; the others raise (C71_coordinates_raise); equal names lose values (C71_lost_refuted). C71_encrypted is complete."
  },
  {
   "property": "C72",
   "status": "partial",
   "theorems": [
    "C72_parse",
    "C72_contents",
    "C72_records",
    "C72_methods",
    "C72_header",
    "C72_once",
    "C72_reel",
    "C72_plain",
    "C72_devices",
    "C72_one_bad_refuted"
   ],
   "note": "Full for single records and types. C72_one_bad_refuted: one bad record makes all records of its type inaccessible by the method. From the start of loading: C72_plain for plain files, C72_devices for files behind any devices such as tape images."
  },
  {
   "property": "C73",
   "status": "partial",
   "theorems": [
    "C73_listed",
    "C73_curves",
    "C73_exact_partial",
    "C73_plain",
    "C73_devices",
    "C73_foreign_refuted"
   ],
   "note": "C73_curves for any device, C73_plain and C73_devices from the start of loading, for all rates 1-255. C73_exact_partial: bytes of memory behind a record may be read (C53). Format specifications of other files are not refused (C73_foreign_refuted)."
  },
  {
   "property": "C74",
   "status": "partial",
   "theorems": [
    "C74_describe_partial",
    "C74_coefficient",
    "C74_tolerances_refuted",
    "C74_zone_refuted",
    "C74_units_refuted",
    "C74_splice_refuted",
    "C74_index_refuted",
    "C74_stash_refuted",
    "C74_zones_refuted",
    "C74_date_refuted"
   ],
   "note": "C74_describe_partial: for all classes but coefficients, all options and histories, in files of which every attribute can be read and where no free text is taken for a label; the exceptions are the findings C74_..._refuted. C74_coefficient: the tolerances have each others captions. Layout (widths, blank lines) is C85."
  },
  {
   "property": "C75",
   "status": "proved",
   "theorems": [
    "C75_file",
    "C75_file_raises",
    "C75_physical",
    "C75_type_refuted"
   ],
   "note": "C75_file and C75_file_raises: together when it raises and what it gives. C75_physical: any number of logical files. C75_type_refuted: the finding. The header, if there is one, must be readable (header_legible). Layout (width, indentation) is not modelled."
  },
  {
   "property": "C76",
   "status": "partial",
   "theorems": [
    "C76_same_results",
    "C76_returned",
    "C76_raised_partial",
    "C76_file",
    "C76_calls",
    "C76_short_refuted",
    "C76_reopen_refuted",
    "C76_twice_refuted"
   ],
   "note": "C76_returned, C76_file and C76_calls: complete for files of at least 12 bytes that can be opened whenever asked. C76_raised_partial: all points of failure; missing is that each handle is closed only once if opening again fails, which is false (C76_reopen_refuted), and the first 12 bytes (C76_short_refuted). C76_twice_refuted: close is not idempotent; C76_calls says exactly when calls are right. C76_same_results ties the model with handles to that of C61 and C62."
  },
  {
   "property": "C77",
   "status": "partial",
   "theorems": [
    "C77_same_results",
    "C77_returned",
    "C77_raised_partial",
    "C77_calls",
    "C77_leak_refuted"
   ],
   "note": "C77_returned and C77_calls: complete. C77_raised_partial: all points of failure; missing is that nothing stays open if data records end in a delimiter, which is false (C77_leak_refuted). C77_same_results ties the model with handles to that of C58."
  },
  {
   "property": "C78",
   "status": "partial",
   "theorems": [
    "C78_reloaded",
    "C78_like_new",
    "C78_uncached",
    "C78_attribute",
    "C78_curves_partial",
    "C78_data_partial",
    "C78_same_curves",
    "C78_stale_refuted",
    "C78_curves_refuted"
   ],
   "note": "Queries: C78_reloaded, C78_like_new, C78_uncached and C78_attribute are complete. Curves and no-format data: proved if the names in the index are UTF-8 (C78_curves_partial, C78_data_partial), false otherwise (C78_curves_refuted). Without cache_metadata the answers may be stale (C78_stale_refuted). C78_same_curves ties sessions to C65 and C66."
  },
  {
   "property": "C79",
   "status": "partial",
   "theorems": [
    "C79_any",
    "C79_determined",
    "C79_labelled",
    "C79_unlabelled",
    "C79_course",
    "C79_encodings_refuted"
   ],
   "note": "C79_any: the outcome for every 80 bytes, C79_determined: there is only one; C79_labelled, C79_unlabelled, C79_course: from the start of loading. Partial because the identifier is not decoded like other text: C79_encodings_refuted."
  },
  {
   "property": "C80",
   "status": "partial",
   "theorems": [
    "C80_any",
    "C80_determined",
    "C80_decides",
    "C80_lost_refuted",
    "C80_outside_refuted"
   ],
   "note": "C80_any: every plain file has a survey, which says which logical files load returns or that it raises; C80_determined: only one; C80_decides: it decides the result. What can be read is there. Partial because logical files are lost if the next one starts inside a visible record (C80_lost_refuted) and because records cut short inside the set's type are read past their end (C80_outside_refuted)."
  },
  {
   "property": "C81",
   "status": "partial",
   "theorems": [
    "C81_value",
    "C81_reread",
    "C81_exact",
    "C81_precision",
    "C81_words",
    "C81_subnormal_refuted",
    "C81_nan_refuted"
   ],
   "note": "C81_value, C81_reread, C81_exact and C81_precision cover all normal floats, C81_reread all words. False for subnormal floats, which are written as numbers up to 2^22 times too large (C81_subnormal_refuted), and for NaNs, which may come back as infinity (C81_nan_refuted)."
  },
  {
   "property": "C82",
   "status": "partial",
   "theorems": [
    "C82_opens",
    "C82_there",
    "C82_find_partial",
    "C82_matching_partial",
    "C82_object_partial",
    "C82_read_partial",
    "C82_one_object",
    "C82_one_value",
    "C82_one_result"
   ],
   "note": "C82_opens, C82_there, C82_find_partial, C82_matching_partial, C82_object_partial and C82_read_partial compose C65_loaded, C23, C35, C36 and C37 and are stated in terms of what was written; C82_one_object, C82_one_value, C82_one_result: it determines what is read. Partial: an error handler that raises at most for critical problems, set types that survive the way to C++ and back and are not empty, names that are not empty and dates that exist; false without (C35_empty_refuted, C37_empty_refuted, C37_date_refuted). Plain files with or without a label, logical files in front of damage, and cut files (C82_there); tape images by C65_course."
  },
  {
   "property": "C83",
   "status": "partial",
   "theorems": [
    "C83_prefix",
    "C83_any",
    "C83_data_only_refuted",
    "C83_silent_refuted"
   ],
   "note": "C83_prefix: any beginning followed by anything, any handler; C83_any: any bytes. Exceptions are proved: C83_data_only_refuted (a beginning of data records only is lost with all the rest if a reel or tape header follows) and C83_silent_refuted (four bytes at the end that start like padding are dropped without a report, at a position that is no multiple of four); see also C61_lis_refuted. Tape images: C58_devices and C59 only."
  },
  {
   "property": "C84",
   "status": "proved",
   "theorems": [
    "C84_dlis_load",
    "C84_lis_load",
    "C84_laxer",
    "C84_plain",
    "C84_queries",
    "C84_curves",
    "C84_minor_refuted",
    "C84_label_refuted"
   ],
   "note": "C84_dlis_load, C84_lis_load, C84_queries, C84_curves: two runs of the same call compared; C84_laxer and, with C80, C84_plain follow. The exceptions are proved: C84_minor_refuted (a handler that raises for minor problems only: the exception is caught and the record is gone) and C84_label_refuted (the exception for a label between logical files is caught by load, whatever else the handler raises for). The state after a call that was cut short is not compared."
  },
  {
   "property": "C85",
   "status": "partial",
   "theorems": [
    "C85_layout_partial",
    "C85_width",
    "C85_ink",
    "C85_pieces",
    "C85_invalid",
    "C85_hang_refuted",
    "C85_hang_row_refuted",
    "C85_lost_refuted"
   ],
   "note": "C85_layout_partial, C85_width, C85_ink, C85_invalid for all documents, widths and indents; arrays of more dimensions are laid out by numpy, which is not modelled. False: describe never ends if a text starts with white space and what its line starts with is longer than the width (C85_hang_refuted, C85_hang_row_refuted), and of a value of white space the caption is missing too (C85_lost_refuted). C85_pieces: what C74 and C75 say is written is what is to be seen, whichever tables it is in."
  },
  {
   "property": "C86",
   "status": "proved",
   "theorems": [
    "C86_before",
    "C86_device",
    "C86_cut"
   ],
   "note": "C86_before: plain labelled files with anything behind them, any handler; C86_cut: cut files (a read outside memory is not excluded there, see C80_outside_refuted); C86_device: any protocol. Whether load returns is not claimed for other damage: it may raise and lose everything (C80)."
  },
  {
   "property": "C87",
   "status": "partial",
   "theorems": [
    "C87_before",
    "C87_cut_partial",
    "C87_between",
    "C87_missed_refuted"
   ],
   "note": "C87_cut_partial: the message, the result and the logical files, for every end inside a visible record, or inside a record but not behind the header of its last segment; C87_between: ends where a visible record and a record end, which nobody can notice. C87_before: what is in front of other damage, with all that the theorems about queries and curves (C35-C42, C65-C68) ask for. Partial because the full statement is false (C87_missed_refuted): a file that ends between two visible records, inside the last segment of a row, loads without a message under the default handler; the row is indexed, and then curves raises for the whole frame."
  },
  {
   "property": "C88",
   "status": "proved",
   "theorems": [
    "C88_plain",
    "C88_devices",
    "C88_one_table",
    "C88_undecodable"
   ],
   "note": "C88_plain, C88_devices: from the bytes, for all files that are well formed and whose information records of the type are made of components. C88_one_table: the description leaves no choice. C88_undecodable: one mnemonic that does not decode makes table() raise for the whole record, as the statement says."
  },
  {
   "property": "C89",
   "status": "proved",
   "theorems": [
    "C89_before",
    "C89_damaged",
    "C89_devices",
    "C89_same"
   ],
   "note": "C89_before for anything that follows, from C83_prefix; C89_same: compared with a good file that agrees with it in its first bytes (cut, overwritten, continued), what is read is what the good file holds; C89_damaged for the logical file with the damage itself, from C61_lis_continues; C89_devices: the same through any devices, such as tape images. That damage is not always reported is C61_lis_refuted and C83_silent_refuted. For a logical file that ends in damage of another kind (a record that is cut in a later part, see C83_prefix) only its index is described."
  },
  {
   "property": "C90",
   "status": "proved",
   "theorems": [
    "C90_curves",
    "C90_refused",
    "C90_exact",
    "C90_plain",
    "C90_devices",
    "C90_before",
    "C90_metadata",
    "C90_repeated"
   ],
   "note": "C90_curves: if what is read decodes; C90_refused: if not; C90_exact: conversely for any array that is returned; C90_plain and C90_devices: for a file from its bytes; C90_before: for a file that is damaged behind it; C90_metadata and C90_repeated for curves_metadata()."
  }
 ]
}