{
 "C02": {
  "note": "Full statement is false: 0x4000..0xBFFF with requested width <= 2 is written in two bytes and loses its top bits; proved as an exact iff plus a refutation witness."
 },
 "C04": {
  "note": "ASCII round trip excludes the lengths hit by the C02 defect."
 },
 "C07": {
  "status": "partial",
  "note": "Exact for normalised IBM floats in the range of normal singles; C07_isingl_right_iff: for these and zeros with a small exponent only. C07_isingl_unnormalised and C07_isingl_underflow: what comes out otherwise."
 },
 "C08": {
  "status": "proved",
  "note": "Decoding is fully specified (C08_vsingl_decode). C08_vsingl_roundtrip: all normal floats below 2^127, which are those that VAX floats have; C08_vsingl_roundtrip_iff: no others but +0; C08_vsingl_every_float: what becomes of the others, which are written without an error (C08_vsingl_roundtrip_refuted)."
 },
 "C14": {
  "note": "Library searches on a buffer and the stream-level searches built on them."
 },
 "C16": {
  "note": "Injective per type, and across types when the types contain no '.', as RP66 types do; false in general (refutation)."
 },
 "C17": {
  "note": "An invalid specifier after a text specifier is not rejected by pack_varsize (refutation)."
 },
 "C18": {
  "note": "Round trip and soundness. Pad counts outside the segment are read from earlier data or before the buffer (see C13)."
 },
 "C21": {
  "note": "Holds when the medium reports the truncation. When it simply ends inside the last payload of a record, the incomplete record is indexed as complete (refutation); C21_short gives the exact outcome for every cut."
 },
 "C25": {
  "note": "C25_rules: the value for every template attribute and component. C25_announced_partial: every message but one is truthful. 'value is left as in template' is not (C25_left_refuted)."
 },
 "C63": {
  "status": "partial",
  "note": "Objects before the damage are kept and parsing always ends (proved). That parsing stays inside the record is false: truncated fields are read past the end (C63_in_bounds_refuted)."
 },
 "C29": {
  "note": "C29_exact: whatever the record holds, the array has exactly the complete rows at the start of its data and a message if anything is left. C29_damaged_partial gives the outcome for cut numbers, invalid UTF-8 and invalid dates. Missing: a cut text column is read past the end of the record before the damage is noticed, which is undefined behaviour (C29_in_bounds_refuted)."
 },
 "C30": {
  "note": "Holds for intact records. On damaged ones the full and the split reading may differ in the number of rows (C30_damaged_refuted)."
 },
 "C31": {
  "status": "partial",
  "note": "Holds for characters below 128, and only for those (C31_text_iff). Others are sign-extended to invalid code points (C31_refuted)."
 },
 "C41": {
  "note": "F16, F32: exact. F32LOW: exact for normal numbers, infinite when too large; a zero fraction with exponent above 142 is read as NaN (refutation), numbers with exponent below -134 as zero."
 },
 "C42": {
  "note": "Holds when the padding can be told from the header: at least two pad bytes with the header aligned to 4 bytes, or none and a length other than 0x2020. A single pad byte, an unaligned length 0x2020, and a header cut after two or three pad bytes with four bytes left are handled wrongly (refutations). C42_any holds for every file."
 },
 "C44": {
  "note": "Holds when there is no padding inside the record; with padding between its physical records the size and the position are too small (C44_padded_refuted). C44_any holds for every file."
 },
 "C46": {
  "note": "All ways an index ends. A delimiter or file header after data records only (no other record) is not separated from them (C46_separated_refuted). C46_any holds for every file."
 },
 "C52": {
  "note": "Acceptance is an equivalence; consumption and row size hold for every frame. Rate 0 is accepted but writes outside the array (refuted part)."
 },
 "C53": {
  "note": "Rows are exact for all rates 1-255 (C53_rows; the index values above rate 127 are those of C54). Conversely up to bytes from behind the record when the last channel is suppressed or a text (C53_exact_partial, C53_in_bounds_refuted)."
 },
 "C54": {
  "status": "partial",
  "note": "Proved for the first 127 rows of frames of any rate with an error bound from Flocq, and for the last row of rates up to 127. False otherwise (C54_rate_refuted): C54_behind and C54_first give the index of all the other rows."
 },
 "C55": {
  "note": "C55_match_partial holds when no channel is suppressed (negative reserved size); C55_suppressed_refuted shows that suppressed channels are keys of curves_metadata() but not columns of curves(). C55_keys says what curves_metadata() returns in every case."
 },
 "C56": {
  "note": "spec_block_type reads entry 1 instead of 2 (C56_spec_block_type_refuted); all the other properties are as stated (C56_entries_partial, C56_index, C56_sample_rates, C56_directional_spacing)."
 },
 "C57": {
  "note": "Unconditional uniqueness is false (C57_refuted: labels X, X, X(0)); proved for labels that do not look like numbered ones, in particular for labels of equal length."
 },
 "C58": {
  "note": "Plain files: any layout of delimiters, lone EOFs and logical files (closed, open, last) loads to exactly these files with their reel and tape. Tape images: same for any sequence of opened devices (opening is an oracle). C58_ends: loading a plain file terminates."
 },
 "C59": {
  "note": "Exact in both directions, including the offset at which reading starts. C59_plain_refuted: a valid plain file whose first physical record is 256 bytes long can be mistaken for a tape image and cannot be loaded."
 },
 "C61": {
  "status": "partial",
  "note": "The handler itself (C61_dispatch, C61_default, C61_message), loading of LIS files (C61_lis_continues) and of DLIS files (C61_dlis). Two exceptions are proved: C61_lis_refuted (damage right behind a closed logical file is not reported at all) and C61_dlis_refuted (a raising MINOR action during extraction is swallowed and reported again as CRITICAL). What the handler changes in general is C84; which logical files are returned for damaged files is C80, C83, C86 and C87. Partial because damage other than that of the record structure is treated in C22_damaged_skipped and C63 for single calls only."
 },
 "C60": {
  "note": "C60_text_partial: for any codec and any list of encodings, text without a NUL byte. C60_refuted: text is cut at the first NUL byte before UTF-8 and the encodings are tried."
 },
 "C62": {
  "note": "C62_labelled and C62_unlabelled for plain files, C62_course for any protocol (tape images) given what opening yields, C62_ends: loading a plain file always ends."
 },
 "C35": {
  "note": "After any history of find, object, fileheader, type queries and cache_metadata: an exact query gives exactly the objects of that type and name in file order, for every name while the store caches (the default) and for every non-empty name otherwise (C35_exact_partial, C35_history); any matcher and no name gives the same objects up to order (C35_any, C35_objects), in file order when not caching (C35_uncached). Findings: the order of nameless queries depends on caching (C35_order_refuted); the empty name means any name without the cache (C35_empty, C35_empty_refuted). Text conversions are parameters; the texts used must survive them. A list given for an exact query is the cache itself: emptying it makes later queries find nothing (C35_shared_refuted)."
 },
 "C36": {
  "note": "Exact in both directions, for every name while the store caches (the default) and for non-empty names otherwise; equality of duplicates is specified with IEEE comparison. C36_empty_refuted: without the cache the empty name finds an object of another name. C36_nan_refuted: byte-identical duplicates with a NaN are reported as ambiguous."
 },
 "C37": {
  "note": "C37_read_partial: after any history, the stored values of the key turn one by one into Python values (references into the object they name or None, text stripped) and take the shape of the class rule; C37_one_result: this determines the result; C37_tables: all 22 class tables are well formed; C37_keyerror, C37_escalates, C37_history, C37_stash_partial. Partial because the full statement is false: C37_date_refuted (a date without a value raises), C37_empty_refuted (reference with an empty name resolves to another object without the cache), C37_untyped_refuted, C37_stash_refuted."
 },
 "C39": {
  "status": "partial",
  "note": "C39_exact: for all files and histories, channel.frame raises exactly if some entry of some frame is not the name of a channel of the file; otherwise it is the only frame listing the channel (equal frames count as one), or None. C39_frame_partial: the same for files in which everything resolves. Partial because the full statement has no such exception and is false (C39_unresolved_refuted), and because lists of channels with escalated problems or empty names are left to C37."
 },
 "C33": {
  "note": "Proved for every list of channels: columns, their order and types (any mode); names are the labels and the type exists exactly if labels and fingerprints are distinct (strict); any channels with ordinary names work, told apart by origin and copy number, and repeated ones with strict=False are numbered. Missing: strict=False for every list, which is false (C33_refuted): a channel called FRAMENO, or one called like another's label, cannot be read in either mode; C33_relaxed_partial needs tidy labels."
 },
 "C34": {
  "note": "Row width, packing and the width of each column for every list of channels, any mode; end to end, the value at a row and column of the array is that channel's sample in that row. A channel without dimension makes the curves of its frame unreadable (C34_no_dimension)."
 },
 "C38": {
  "note": "Full statement for positive integer dimensions and values of one kind, for the functions and for the properties of Parameter, Computation and Measurement objects of any file after any history. Two values are not kept: a dimension of zero is accepted and loses everything (C38_zero_refuted), numpy drops NUL characters at the end of text (C38_text_refuted)."
 },
 "C65": {
  "note": "From the bytes of a file to the array, for all frames, all histories and both modes: C65_loaded (labelled), C65_unlabelled, C65_course (any protocol, tape images too), C65_curves_partial; C65_strict_partial in terms of the channels alone; C65_file_partial: all in one, also for files that are damaged behind the frame or cut. Hypotheses left: the channels of the frame resolve and have known codes and dimensions (C33, C37), and names decode so that the records can be recognised; a frame name with a NUL gives an empty array (C65_nul_refuted), and can replace the rows of another frame (C65_foreign_refuted)."
 },
 "C66": {
  "note": "All objects of all loaded files whose names decode so that their records can be recognised; false for names with a NUL: C66_foreign_refuted, and C65_nul_refuted for frames."
 },
 "C67": {
  "status": "partial",
  "note": "All channels listed by one frame, or by frames that are the same, after any history, under the hypotheses of C39 and C65. C67_without_frame: channels of no single frame give None, and channels of files with a reference that does not resolve raise."
 },
 "C68": {
  "note": "C68_index is the full statement about the index. That it names a column needs that the first mnemonic is not repeated; otherwise it is false (C68_column_refuted)."
 },
 "C69": {
  "note": "All files, after any history. f.unknowns raises for objects without a type (C69_untyped_refuted), and of objects with the same fingerprint it has one (C69_same_refuted).",
  "status": "partial"
 },
 "C70": {
  "note": "All documented properties of all 22 classes, under the hypotheses of C37 (problems not escalated, dates exist, names referred to not empty). Five documented properties do not exist (C70_missing_refuted)."
 },
 "C71": {
  "note": "Groups under the hypotheses of C37; OBJECT-LIST without value and names without OBJECT-TYPE raise (refuted). Coordinates for text names and attributes with values; the others raise (C71_coordinates_raise); equal names lose values (C71_lost_refuted). C71_encrypted is complete."
 },
 "C72": {
  "note": "Full for single records and types. C72_one_bad_refuted: one bad record makes all records of its type inaccessible by the method. From the start of loading: C72_plain for plain files, C72_devices for files behind any devices such as tape images.",
  "status": "partial"
 },
 "C73": {
  "note": "C73_curves for any device, C73_plain and C73_devices from the start of loading, for all rates 1-255. C73_exact_partial: bytes of memory behind a record may be read (C53). Format specifications of other files are not refused (C73_foreign_refuted)."
 },
 "C13": {
  "note": "Complete. C13_pad_count_in_segment_refuted shows an inadmissible case beside it: a padded segment no longer than its checksum and trailing length makes the pad count be read before the segment."
 },
 "C74": {
  "status": "partial",
  "note": "C74_describe_partial: for all classes but coefficients, all options and histories, in files of which every attribute can be read and where no free text is taken for a label; the exceptions are the findings C74_..._refuted. C74_coefficient: the tolerances have each others captions. Layout (widths, blank lines) is C85."
 },
 "C75": {
  "note": "C75_file and C75_file_raises: together when it raises and what it gives. C75_physical: any number of logical files. C75_type_refuted: the finding. The header, if there is one, must be readable (header_legible). Layout (width, indentation) is not modelled."
 },
 "C76": {
  "note": "C76_returned, C76_file and C76_calls: complete for files of at least 12 bytes that can be opened whenever asked. C76_raised_partial: all points of failure; missing is that each handle is closed only once if opening again fails, which is false (C76_reopen_refuted), and the first 12 bytes (C76_short_refuted). C76_twice_refuted: close is not idempotent; C76_calls says exactly when calls are right. C76_same_results ties the model with handles to that of C61 and C62."
 },
 "C77": {
  "note": "C77_returned and C77_calls: complete. C77_raised_partial: all points of failure; missing is that nothing stays open if data records end in a delimiter, which is false (C77_leak_refuted). C77_same_results ties the model with handles to that of C58."
 },
 "C78": {
  "note": "Queries: C78_reloaded, C78_like_new, C78_uncached and C78_attribute are complete. Curves and no-format data: proved if the names in the index are UTF-8 (C78_curves_partial, C78_data_partial), false otherwise (C78_curves_refuted). Without cache_metadata the answers may be stale (C78_stale_refuted). C78_same_curves ties sessions to C65 and C66."
 },
 "C79": {
  "status": "partial",
  "note": "C79_any: the outcome for every 80 bytes, C79_determined: there is only one; C79_labelled, C79_unlabelled, C79_course: from the start of loading. Partial because the identifier is not decoded like other text: C79_encodings_refuted."
 },
 "C80": {
  "status": "partial",
  "note": "C80_any: every plain file has a survey, which says which logical files load returns or that it raises; C80_determined: only one; C80_decides: it decides the result. What can be read is there. Partial because logical files are lost if the next one starts inside a visible record (C80_lost_refuted) and because records cut short inside the set's type are read past their end (C80_outside_refuted)."
 },
 "C81": {
  "status": "partial",
  "note": "C81_value, C81_reread, C81_exact and C81_precision cover all normal floats, C81_reread all words. False for subnormal floats, which are written as numbers up to 2^22 times too large (C81_subnormal_refuted), and for NaNs, which may come back as infinity (C81_nan_refuted)."
 },
 "C82": {
  "status": "partial",
  "note": "C82_opens, C82_there, C82_find_partial, C82_matching_partial, C82_object_partial and C82_read_partial compose C65_loaded, C23, C35, C36 and C37 and are stated in terms of what was written; C82_one_object, C82_one_value, C82_one_result: it determines what is read. Partial: an error handler that raises at most for critical problems, set types that survive the way to C++ and back and are not empty, names that are not empty and dates that exist; false without (C35_empty_refuted, C37_empty_refuted, C37_date_refuted). Plain files with or without a label, logical files in front of damage, and cut files (C82_there); tape images by C65_course."
 },
 "C83": {
  "status": "partial",
  "note": "C83_prefix: any beginning followed by anything, any handler; C83_any: any bytes. Exceptions are proved: C83_data_only_refuted (a beginning of data records only is lost with all the rest if a reel or tape header follows) and C83_silent_refuted (four bytes at the end that start like padding are dropped without a report, at a position that is no multiple of four); see also C61_lis_refuted. Tape images: C58_devices and C59 only."
 },
 "C84": {
  "status": "proved",
  "note": "C84_dlis_load, C84_lis_load, C84_queries, C84_curves: two runs of the same call compared; C84_laxer and, with C80, C84_plain follow. The exceptions are proved: C84_minor_refuted (a handler that raises for minor problems only: the exception is caught and the record is gone) and C84_label_refuted (the exception for a label between logical files is caught by load, whatever else the handler raises for). The state after a call that was cut short is not compared."
 },
 "C85": {
  "status": "partial",
  "note": "C85_layout_partial, C85_width, C85_ink, C85_invalid for all documents, widths and indents; arrays of more dimensions are laid out by numpy, which is not modelled. False: describe never ends if a text starts with white space and what its line starts with is longer than the width (C85_hang_refuted, C85_hang_row_refuted), and of a value of white space the caption is missing too (C85_lost_refuted). C85_pieces: what C74 and C75 say is written is what is to be seen, whichever tables it is in."
 },
 "C86": {
  "status": "proved",
  "note": "C86_before: plain labelled files with anything behind them, any handler; C86_cut: cut files (a read outside memory is not excluded there, see C80_outside_refuted); C86_device: any protocol. Whether load returns is not claimed for other damage: it may raise and lose everything (C80)."
 },
 "C87": {
  "status": "partial",
  "note": "C87_cut_partial: the message, the result and the logical files, for every end inside a visible record, or inside a record but not behind the header of its last segment; C87_between: ends where a visible record and a record end, which nobody can notice. C87_before: what is in front of other damage, with all that the theorems about queries and curves (C35-C42, C65-C68) ask for. Partial because the full statement is false (C87_missed_refuted): a file that ends between two visible records, inside the last segment of a row, loads without a message under the default handler; the row is indexed, and then curves raises for the whole frame."
 },
 "C88": {
  "status": "proved",
  "note": "C88_plain, C88_devices: from the bytes, for all files that are well formed and whose information records of the type are made of components. C88_one_table: the description leaves no choice. C88_undecodable: one mnemonic that does not decode makes table() raise for the whole record, as the statement says."
 },
 "C89": {
  "status": "proved",
  "note": "C89_before for anything that follows, from C83_prefix; C89_same: compared with a good file that agrees with it in its first bytes (cut, overwritten, continued), what is read is what the good file holds; C89_damaged for the logical file with the damage itself, from C61_lis_continues; C89_devices: the same through any devices, such as tape images. That damage is not always reported is C61_lis_refuted and C83_silent_refuted. For a logical file that ends in damage of another kind (a record that is cut in a later part, see C83_prefix) only its index is described."
 },
 "C90": {
  "status": "proved",
  "note": "C90_curves: if what is read decodes; C90_refused: if not; C90_exact: conversely for any array that is returned; C90_plain and C90_devices: for a file from its bytes; C90_before: for a file that is damaged behind it; C90_metadata and C90_repeated for curves_metadata()."
 }
}
