{
 "claims": [
  {
   "property": "C01",
   "status": "proved",
   "theorems": [
    "C01_bit_round_trip"
   ],
   "note": ""
  },
  {
   "property": "C02",
   "status": "proved",
   "theorems": [
    "C02_writer_history"
   ],
   "note": ""
  },
  {
   "property": "C03",
   "status": "partial",
   "theorems": [
    "C03_bitvec_stack_refuted",
    "C03_bitvec_stack_partial",
    "C03_bitvec_exactly",
    "C03_stack_exactly",
    "C03_bitvec_stack_clean_partial",
    "C03_equality_exactly",
    "C03_equality_refuted",
    "C03_from_slice"
   ],
   "note": "The property is false of the code: pop leaves the popped bit set and push(false) does not clear it (refuted). Proved part: pushes followed by pops and pushes of ones. Exact for every history: C03_bitvec_exactly (a stack that remembers leftovers in its last byte), C03_stack_exactly (agrees with a plain list iff no zero is pushed onto a leftover one), C03_equality_exactly; == is refuted separately."
  },
  {
   "property": "C04",
   "status": "proved",
   "theorems": [
    "C04_read_part_value",
    "C04_field_round_trip"
   ],
   "note": ""
  },
  {
   "property": "C05",
   "status": "proved",
   "theorems": [
    "C05_align"
   ],
   "note": ""
  },
  {
   "property": "C06",
   "status": "proved",
   "theorems": [
    "C06_no_over_read"
   ],
   "note": ""
  },
  {
   "property": "C07",
   "status": "partial",
   "theorems": [
    "C07_stored_round_trip_refuted",
    "C07_stored_round_trip_partial",
    "C07_too_long"
   ],
   "note": "False of the code (length written big-endian, read little-endian): refuted. The partial theorem characterises exactly the lengths that round trip. C07_too_long: longer data is refused."
  },
  {
   "property": "C08",
   "status": "proved",
   "theorems": [
    "C08_stored_header"
   ],
   "note": ""
  },
  {
   "property": "C09",
   "status": "proved",
   "theorems": [
    "C09_length_encode",
    "C09_length_decode"
   ],
   "note": ""
  },
  {
   "property": "C10",
   "status": "proved",
   "theorems": [
    "C10_distance_encode",
    "C10_distance_decode"
   ],
   "note": ""
  },
  {
   "property": "C11",
   "status": "proved",
   "theorems": [
    "C11_tree_accepts_complete_codes",
    "C11_messages"
   ],
   "note": ""
  },
  {
   "property": "C12",
   "status": "proved",
   "theorems": [
    "C12_canonical_codes"
   ],
   "note": ""
  },
  {
   "property": "C13",
   "status": "proved",
   "theorems": [
    "C13_decode_symbol"
   ],
   "note": ""
  },
  {
   "property": "C14",
   "status": "proved",
   "theorems": [
    "C14_dynamic_header"
   ],
   "note": ""
  },
  {
   "property": "C15",
   "status": "proved",
   "theorems": [
    "C15_recorded_header_replays"
   ],
   "note": ""
  },
  {
   "property": "C16",
   "status": "proved",
   "theorems": [
    "C16_parse_total"
   ],
   "note": ""
  },
  {
   "property": "C17",
   "status": "proved",
   "theorems": [
    "C17_parsed_codes_in_range"
   ],
   "note": ""
  },
  {
   "property": "C18",
   "status": "partial",
   "theorems": [
    "C18_serialise_parse_refuted",
    "C18_serialise_parse_partial",
    "C18_serialise_parse_exactly"
   ],
   "note": "False for stored blocks (see C07): refuted. Proved for all block lists whose stored blocks have byte-symmetric lengths. C18_serialise_parse_exactly: every well-formed list is written, and reads back iff all stored lengths are symmetric."
  },
  {
   "property": "C19",
   "status": "partial",
   "theorems": [
    "C19_parse_serialise_refuted",
    "C19_parse_serialise_partial"
   ],
   "note": "False of the code: refuted (length 258 as symbol 284). The partial theorem is an exact iff: reproduced exactly when the stream is canonical."
  },
  {
   "property": "C20",
   "status": "partial",
   "theorems": [
    "C20_reserialise_refuted",
    "C20_reserialise_partial",
    "C20_reserialise_exactly"
   ],
   "note": "False of the code: refuted. The partial theorem shows the only panic is a length 258 under a table without symbol 285. C20_reserialise_exactly is an iff: such a block always panics, every other parsed block is written."
  },
  {
   "property": "C21",
   "status": "proved",
   "theorems": [
    "C21_trailing_bytes"
   ],
   "note": ""
  },
  {
   "property": "C22",
   "status": "proved",
   "theorems": [
    "C22_truncation_detected",
    "C22_truncation_error"
   ],
   "note": ""
  },
  {
   "property": "C23",
   "status": "proved",
   "theorems": [
    "C23_grammar",
    "C23_ends_on_a_byte"
   ],
   "note": ""
  },
  {
   "property": "C24",
   "status": "proved",
   "theorems": [
    "C24_window_holds_last_bytes"
   ],
   "note": ""
  },
  {
   "property": "C25",
   "status": "partial",
   "theorems": [
    "C25_snapshot_refuted",
    "C25_snapshot_partial",
    "C25_snapshot_exactly"
   ],
   "note": "False of the code for a full window of 65535 bytes (u16 overflow): refuted. C25_snapshot_exactly: every other window is right."
  },
  {
   "property": "C26",
   "status": "proved",
   "theorems": [
    "C26_copy"
   ],
   "note": ""
  },
  {
   "property": "C27",
   "status": "proved",
   "theorems": [
    "C27_decompression_is_lz77",
    "C27_stream_is_lz77"
   ],
   "note": ""
  },
  {
   "property": "C28",
   "status": "proved",
   "theorems": [
    "C28_fails_exactly_out_of_window",
    "C28_streams_across_blocks"
   ],
   "note": ""
  },
  {
   "property": "C29",
   "status": "proved",
   "theorems": [
    "C29_failing_writer",
    "C29_failing_writer_bad_codes"
   ],
   "note": ""
  },
  {
   "property": "C30",
   "status": "proved",
   "theorems": [
    "C30_header_verbatim"
   ],
   "note": ""
  },
  {
   "property": "C31",
   "status": "proved",
   "theorems": [
    "C31_accepts_rfc1952",
    "C31_total",
    "C31_truncation"
   ],
   "note": ""
  },
  {
   "property": "C32",
   "status": "proved",
   "theorems": [
    "C32_proposals_correct"
   ],
   "note": ""
  },
  {
   "property": "C33",
   "status": "proved",
   "theorems": [
    "C33_proposals_maximal"
   ],
   "note": ""
  },
  {
   "property": "C34",
   "status": "proved",
   "theorems": [
    "C34_complete_and_ordered",
    "C34_complete_without_limit"
   ],
   "note": ""
  },
  {
   "property": "C35",
   "status": "proved",
   "theorems": [
    "C35_search_total"
   ],
   "note": ""
  },
  {
   "property": "C36",
   "status": "proved",
   "theorems": [
    "C36_capped_maximum"
   ],
   "note": ""
  },
  {
   "property": "C37",
   "status": "proved",
   "theorems": [
    "C37_picker"
   ],
   "note": ""
  },
  {
   "property": "C38",
   "status": "proved",
   "theorems": [
    "C38_guesses_decode"
   ],
   "note": ""
  },
  {
   "property": "C39",
   "status": "proved",
   "theorems": [
    "C39_guesses_compress"
   ],
   "note": ""
  },
  {
   "property": "C40",
   "status": "partial",
   "theorems": [
    "C40_restore_exactly",
    "C40_trace_determines_codes",
    "C40_any_codes",
    "C40_restore_inverts_trace_partial",
    "C40_restore_inverts_trace_refuted"
   ],
   "note": "False of the code with a preroll (literals are looked up at the wrong index): refuted. Proved without preroll, and with preroll when no hint says a guess was really a literal. C40_restore_exactly says what happens for every preroll: the codes come back exactly when every literal so hinted is what the data has at the index looked at, and otherwise what comes back, or the panic, is given. C40_any_codes says which codes come back, whether or not they encode the data."
  },
  {
   "property": "C41",
   "status": "proved",
   "theorems": [
    "C41_trace_total"
   ],
   "note": ""
  },
  {
   "property": "C42",
   "status": "proved",
   "theorems": [
    "C42_correct_means_reproduced"
   ],
   "note": ""
  },
  {
   "property": "C43",
   "status": "proved",
   "theorems": [
    "C43_trace_round_trip"
   ],
   "note": ""
  },
  {
   "property": "C44",
   "status": "partial",
   "theorems": [
    "C44_malformed_traces_partial",
    "C44_malformed_traces_refuted"
   ],
   "note": "False of the code: a single leftover byte is silently dropped (refuted). The partial theorem says exactly what is accepted and what is an error, and that reading always returns."
  },
  {
   "property": "C45",
   "status": "proved",
   "theorems": [
    "C45_trace_size",
    "C45_run_size"
   ],
   "note": ""
  },
  {
   "property": "C46",
   "status": "partial",
   "theorems": [
    "C46_try_gzip_exactly",
    "C46_try_gzip_partial",
    "C46_try_gzip_preroll_partial",
    "C46_try_gzip_refuted"
   ],
   "note": "False of the code with a preroll (index panic): refuted. Proved without preroll, and with preroll when no hint says a guess was really a literal. C46_try_gzip_exactly: for every preroll the hints are returned exactly when those literals are found, and it panics otherwise."
  },
  {
   "property": "C47",
   "status": "proved",
   "theorems": [
    "C47_cat_decodes",
    "C47_cat_failure"
   ],
   "note": ""
  },
  {
   "property": "C48",
   "status": "proved",
   "theorems": [
    "C48_chunks",
    "C48_one_chunk"
   ],
   "note": ""
  },
  {
   "property": "C49",
   "status": "partial",
   "theorems": [
    "C49_zero_partial",
    "C49_zero_total",
    "C49_zero_failing_writer",
    "C49_zero_refuted",
    "C49_zero_bytes"
   ],
   "note": "False of the code (refuted) for a content with a 65536-byte chunk, whose length is truncated to 0 in the block header. Proved for all contents without such a chunk; also that it never panics on non-empty content and what a failing writer leaves. flate2's decoder is a parameter (what its byte iterator yields). C49_zero_bytes gives the exact output for every content."
  },
  {
   "property": "C50",
   "status": "proved",
   "theorems": [
    "C50_filter_read",
    "C50_filter_write"
   ],
   "note": ""
  },
  {
   "property": "C51",
   "status": "partial",
   "theorems": [
    "C51_cost_partial",
    "C51_cost_refuted"
   ],
   "note": "False of the code (refuted): the estimate for a match leaves out the extra bits of its length. The partial theorem gives the exact size: estimates plus those extra bits plus the end-of-block word, and None exactly when the encoder cannot write the code."
  },
  {
   "property": "C52",
   "status": "partial",
   "theorems": [
    "C52_end_to_end_partial",
    "C52_takes_apart_partial",
    "C52_end_to_end_refuted",
    "C52_takes_apart_exactly"
   ],
   "note": "False of the code (refuted): tracing panics on a later block that needs a 'really a literal' hint, and non-canonical streams re-serialise differently (C19). Proved: whatever is taken apart is put together again exactly, and taking apart succeeds for every decodable stream without such hints after earlier output. C52_takes_apart_exactly: exactly the decodable streams whose literals so hinted are found can be taken apart."
  },
  {
   "property": "C53",
   "status": "partial",
   "theorems": [
    "C53_configurations_partial",
    "C53_abort_refuted",
    "C53_abort_inverted"
   ],
   "note": "The documented meaning of abort_above_length is inverted in the code: refuted, with the inverted rule proved. Proved part: exactly levels 1..9 return and carry gzip's own parameter table."
  },
  {
   "property": "C54",
   "status": "proved",
   "theorems": [
    "C54_stays_ended",
    "C54_io_error_is_final"
   ],
   "note": ""
  },
  {
   "property": "C55",
   "status": "partial",
   "theorems": [
    "C55_default_push_refuted",
    "C55_default_partial",
    "C55_push_partial",
    "C55_push_new_partial"
   ],
   "note": "False of the code for CircularBuffer::default(): refuted. The partial theorems cover new and with_capacity after any history."
  },
  {
   "property": "C56",
   "status": "partial",
   "theorems": [
    "C56_recreated_partial",
    "C56_frame",
    "C56_recreated_refuted"
   ],
   "note": "False of the code for all valid files (refuted by a stored block whose length is written big-endian, C07/C19). Proved: the exact set of files that are recreated (header, canonical stream, anything), and that header and trailing bytes are always copied."
  },
  {
   "property": "C57",
   "status": "proved",
   "theorems": [
    "C57_dump_lists",
    "C57_dump_failure",
    "C57_listing_complete"
   ],
   "note": ""
  },
  {
   "property": "C58",
   "status": "proved",
   "theorems": [
    "C58_guesses_are_the_encoder",
    "C58_correct_trace",
    "C58_try_gzip",
    "C58_one_encoding",
    "C58_spicy",
    "C58_default"
   ],
   "note": ""
  },
  {
   "property": "C59",
   "status": "proved",
   "theorems": [
    "C59_feedback_history"
   ],
   "note": ""
  },
  {
   "property": "C60",
   "status": "partial",
   "theorems": [
    "C60_documented_limit_partial",
    "C60_documented_limit_refuted",
    "C60_low_levels_refuted"
   ],
   "note": "False at levels 1, 2 and 3 (each refuted): try_gzip passes the insertion limit as the candidate limit, and counts candidates before hash collisions are dropped, so fewer candidates are considered than documented. Proved for levels 4 to 9."
  },
  {
   "property": "C61",
   "status": "partial",
   "theorems": [
    "C61_lazy_levels_refuted",
    "C61_always_greedy_partial"
   ],
   "note": "False of the code (refuted): Config::gzip selects the greedy strategy at every level. Proved instead: at every level the code is the greedy encoder (C61_always_greedy_partial)."
  },
  {
   "property": "C62",
   "status": "partial",
   "theorems": [
    "C62_apathy_partial",
    "C62_apathy_refuted",
    "C62_exactly"
   ],
   "note": "False at equality (refuted): the comparison is strict. C62_exactly says what is searched for every length in hand; the partial theorem is the property for lengths other than the apathy length."
  },
  {
   "property": "C63",
   "status": "partial",
   "theorems": [
    "C63_first_byte_refuted",
    "C63_setting_ignored_partial"
   ],
   "note": "False of the code (refuted): the setting is never read. Proved: the setting has no effect on any result."
  },
  {
   "property": "C64",
   "status": "proved",
   "theorems": [
    "C64_parse_bounded",
    "C64_cat_bounded",
    "C64_reached"
   ],
   "note": ""
  },
  {
   "property": "C65",
   "status": "partial",
   "theorems": [
    "C65_accepts_exactly",
    "C65_accepts_preroll",
    "C65_accepts_partial",
    "C65_restores",
    "C65_accepts_refuted"
   ],
   "note": "False of the code (refuted): try_gzip accepts a reference whose source is not the data. Proved: at every level, with no preroll, the code lists that are accepted are exactly those whose literals agree with the data, whose references start inside it and that stop where the data ends (C65_accepts_exactly); with a preroll those that go up to the end and whose wrongly guessed literals are found where they are looked up (C65_accepts_preroll); whatever is returned restores exactly the given codes (any preroll)."
  },
  {
   "property": "C66",
   "status": "partial",
   "theorems": [
    "C66_example_runs_partial",
    "C66_example_runs_refuted",
    "C66_prints_exactly",
    "C66_never_after_264_bytes"
   ],
   "note": "False of the code (refuted): a compressed block after other output makes the example slice the block's data at a position that counts the earlier output. C66_prints_exactly says exactly which files are printed; no file with a compressed block after 264 bytes is."
  },
  {
   "property": "C67",
   "status": "proved",
   "theorems": [
    "C67_tree_listing",
    "C67_table_listing",
    "C67_bits_listing"
   ],
   "note": ""
  },
  {
   "property": "C68",
   "status": "partial",
   "theorems": [
    "C68_trace_gzip_1_partial",
    "C68_exec_gzip_partial",
    "C68_false_alarm_refuted",
    "C68_always_ends"
   ],
   "note": "False of the code (refuted): the targets look at the first block only, so a correctly predicted file of two blocks raises a false alarm. Proved: exactly when each target ends normally and with which message, for every file (the encoders' outputs are parameters), and that both always end or panic."
  },
  {
   "property": "C69",
   "status": "proved",
   "theorems": [
    "C69_codes_text",
    "C69_hints_text",
    "C69_keys_text",
    "C69_plain_keys",
    "C69_bits_text",
    "C69_trees_text",
    "C69_tables_text",
    "C69_refs_text",
    "C69_numbers",
    "C69_plain_characters",
    "C69_dump_text"
   ],
   "note": "Text is modelled as its UTF-8 bytes, with the standard library's formatting of integers, characters below U+0100 and slices written out."
  },
  {
   "property": "C70",
   "status": "proved",
   "theorems": [
    "C70_parse",
    "C70_header",
    "C70_hints",
    "C70_dump",
    "C70_hashed"
   ],
   "note": "std's default read_exact (retry loop) is written out in M_io and the reading code is modelled again on top of it. Assumed of a reader: Ok(0) means the end, and an error or the end is final."
  },
  {
   "property": "C71",
   "status": "proved",
   "theorems": [
    "C71_compress",
    "C71_hashed",
    "C71_cat"
   ],
   "note": "std's write_all (retry loop) is written out in M_io and the writing code is modelled again on top of it. Assumed of a writer: a failure is final. stdout's own buffering is not modelled."
  },
  {
   "property": "C72",
   "status": "proved",
   "theorems": [
    "C72_listing",
    "C72_never_alone",
    "C72_text",
    "C72_line"
   ],
   "note": "Every order of iteration is allowed for; the map's and sets' contents do not depend on it."
  },
  {
   "property": "C73",
   "status": "proved",
   "theorems": [
    "C73_lines"
   ],
   "note": "The generator is a parameter (any state, any drawing function); choose is an index modulo the number of characters."
  },
  {
   "property": "C74",
   "status": "partial",
   "theorems": [
    "C74_no_panic_refuted",
    "C74_writing_partial",
    "C74_every_value"
   ],
   "note": "False of the code (refuted): a distance of 0 or over 32768, a symbol without a code, a missing end-of-block code or a cut-short table header panics instead of returning an error. Proved: the exact outcome (written, error, panic) for every list of block values. Integer overflow is taken to panic (debug build); in a release build distances over 32768 loop forever instead."
  },
  {
   "property": "C75",
   "status": "proved",
   "theorems": [
    "C75_commands",
    "C75_always",
    "C75_missing"
   ],
   "note": "Model of main.rs with std's BufReader around files and standard input and the line buffer of standard output; clap's parsing of the arguments is not modelled. flate2's decoder is a parameter."
  },
  {
   "property": "C76",
   "status": "partial",
   "theorems": [
    "C76_success_refuted",
    "C76_success_partial",
    "C76_dump"
   ],
   "note": "False: no command flushes standard output, so that output up to 1024 bytes after the last newline is written at exit, where std drops errors (witness: cat of a 3-byte file to a full device exits with 0). Proved: the device always gets exactly the first bytes of the output, what success can hide is at most 1024 bytes without a newline, and dump is exact."
  },
  {
   "property": "C77",
   "status": "proved",
   "theorems": [
    "C77_listing"
   ],
   "note": "The listing as values: fixed text, number formats and the scanner dump at the end of a section are left out. Positions and neighbouring bytes are stated as printed: the position counts the preroll, the bytes are those of the block alone at that number (the defect behind C66)."
  },
  {
   "property": "C78",
   "status": "partial",
   "theorems": [
    "C78_zero_keeps_content_partial",
    "C78_zero_keeps_content_refuted",
    "C78_last_chunk_lost"
   ],
   "note": "False of the code (refuted): for a content with a 65536-byte chunk (C49) cat prints nothing from zero's output. Proved for every other non-empty content and any decompressor that decodes valid streams rightly (own_inflate is one). C78_last_chunk_lost says what happens when only the last chunk has 65536 bytes: cat prints everything before it and reports success."
  },
  {
   "property": "C79",
   "status": "proved",
   "theorems": [
    "C79_chunks_before_an_edit",
    "C79_chunks_after_an_edit",
    "C79_boundaries_are_local"
   ],
   "note": "The first theorem needs a chunk after the common ones (the last chunk may grow). A boundary can also come from the cap of 65536 bytes."
  },
  {
   "property": "C80",
   "status": "proved",
   "theorems": [
    "C80_blocks_of_a_prefix",
    "C80_header_of_a_prefix",
    "C80_dump_of_a_prefix",
    "C80_cat_of_a_prefix"
   ],
   "note": ""
  },
  {
   "property": "C81",
   "status": "proved",
   "theorems": [
    "C81_restore_any_hints",
    "C81_further_hints",
    "C81_too_few_hints",
    "C81_literal_past_the_end",
    "C81_encodes_exactly",
    "C81_encodes_exactly_after_a_preroll",
    "C81_correct_is_the_guess",
    "C81_correct_was_guessed"
   ],
   "note": ""
  },
  {
   "property": "C82",
   "status": "partial",
   "theorems": [
    "C82_checksum_refuted",
    "C82_members_refuted",
    "C82_first_member_partial",
    "C82_any_trailer_partial"
   ],
   "note": "False of the code (refuted twice): a damaged checksum is accepted, and members after the first are lost. Proved: the first member's content comes out, whatever follows and whatever the trailer."
  },
  {
   "property": "C83",
   "status": "proved",
   "theorems": [
    "C83_stops",
    "C83_any_file",
    "C83_terminates",
    "C83_prefix"
   ],
   "note": "For every file: what is printed and how the run ends; termination; prefixes."
  },
  {
   "property": "C84",
   "status": "proved",
   "theorems": [
    "C84_recursion_is_bounded",
    "C84_symbol_is_short",
    "C84_header_is_short",
    "C84_recorded_header_is_short",
    "C84_stream_is_short"
   ],
   "note": "Tree depth, symbol, header and stream lengths; every bound is reached by a stream given beside it."
  },
  {
   "property": "C85",
   "status": "proved",
   "theorems": [
    "C85_parse",
    "C85_commands",
    "C85_decompress",
    "C85_write",
    "C85_write_checked",
    "C85_out_of_range",
    "C85_cost"
   ],
   "note": "The code that searches for matches and traces is covered by C86."
  },
  {
   "property": "C86",
   "status": "proved",
   "theorems": [
    "C86_try",
    "C86_trace",
    "C86_format",
    "C86_at",
    "C86_at_end"
   ],
   "note": ""
  },
  {
   "property": "C87",
   "status": "proved",
   "theorems": [
    "C87_outcomes",
    "C87_complaint",
    "C87_end_of_input",
    "C87_blocks_before",
    "C87_no_stream",
    "C87_one_complaint"
   ],
   "note": ""
  },
  {
   "property": "C88",
   "status": "proved",
   "theorems": [
    "C88_always",
    "C88_one",
    "C88_dump",
    "C88_decodes",
    "C88_decodes_one",
    "C88_cat",
    "C88_status",
    "C88_status_dump"
   ],
   "note": ""
  },
  {
   "property": "C89",
   "status": "partial",
   "theorems": [
    "C89_past_refuted",
    "C89_past_guess_partial",
    "C89_past_trace_partial",
    "C89_past_rest_partial",
    "C89_future_guess",
    "C89_future_trace"
   ],
   "note": "Refuted as stated: the search never proposes position 0 of the known history, so with exactly the last 32768 bytes (what the window keeps) a match at distance 32768 is missed at the first position of a block.  Proved with one byte more for every guess and trace, for every hint but the first with exactly 32768 (strategies without lookahead), and in full for what follows the position."
  },
  {
   "property": "C90",
   "status": "proved",
   "theorems": [
    "C90_passes",
    "C90_ends",
    "C90_satisfiable"
   ],
   "note": "Exactly which files the check of lib/tests/tracing_size.rs accepts; files that pass exist at every level for any data in any number of blocks."
  },
  {
   "property": "C91",
   "status": "proved",
   "theorems": [
    "C91_trace",
    "C91_trace_fails",
    "C91_restore",
    "C91_one_trace",
    "C91_one_restore"
   ],
   "note": "Exact: the hints of any codes and the codes of any hints, against the specified encoders, for every configuration."
  },
  {
   "property": "C92",
   "status": "partial",
   "theorems": [
    "C92_result",
    "C92_rewriting_exactly",
    "C92_same_output_partial",
    "C92_idempotent_partial",
    "C92_rewriting_refuted"
   ],
   "note": "False of the code (refuted) for stored blocks whose length is not byte-symmetric (C07). C92_rewriting_exactly is an iff: the blocks survive exactly when all stored lengths are; then cat, dump and a second rewriting agree. C92_result gives the outcome for every file."
  },
  {
   "property": "C93",
   "status": "proved",
   "theorems": [
    "C93_text",
    "C93_characters",
    "C93_valid_utf8",
    "C93_printed_utf8",
    "C93_strings",
    "C93_guesser"
   ],
   "note": ""
  },
  {
   "property": "C94",
   "status": "proved",
   "theorems": [
    "C94_shortest",
    "C94_only_shortest",
    "C94_bytes"
   ],
   "note": ""
  },
  {
   "property": "C95",
   "status": "partial",
   "theorems": [
    "C95_decompressor_error",
    "C95_always",
    "C95_refused_partial",
    "C95_stopped_partial",
    "C95_refused_refuted"
   ],
   "note": "False when a chunk has 65536 bytes: then what a failed run leaves can look like a whole file to cat (C95_refused_refuted). Proved for every other content, every error of the decompressor and every place the output can stop."
  },
  {
   "property": "C96",
   "status": "partial",
   "theorems": [
    "C96_literal_partial",
    "C96_match_partial",
    "C96_low_levels_partial",
    "C96_files",
    "C96_across_partial",
    "C96_search",
    "C96_literal_refuted",
    "C96_files_refuted"
   ],
   "note": "False between levels 1, 2 and 3 once a match is longer than 4 bytes (C96_literal_refuted), and across levels 3 and 4, where the search gets wider in one way and narrower in another (C96_files_refuted). Proved between the levels 4 to 9, between 1 to 3 when no match is longer, and for literals from any of 4 to 9 to any of 1 to 3 unless the three bytes only occurred over 4096 bytes earlier (C96_across_partial)."
  },
  {
   "property": "C97",
   "status": "proved",
   "theorems": [
    "C97_mean"
   ],
   "note": ""
  },
  {
   "property": "C98",
   "status": "partial",
   "theorems": [
    "C98_cheapest_partial",
    "C98_levels",
    "C98_same_hints",
    "C98_cheapest_refuted",
    "C98_traced_again"
   ],
   "note": "Proved for techniques that guess one code at a time, which all gzip levels are; false of the code for those that look ahead (C98_cheapest_refuted, a witness for Config::spicy). C98_traced_again is the part that holds of every technique."
  },
  {
   "property": "C99",
   "status": "partial",
   "theorems": [
    "C99_checksum",
    "C99_member_partial",
    "C99_member_refuted",
    "C99_damage_partial",
    "C99_trailer_partial"
   ],
   "note": "The checksum is proved in full; the files for contents without a chunk of 65536 bytes. C99_member_refuted: with such a chunk zero's output is no gzip member of the content."
  },
  {
   "property": "C100",
   "status": "proved",
   "theorems": [
    "C100_compressor",
    "C100_no_hints",
    "C100_bound_is_reached"
   ],
   "note": "Proved in full, for every configuration and division into pieces."
  },
  {
   "property": "C101",
   "status": "proved",
   "theorems": [
    "C101_literal_exactly",
    "C101_repeats",
    "C101_second_copy",
    "C101_low_levels_can_miss",
    "C101_one_byte",
    "C101_one_byte_size"
   ],
   "note": "Proved in full: for levels 4 to 9, and for content of one byte in every configuration. That a second copy can be missed at levels 1 to 3 is shown separately."
  },
  {
   "property": "C102",
   "status": "proved",
   "theorems": [
    "C102_guess",
    "C102_trace",
    "C102_restore",
    "C102_levels",
    "C102_low_levels_differ"
   ],
   "note": "Proved in full for table limits of 32768 and more, which levels 4 to 9 use; that levels 1 to 3 differ is shown separately."
  },
  {
   "property": "C103",
   "status": "proved",
   "theorems": [
    "C103_rest",
    "C103_blocks",
    "C103_low_levels_differ"
   ],
   "note": "Proved in full for what hides nothing; that levels 1 to 3 differ in general is shown separately."
  },
  {
   "property": "C104",
   "status": "proved",
   "theorems": [
    "C104_before",
    "C104_after"
   ],
   "note": "Proved in full; a chunk of 65536 bytes, for which zero's output is broken anyway (C49), is excluded in the second part."
  },
  {
   "property": "C105",
   "status": "proved",
   "theorems": [
    "C105_size",
    "C105_exactly",
    "C105_bounds_are_reached"
   ],
   "note": "Proved in full."
  },
  {
   "property": "C106",
   "status": "proved",
   "theorems": [
    "C106_window_decides",
    "C106_snapshot",
    "C106_stop_and_go_on"
   ],
   "note": "Proved in full; at capacity 65535 there is no snapshot of a full window (C25), so that C106_snapshot excludes it."
  },
  {
   "property": "C107",
   "status": "proved",
   "theorems": [
    "C107_trace",
    "C107_restore",
    "C107_first_difference"
   ],
   "note": "Proved in full, for every configuration and preroll."
  },
  {
   "property": "C108",
   "status": "proved",
   "theorems": [
    "C108_dump_tells",
    "C108_processes"
   ],
   "note": "Proved in full."
  },
  {
   "property": "C109",
   "status": "proved",
   "theorems": [
    "C109_chunks",
    "C109_last_chunk",
    "C109_same"
   ],
   "note": "Proved in full."
  },
  {
   "property": "C110",
   "status": "proved",
   "theorems": [
    "C110_pipes"
   ],
   "note": "Proved in full for such files; C78 says what happens with a chunk of 65536 bytes."
  }
 ]
}