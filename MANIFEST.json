{
 "claims": [
  {
   "property": "C17",
   "status": "proved",
   "theorems": [
    "C17_varint_round_trip_minimal"
   ],
   "note": "both integer types"
  },
  {
   "property": "C18",
   "status": "proved",
   "theorems": [
    "C18_varint_parse_exact"
   ],
   "note": "cursor/limit discipline is built into the list model"
  },
  {
   "property": "C19",
   "status": "partial",
   "theorems": [
    "C19_caches_synchronised_partial",
    "C19_near_254_refuted"
   ],
   "note": "all sizes Init accepts except near=254, for which the property is refuted"
  },
  {
   "property": "C20",
   "status": "partial",
   "theorems": [
    "C20_decoded_address_in_range_partial",
    "C20_near_sum_overflow_refuted",
    "C19_near_254_refuted"
   ],
   "note": "all sizes Init accepts except near=254 (undefined behaviour, C19); wrapping int32 addition; the overflow itself is reported as a finding"
  },
  {
   "property": "C06",
   "status": "proved",
   "theorems": [
    "C06_split_keeps_success"
   ],
   "note": "all byte strings, custom code tables included"
  },
  {
   "property": "C07",
   "status": "partial",
   "theorems": [
    "C07_standard_split_independent_partial",
    "C07_default_table_split_independent",
    "C07_nested_refuted"
   ],
   "note": "false with a nested S code table file (witness). Proved when no SDCH version byte occurs in the header chain, in particular for all files with the default code table"
  },
  {
   "property": "C08",
   "status": "partial",
   "theorems": [
    "C08_interleaved_split_partial",
    "C08_interleaved_split_refuted"
   ],
   "note": "false as stated (witness); splitting never loses acceptance nor changes the output"
  },
  {
   "property": "C09",
   "status": "partial",
   "theorems": [
    "C09_decoding_is_safe_partial",
    "C09_cache_254_refuted",
    "C20_near_sum_overflow_refuted"
   ],
   "note": "memory safety for all inputs except cache sizes 254/0 (refuted by witness); the near address sum may overflow (refuted)"
  },
  {
   "property": "C10",
   "status": "proved",
   "theorems": [
    "C10_total_limit",
    "C10_window_limit",
    "C10_long_window_rejected",
    "C10_at_any_moment"
   ],
   "note": ""
  },
  {
   "property": "C11",
   "status": "proved",
   "theorems": [
    "C11_prefix_output",
    "C11_append_only"
   ],
   "note": ""
  },
  {
   "property": "C12",
   "status": "proved",
   "theorems": [
    "C12_errors_are_sticky",
    "C12_not_started"
   ],
   "note": "for all decoder states"
  },
  {
   "property": "C14",
   "status": "partial",
   "theorems": [
    "C14_reuse_partial",
    "C14_stale_code_table_refuted"
   ],
   "note": "false after a custom code table was decoded (witness); proved for all other histories"
  },
  {
   "property": "C32",
   "status": "proved",
   "theorems": [
    "C32_wrong_magic_rejected",
    "C32_right_magic_accepted"
   ],
   "note": ""
  },
  {
   "property": "C35",
   "status": "partial",
   "theorems": [
    "C35_nesting_refuted"
   ],
   "note": "the property is false: nesting is proved unbounded"
  },
  {
   "property": "C36",
   "status": "partial",
   "theorems": [
    "C36_limit_change_partial",
    "C36_lower_limit_refuted"
   ],
   "note": "false when the new limit is below the total of the windows begun (witness); proved otherwise"
  },
  {
   "property": "C04",
   "status": "partial",
   "theorems": [
    "C04_decoder_sound_partial",
    "C04_one_call_partial",
    "C04_standard_partial",
    "C04_denotation_unique",
    "C04_strict_refuted"
   ],
   "note": "proved for all inputs and splittings w.r.t. a specification that grants two tolerances (second instruction of the last opcode dropped; interleaved window shorter than declared); without them false (witness)"
  },
  {
   "property": "C05",
   "status": "proved",
   "theorems": [
    "C05_decoder_complete"
   ],
   "note": "also for custom code tables, except cache sizes 254/0; sizes within 31 bits (C82_decoder_complete and C82_decoder_target ask this of each window only)"
  },
  {
   "property": "C13",
   "status": "proved",
   "theorems": [
    "C13_truncation",
    "C13_long"
   ],
   "note": "C13_long: files longer than 2^31 bytes, with the limits of C82 for each window"
  },
  {
   "property": "C15",
   "status": "partial",
   "theorems": [
    "C15_vcd_target_rejected",
    "C15_allowing_more",
    "C15_same_results_partial",
    "C15_failed_output_refuted"
   ],
   "note": "full statement: without such windows same results and same output. Return values always agree and so do the outputs of accepted deltas; for rejected deltas the bytes output before the failure differ (refuted with a witness); C79 says that they do not contradict each other"
  },
  {
   "property": "C16",
   "status": "proved",
   "theorems": [
    "C16_checksum_verified",
    "C16_checksum_written"
   ],
   "note": ""
  },
  {
   "property": "C23",
   "status": "proved",
   "theorems": [
    "C23_copy_is_bytewise"
   ],
   "note": ""
  },
  {
   "property": "C31",
   "status": "proved",
   "theorems": [
    "C31_validate_exact",
    "C31_unusable_table_not_used",
    "C31_table_string_meaning"
   ],
   "note": "an unusable table is silently ignored (finding)"
  },
  {
   "property": "C33",
   "status": "proved",
   "theorems": [
    "C33_lengths_consistent"
   ],
   "note": ""
  },
  {
   "property": "C40",
   "status": "proved",
   "theorems": [
    "C40_adler_exact",
    "C40_adler_pieces",
    "C40_checksum_exact"
   ],
   "note": ""
  },
  {
   "property": "C01",
   "status": "proved",
   "theorems": [
    "C01_round_trip"
   ],
   "note": "all dictionaries and targets with dict+target within 31 bits; any binary flags"
  },
  {
   "property": "C02",
   "status": "proved",
   "theorems": [
    "C02_streaming_round_trip",
    "C82_round_trip"
   ],
   "note": "any split of the delta for the decoder; each chunk within the decoder's window limit and the concatenation within its file limit; C02_streaming_round_trip: all sizes within 31 bits, C82_round_trip: only those of each chunk, so streams of any length; the encoder is new, after other calls it produces the same (C29)"
  },
  {
   "property": "C03",
   "status": "proved",
   "theorems": [
    "C03_well_formed",
    "C82_well_formed"
   ],
   "note": "w.r.t. the specification without tolerances; C03_well_formed: all sizes within 31 bits, C82_well_formed: only those of each chunk, so streams of any length"
  },
  {
   "property": "C21",
   "status": "proved",
   "theorems": [
    "C21_default_table",
    "C21_first_lookup",
    "C21_second_lookup",
    "C21_all_chosen"
   ],
   "note": ""
  },
  {
   "property": "C24",
   "status": "proved",
   "theorems": [
    "C24_update_hash",
    "C24_rolling_hash"
   ],
   "note": ""
  },
  {
   "property": "C25",
   "status": "proved",
   "theorems": [
    "C25_genuine_instructions"
   ],
   "note": ""
  },
  {
   "property": "C26",
   "status": "partial",
   "theorems": [
    "C26_chunk_expansion",
    "C26_stream_expansion",
    "C26_json_refuted",
    "C26_json_chunk_partial",
    "C26_json_stream_partial"
   ],
   "note": "binary formats: proved, 53 bytes per chunk, 5 for the header; JSON: refuted for any fixed overhead (a control character takes six characters), proved instead: at most 6 * chunk + 4"
  },
  {
   "property": "C27",
   "status": "proved",
   "theorems": [
    "C27_identical",
    "C27_prefix",
    "C27_size"
   ],
   "note": ""
  },
  {
   "property": "C28",
   "status": "proved",
   "theorems": [
    "C28_call_order",
    "C28_started",
    "C28_failed_start"
   ],
   "note": "JSON and binary"
  },
  {
   "property": "C29",
   "status": "proved",
   "theorems": [
    "C29_stream_independent",
    "C29_encoder_independent"
   ],
   "note": "binary formats"
  },
  {
   "property": "C30",
   "status": "partial",
   "theorems": [
    "C30_json_partial",
    "C30_json_refuses",
    "C30_json_chunks_refuted",
    "C30_json_empty_refuted"
   ],
   "note": "false for several chunks with target matching, and for an empty target (witnesses); proved otherwise"
  },
  {
   "property": "C34",
   "status": "partial",
   "theorems": [
    "C34_windows_partial",
    "C34_windows_refuted"
   ],
   "note": "false when a window with AddChecksum is followed by one without (witness); proved when all windows have one or none has"
  },
  {
   "property": "C39",
   "status": "proved",
   "theorems": [
    "C39_index_history",
    "C39_index_complete"
   ],
   "note": ""
  },
  {
   "property": "C22",
   "status": "partial",
   "theorems": [
    "C22_read_back_partial",
    "C22_zero_size_refuted"
   ],
   "note": "false for writer calls of size 0 (witness); proved otherwise, for every accepted code table and cache size, standard and interleaved"
  },
  {
   "property": "C38",
   "status": "partial",
   "theorems": [
    "C38_round_trip_partial",
    "C38_long_partial",
    "C38_empty_target_refuted",
    "C38_empty_delta_refuted"
   ],
   "note": "false for an empty target or delta file given by name: the tool loops for ever (proved); proved for all other files, of any length (C38_long_partial), buffer sizes, binary formats"
  },
  {
   "property": "C41",
   "status": "proved",
   "theorems": [
    "C41_compare_exact",
    "C41_test_passes",
    "C41_test_long"
   ],
   "note": ""
  },
  {
   "property": "C42",
   "status": "partial",
   "theorems": [
    "C42_decode_status_partial",
    "C38_empty_delta_refuted",
    "C04_strict_refuted"
   ],
   "note": "false as stated: empty delta files given by name loop for ever (C38_empty_delta_refuted), and the decoder accepts files that denote nothing without the tolerances of C04 (C04_strict_refuted); proved otherwise; for headers with 254 near and 0 same caches the outcome may be undefined behaviour (C09)"
  },
  {
   "property": "C37",
   "status": "proved",
   "theorems": [
    "C37_decode_linear",
    "C37_decode_terminates",
    "C37_encode_terminates"
   ],
   "note": "linear bound on loop executions for every state and input"
  },
  {
   "property": "C43",
   "status": "proved",
   "theorems": [
    "C43_dictionary_matches",
    "C43_target_matches",
    "C43_small_dictionary",
    "C43_every_match_refuted"
   ],
   "note": "the refuted variant drops the condition on crowded hash slots"
  },
  {
   "property": "C44",
   "status": "proved",
   "theorems": [
    "C44_shortest_address",
    "C44_short_instruction",
    "C44_shortest_section"
   ],
   "note": "optimal for the chosen modes; the choice of mode is optimal for the address bytes alone"
  },
  {
   "property": "C45",
   "status": "proved",
   "theorems": [
    "C45_encode_linear"
   ],
   "note": "counts loop executions of the search and the index; appending to the output is not counted"
  },
  {
   "property": "C46",
   "status": "proved",
   "theorems": [
    "C46_no_lag",
    "C46_long"
   ],
   "note": "binary formats; C46_long has size conditions only for each chunk, as C82"
  },
  {
   "property": "C47",
   "status": "partial",
   "theorems": [
    "C47_target_held_partial",
    "C47_input_held_refuted"
   ],
   "note": "the bound for the decoded target is proved; there is no bound for the input that is kept (padded numbers in a window header; see also C81_stalled_forever)"
  },
  {
   "property": "C48",
   "status": "proved",
   "theorems": [
    "C48_decode_nothing",
    "C48_decode_same",
    "C48_encode_nothing",
    "C48_encode_same"
   ],
   "note": ""
  },
  {
   "property": "C49",
   "status": "proved",
   "theorems": [
    "C49_small_errors",
    "C49_same_length",
    "C49_wrong_dictionary",
    "C49_always_refuted"
   ],
   "note": "C49_always_refuted: errors in three bytes can cancel, so a wrong dictionary is not detected in every case (no such claim is made)"
  },
  {
   "property": "C50",
   "status": "proved",
   "theorems": [
    "C50_maximal",
    "C50_longest"
   ],
   "note": "easily found: at most 16 earlier blocks in the same hash slot (as in C43)"
  },
  {
   "property": "C51",
   "status": "proved",
   "theorems": [
    "C51_run_size",
    "C51_periodic_size"
   ],
   "note": ""
  },
  {
   "property": "C52",
   "status": "proved",
   "theorems": [
    "C52_one_resize_per_window",
    "C52_unfinished",
    "C52_rejected"
   ],
   "note": "deltas that are accepted, not finished or rejected; a std::string whose reserve shrinks (allowed before C++20) is excluded by the definition of resized"
  },
  {
   "property": "C53",
   "status": "partial",
   "theorems": [
    "C53_window_limit",
    "C53_file_limit_partial",
    "C53_file_limit_refuted"
   ],
   "note": "SetMaximumTargetFileSize also accepts sizes above INT32_MAX, contrary to vcdecoder.h 102-110"
  },
  {
   "property": "C54",
   "status": "proved",
   "theorems": [
    "C54_monotone",
    "C54_grown_dictionary",
    "C54_long"
   ],
   "note": "C54_long: encoder output of any total length"
  },
  {
   "property": "C55",
   "status": "proved",
   "theorems": [
    "C55_windows",
    "C55_joined"
   ],
   "note": "binary formats"
  },
  {
   "property": "C56",
   "status": "partial",
   "theorems": [
    "C56_decode_partial",
    "C56_encode_partial",
    "C56_test",
    "C56_status_refuted"
   ],
   "note": "false as stated: the result of fclose is ignored, so data still in the buffer of the C library can be lost with exit status 0; proved when fclose reports no error, and unconditionally for 'test'"
  },
  {
   "property": "C57",
   "status": "proved",
   "theorems": [
    "C57_decode",
    "C57_decode_model",
    "C57_encode",
    "C57_encode_model",
    "C57_encode_simple",
    "C57_round_trip",
    "C57_stream"
   ],
   "note": "Platform.v and PlatformEnc.v: the functions that compute with size_t, with the data model as parameter; proved equal to the 64-bit model"
  },
  {
   "property": "C58",
   "status": "proved",
   "theorems": [
    "C58_window_layout",
    "C58_header",
    "C58_file_layout"
   ],
   "note": "binary formats; added because a wrong create_writer survived (seeded/LOG.jsonl)"
  },
  {
   "property": "C59",
   "status": "partial",
   "theorems": [
    "C59_partial",
    "C59_plain",
    "C59_sizes",
    "C59_no_tables",
    "C59_rejected",
    "C59_refuted"
   ],
   "note": "false as stated: files with their own code table reach four places (cache sizes above 255, sum of the cache sizes too large, modes the cache does not have), a dictionary and target of 2^31 bytes a fifth; proved that these five are all, that none is reached without code tables and below 2^31 bytes, and that a release build rejects the input there"
  },
  {
   "property": "C60",
   "status": "partial",
   "theorems": [
    "C60_streaming_partial",
    "C60_encode_partial",
    "C60_writer_partial",
    "C60_refuted",
    "C60_misuse"
   ],
   "note": "false for sizes near 2^31: a dictionary of 2^31 bytes, a chunk of 2^31-1 bytes; proved for all sequences of calls when dictionary plus chunk have less than 2^31 bytes and the chunk at most 2147483594"
  },
  {
   "property": "C61",
   "status": "proved",
   "theorems": [
    "C61_call",
    "C61_session"
   ],
   "note": "any state of the encoder, any format; assumes only that bytes are bytes, the stored checksum is a uint32_t and the output is shorter than 2^64 bytes"
  },
  {
   "property": "C62",
   "status": "partial",
   "theorems": [
    "C62_partial",
    "C62_refuted",
    "C62_unchecked"
   ],
   "note": "false: with an entry NOOP plus instruction whose size is above all first sizes the constructor accesses memory outside an array; proved to be the only case. Init of the writer does not call Validate (C62_unchecked)"
  },
  {
   "property": "C63",
   "status": "partial",
   "theorems": [
    "C63_custom_table_partial",
    "C63_custom_table_refuted"
   ],
   "note": "false: WriteHeader cannot announce the table, and the decoder accepts the delta with other target bytes; proved: with a header that announces cache sizes and table (encoded with VCDiffEncoder against the default table) the windows decode to the target, for every usable table that meets the condition of C62"
  },
  {
   "property": "C64",
   "status": "proved",
   "theorems": [
    "C64_shortest_window",
    "C64_plain_window_reads",
    "C64_writer_refuted"
   ],
   "note": "for every chunk the encoder is given after any history; the writer by itself, called with other instructions (COPYs of less than 19 bytes), can be one byte above the minimum (C64_writer_refuted)"
  },
  {
   "property": "C65",
   "status": "proved",
   "theorems": [
    "C65_session",
    "C65_calls_made",
    "C65_pattern",
    "C65_total",
    "C65_library",
    "C65_replay"
   ],
   "note": "the writer is a parameter: any state type, any functions; C65_library: the library's own encoder is the instance with its two writers"
  },
  {
   "property": "C66",
   "status": "partial",
   "theorems": [
    "C66_refuted",
    "C66_never_started_partial",
    "C66_failed_start_partial",
    "C28_failed_start"
   ],
   "note": "false for a writer whose Init fails after it succeeded before: the calls after the failed StartEncoding are carried out; proved if no StartEncoding succeeded before, or if the replies do not depend on the state of the writer"
  },
  {
   "property": "C67",
   "status": "proved",
   "theorems": [
    "C67_end_of_input",
    "C67_standard",
    "C67_header"
   ],
   "note": "any chunks after StartDecoding on a decoder in any usable idle state; C67_standard for the standard format without a custom code table, C67_end_of_input for all"
  },
  {
   "property": "C68",
   "status": "partial",
   "theorems": [
    "C68_refuted",
    "C68_one_window",
    "C68_calls_times_size_partial"
   ],
   "note": "false: a window of n bytes that arrives byte by byte is copied n(n-1)/2 times (C68_one_window, exact), also for the deltas of VCDiffEncoder with default settings (C68_refuted); proved: at most the number of calls times the size of the input"
  },
  {
   "property": "C69",
   "status": "proved",
   "theorems": [
    "C69_update",
    "C69_initial",
    "C69_combine",
    "C69_range",
    "C69_combine_library_refuted"
   ],
   "note": "32-bit arithmetic with explicit wraps; adler32_combine is not called by the library, and is wrong for its checksums, which start from 0 (C69_combine_library_refuted)"
  },
  {
   "property": "C70",
   "status": "proved",
   "theorems": [
    "C70_index",
    "C70_held"
   ],
   "note": "entries of the vectors and bytes in the strings, an int being 4 bytes; capacities of vectors and strings beyond their sizes are the allocator's; the code table and the instruction map have a fixed size and are not counted"
  },
  {
   "property": "C71",
   "status": "proved",
   "theorems": [
    "C71_no_delay",
    "C71_between",
    "C71_cut_is_window"
   ],
   "note": "places between two opcodes; inside an opcode the output lies between those of the two places; address modes up to 255 and sizes in 32 bits as in C04"
  },
  {
   "property": "C72",
   "status": "partial",
   "theorems": [
    "C72_refuted",
    "C72_whole_windows_partial",
    "C72_standard",
    "C72_failing_call",
    "C72_one_piece"
   ],
   "note": "false for interleaved windows, whose data is output as it comes in, before the checksum can be known to match (C72_refuted); proved: only the next window can be output in part, only if it is interleaved, and the part is what its instructions so far yield; the full claim for the standard format; a failing call outputs nothing while VCD_TARGET is allowed, the default (with it disallowed the complete windows of the call are output, C72_case)"
  },
  {
   "property": "C73",
   "status": "partial",
   "theorems": [
    "C73_other_files",
    "C73_wrong_use",
    "C73_inputs_partial",
    "C73_same_file_refuted",
    "C73_dictionary_refuted"
   ],
   "note": "every file but the one written is unchanged (C73_other_files), also for a wrong use (C73_wrong_use); that the dictionary and the input are unchanged is false when the output has the same name (C73_same_file_refuted, C73_dictionary_refuted), true otherwise (C73_inputs_partial); in the model a file has one name (no links)"
  },
  {
   "property": "C74",
   "status": "partial",
   "theorems": [
    "C74_any_order",
    "C74_any_settings",
    "C74_wrong_order_is_safe",
    "C14_stale_code_table_refuted"
   ],
   "note": "false after a session with a code table of its own (C14_stale_code_table_refuted); proved for all sequences of calls in which no session is given one; there no call is undefined, whatever the limits are set to and when (C74_wrong_order_is_safe)"
  },
  {
   "property": "C75",
   "status": "proved",
   "theorems": [
    "C75_same_outcome",
    "C75_sizes",
    "C75_no_report"
   ],
   "note": "the percentage is not modelled; an I/O error during a command (Stdio.v) is not covered by C75_sizes, which is about commands that succeed"
  },
  {
   "property": "C76",
   "status": "proved",
   "theorems": [
    "C76_template",
    "C76_checked",
    "C76_encoder",
    "C76_checked_long",
    "C76_encoder_long"
   ],
   "note": "C76_template: every input, every decoder; for the SDCH format the alternative is a refusal with a shorter output, C76_checked says when it does not happen (sums agree), C49 when it does (a window whose checksum is wrong is refused); C76_checked_long, C76_encoder_long: files and streams of any length, with the limits of C82 for each window or chunk"
  },
  {
   "property": "C77",
   "status": "partial",
   "theorems": [
    "C77_literal_partial",
    "C77_encoder_partial",
    "C77_stream_partial",
    "C77_data_section",
    "C77_refuted",
    "C77_encoder_refuted",
    "C77_other_byte_refuted"
   ],
   "note": "proved for windows shorter than 65521 bytes (any delta) and for windows of any size written by the encoder without target matching, in streams of any number of chunks (C77_stream_partial); false in general: a RUN of 65521 bytes has the checksum 0 whatever the byte, and the encoder with target matching itself writes such a delta for 65521 equal bytes (C77_encoder_refuted); C77_data_section: in the standard layout every byte of the data section is meant; C77_other_byte_refuted: for a byte of an address it is false even for a delta of the encoder"
  },
  {
   "property": "C78",
   "status": "partial",
   "theorems": [
    "C78_partial",
    "C78_outside",
    "C78_refuted"
   ],
   "note": "false: max_mode is not compared with the cache sizes, and is ignored when the code table is kDefaultCodeTableData itself (C78_refuted); proved exactly when near + same + 1 <= max_mode (C78_partial, and C78_outside: in all other cases there are calls of Copy with addresses in the dictionary that go outside); tables of which no map can be made: C62"
  },
  {
   "property": "C79",
   "status": "proved",
   "theorems": [
    "C79_no_contradiction"
   ],
   "note": "for any two decodings (settings, chunks, success); the parts of interleaved windows that are output before the window is complete are specified in SpecBegun.v"
  },
  {
   "property": "C80",
   "status": "proved",
   "theorems": [
    "C80_nothing_held_back",
    "C80_no_decoding_outputs_more"
   ],
   "note": "the output is the greatest string that the received bytes yield (SpecYield.v); a decoding in which a call failed is excluded"
  },
  {
   "property": "C81",
   "status": "partial",
   "theorems": [
    "C81_in_time_rfc",
    "C81_in_time_partial",
    "C81_in_time_refuted",
    "C81_stalled_forever",
    "C81_not_premature",
    "C81_not_premature_long"
   ],
   "note": "proved in the format of the RFC (C81_in_time_rfc); false in the interleaved format: a section that ends inside an instruction is waited for until FinishDecoding, with every call succeeding and all further input kept (C81_in_time_refuted); C81_in_time_partial: this is the only exception (SpecStalled.v); C81_stalled_forever: every such window has this effect; not premature: for the sizes of C05 and, without a bound on the whole file, of C82"
  },
  {
   "property": "C82",
   "status": "proved",
   "theorems": [
    "C82_well_formed",
    "C82_decoder_complete",
    "C82_decoder_target",
    "C82_round_trip",
    "C82_target_high_refuted"
   ],
   "note": "nothing is asked of the length of the stream except that the decoder's file limit (a size_t) admits it; windows with VCD_TARGET may refer to the first 2^31 bytes of the target (C82_decoder_target; C82_target_high_refuted: a segment further on is refused); the limit of a chunk is 53 bytes below 2^31 because a window can be longer than its data"
  },
  {
   "property": "C83",
   "status": "proved",
   "theorems": [
    "C83_edits",
    "C83_one_edit",
    "C83_stream",
    "C83_crowded_refuted"
   ],
   "note": "C83_crowded_refuted: for a dictionary with a crowded slot it is false (the encoder looks at the first 17 blocks of a slot only, finding of C43); the conditions on the dictionary are part of the statement; limits of C01"
  }
 ]
}