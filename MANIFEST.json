{
 "claims": [
  {
   "property": "C01",
   "status": "proved",
   "theorems": [
    "C01_record_survives_write_then_read",
    "C01_content_type_survives"
   ],
   "note": ""
  },
  {
   "property": "C02",
   "status": "proved",
   "theorems": [
    "C02_archive_survives_write_then_read"
   ],
   "note": ""
  },
  {
   "property": "C03",
   "status": "proved",
   "theorems": [
    "C03_offsets_exact",
    "C03_seek_to_offset",
    "C03_seek_inside_a_record_refuted",
    "C03_seek_inside_a_record"
   ],
   "note": "seek holds when no payload is pending; C03_seek_inside_a_record_refuted is a counterexample and C03_seek_inside_a_record says exactly what happens otherwise"
  },
  {
   "property": "C04",
   "status": "proved",
   "theorems": [
    "C04_reads_stay_inside",
    "C04_pieces_are_a_prefix",
    "C04_nothing_after_the_end"
   ],
   "note": ""
  },
  {
   "property": "C05",
   "status": "proved",
   "theorems": [
    "C05_consumption_never_disturbs",
    "C05_next_record_unaffected"
   ],
   "note": ""
  },
  {
   "property": "C06",
   "status": "proved",
   "theorems": [
    "C06_any_newline_separator"
   ],
   "note": ""
  },
  {
   "property": "C07",
   "status": "proved",
   "theorems": [
    "C07_truncated_payload_detected"
   ],
   "note": ""
  },
  {
   "property": "C08",
   "status": "proved",
   "theorems": [
    "C08_cut_anywhere",
    "C08_cut_between_headers_is_silent",
    "C08_cut_inside_header_hangs"
   ],
   "note": "header values without CR and natural Content-Lengths; the outcome function cut_result is in WarcSpec"
  },
  {
   "property": "C09",
   "status": "proved",
   "theorems": [
    "C09_hangs_iff",
    "C09_endless"
   ],
   "note": ""
  },
  {
   "property": "C10",
   "status": "proved",
   "theorems": [
    "C10_junk_tolerated",
    "C10_gives_up",
    "C10_only_junk"
   ],
   "note": ""
  },
  {
   "property": "C11",
   "status": "proved",
   "theorems": [
    "C11_prefix_before_version"
   ],
   "note": ""
  },
  {
   "property": "C12",
   "status": "proved",
   "theorems": [
    "C12_unknown_version_raises"
   ],
   "note": ""
  },
  {
   "property": "C13",
   "status": "proved",
   "theorems": [
    "C13_folded_headers"
   ],
   "note": ""
  },
  {
   "property": "C14",
   "status": "proved",
   "theorems": [
    "C14_get_header_first_match",
    "C14_get_header_none",
    "C14_properties_agree"
   ],
   "note": ""
  },
  {
   "property": "C15",
   "status": "proved",
   "theorems": [
    "C15_set_header",
    "C15_get_after_set",
    "C15_other_headers_unchanged"
   ],
   "note": ""
  },
  {
   "property": "C16",
   "status": "proved",
   "theorems": [
    "C16_written_length_and_type",
    "C16_respelled_length_contradicts"
   ],
   "note": ""
  },
  {
   "property": "C17",
   "status": "proved",
   "theorems": [
    "C17_content_file_copied_once",
    "C17_content_file_read_then_written"
   ],
   "note": ""
  },
  {
   "property": "C18",
   "status": "proved",
   "theorems": [
    "C18_tuple_writes_repeat"
   ],
   "note": ""
  },
  {
   "property": "C19",
   "status": "proved",
   "theorems": [
    "C19_content_read_once",
    "C19_content_length_agrees",
    "C19_content_type_is_lazy"
   ],
   "note": ""
  },
  {
   "property": "C20",
   "status": "proved",
   "theorems": [
    "C20_member_holds_plain_write",
    "C20_broken_off",
    "C20_compressed_archive_holds_same_records"
   ],
   "note": "compressor and decompressor are oracles; hypothesis gzip_pair"
  },
  {
   "property": "C21",
   "status": "proved",
   "theorems": [
    "C21_no_offsets_when_compressed"
   ],
   "note": ""
  },
  {
   "property": "C22",
   "status": "proved",
   "theorems": [
    "C22_whole_file_gzip_never_returns_a_record",
    "C22_whole_file_gzip_raises_NameError"
   ],
   "note": "NameError form for the WARC parser; no item is ever returned for any parser"
  },
  {
   "property": "C23",
   "status": "proved",
   "theorems": [
    "C23_newline_complaints_exact",
    "C23_empty_value_spurious"
   ],
   "note": "CR LF and LF line ends; the one exception is C23_empty_value_spurious"
  },
  {
   "property": "C24",
   "status": "proved",
   "theorems": [
    "C24_last_valid_length_counts",
    "C24_no_valid_length_is_zero",
    "C24_declared_length_bounds_content",
    "C24_negative_length_skips_nothing",
    "C24_read_minus_one_takes_the_archive"
   ],
   "note": ""
  },
  {
   "property": "C25",
   "status": "proved",
   "theorems": [
    "C25_gzip_detection",
    "C25_type_detection",
    "C25_open_auto"
   ],
   "note": ""
  },
  {
   "property": "C26",
   "status": "proved",
   "theorems": [
    "C26_arc_archive_is_read_completely",
    "C26_compressed_arc",
    "C26_offsets_exact",
    "C26_reads_stay_inside",
    "C26_truncated_payload_detected"
   ],
   "note": "fields separable by the code's word-boundary split (joints in ArcSpec)"
  },
  {
   "property": "C27",
   "status": "proved",
   "theorems": [
    "C27_raw_reproduces_the_filedesc"
   ],
   "note": ""
  },
  {
   "property": "C28",
   "status": "proved",
   "theorems": [
    "C28_fields_pair_with_names",
    "C28_short_line_raises",
    "C28_url_keeps_its_spaces"
   ],
   "note": ""
  },
  {
   "property": "C29",
   "status": "proved",
   "theorems": [
    "C29_no_record_before_a_filedesc",
    "C29_blank_input_ends_cleanly"
   ],
   "note": ""
  },
  {
   "property": "C30",
   "status": "proved",
   "theorems": [
    "C30_each_read_agrees",
    "C30_warc_archive_read_as_mixed",
    "C30_arc_archive_read_as_mixed",
    "C30_interleaved_archive"
   ],
   "note": "ARC header lines starting with WARC are excluded for whole archives; C30_each_read_agrees is unconditional"
  },
  {
   "property": "C31",
   "status": "proved",
   "theorems": [
    "C31_message_is_what_was_used",
    "C31_nothing_lost"
   ],
   "note": ""
  },
  {
   "property": "C32",
   "status": "proved",
   "theorems": [
    "C32_split_does_not_matter",
    "C32_new_parser",
    "C32_no_early_end",
    "C32_blank_first_line_depends_on_split",
    "C32_gzip_depends_on_split",
    "C32_bad_chunk_size_depends_on_split",
    "C32_two_continues_depend_on_split"
   ],
   "note": "orderly excludes exactly the four situations whose dependence on the split is proved in the C32_*_depends_on_split theorems"
  },
  {
   "property": "C33",
   "status": "proved",
   "theorems": [
    "C33_length_body_is_exact",
    "C33_short_body_is_incomplete",
    "C33_bad_length_raises"
   ],
   "note": ""
  },
  {
   "property": "C34",
   "status": "proved",
   "theorems": [
    "C34_chunked_body_is_exact"
   ],
   "note": ""
  },
  {
   "property": "C35",
   "status": "proved",
   "theorems": [
    "C35_no_body_completes_at_blank_line"
   ],
   "note": ""
  },
  {
   "property": "C36",
   "status": "proved",
   "theorems": [
    "C36_close_delimited_body"
   ],
   "note": ""
  },
  {
   "property": "C37",
   "status": "proved",
   "theorems": [
    "C37_interim_response_is_skipped",
    "C37_second_interim_is_not_skipped"
   ],
   "note": ""
  },
  {
   "property": "C38",
   "status": "proved",
   "theorems": [
    "C38_decoded_message_parses_back",
    "C38_bodyless_message_parses_back",
    "C38_coded_body_gets_the_wrong_length"
   ],
   "note": "also shows that coded bodies get the wrong Content-Length"
  },
  {
   "property": "C39",
   "status": "proved",
   "theorems": [
    "C39_body_is_replaced",
    "C39_headers_alone_end_the_message",
    "C39_unreadable_body_takes_the_whole_call",
    "C39_truncated_data_raises",
    "C39_decoded_message_still_says_gzip"
   ],
   "note": "decompressor is an oracle"
  },
  {
   "property": "C40",
   "status": "proved",
   "theorems": [
    "C40_hangs_only_on_negative_chunk",
    "C40_negative_chunk_hangs",
    "C40_negative_size_hangs"
   ],
   "note": "for parser states reached by feeding"
  },
  {
   "property": "C41",
   "status": "proved",
   "theorems": [
    "C41_complete_after_close",
    "C41_body_is_what_was_received",
    "C41_closed_parser_takes_nothing"
   ],
   "note": ""
  },
  {
   "property": "C42",
   "status": "proved",
   "theorems": [
    "C42_kept_as_is",
    "C42_split_line_raises"
   ],
   "note": ""
  },
  {
   "property": "C43",
   "status": "proved",
   "theorems": [
    "C43_headers_in_order",
    "C43_line_without_colon_raises",
    "C43_leading_continuation_raises"
   ],
   "note": ""
  },
  {
   "property": "C44",
   "status": "proved",
   "theorems": [
    "C44_no_remainder"
   ],
   "note": ""
  },
  {
   "property": "C45",
   "status": "proved",
   "theorems": [
    "C45_copies_every_record",
    "C45_identity_on_canonical",
    "C45_compress_then_expand",
    "C45_any_layout_made_canonical"
   ],
   "note": ""
  },
  {
   "property": "C46",
   "status": "proved",
   "theorems": [
    "C46_others_copied",
    "C46_whole_response_stops_the_tool"
   ],
   "note": "the code never decodes: record.content has no setter"
  },
  {
   "property": "C47",
   "status": "proved",
   "theorems": [
    "C47_selects_exactly_the_matching_records",
    "C47_inversion_partitions",
    "C47_http_media_type",
    "C47_http_failures"
   ],
   "note": "the pattern is an oracle (any predicate on bytes)"
  },
  {
   "property": "C48",
   "status": "proved",
   "theorems": [
    "C48_zero_iff_clean",
    "C48_else_minus_one",
    "C48_intact_archives_accepted",
    "C48_library_output_accepted",
    "C48_truncated_payload_rejected",
    "C48_layout_errors",
    "C48_cut_between_headers_accepted",
    "C48_accepts_exactly",
    "C48_every_file",
    "C48_other_files_rejected"
   ],
   "note": ""
  },
  {
   "property": "C49",
   "status": "proved",
   "theorems": [
    "C49_index_lists_every_record",
    "C49_extract_at_an_indexed_offset",
    "C49_written_records_are_honest"
   ],
   "note": "condition: the first Content-Length of a record is the true one; met by written records (C49_written_records_are_honest)"
  },
  {
   "property": "C50",
   "status": "proved",
   "theorems": [
    "C50_converts_every_record",
    "C50_output_reads_back",
    "C50_record_carries",
    "C50_equal_url_and_date_equal_id",
    "C50_no_filedesc_cannot_write",
    "C50_output_option_fails",
    "C50_output_name_recorded",
    "C50_missing_field_raises"
   ],
   "note": "uuid function and clock are oracles; byte prefixes (as from Python), no -o; the failing cases are theorems too"
  },
  {
   "property": "C51",
   "status": "proved",
   "theorems": [
    "C51_type_by_rule",
    "C51_always_decided",
    "C51_one_answer",
    "C51_other_schemes",
    "C51_text_prefixes_fail",
    "C51_parser_errors_escape"
   ],
   "note": ""
  },
  {
   "property": "C52",
   "status": "proved",
   "theorems": [
    "C52_fourteen_digits",
    "C52_eight_digits",
    "C52_invalid_dates_raise",
    "C52_twelve_digits_misread",
    "C52_one_reading",
    "C52_any_date",
    "C52_unreadable_date",
    "C52_any_filedesc_date",
    "C52_unreadable_filedesc_date"
   ],
   "note": ""
  },
  {
   "property": "C53",
   "status": "proved",
   "theorems": [
    "C53_make_response",
    "C53_make_request",
    "C53_make_metadata",
    "C53_make_conversion",
    "C53_accessors"
   ],
   "note": ""
  },
  {
   "property": "C54",
   "status": "proved",
   "theorems": [
    "C54_lists_every_key",
    "C54_changing_bucket",
    "C54_listed_names_open",
    "C54_other_names_do_not",
    "C54_expand_files"
   ],
   "note": "the S3 service is an environment model: sorted keys, pages after the marker"
  },
  {
   "property": "C55",
   "status": "proved",
   "theorems": [
    "C55_range_is_one_too_long",
    "C55_open_range",
    "C55_no_offset_reads_all"
   ],
   "note": ""
  },
  {
   "property": "C56",
   "status": "proved",
   "theorems": [
    "C56_ends_only_cleanly",
    "C56_later_failure_is_raised",
    "C56_junk_after_the_records"
   ],
   "note": ""
  },
  {
   "property": "C57",
   "status": "proved",
   "theorems": [
    "C57_keep_alive"
   ],
   "note": ""
  },
  {
   "property": "C58",
   "status": "proved",
   "theorems": [
    "C58_request_attributes",
    "C58_url_without_path_not_writable",
    "C58_url_is_never_the_url",
    "C58_url_shown",
    "C58_url_at_first"
   ],
   "note": "for request lines with a path, an absolute http(s) URL or CONNECT host:port"
  },
  {
   "property": "C59",
   "status": "proved",
   "theorems": [
    "C59_place_does_not_matter",
    "C59_any_preface",
    "C59_extract_place"
   ],
   "note": "plain files and per-record gzip with the decompressor as oracle; offsets of compressed files are None"
  },
  {
   "property": "C60",
   "status": "proved",
   "theorems": [
    "C60_warc_loops_end",
    "C60_arc_loops_end",
    "C60_iteration_ends",
    "C60_writing_ends",
    "C60_tools_end",
    "C60_mixed_iteration_ends",
    "C60_copying_ends",
    "C60_arc2warc_ends",
    "C60_dump_ends",
    "C60_extract_ends",
    "C60_payload_ends"
   ],
   "note": "hangs = text on which the WARC reader diverges from the start of a file (C09 characterises it)"
  },
  {
   "property": "C61",
   "status": "proved",
   "theorems": [
    "C61_payload_at_a_record",
    "C61_payload_at_an_indexed_offset",
    "C61_payload_without_record",
    "C61_extract_at_a_record",
    "C61_extract_without_record",
    "C61_negative_offset"
   ],
   "note": "the HTTP client of the standard library (http.client) is an oracle"
  },
  {
   "property": "C62",
   "status": "proved",
   "theorems": [
    "C62_preview_is_plain_text",
    "C62_preview_of_plain_content",
    "C62_preview_sees_1024_bytes",
    "C62_shown_number",
    "C62_preview_is_ambiguous",
    "C62_dump_of_a_record",
    "C62_dump_of_a_built_record",
    "C62_dump_without_content",
    "C62_dump_of_errors_raises",
    "C62_dump_of_archives",
    "C62_dump_stops_without_content_type",
    "C62_dump_stops_at_errors",
    "C62_dump_reports_junk",
    "C62_error_lines_tell_apart"
   ],
   "note": ""
  },
  {
   "property": "C63",
   "status": "proved",
   "theorems": [
    "C63_what_a_limited_loop_hands_out",
    "C63_reading_can_be_resumed",
    "C63_larger_limits_change_nothing"
   ],
   "note": ""
  },
  {
   "property": "C64",
   "status": "proved",
   "theorems": [
    "C64_calls_add_up",
    "C64_full_disk",
    "C64_retry_of_held_content",
    "C64_retry_of_a_content_file",
    "C64_retry_of_a_record_read"
   ],
   "note": ""
  },
  {
   "property": "C65",
   "status": "proved",
   "theorems": [
    "C65_stream_write_always_fails",
    "C65_stream_write_of_built_records",
    "C65_stream_write_of_bytes",
    "C65_arc_records_are_dropped"
   ],
   "note": ""
  },
  {
   "property": "C66",
   "status": "proved",
   "theorems": [
    "C66_readinto",
    "C66_mixed_calls",
    "C66_draining",
    "C66_length_minus_one"
   ],
   "note": ""
  },
  {
   "property": "C67",
   "status": "proved",
   "theorems": [
    "C67_view_keeps_all_bytes",
    "C67_fallback_loses_bytes",
    "C67_answer_without_newline",
    "C67_status_line_accepted",
    "C67_write_message_fails",
    "C67_content_type_of_the_view"
   ],
   "note": ""
  },
  {
   "property": "C68",
   "status": "proved",
   "theorems": [
    "C68_lines_cannot_be_read",
    "C68_new_messages_cannot_be_read",
    "C68_complete_message_reads_nothing",
    "C68_length_body_from_file",
    "C68_short_file_hangs",
    "C68_close_delimited_hangs"
   ],
   "note": ""
  },
  {
   "property": "C69",
   "status": "proved",
   "theorems": [
    "C69_failing_reads",
    "C69_cut_archive",
    "C69_without_failures",
    "C69_cut_is_noticed",
    "C69_cut_well_formed",
    "C69_copying",
    "C69_copying_a_cut_archive",
    "C69_cut_is_not_valid",
    "C69_copy_of_a_cut_archive",
    "C69_the_copy_left",
    "C69_filtering",
    "C69_indexing",
    "C69_filtering_a_cut_archive",
    "C69_indexing_a_cut_archive",
    "C69_the_filtered_left",
    "C69_dumping",
    "C69_dumping_a_cut_archive",
    "C69_repacking",
    "C69_repacking_a_cut_archive",
    "C69_repacking_plainly_is_copying",
    "C69_filtering_everything_is_copying",
    "C69_the_repacked_left"
   ],
   "note": ""
  },
  {
   "property": "C70",
   "status": "proved",
   "theorems": [
    "C70_identifier_of_text",
    "C70_same_identifier",
    "C70_random_identifier",
    "C70_same_random_identifier",
    "C70_identifiers_are_header_values",
    "C70_converted_archive_reads_back",
    "C70_block_digest",
    "C70_digest_as_header"
   ],
   "note": ""
  },
  {
   "property": "C71",
   "status": "proved",
   "theorems": [
    "C71_reading_gives_record",
    "C71_every_text",
    "C71_reading_is_unique",
    "C71_whole_file",
    "C71_one_outcome"
   ],
   "note": ""
  },
  {
   "property": "C72",
   "status": "proved",
   "theorems": [
    "C72_text_handle_read",
    "C72_text_handle_read_offsets",
    "C72_stdin_tools_always_fail",
    "C72_text_handle_auto",
    "C72_text_handle_guess",
    "C72_binary_handle_read",
    "C72_binary_handle_open",
    "C72_binary_stdin_tools"
   ],
   "note": ""
  },
  {
   "property": "C73",
   "status": "proved",
   "theorems": [
    "C73_directory",
    "C73_directory_below",
    "C73_directory_can_be_anywhere_above",
    "C73_name",
    "C73_extension_from_content_type",
    "C73_new_file",
    "C73_many_pages",
    "C73_search_ends",
    "C73_search_goes_on",
    "C73_below",
    "C73_script_writes_no_page",
    "C73_script_fails",
    "C73_script_fails_on_stdin",
    "C73_normal_form",
    "C73_url_parts",
    "C73_extension_from_url",
    "C73_index_file",
    "C73_loop_any_file",
    "C73_loop_complete_archive"
   ],
   "note": ""
  },
  {
   "property": "C74",
   "status": "proved",
   "theorems": [
    "C74_any_stream",
    "C74_warc2warc_any_files",
    "C74_warcfilter_any_files"
   ],
   "note": ""
  },
  {
   "property": "C75",
   "status": "proved",
   "theorems": [
    "C75_succeeds_exactly",
    "C75_copy_of_a_copy",
    "C75_second_copy_is_final"
   ],
   "note": ""
  },
  {
   "property": "C76",
   "status": "proved",
   "theorems": [
    "C76_warcindex_any_files",
    "C76_warcdump_any_files",
    "C76_warcextract_any_file",
    "C76_warcpayload_any_file"
   ],
   "note": ""
  },
  {
   "property": "C77",
   "status": "proved",
   "theorems": [
    "C77_every_arc_text_has_one_reading",
    "C77_arc_reader_follows"
   ],
   "note": ""
  },
  {
   "property": "C78",
   "status": "proved",
   "theorems": [
    "C78_whole_file",
    "C78_one_outcome"
   ],
   "note": ""
  },
  {
   "property": "C79",
   "status": "proved",
   "theorems": [
    "C79_any_files",
    "C79_one_answer"
   ],
   "note": "decompression, the clock and the id function are parameters; the input names decide between the plain and the per-record gzip reader (file_holds)"
  },
  {
   "property": "C80",
   "status": "proved",
   "theorems": [
    "C80_prints_nothing",
    "C80_status",
    "C80_status_of_archives"
   ],
   "note": "Python 3.3/3.4; later versions cannot import the module"
  },
  {
   "property": "C81",
   "status": "proved",
   "theorems": [
    "C81_links_found",
    "C81_made_absolute",
    "C81_fails",
    "C81_relative_path"
   ],
   "note": "on the start tags HTMLParser finds; urlparse and urlunparse are parameters"
  },
  {
   "property": "C82",
   "status": "proved",
   "theorems": [
    "C82_fields",
    "C82_encoding",
    "C82_utf8",
    "C82_nothing_to_do",
    "C82_output",
    "C82_nothing_lost",
    "C82_output_converts_nothing",
    "C82_prefixes_convert_nothing"
   ],
   "note": "files that cannot be opened and standard error are not modelled"
  },
  {
   "property": "C83",
   "status": "proved",
   "theorems": [
    "C83_same_as_write_to",
    "C83_refused_without_effect",
    "C83_succeeds_iff",
    "C83_open_files",
    "C83_update_files"
   ],
   "note": "GzipFile's constructor and the mode of file objects as in CPython 3.5 to 3.12"
  },
  {
   "property": "C84",
   "status": "proved",
   "theorems": [
    "C84_any_bytes",
    "C84_one_reading",
    "C84_exceptions"
   ],
   "note": "the first call of feed(); for a text in several pieces C32 says when the pieces do not matter"
  },
  {
   "property": "C85",
   "status": "proved",
   "theorems": [
    "C85_same_parser",
    "C85_what_is_kept",
    "C85_message_is_what_was_used",
    "C85_refused_in_any_pieces",
    "C85_refused_line_is_skipped",
    "C85_bad_gzip_is_final",
    "C85_bad_length_is_final"
   ],
   "note": ""
  },
  {
   "property": "C86",
   "status": "proved",
   "theorems": [
    "C86_history",
    "C86_history_of_a_record_read",
    "C86_content_never_changes",
    "C86_written_once",
    "C86_new_file_is_written",
    "C86_partly_read_then_written",
    "C86_written_again_empty",
    "C86_content_first",
    "C86_each_byte_once"
   ],
   "note": ""
  },
  {
   "property": "C87",
   "status": "proved",
   "theorems": [
    "C87_pipelined_messages",
    "C87_message_ends_where_it_ends",
    "C87_request_is_unaffected",
    "C87_response_as_if_alone",
    "C87_request_line_first"
   ],
   "note": ""
  },
  {
   "property": "C88",
   "status": "proved",
   "theorems": [
    "C88_history",
    "C88_order",
    "C88_asked_in_time",
    "C88_too_late",
    "C88_after_the_end",
    "C88_copied_after_the_end",
    "C88_length_after_the_end"
   ],
   "note": ""
  },
  {
   "property": "C89",
   "status": "proved",
   "theorems": [
    "C89_any_history",
    "C89_stream_as_opened",
    "C89_seek_before_reading",
    "C89_seek_after_reading",
    "C89_seek_after_the_end",
    "C89_what_was_taken_in_comes_first"
   ],
   "note": ""
  },
  {
   "property": "C90",
   "status": "proved",
   "theorems": [
    "C90_same_parser",
    "C90_request_attributes",
    "C90_response_attributes",
    "C90_code_is_an_integer",
    "C90_url"
   ],
   "note": ""
  },
  {
   "property": "C91",
   "status": "proved",
   "theorems": [
    "C91_same_calls",
    "C91_after_closing",
    "C91_closing_the_content_file",
    "C91_no_more_records",
    "C91_unread_content_is_lost",
    "C91_writing_leaves_a_head",
    "C91_headers_still_answer",
    "C91_known_content_stays"
   ],
   "note": ""
  },
  {
   "property": "C92",
   "status": "proved",
   "theorems": [
    "C92_history",
    "C92_same_items",
    "C92_asked_in_time",
    "C92_no_length"
   ],
   "note": ""
  },
  {
   "property": "C93",
   "status": "proved",
   "theorems": [
    "C93_asking_changes_nothing",
    "C93_response_says_what_the_request_says",
    "C93_one_answer",
    "C93_codes"
   ],
   "note": ""
  },
  {
   "property": "C94",
   "status": "proved",
   "theorems": [
    "C94_payload_argument",
    "C94_payload_bad_argument",
    "C94_length_is_ignored",
    "C94_extract_arguments",
    "C94_index_lines_lead_to_records",
    "C94_missing_file"
   ],
   "note": ""
  },
  {
   "property": "C95",
   "status": "proved",
   "theorems": [
    "C95_no_record",
    "C95_first_read_raises",
    "C95_trouble_is_one",
    "C95_tools_raise",
    "C95_remote_fails",
    "C95_warcvalid_refuses",
    "C95_commands_raise",
    "C95_request"
   ],
   "note": ""
  },
  {
   "property": "C96",
   "status": "proved",
   "theorems": [
    "C96_classes",
    "C96_one_class",
    "C96_not_two_classes",
    "C96_not_a_number",
    "C96_names_in_class",
    "C96_names_apart",
    "C96_missing_names",
    "C96_codes_without_body",
    "C96_parser_agrees",
    "C96_methods"
   ],
   "note": ""
  },
  {
   "property": "C97",
   "status": "proved",
   "theorems": [
    "C97_set_header_touches_one_record",
    "C97_headers_are_the_records_own",
    "C97_error_is_seen_by_sharers",
    "C97_who_shares",
    "C97_errors_are_the_records_own",
    "C97_same_set_header",
    "C97_reachable_worlds"
   ],
   "note": ""
  },
  {
   "property": "C98",
   "status": "proved",
   "theorems": [
    "C98_one_reader",
    "C98_in_order",
    "C98_none_missing",
    "C98_who_gets_which",
    "C98_limit",
    "C98_stays_stopped",
    "C98_any_file"
   ],
   "note": ""
  },
  {
   "property": "C99",
   "status": "proved",
   "theorems": [
    "C99_filter_gives_an_archive",
    "C99_two_filters",
    "C99_filters_commute",
    "C99_filter_again",
    "C99_copy_then_filter",
    "C99_packed_copy_then_filter",
    "C99_filter_then_copy",
    "C99_converted"
   ],
   "note": ""
  },
  {
   "property": "C100",
   "status": "proved",
   "theorems": [
    "C100_what_is_written",
    "C100_reads_back",
    "C100_valid",
    "C100_repaired",
    "C100_odd_newlines",
    "C100_doubled_newlines"
   ],
   "note": ""
  }
 ]
}