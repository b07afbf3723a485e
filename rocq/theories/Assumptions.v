(** Every property theorem is closed under the global context.  [all_theorems] mentions each of
    them, so the assumptions printed for it are those of all of them (one command instead of one
    per theorem, which would walk the shared proofs again each time).
    Generated by tools/assumptions.py; nothing of /repo is modelled here. *)
From Verif Require PropsRead PropsCut PropsParse PropsRecord PropsArc PropsHttp PropsHttpMsg PropsHttpMore PropsHttpDecoded PropsTools PropsFilter PropsValid PropsReading PropsIndex PropsA2W PropsA2WMore PropsFactory PropsS3 PropsIter PropsRequest PropsPlace PropsPayload PropsDump PropsResume PropsSink PropsInto PropsHttp09 PropsFeedFd PropsFaults PropsIds PropsTextMode PropsUnpack PropsAnyFile PropsCopyTwice PropsAnyList PropsArcAny PropsMixedAny PropsDateAny PropsA2WAny PropsEnds PropsLinks PropsGzHandle PropsA2WMain PropsUnpackMore PropsHttpAny PropsHttpRaise PropsLife PropsConn PropsShelf PropsGzSeek PropsAttrs PropsClosing PropsAnyShelf PropsDelegate PropsCli PropsRemote PropsShared PropsSemantics PropsIters PropsPipes PropsCutCopy PropsNewline PropsCutTools PropsCutDump PropsCutW2w.
Definition all_theorems : unit :=
  let _ := @PropsRead.C06_any_newline_separator in
  let _ := @PropsRead.C02_archive_survives_write_then_read in
  let _ := @PropsRead.C01_record_survives_write_then_read in
  let _ := @PropsRead.C01_content_type_survives in
  let _ := @PropsRead.C03_offsets_exact in
  let _ := @PropsRead.C03_seek_to_offset in
  let _ := @PropsRead.C03_seek_inside_a_record_refuted in
  let _ := @PropsRead.C04_reads_stay_inside in
  let _ := @PropsRead.C04_pieces_are_a_prefix in
  let _ := @PropsRead.C04_nothing_after_the_end in
  let _ := @PropsRead.C05_consumption_never_disturbs in
  let _ := @PropsRead.C05_next_record_unaffected in
  let _ := @PropsRead.C07_truncated_payload_detected in
  let _ := @PropsCut.C08_cut_anywhere in
  let _ := @PropsCut.C08_cut_between_headers_is_silent in
  let _ := @PropsCut.C08_cut_inside_header_hangs in
  let _ := @PropsParse.C09_hangs_iff in
  let _ := @PropsParse.C09_endless in
  let _ := @PropsParse.C10_junk_tolerated in
  let _ := @PropsParse.C10_gives_up in
  let _ := @PropsParse.C10_only_junk in
  let _ := @PropsParse.C11_prefix_before_version in
  let _ := @PropsParse.C12_unknown_version_raises in
  let _ := @PropsParse.C13_folded_headers in
  let _ := @PropsParse.C23_newline_complaints_exact in
  let _ := @PropsParse.C23_empty_value_spurious in
  let _ := @PropsParse.C24_last_valid_length_counts in
  let _ := @PropsParse.C24_no_valid_length_is_zero in
  let _ := @PropsParse.C24_declared_length_bounds_content in
  let _ := @PropsParse.C24_negative_length_skips_nothing in
  let _ := @PropsParse.C24_read_minus_one_takes_the_archive in
  let _ := @PropsRecord.C14_get_header_first_match in
  let _ := @PropsRecord.C14_get_header_none in
  let _ := @PropsRecord.C14_properties_agree in
  let _ := @PropsRecord.C15_set_header in
  let _ := @PropsRecord.C15_get_after_set in
  let _ := @PropsRecord.C15_other_headers_unchanged in
  let _ := @PropsRecord.C16_written_length_and_type in
  let _ := @PropsRecord.C16_respelled_length_contradicts in
  let _ := @PropsRecord.C17_content_file_copied_once in
  let _ := @PropsRecord.C18_tuple_writes_repeat in
  let _ := @PropsRecord.C17_content_file_read_then_written in
  let _ := @PropsRecord.C19_content_read_once in
  let _ := @PropsRecord.C19_content_length_agrees in
  let _ := @PropsRecord.C19_content_type_is_lazy in
  let _ := @PropsRecord.C20_member_holds_plain_write in
  let _ := @PropsRecord.C20_broken_off in
  let _ := @PropsRecord.C20_compressed_archive_holds_same_records in
  let _ := @PropsRecord.C21_no_offsets_when_compressed in
  let _ := @PropsRecord.C22_whole_file_gzip_never_returns_a_record in
  let _ := @PropsRecord.C22_whole_file_gzip_raises_NameError in
  let _ := @PropsRecord.C25_gzip_detection in
  let _ := @PropsRecord.C25_type_detection in
  let _ := @PropsRecord.C25_open_auto in
  let _ := @PropsArc.C26_arc_archive_is_read_completely in
  let _ := @PropsArc.C26_compressed_arc in
  let _ := @PropsArc.C26_offsets_exact in
  let _ := @PropsArc.C26_reads_stay_inside in
  let _ := @PropsArc.C26_truncated_payload_detected in
  let _ := @PropsArc.C27_raw_reproduces_the_filedesc in
  let _ := @PropsArc.C29_no_record_before_a_filedesc in
  let _ := @PropsArc.C29_blank_input_ends_cleanly in
  let _ := @PropsArc.C28_fields_pair_with_names in
  let _ := @PropsArc.C28_short_line_raises in
  let _ := @PropsArc.C28_url_keeps_its_spaces in
  let _ := @PropsArc.C30_each_read_agrees in
  let _ := @PropsArc.C30_warc_archive_read_as_mixed in
  let _ := @PropsArc.C30_arc_archive_read_as_mixed in
  let _ := @PropsArc.C30_interleaved_archive in
  let _ := @PropsHttp.C31_message_is_what_was_used in
  let _ := @PropsHttp.C31_nothing_lost in
  let _ := @PropsHttp.C32_split_does_not_matter in
  let _ := @PropsHttp.C32_new_parser in
  let _ := @PropsHttp.C32_no_early_end in
  let _ := @PropsHttp.C32_blank_first_line_depends_on_split in
  let _ := @PropsHttp.C32_gzip_depends_on_split in
  let _ := @PropsHttp.C32_bad_chunk_size_depends_on_split in
  let _ := @PropsHttp.C32_two_continues_depend_on_split in
  let _ := @PropsHttp.C40_hangs_only_on_negative_chunk in
  let _ := @PropsHttp.C40_negative_chunk_hangs in
  let _ := @PropsHttp.C41_complete_after_close in
  let _ := @PropsHttp.C41_body_is_what_was_received in
  let _ := @PropsHttp.C41_closed_parser_takes_nothing in
  let _ := @PropsHttp.C44_no_remainder in
  let _ := @PropsHttpMsg.C33_length_body_is_exact in
  let _ := @PropsHttpMsg.C33_short_body_is_incomplete in
  let _ := @PropsHttpMsg.C33_bad_length_raises in
  let _ := @PropsHttpMsg.C34_chunked_body_is_exact in
  let _ := @PropsHttpMsg.C35_no_body_completes_at_blank_line in
  let _ := @PropsHttpMsg.C36_close_delimited_body in
  let _ := @PropsHttpMore.C43_headers_in_order in
  let _ := @PropsHttpMore.C57_keep_alive in
  let _ := @PropsHttpMore.C43_line_without_colon_raises in
  let _ := @PropsHttpMore.C43_leading_continuation_raises in
  let _ := @PropsHttpMore.C37_interim_response_is_skipped in
  let _ := @PropsHttpMore.C37_second_interim_is_not_skipped in
  let _ := @PropsHttpMore.C42_kept_as_is in
  let _ := @PropsHttpMore.C42_split_line_raises in
  let _ := @PropsHttpMore.C40_negative_size_hangs in
  let _ := @PropsHttpDecoded.C38_decoded_message_parses_back in
  let _ := @PropsHttpDecoded.C38_bodyless_message_parses_back in
  let _ := @PropsHttpDecoded.C38_coded_body_gets_the_wrong_length in
  let _ := @PropsHttpDecoded.C39_body_is_replaced in
  let _ := @PropsHttpDecoded.C39_headers_alone_end_the_message in
  let _ := @PropsHttpDecoded.C39_unreadable_body_takes_the_whole_call in
  let _ := @PropsHttpDecoded.C39_truncated_data_raises in
  let _ := @PropsHttpDecoded.C39_decoded_message_still_says_gzip in
  let _ := @PropsTools.C45_copies_every_record in
  let _ := @PropsTools.C45_identity_on_canonical in
  let _ := @PropsTools.C45_compress_then_expand in
  let _ := @PropsTools.C45_any_layout_made_canonical in
  let _ := @PropsTools.C46_others_copied in
  let _ := @PropsTools.C46_whole_response_stops_the_tool in
  let _ := @PropsFilter.C47_selects_exactly_the_matching_records in
  let _ := @PropsFilter.C47_inversion_partitions in
  let _ := @PropsFilter.C47_http_media_type in
  let _ := @PropsFilter.C47_http_failures in
  let _ := @PropsValid.C48_zero_iff_clean in
  let _ := @PropsValid.C48_else_minus_one in
  let _ := @PropsValid.C48_intact_archives_accepted in
  let _ := @PropsValid.C48_library_output_accepted in
  let _ := @PropsValid.C48_truncated_payload_rejected in
  let _ := @PropsValid.C48_layout_errors in
  let _ := @PropsValid.C48_cut_between_headers_accepted in
  let _ := @PropsReading.C71_reading_gives_record in
  let _ := @PropsReading.C71_every_text in
  let _ := @PropsReading.C71_reading_is_unique in
  let _ := @PropsReading.C71_whole_file in
  let _ := @PropsReading.C71_one_outcome in
  let _ := @PropsReading.C48_accepts_exactly in
  let _ := @PropsReading.C48_every_file in
  let _ := @PropsReading.C48_other_files_rejected in
  let _ := @PropsIndex.C49_index_lists_every_record in
  let _ := @PropsIndex.C49_extract_at_an_indexed_offset in
  let _ := @PropsIndex.C49_written_records_are_honest in
  let _ := @PropsA2W.C50_converts_every_record in
  let _ := @PropsA2W.C50_output_reads_back in
  let _ := @PropsA2W.C50_record_carries in
  let _ := @PropsA2WMore.C51_type_by_rule in
  let _ := @PropsA2WMore.C51_always_decided in
  let _ := @PropsA2WMore.C51_one_answer in
  let _ := @PropsA2WMore.C51_other_schemes in
  let _ := @PropsA2WMore.C51_text_prefixes_fail in
  let _ := @PropsA2WMore.C51_parser_errors_escape in
  let _ := @PropsA2WMore.C52_fourteen_digits in
  let _ := @PropsA2WMore.C52_eight_digits in
  let _ := @PropsA2WMore.C52_invalid_dates_raise in
  let _ := @PropsA2WMore.C52_twelve_digits_misread in
  let _ := @PropsA2WMore.C50_equal_url_and_date_equal_id in
  let _ := @PropsA2WMore.C50_no_filedesc_cannot_write in
  let _ := @PropsA2WMore.C50_output_option_fails in
  let _ := @PropsA2WMore.C50_output_name_recorded in
  let _ := @PropsA2WMore.C50_missing_field_raises in
  let _ := @PropsFactory.C53_make_response in
  let _ := @PropsFactory.C53_make_request in
  let _ := @PropsFactory.C53_make_metadata in
  let _ := @PropsFactory.C53_make_conversion in
  let _ := @PropsFactory.C53_accessors in
  let _ := @PropsS3.C54_lists_every_key in
  let _ := @PropsS3.C54_changing_bucket in
  let _ := @PropsS3.C54_listed_names_open in
  let _ := @PropsS3.C54_other_names_do_not in
  let _ := @PropsS3.C54_expand_files in
  let _ := @PropsS3.C55_range_is_one_too_long in
  let _ := @PropsS3.C55_open_range in
  let _ := @PropsS3.C55_no_offset_reads_all in
  let _ := @PropsIter.C56_ends_only_cleanly in
  let _ := @PropsIter.C56_later_failure_is_raised in
  let _ := @PropsIter.C56_junk_after_the_records in
  let _ := @PropsRequest.C58_request_attributes in
  let _ := @PropsRequest.C58_url_without_path_not_writable in
  let _ := @PropsRequest.C58_url_is_never_the_url in
  let _ := @PropsRequest.C58_url_shown in
  let _ := @PropsRequest.C58_url_at_first in
  let _ := @PropsPlace.C59_place_does_not_matter in
  let _ := @PropsPlace.C59_any_preface in
  let _ := @PropsPlace.C59_extract_place in
  let _ := @PropsPlace.C03_seek_inside_a_record in
  let _ := @PropsPlace.C60_warc_loops_end in
  let _ := @PropsPlace.C60_arc_loops_end in
  let _ := @PropsPlace.C60_iteration_ends in
  let _ := @PropsPlace.C60_writing_ends in
  let _ := @PropsPlace.C60_tools_end in
  let _ := @PropsPayload.C61_payload_at_a_record in
  let _ := @PropsPayload.C61_payload_at_an_indexed_offset in
  let _ := @PropsPayload.C61_payload_without_record in
  let _ := @PropsPayload.C61_extract_at_a_record in
  let _ := @PropsPayload.C61_extract_without_record in
  let _ := @PropsPayload.C61_negative_offset in
  let _ := @PropsDump.C62_preview_is_plain_text in
  let _ := @PropsDump.C62_preview_of_plain_content in
  let _ := @PropsDump.C62_preview_sees_1024_bytes in
  let _ := @PropsDump.C62_shown_number in
  let _ := @PropsDump.C62_preview_is_ambiguous in
  let _ := @PropsDump.C62_dump_of_a_record in
  let _ := @PropsDump.C62_dump_of_a_built_record in
  let _ := @PropsDump.C62_dump_without_content in
  let _ := @PropsDump.C62_dump_of_errors_raises in
  let _ := @PropsDump.C62_dump_of_archives in
  let _ := @PropsDump.C62_dump_stops_without_content_type in
  let _ := @PropsDump.C62_dump_stops_at_errors in
  let _ := @PropsDump.C62_dump_reports_junk in
  let _ := @PropsDump.C62_error_lines_tell_apart in
  let _ := @PropsResume.C63_what_a_limited_loop_hands_out in
  let _ := @PropsResume.C63_reading_can_be_resumed in
  let _ := @PropsResume.C63_larger_limits_change_nothing in
  let _ := @PropsSink.C64_calls_add_up in
  let _ := @PropsSink.C64_full_disk in
  let _ := @PropsSink.C64_retry_of_held_content in
  let _ := @PropsSink.C64_retry_of_a_content_file in
  let _ := @PropsSink.C64_retry_of_a_record_read in
  let _ := @PropsSink.C65_stream_write_always_fails in
  let _ := @PropsSink.C65_stream_write_of_built_records in
  let _ := @PropsSink.C65_stream_write_of_bytes in
  let _ := @PropsSink.C65_arc_records_are_dropped in
  let _ := @PropsInto.C66_readinto in
  let _ := @PropsInto.C66_mixed_calls in
  let _ := @PropsInto.C66_draining in
  let _ := @PropsInto.C66_length_minus_one in
  let _ := @PropsHttp09.C67_view_keeps_all_bytes in
  let _ := @PropsHttp09.C67_fallback_loses_bytes in
  let _ := @PropsHttp09.C67_answer_without_newline in
  let _ := @PropsHttp09.C67_status_line_accepted in
  let _ := @PropsHttp09.C67_write_message_fails in
  let _ := @PropsHttp09.C67_content_type_of_the_view in
  let _ := @PropsFeedFd.C68_lines_cannot_be_read in
  let _ := @PropsFeedFd.C68_new_messages_cannot_be_read in
  let _ := @PropsFeedFd.C68_complete_message_reads_nothing in
  let _ := @PropsFeedFd.C68_length_body_from_file in
  let _ := @PropsFeedFd.C68_short_file_hangs in
  let _ := @PropsFeedFd.C68_close_delimited_hangs in
  let _ := @PropsFaults.C69_failing_reads in
  let _ := @PropsFaults.C69_cut_archive in
  let _ := @PropsFaults.C69_without_failures in
  let _ := @PropsFaults.C69_cut_is_noticed in
  let _ := @PropsFaults.C69_cut_well_formed in
  let _ := @PropsFaults.C69_copying in
  let _ := @PropsFaults.C69_copying_a_cut_archive in
  let _ := @PropsFaults.C69_cut_is_not_valid in
  let _ := @PropsIds.C70_identifier_of_text in
  let _ := @PropsIds.C70_same_identifier in
  let _ := @PropsIds.C70_random_identifier in
  let _ := @PropsIds.C70_same_random_identifier in
  let _ := @PropsIds.C70_identifiers_are_header_values in
  let _ := @PropsIds.C70_converted_archive_reads_back in
  let _ := @PropsIds.C70_block_digest in
  let _ := @PropsIds.C70_digest_as_header in
  let _ := @PropsTextMode.C72_text_handle_read in
  let _ := @PropsTextMode.C72_text_handle_read_offsets in
  let _ := @PropsTextMode.C72_stdin_tools_always_fail in
  let _ := @PropsTextMode.C72_text_handle_auto in
  let _ := @PropsTextMode.C72_text_handle_guess in
  let _ := @PropsTextMode.C72_binary_handle_read in
  let _ := @PropsTextMode.C72_binary_handle_open in
  let _ := @PropsTextMode.C72_binary_stdin_tools in
  let _ := @PropsUnpack.C73_directory in
  let _ := @PropsUnpack.C73_directory_below in
  let _ := @PropsUnpack.C73_directory_can_be_anywhere_above in
  let _ := @PropsUnpack.C73_name in
  let _ := @PropsUnpack.C73_extension_from_content_type in
  let _ := @PropsUnpack.C73_new_file in
  let _ := @PropsUnpack.C73_many_pages in
  let _ := @PropsUnpack.C73_search_ends in
  let _ := @PropsUnpack.C73_search_goes_on in
  let _ := @PropsUnpack.C73_below in
  let _ := @PropsUnpack.C73_script_writes_no_page in
  let _ := @PropsUnpack.C73_script_fails in
  let _ := @PropsUnpack.C73_script_fails_on_stdin in
  let _ := @PropsUnpack.C73_normal_form in
  let _ := @PropsAnyFile.C74_any_stream in
  let _ := @PropsAnyFile.C74_warc2warc_any_files in
  let _ := @PropsAnyFile.C74_warcfilter_any_files in
  let _ := @PropsCopyTwice.C75_succeeds_exactly in
  let _ := @PropsCopyTwice.C75_copy_of_a_copy in
  let _ := @PropsCopyTwice.C75_second_copy_is_final in
  let _ := @PropsAnyList.C76_warcindex_any_files in
  let _ := @PropsAnyList.C76_warcdump_any_files in
  let _ := @PropsAnyList.C76_warcextract_any_file in
  let _ := @PropsAnyList.C76_warcpayload_any_file in
  let _ := @PropsArcAny.C77_every_arc_text_has_one_reading in
  let _ := @PropsArcAny.C77_arc_reader_follows in
  let _ := @PropsMixedAny.C78_whole_file in
  let _ := @PropsMixedAny.C78_one_outcome in
  let _ := @PropsDateAny.C52_one_reading in
  let _ := @PropsDateAny.C52_any_date in
  let _ := @PropsDateAny.C52_unreadable_date in
  let _ := @PropsDateAny.C52_any_filedesc_date in
  let _ := @PropsDateAny.C52_unreadable_filedesc_date in
  let _ := @PropsA2WAny.C79_any_files in
  let _ := @PropsA2WAny.C79_one_answer in
  let _ := @PropsEnds.C60_mixed_iteration_ends in
  let _ := @PropsEnds.C60_copying_ends in
  let _ := @PropsEnds.C60_arc2warc_ends in
  let _ := @PropsEnds.C60_dump_ends in
  let _ := @PropsEnds.C60_extract_ends in
  let _ := @PropsEnds.C60_payload_ends in
  let _ := @PropsLinks.C80_prints_nothing in
  let _ := @PropsLinks.C80_status in
  let _ := @PropsLinks.C80_status_of_archives in
  let _ := @PropsLinks.C81_links_found in
  let _ := @PropsLinks.C81_made_absolute in
  let _ := @PropsLinks.C81_fails in
  let _ := @PropsLinks.C81_relative_path in
  let _ := @PropsGzHandle.C83_same_as_write_to in
  let _ := @PropsGzHandle.C83_refused_without_effect in
  let _ := @PropsGzHandle.C83_succeeds_iff in
  let _ := @PropsGzHandle.C83_open_files in
  let _ := @PropsGzHandle.C83_update_files in
  let _ := @PropsA2WMain.C82_fields in
  let _ := @PropsA2WMain.C82_encoding in
  let _ := @PropsA2WMain.C82_utf8 in
  let _ := @PropsA2WMain.C82_nothing_to_do in
  let _ := @PropsA2WMain.C82_output in
  let _ := @PropsA2WMain.C82_nothing_lost in
  let _ := @PropsA2WMain.C82_output_converts_nothing in
  let _ := @PropsA2WMain.C82_prefixes_convert_nothing in
  let _ := @PropsUnpackMore.C73_url_parts in
  let _ := @PropsUnpackMore.C73_extension_from_url in
  let _ := @PropsUnpackMore.C73_index_file in
  let _ := @PropsUnpackMore.C73_loop_any_file in
  let _ := @PropsUnpackMore.C73_loop_complete_archive in
  let _ := @PropsHttpAny.C84_any_bytes in
  let _ := @PropsHttpAny.C84_one_reading in
  let _ := @PropsHttpAny.C84_exceptions in
  let _ := @PropsHttpRaise.C85_same_parser in
  let _ := @PropsHttpRaise.C85_what_is_kept in
  let _ := @PropsHttpRaise.C85_message_is_what_was_used in
  let _ := @PropsHttpRaise.C85_refused_in_any_pieces in
  let _ := @PropsHttpRaise.C85_refused_line_is_skipped in
  let _ := @PropsHttpRaise.C85_bad_gzip_is_final in
  let _ := @PropsHttpRaise.C85_bad_length_is_final in
  let _ := @PropsLife.C86_history in
  let _ := @PropsLife.C86_history_of_a_record_read in
  let _ := @PropsLife.C86_content_never_changes in
  let _ := @PropsLife.C86_written_once in
  let _ := @PropsLife.C86_new_file_is_written in
  let _ := @PropsLife.C86_partly_read_then_written in
  let _ := @PropsLife.C86_written_again_empty in
  let _ := @PropsLife.C86_content_first in
  let _ := @PropsLife.C86_each_byte_once in
  let _ := @PropsConn.C87_pipelined_messages in
  let _ := @PropsConn.C87_message_ends_where_it_ends in
  let _ := @PropsConn.C87_request_is_unaffected in
  let _ := @PropsConn.C87_response_as_if_alone in
  let _ := @PropsConn.C87_request_line_first in
  let _ := @PropsShelf.C88_history in
  let _ := @PropsShelf.C88_order in
  let _ := @PropsShelf.C88_asked_in_time in
  let _ := @PropsShelf.C88_too_late in
  let _ := @PropsShelf.C88_after_the_end in
  let _ := @PropsShelf.C88_copied_after_the_end in
  let _ := @PropsShelf.C88_length_after_the_end in
  let _ := @PropsGzSeek.C89_any_history in
  let _ := @PropsGzSeek.C89_stream_as_opened in
  let _ := @PropsGzSeek.C89_seek_before_reading in
  let _ := @PropsGzSeek.C89_seek_after_reading in
  let _ := @PropsGzSeek.C89_seek_after_the_end in
  let _ := @PropsGzSeek.C89_what_was_taken_in_comes_first in
  let _ := @PropsAttrs.C90_same_parser in
  let _ := @PropsAttrs.C90_request_attributes in
  let _ := @PropsAttrs.C90_response_attributes in
  let _ := @PropsAttrs.C90_code_is_an_integer in
  let _ := @PropsAttrs.C90_url in
  let _ := @PropsClosing.C91_same_calls in
  let _ := @PropsClosing.C91_after_closing in
  let _ := @PropsClosing.C91_closing_the_content_file in
  let _ := @PropsClosing.C91_no_more_records in
  let _ := @PropsClosing.C91_unread_content_is_lost in
  let _ := @PropsClosing.C91_writing_leaves_a_head in
  let _ := @PropsClosing.C91_headers_still_answer in
  let _ := @PropsClosing.C91_known_content_stays in
  let _ := @PropsAnyShelf.C92_history in
  let _ := @PropsAnyShelf.C92_same_items in
  let _ := @PropsAnyShelf.C92_asked_in_time in
  let _ := @PropsAnyShelf.C92_no_length in
  let _ := @PropsDelegate.C93_asking_changes_nothing in
  let _ := @PropsDelegate.C93_response_says_what_the_request_says in
  let _ := @PropsDelegate.C93_one_answer in
  let _ := @PropsDelegate.C93_codes in
  let _ := @PropsCli.C94_payload_argument in
  let _ := @PropsCli.C94_payload_bad_argument in
  let _ := @PropsCli.C94_length_is_ignored in
  let _ := @PropsCli.C94_extract_arguments in
  let _ := @PropsCli.C94_index_lines_lead_to_records in
  let _ := @PropsCli.C94_missing_file in
  let _ := @PropsRemote.C95_no_record in
  let _ := @PropsRemote.C95_first_read_raises in
  let _ := @PropsRemote.C95_trouble_is_one in
  let _ := @PropsRemote.C95_tools_raise in
  let _ := @PropsRemote.C95_remote_fails in
  let _ := @PropsRemote.C95_warcvalid_refuses in
  let _ := @PropsRemote.C95_commands_raise in
  let _ := @PropsRemote.C95_request in
  let _ := @PropsShared.C97_set_header_touches_one_record in
  let _ := @PropsShared.C97_headers_are_the_records_own in
  let _ := @PropsShared.C97_error_is_seen_by_sharers in
  let _ := @PropsShared.C97_who_shares in
  let _ := @PropsShared.C97_errors_are_the_records_own in
  let _ := @PropsShared.C97_same_set_header in
  let _ := @PropsShared.C97_reachable_worlds in
  let _ := @PropsSemantics.C96_classes in
  let _ := @PropsSemantics.C96_one_class in
  let _ := @PropsSemantics.C96_not_two_classes in
  let _ := @PropsSemantics.C96_not_a_number in
  let _ := @PropsSemantics.C96_names_in_class in
  let _ := @PropsSemantics.C96_names_apart in
  let _ := @PropsSemantics.C96_missing_names in
  let _ := @PropsSemantics.C96_codes_without_body in
  let _ := @PropsSemantics.C96_parser_agrees in
  let _ := @PropsSemantics.C96_methods in
  let _ := @PropsIters.C98_one_reader in
  let _ := @PropsIters.C98_in_order in
  let _ := @PropsIters.C98_none_missing in
  let _ := @PropsIters.C98_who_gets_which in
  let _ := @PropsIters.C98_limit in
  let _ := @PropsIters.C98_stays_stopped in
  let _ := @PropsIters.C98_any_file in
  let _ := @PropsPipes.C99_filter_gives_an_archive in
  let _ := @PropsPipes.C99_two_filters in
  let _ := @PropsPipes.C99_filters_commute in
  let _ := @PropsPipes.C99_filter_again in
  let _ := @PropsPipes.C99_copy_then_filter in
  let _ := @PropsPipes.C99_packed_copy_then_filter in
  let _ := @PropsPipes.C99_filter_then_copy in
  let _ := @PropsPipes.C99_converted in
  let _ := @PropsCutCopy.C69_copy_of_a_cut_archive in
  let _ := @PropsCutCopy.C69_the_copy_left in
  let _ := @PropsNewline.C100_what_is_written in
  let _ := @PropsNewline.C100_reads_back in
  let _ := @PropsNewline.C100_valid in
  let _ := @PropsNewline.C100_repaired in
  let _ := @PropsNewline.C100_odd_newlines in
  let _ := @PropsNewline.C100_doubled_newlines in
  let _ := @PropsCutTools.C69_filtering in
  let _ := @PropsCutTools.C69_indexing in
  let _ := @PropsCutTools.C69_filtering_a_cut_archive in
  let _ := @PropsCutTools.C69_indexing_a_cut_archive in
  let _ := @PropsCutTools.C69_the_filtered_left in
  let _ := @PropsCutDump.C69_dumping in
  let _ := @PropsCutDump.C69_dumping_a_cut_archive in
  let _ := @PropsCutW2w.C69_repacking in
  let _ := @PropsCutW2w.C69_repacking_a_cut_archive in
  let _ := @PropsCutW2w.C69_repacking_plainly_is_copying in
  let _ := @PropsCutW2w.C69_filtering_everything_is_copying in
  let _ := @PropsCutW2w.C69_the_repacked_left in
  tt.
Print Assumptions all_theorems.
