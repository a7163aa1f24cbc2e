{
 "claims": [
  {
   "property": "C01",
   "status": "proved",
   "theorems": [
    "C01_base64_round_trip",
    "C01_base64_round_trip_4gib_refuted"
   ],
   "note": "For every byte string whose encoding is below 4 GiB. The companion _refuted theorem shows the 32-bit length truncation makes the bound necessary."
  },
  {
   "property": "C02",
   "status": "partial",
   "theorems": [
    "C02_base64_decode_safe_refuted",
    "C02_base64_decode_exact_partial"
   ],
   "note": "Memory safety is refuted (byte >= 0x80). The partial theorem characterises exactly when the out-of-bounds read happens and when decoding succeeds."
  },
  {
   "property": "C03",
   "status": "proved",
   "theorems": [
    "C03_base64_encode_length",
    "C03_base64_encode_shape",
    "C03_base64_encode_injective"
   ],
   "note": "Length, alphabet and padding, injectivity."
  },
  {
   "property": "C04",
   "status": "proved",
   "theorems": [
    "C04_url_round_trip"
   ],
   "note": "Exact: the round trip holds iff the string has no NUL byte."
  },
  {
   "property": "C05",
   "status": "proved",
   "theorems": [
    "C05_url_encode_safe",
    "C05_url_encode_exact"
   ],
   "note": "Output is in the grammar of escaped text."
  },
  {
   "property": "C06",
   "status": "proved",
   "theorems": [
    "C06_url_decode_bounded",
    "C06_url_decode_bytes",
    "C06_url_decode_plain"
   ],
   "note": "Length bound, byte closure, identity on plain text; termination because the model is a total function."
  },
  {
   "property": "C07",
   "status": "proved",
   "theorems": [
    "C07_xml_encode_safe"
   ],
   "note": "Independent scanner on the output."
  },
  {
   "property": "C08",
   "status": "proved",
   "theorems": [
    "C08_xml_encode_clean",
    "C08_xml_encode_round_trip"
   ],
   "note": "Reads are option-valued; never None. Unescaped output equals the cleaned input."
  },
  {
   "property": "C09",
   "status": "proved",
   "theorems": [
    "C09_unsigned_round_trip",
    "C09_signed_round_trip",
    "C09_big_endian",
    "C09_bytes_round_trip"
   ],
   "note": "All widths; two's complement left shift assumed for signed readers."
  },
  {
   "property": "C10",
   "status": "partial",
   "theorems": [
    "C10_int24_round_trip_refuted",
    "C10_int24_exact_partial"
   ],
   "note": "Refuted for negative values; exact result given."
  },
  {
   "property": "C11",
   "status": "proved",
   "theorems": [
    "C11_query_string_round_trip"
   ],
   "note": "Names and values without NUL, within limits; the exact length limit is on the decoded text as the code checks it."
  },
  {
   "property": "C12",
   "status": "proved",
   "theorems": [
    "C12_set_cookie_round_trip",
    "C12_set_cookie_quote_refuted"
   ],
   "note": "Value must not contain a double quote; the _refuted companion shows that hypothesis is needed because the formatter does not escape."
  },
  {
   "property": "C13",
   "status": "proved",
   "theorems": [
    "C13_any_form",
    "C13_cookie_header_round_trip"
   ],
   "note": "Every list of legal names and values; and every list of cookies in the other accepted forms (C13_any_form)."
  },
  {
   "property": "C14",
   "status": "proved",
   "theorems": [
    "C14_form_bounds",
    "C14_cookie_bounds"
   ],
   "note": "Reads are one byte at a time by list recursion, so totality is by construction; bounds proved for every input, also after failure."
  },
  {
   "property": "C15",
   "status": "proved",
   "theorems": [
    "C15_dictionary_history",
    "C15_change_replaces_all"
   ],
   "note": "All histories, all capitalisations, any placement of new entries by the hash container."
  },
  {
   "property": "C16",
   "status": "proved",
   "theorems": [
    "C16_segmentation_independence"
   ],
   "note": "From every reachable parser state, including after parse_missing_data; all configurations."
  },
  {
   "property": "C17",
   "status": "proved",
   "theorems": [
    "C17_consumed_and_unread",
    "C17_following_bytes_untouched"
   ],
   "note": "Byte count and remainder exact; appending bytes only extends the remainder."
  },
  {
   "property": "C18",
   "status": "proved",
   "theorems": [
    "C18_content_length_body"
   ],
   "note": "Any head with one Content-Length header, any segmentation; multipart requests excluded (their forms are parsed at the end, C72)."
  },
  {
   "property": "C19",
   "status": "proved",
   "theorems": [
    "C19_chunked_body"
   ],
   "note": "Also extensions, leading zeros, trailers."
  },
  {
   "property": "C20",
   "status": "partial",
   "theorems": [
    "C20_oversized_chunked_refuted",
    "C20_chunked_within_maximum_partial"
   ],
   "note": "Refuted for every oversized chunked message: never finished, never rejected, following bytes swallowed. Partial: within the maximum."
  },
  {
   "property": "C21",
   "status": "proved",
   "theorems": [
    "C21_content_bounded"
   ],
   "note": "Every reachable state starting from a new or cleared message, maximum below 2^64-1."
  },
  {
   "property": "C22",
   "status": "proved",
   "theorems": [
    "C22_fields_within_limits",
    "C22_longer_ones_rejected"
   ],
   "note": "Invariant for all runs, and every longer field gives the documented error."
  },
  {
   "property": "C23",
   "status": "proved",
   "theorems": [
    "C23_memory_safety",
    "C23_payload_blocks_inside_buffer"
   ],
   "note": "Maximum below 2^64-1, no parse_missing_data; the multipart form parser is excluded and treated in C72."
  },
  {
   "property": "C24",
   "status": "partial",
   "theorems": [
    "C24_huge_content_length_refuted",
    "C24_smaller_maximum_partial"
   ],
   "note": "Refuted at the maximum 2^64-1 (default of message::read/receive); holds for every smaller maximum."
  },
  {
   "property": "C25",
   "status": "proved",
   "theorems": [
    "C25_error_iff_false",
    "C25_status"
   ],
   "note": ""
  },
  {
   "property": "C26",
   "status": "proved",
   "theorems": [
    "C26_reset_is_fresh"
   ],
   "note": "All configurations, all earlier states (reachable or not), all later streams."
  },
  {
   "property": "C27",
   "status": "proved",
   "theorems": [
    "C27_unfinished_means_all_consumed"
   ],
   "note": ""
  },
  {
   "property": "C28",
   "status": "partial",
   "theorems": [
    "C28_trailers_with_handler_refuted",
    "C28_no_trailers_partial"
   ],
   "note": "Refuted for every chunked message with trailers; holds without trailers."
  },
  {
   "property": "C29",
   "status": "proved",
   "theorems": [
    "C29_handler_sees_length_body",
    "C29_handler_sees_chunked_body",
    "C29_handler_sees_rest"
   ],
   "note": "Length, chunks, and responses that end with the connection."
  },
  {
   "property": "C30",
   "status": "proved",
   "theorems": [
    "C30_request_line_and_headers"
   ],
   "note": ""
  },
  {
   "property": "C31",
   "status": "proved",
   "theorems": [
    "C31_headers_of_responses",
    "C31_headers_of_requests"
   ],
   "note": "Up to the order of the hash container."
  },
  {
   "property": "C32",
   "status": "proved",
   "theorems": [
    "C32_round_trip",
    "C32_write_read"
   ],
   "note": "For histories without change_resource (C82), with Content-Length (no Transfer-Encoding header set by hand, no do_not_send_content_length), content that is not taken for a multipart form."
  },
  {
   "property": "C33",
   "status": "proved",
   "theorems": [
    "C33_chunked_writer",
    "C33_without_clear_refuted"
   ],
   "note": "Proved for writers that are cleared between chunks, as the interface asks for; the refuted companion shows what happens otherwise."
  },
  {
   "property": "C34",
   "status": "partial",
   "theorems": [
    "C34_length_partial",
    "C34_send_round_trip_partial",
    "C34_nul_refuted",
    "C34_clear_refuted"
   ],
   "note": "Partial: the announced length is characterised exactly; it differs from the sent length for NUL-leading message content and after clear() (both refuted by witnesses)."
  },
  {
   "property": "C35",
   "status": "partial",
   "theorems": [
    "C35_delimited_partial",
    "C35_close_partial",
    "C35_final_chunk_refuted",
    "C35_no_length_refuted"
   ],
   "note": "Partial: holds when the first part goes out by send or send_chunk; refuted for send_final_chunk first and for do_not_send_content_length."
  },
  {
   "property": "C36",
   "status": "partial",
   "theorems": [
    "C36_finished_partial",
    "C36_refused",
    "C36_unfinished",
    "C36_any_case_refuted",
    "C36_first_decides_partial",
    "C36_any_header_refuted",
    "C36_receive_error_refuted",
    "C36_receive_error_partial"
   ],
   "note": "Reader: finished (C36_first_decides_partial says exactly when the connection is kept, for all messages), refused, unfinished, for every cut. Refuted, so missing: close in other case, close in a Connection header that is not the first in the table, message::receive keeps the lifecycle after an error."
  },
  {
   "property": "C37",
   "status": "proved",
   "theorems": [
    "C37_requests_in_order",
    "C37_any_cut"
   ],
   "note": "Handlers called in order, once each; any cut of any bytes does the same."
  },
  {
   "property": "C38",
   "status": "proved",
   "theorems": [
    "C38_longest_name"
   ],
   "note": "Over every history of add_resource, remove_resource, add_redirect, clear."
  },
  {
   "property": "C39",
   "status": "proved",
   "theorems": [
    "C39_redirects_end"
   ],
   "note": "Over every history; cycles included."
  },
  {
   "property": "C40",
   "status": "proved",
   "theorems": [
    "C40_restricted"
   ],
   "note": "For basic and cookie authentication. Concurrent calls are taken one after the other (the cache is locked; the unlocked read of the clean-up time is not modelled)."
  },
  {
   "property": "C41",
   "status": "proved",
   "theorems": [
    "C41_restriction"
   ],
   "note": "Histories of calls with hashes in hexadecimal only (sound_call)."
  },
  {
   "property": "C42",
   "status": "partial",
   "theorems": [
    "C42_same_file_refuted",
    "C42_mount_partial",
    "C42_plain_partial"
   ],
   "note": "Refuted (/files/%78 for /files/x). Proved: a restriction of the mount point holds for every spelling; two plain spellings answered with the same file are the same resource."
  },
  {
   "property": "C43",
   "status": "proved",
   "theorems": [
    "C43_known_users"
   ],
   "note": "Good credentials: those of a user now, or of an earlier time and used in the last 600 seconds."
  },
  {
   "property": "C44",
   "status": "partial",
   "theorems": [
    "C44_still_let_through",
    "C44_revoked_at_once_refuted"
   ],
   "note": "False of the code: revoked credentials go on for 300 seconds after their last use; theorem C44_still_let_through proves that for every history."
  },
  {
   "property": "C45",
   "status": "partial",
   "theorems": [
    "C45_expire",
    "C45_within_300_refuted"
   ],
   "note": "Twice the expiration time (600 s) proved; one time (300 s) refuted."
  },
  {
   "property": "C46",
   "status": "proved",
   "theorems": [
    "C46_sessions"
   ],
   "note": "Session goes back to a login with the right password, not ended since, used in the last 7200 seconds."
  },
  {
   "property": "C47",
   "status": "partial",
   "theorems": [
    "C47_logout",
    "C47_expire_partial",
    "C47_lives",
    "C47_within_3600_refuted"
   ],
   "note": "Logout proved; expiry proved with 7200 seconds, refuted with 3600."
  },
  {
   "property": "C48",
   "status": "partial",
   "theorems": [
    "C48_user_manager_partial",
    "C48_throwing_update_refuted",
    "C48_any_text_refuted"
   ],
   "note": "Proved for hexadecimal hashes; refuted otherwise."
  },
  {
   "property": "C49",
   "status": "partial",
   "theorems": [
    "C49_stop_partial",
    "C49_second_stop_refuted"
   ],
   "note": "Proved for the stop that ended listening; refuted for an overlapping second stop."
  },
  {
   "property": "C50",
   "status": "partial",
   "theorems": [
    "C50_count_refuted",
    "C50_count_partial"
   ],
   "note": "Refuted; partial with one accept operation waiting."
  },
  {
   "property": "C51",
   "status": "partial",
   "theorems": [
    "C51_deadlock_refuted",
    "C51_deadlock_partial"
   ],
   "note": "Refuted; partial for handlers that make no call with the mutex held."
  },
  {
   "property": "C52",
   "status": "partial",
   "theorems": [
    "C52_count",
    "C52_running_refuted",
    "C52_running_partial"
   ],
   "note": "The count is exact modulo 2^32; the claim is refuted (unlocked test in add_active_user) and proved for executions without that race."
  },
  {
   "property": "C53",
   "status": "partial",
   "theorems": [
    "C53_shutdown_refuted",
    "C53_shutdown_partial"
   ],
   "note": "Refuted for both schedulers (a joined work item that needs the mutex); proved for work items that need no lock, including that no wake-up is lost."
  },
  {
   "property": "C54",
   "status": "proved",
   "theorems": [
    "C54_once",
    "C54_runs",
    "C54_runs_refuted"
   ],
   "note": "Exactly-once accounting for all executions; progress for a fixed number of threads; refuted when set_num_threads is called while running."
  },
  {
   "property": "C55",
   "status": "proved",
   "theorems": [
    "C55_rotation",
    "C55_no_threads_refuted"
   ],
   "note": "For n >= 1; refuted for n = 0."
  },
  {
   "property": "C56",
   "status": "partial",
   "theorems": [
    "C56_cancelled",
    "C56_not_early_partial",
    "C56_restart_refuted",
    "C56_goes_off"
   ],
   "note": "Refuted for restart; cancel proved."
  },
  {
   "property": "C57",
   "status": "partial",
   "theorems": [
    "C57_find_refuted",
    "C57_found_partial",
    "C57_exact_partial"
   ],
   "note": "Refuted ({/a,/a/bb,/a/cc}, resource /a/z); proved: what is found is the most specific one, and the exact condition for it to be found."
  },
  {
   "property": "C58",
   "status": "partial",
   "theorems": [
    "C58_once_refuted",
    "C58_load_refuted",
    "C58_never_twice",
    "C58_once_partial"
   ],
   "note": "Never twice, never before removal, get and find never return destroyed objects: proved for all histories. Always destroyed: refuted (add in use; concurrent loads), proved when identifiers are unused."
  },
  {
   "property": "C59",
   "status": "partial",
   "theorems": [
    "C59_loaded",
    "C59_copy",
    "C59_assign_refuted",
    "C59_assign_partial"
   ],
   "note": "Loaded exactly while open: proved for all histories with fewer than 2^64 handles. Assignment: refuted for self-assignment, proved otherwise."
  },
  {
   "property": "C60",
   "status": "partial",
   "theorems": [
    "C60_once_refuted",
    "C60_missing_refuted",
    "C60_once_partial"
   ],
   "note": "Refuted in two ways; proved without reset and without failing or hanging create."
  },
  {
   "property": "C61",
   "status": "partial",
   "theorems": [
    "C61_confined_refuted",
    "C61_dot_refuted",
    "C61_old_boost_refuted",
    "C61_beside_partial",
    "C61_inside_partial"
   ],
   "note": "Refuted: sibling directory with a longer name; directory \".\"; old Boost and a name such as .a. Proved: accesses stay beside the directory (names that begin with its name), and inside it if the decoded path has no \"..\"."
  },
  {
   "property": "C62",
   "status": "proved",
   "theorems": [
    "C62_sendable_partial",
    "C62_in_bounds",
    "C62_pieces",
    "C62_received",
    "C62_prefix"
   ],
   "note": "Bounds hold for every change of the file; completeness (content, type and date as the client reads them) for a file that does not change while it is sent. C62_sendable_partial links the service to the sender for readable files (see C64 for the others)."
  },
  {
   "property": "C63",
   "status": "proved",
   "theorems": [
    "C63_read_only",
    "C63_refused"
   ],
   "note": "For all histories of options, starts and requests."
  },
  {
   "property": "C64",
   "status": "partial",
   "theorems": [
    "C64_coherent_refuted",
    "C64_uninitialised_refuted",
    "C64_coherent_partial",
    "C64_not_modified_partial",
    "C64_unreadable_partial",
    "C64_told_time_partial"
   ],
   "note": "Refuted: a file that could not be read leaves an unfilled buffer in the cache, which is sent later. Proved when all files seen are readable, for every history. C64_told_time_partial: the time told with the header of a file is the one that the file has now. C64_unreadable_partial: whatever the history, a request that finds a file that cannot be read sends content for it only if that was in memory before."
  },
  {
   "property": "C65",
   "status": "partial",
   "theorems": [
    "C65_control_partial",
    "C65_type_refuted",
    "C65_version_refuted",
    "C65_report_partial",
    "C65_data_refuted",
    "C65_kind_refuted",
    "C65_first_partial",
    "C65_agrees_partial",
    "C65_first_refuted"
   ],
   "note": "Refuted in four ways; recognition and reported kind characterised for every packet. The two static helpers that look at a buffer before parsing are characterised for every buffer (C65_first_partial, C65_agrees_partial) and refuted where they answer differently from the parser (C65_first_refuted)."
  },
  {
   "property": "C66",
   "status": "partial",
   "theorems": [
    "C66_reads_partial",
    "C66_buffer_partial",
    "C66_whole_partial",
    "C66_short_refuted",
    "C66_goaway_refuted",
    "C66_block_refuted"
   ],
   "note": "Refuted; exact condition for every packet, and safety of complete frames."
  },
  {
   "property": "C67",
   "status": "proved",
   "theorems": [
    "C67_output",
    "C67_prefix",
    "C67_retry_refuted"
   ],
   "note": "C67_output is the full statement; C67_prefix covers failures; C67_retry_refuted shows that going on after a half-done write sends wrong bytes (outside the statement)."
  },
  {
   "property": "C68",
   "status": "partial",
   "theorems": [
    "C68_error_refuted",
    "C68_source_refuted",
    "C68_error_partial"
   ],
   "note": "Refuted (store past the buffer, read before the caller's array). Proved: only possible after a failed sputc with no successful call since; never with block writes only."
  },
  {
   "property": "C69",
   "status": "partial",
   "theorems": [
    "C69_input_partial",
    "C69_putback_refuted"
   ],
   "note": "Reading proved in full for every segmentation, error and call sequence; putting back proved until the first error, refuted after it."
  },
  {
   "property": "C70",
   "status": "partial",
   "theorems": [
    "C70_lines",
    "C70_deterministic",
    "C70_grammar",
    "C70_tail_partial",
    "C70_last_line_refuted"
   ],
   "note": "Proved for every file whose last line is ended; refuted otherwise, with the exact behaviour in C70_tail_partial."
  },
  {
   "property": "C71",
   "status": "partial",
   "theorems": [
    "C71_components_partial",
    "C71_large_ports_refuted",
    "C71_stale_query_refuted",
    "C71_accepted_partial",
    "C71_embedded_refuted"
   ],
   "note": "Round trip for every URI with a path and a port up to 65535; whatever is accepted is composed of the parts told (C71_accepted_partial). Refuted: larger ports are truncated, a URI without a path leaves a stale query, a URI without scheme with :// behind the host is read with another host (C71_embedded_refuted)."
  },
  {
   "property": "C72",
   "status": "partial",
   "theorems": [
    "C72_form_round_trip",
    "C72_boundary_after_headers_refuted",
    "C72_always_inside_partial",
    "C72_file_name_first_refuted"
   ],
   "note": "Round trip proved for every form. 'No input leaves the body' refuted; the exact condition (LF CR LF boundary) is proved necessary. A file name before the name is taken for the name (refuted)."
  },
  {
   "property": "C73",
   "status": "proved",
   "theorems": [
    "C73_result_is_public",
    "C73_first_public",
    "C73_other_texts_refuted"
   ],
   "note": "Soundness and first-public-address for lists of canonically written addresses. Texts that are no addresses are passed on (refuted theorem, outside the claim for canonical addresses)."
  },
  {
   "property": "C74",
   "status": "partial",
   "theorems": [
    "C74_gaps_in_body",
    "C74_gap_is_dummy_bytes",
    "C74_gap_beyond_maximum_refuted",
    "C74_gap_not_counted_refuted"
   ],
   "note": "Any number of gaps in a body with Content-Length within the maximum; chunk data and bodies without length by equivalence. Refuted beyond the maximum and for the byte count with a payload handler."
  },
  {
   "property": "C75",
   "status": "partial",
   "theorems": [
    "C75_bodiless_partial",
    "C75_chunked_partial",
    "C75_bodiless_refuted",
    "C75_until_close"
   ],
   "note": "Violated by bodiless responses with a chunked transfer coding (C75_bodiless_refuted, C75_chunked_partial); true of all others."
  },
  {
   "property": "C76",
   "status": "partial",
   "theorems": [
    "C76_held_partial",
    "C76_page_partial",
    "C76_none_partial",
    "C76_largest_refuted",
    "C76_lowered_refuted"
   ],
   "note": "Proved for every limit below 2^32-1; refuted for the largest; a lowered limit takes effect with the next event. C76_none_partial: the page of a build without the library for logging."
  },
  {
   "property": "C77",
   "status": "partial",
   "theorems": [
    "C77_layout",
    "C77_round_trip_partial",
    "C77_formats_partial",
    "C77_reach_partial",
    "C77_quad_refuted"
   ],
   "note": "Proved for the 32 and 64 bit formats on all platforms considered and for 128 bits where pow is computed in long double; refuted for 128 bits where the global pow is the double function. The final conversion of the long double to float or double is not modelled."
  },
  {
   "property": "C78",
   "status": "proved",
   "theorems": [
    "C78_not_missed"
   ],
   "note": ""
  },
  {
   "property": "C79",
   "status": "partial",
   "theorems": [
    "C79_xml_encode_utf8_refuted",
    "C79_xml_encode_structure_partial"
   ],
   "note": "Refuted (overlong forms and surrogates pass); structural well-formedness proved."
  },
  {
   "property": "C80",
   "status": "proved",
   "theorems": [
    "C80_form_parser_exact"
   ],
   "note": "Acceptance and result both characterised."
  },
  {
   "property": "C81",
   "status": "proved",
   "theorems": [
    "C81_line_endings"
   ],
   "note": ""
  },
  {
   "property": "C82",
   "status": "partial",
   "theorems": [
    "C82_first_line_partial",
    "C82_change_resource_refuted"
   ],
   "note": "Partial: all calls but change_resource, for which it is refuted."
  },
  {
   "property": "C83",
   "status": "partial",
   "theorems": [
    "C83_resend_partial",
    "C83_cookies_refuted"
   ],
   "note": "Partial: messages without cookies; refuted with cookies."
  },
  {
   "property": "C84",
   "status": "partial",
   "theorems": [
    "C84_request_chunks_refuted"
   ],
   "note": "Refuted with the default settings; with set_chunks_supported(true) see C33."
  },
  {
   "property": "C85",
   "status": "partial",
   "theorems": [
    "C85_copies_partial",
    "C85_clear_refuted"
   ],
   "note": "Partial: without clear(); refuted with clear()."
  },
  {
   "property": "C86",
   "status": "partial",
   "theorems": [
    "C86_bodiless_partial",
    "C86_left_partial",
    "C86_head_refuted"
   ],
   "note": "Partial: without payload; refuted with payload."
  },
  {
   "property": "C87",
   "status": "proved",
   "theorems": [
    "C87_receive_in_order"
   ],
   "note": "Messages that keep the connection open; each w is a message when parsed alone."
  },
  {
   "property": "C88",
   "status": "partial",
   "theorems": [
    "C88_redirect_partial",
    "C88_login_page_partial",
    "C88_refused",
    "C88_every_url_refuted"
   ],
   "note": "Proved for urls of text; refuted with line breaks."
  },
  {
   "property": "C89",
   "status": "proved",
   "theorems": [
    "C89_right_password"
   ],
   "note": ""
  },
  {
   "property": "C90",
   "status": "partial",
   "theorems": [
    "C90_verdict_partial",
    "C90_verdict_refuted"
   ],
   "note": "Refuted; partial with the exact condition."
  },
  {
   "property": "C91",
   "status": "partial",
   "theorems": [
    "C91_removed_users_refuted"
   ],
   "note": "False of the code; C47_lives is the positive side."
  },
  {
   "property": "C92",
   "status": "proved",
   "theorems": [
    "C92_join"
   ],
   "note": ""
  },
  {
   "property": "C93",
   "status": "partial",
   "theorems": [
    "C93_users",
    "C93_users_refuted"
   ],
   "note": "Settled states proved; the bound is refuted."
  },
  {
   "property": "C94",
   "status": "partial",
   "theorems": [
    "C94_rate_refuted",
    "C94_rate_partial"
   ],
   "note": "Refuted for restarts of the single-service scheduler; proved for the one-to-one scheduler and for first starts."
  },
  {
   "property": "C95",
   "status": "partial",
   "theorems": [
    "C95_live_refuted",
    "C95_live_partial"
   ],
   "note": "Refuted for the one-to-one scheduler; proved for the single-service scheduler and if only work items post."
  },
  {
   "property": "C96",
   "status": "proved",
   "theorems": [
    "C96_join"
   ],
   "note": ""
  },
  {
   "property": "C97",
   "status": "partial",
   "theorems": [
    "C97_open_refuted",
    "C97_open_partial"
   ],
   "note": "Refuted; proved if the handle is closed or the name is not loaded."
  },
  {
   "property": "C98",
   "status": "partial",
   "theorems": [
    "C98_way_refuted",
    "C98_way_partial"
   ],
   "note": "Refuted; proved if only user objects are replaced."
  },
  {
   "property": "C99",
   "status": "partial",
   "theorems": [
    "C99_ends_refuted",
    "C99_ends_partial"
   ],
   "note": "Refuted (unreadable file, cache 0). Proved when the file stays readable and does not shrink."
  },
  {
   "property": "C100",
   "status": "partial",
   "theorems": [
    "C100_not_missed",
    "C100_waits_refuted",
    "C100_waits_partial"
   ],
   "note": "Refuted for spurious wake-ups; proved without them; no wake-up is lost in any execution."
  },
  {
   "property": "C101",
   "status": "proved",
   "theorems": [
    "C101_echo"
   ],
   "note": "For requests of HTTP versions other than 0.x and clients that accept content of the length of the page."
  },
  {
   "property": "C102",
   "status": "partial",
   "theorems": [
    "C102_cookie_partial",
    "C102_header_refuted",
    "C102_markup_refuted"
   ],
   "note": "Header injection and markup injection refuted end to end; proved for cookie names and values of text characters; the page is given line by line in P_Services.v."
  },
  {
   "property": "C103",
   "status": "partial",
   "theorems": [
    "C103_failed_refuted",
    "C103_thrown_refuted",
    "C103_order_partial"
   ],
   "note": "Refuted; the order of calls proved for every file."
  },
  {
   "property": "C104",
   "status": "partial",
   "theorems": [
    "C104_all_refuted",
    "C104_last_partial"
   ],
   "note": "Refuted; what is installed is proved for every file."
  },
  {
   "property": "C105",
   "status": "partial",
   "theorems": [
    "C105_frames_partial",
    "C105_stream_refuted",
    "C105_goaway_refuted"
   ],
   "note": "Proved for every packet of well-formed frames except the two refuted cases."
  },
  {
   "property": "C106",
   "status": "partial",
   "theorems": [
    "C106_stale_refuted",
    "C106_block_partial"
   ],
   "note": "Refuted; exact content proved for every header frame."
  },
  {
   "property": "C107",
   "status": "partial",
   "theorems": [
    "C107_whole_refuted",
    "C107_more_partial"
   ],
   "note": "First half refuted, second half proved."
  },
  {
   "property": "C108",
   "status": "partial",
   "theorems": [
    "C108_abort_refuted",
    "C108_exact_partial"
   ],
   "note": "Refuted for builds with assertions; exact condition proved; never in builds without."
  },
  {
   "property": "C109",
   "status": "partial",
   "theorems": [
    "C109_ends_refuted",
    "C109_ends_partial"
   ],
   "note": "The claim is refuted: infinities and NaNs loop for ever. Proved: it ends exactly for finite numbers."
  },
  {
   "property": "C110",
   "status": "partial",
   "theorems": [
    "C110_zero",
    "C110_half_partial",
    "C110_lost_partial",
    "C110_subnormal_refuted"
   ],
   "note": "The claim is refuted for every subnormal number; zero proved. For formats at least as wide as long double (128 bits on x86) only the general reading lemma applies."
  },
  {
   "property": "C111",
   "status": "partial",
   "theorems": [
    "C111_cut_partial",
    "C111_large_partial",
    "C111_nearest_refuted",
    "C111_large_refuted"
   ],
   "note": "Refuted; what is stored is proved for every value in range or too large. Values too small are covered by C110 for subnormals of the format."
  },
  {
   "property": "C112",
   "status": "partial",
   "theorems": [
    "C112_special_partial",
    "C112_infinite_partial",
    "C112_nan_refuted",
    "C112_inf_refuted"
   ],
   "note": "Refuted; what is read is proved for every fraction that the platform's long double can hold."
  },
  {
   "property": "C113",
   "status": "partial",
   "theorems": [
    "C113_texts_partial",
    "C113_pages_partial",
    "C113_forbidden_refuted",
    "C113_files_partial",
    "C113_delete_refuted"
   ],
   "note": "Refuted for the message of 403 pages and the exception text of a failed DELETE, which are not escaped. Proved for the rest, for arguments of the program (allowed methods, realm) without control characters; C113_texts_partial gives the full text and the header fields of every page of the file service. Answers without page are told as well: the header of a file, that a change is done, or (HEAD) the header of a page."
  },
  {
   "property": "C114",
   "status": "partial",
   "theorems": [
    "C114_files",
    "C114_pages_refuted"
   ],
   "note": "Proved for the file service; refuted for the server's own error pages, with what the client is left with."
  },
  {
   "property": "C115",
   "status": "partial",
   "theorems": [
    "C115_back_partial",
    "C115_after_partial",
    "C115_back_refuted"
   ],
   "note": "Refuted for user ids from 32768 (the id is kept in 16 bits); proved for the others, for all interleavings."
  },
  {
   "property": "C116",
   "status": "partial",
   "theorems": [
    "C116_one",
    "C116_rights_partial",
    "C116_goes_on",
    "C116_rights_refuted"
   ],
   "note": "Mutual exclusion and progress proved in full; that the process is super user meanwhile is refuted if run_as_user is called by another thread, proved otherwise."
  },
  {
   "property": "C117",
   "status": "partial",
   "theorems": [
    "C117_runs",
    "C117_named_refuted",
    "C117_lasts_refuted"
   ],
   "note": "The first half is proved; that the id is the user's and that it lasts are refuted. run_as_group has the same code for groups."
  },
  {
   "property": "C118",
   "status": "partial",
   "theorems": [
    "C118_found_partial",
    "C118_number",
    "C118_found_refuted",
    "C118_large_refuted"
   ],
   "note": "Refuted for lines with empty fields and ids from 2^31; proved for files without."
  },
  {
   "property": "C119",
   "status": "partial",
   "theorems": [
    "C119_starts_partial",
    "C119_never_partial",
    "C119_again_refuted"
   ],
   "note": "Refuted: the acceptor stays open after a refused bind, option or listen, and no later start succeeds. Proved for histories without."
  },
  {
   "property": "C120",
   "status": "proved",
   "theorems": [
    "C120_truncated"
   ],
   "note": "For every message the parser takes for whole."
  },
  {
   "property": "C121",
   "status": "proved",
   "theorems": [
    "C121_in_order"
   ],
   "note": "For all sequences of whole messages. C32_write_read shows that what write produces is such a message."
  },
  {
   "property": "C122",
   "status": "partial",
   "theorems": [
    "C122_no_error_partial",
    "C122_failed_stream_partial",
    "C122_no_error_refuted"
   ],
   "note": "Refuted for streams that have failed before; proved for good streams."
  },
  {
   "property": "C123",
   "status": "partial",
   "theorems": [
    "C123_reader_partial",
    "C123_receive_partial",
    "C123_receive_refuted"
   ],
   "note": "Proved for response_reader; refuted for receive (and read), for every header with a Content-Length above 0."
  },
  {
   "property": "C124",
   "status": "proved",
   "theorems": [
    "C124_write"
   ],
   "note": "For all buffers and all points of failure."
  },
  {
   "property": "C125",
   "status": "partial",
   "theorems": [
    "C125_conflict_partial",
    "C125_conflict_refuted",
    "C125_tables_refuted"
   ],
   "note": "Violated: C125_conflict_partial says what happens instead, for every head."
  },
  {
   "property": "C126",
   "status": "partial",
   "theorems": [
    "C126_ignored_partial",
    "C126_chunked_partial",
    "C126_refused_refuted"
   ],
   "note": "Violated: the two partial theorems say what happens instead."
  },
  {
   "property": "C127",
   "status": "partial",
   "theorems": [
    "C127_read_as_partial",
    "C127_no_version_partial",
    "C127_refused_refuted"
   ],
   "note": "Violated: C127_read_as_partial says for all lines of the described kinds what they are read as. That everything accepted is read as some legal head is C138."
  },
  {
   "property": "C128",
   "status": "partial",
   "theorems": [
    "C128_round_trip",
    "C128_required_partial",
    "C128_required_refuted",
    "C128_type_refuted"
   ],
   "note": "The round trip is proved; the reported size and types with the mark are violated."
  },
  {
   "property": "C129",
   "status": "partial",
   "theorems": [
    "C129_destroyed_once_partial",
    "C129_destroyed_twice_refuted",
    "C129_in_use_partial",
    "C129_in_use_refuted"
   ],
   "note": "Proved for objects given once and calls that return before they finish their connection; the rest violated."
  },
  {
   "property": "C130",
   "status": "partial",
   "theorems": [
    "C130_pairs_partial",
    "C130_pairs_refuted"
   ],
   "note": "Proved for orderly use; the other ways are violations."
  },
  {
   "property": "C131",
   "status": "partial",
   "theorems": [
    "C131_options_partial",
    "C131_options_refuted",
    "C131_added_partial",
    "C131_added_refuted"
   ],
   "note": "Proved if all resources come from add_service and load_service, and for names nothing else took; violated otherwise."
  },
  {
   "property": "C132",
   "status": "partial",
   "theorems": [
    "C132_knows_partial",
    "C132_knows_refuted"
   ],
   "note": "Proved when no request is dispatched while load_service runs and for names with at most one slash at the end; redirects are left out; violated otherwise."
  },
  {
   "property": "C133",
   "status": "partial",
   "theorems": [
    "C133_stop_partial",
    "C133_waits",
    "C133_never_returns",
    "C133_own_stop_refuted"
   ],
   "note": "When it returns and when it never does; that the other threads let go of their connections depends on the handlers."
  },
  {
   "property": "C134",
   "status": "partial",
   "theorems": [
    "C134_denotes_partial",
    "C134_too_large",
    "C134_any_time_refuted",
    "C134_locale_refuted",
    "C134_unambiguous",
    "C134_length_partial",
    "C134_length_refuted",
    "C134_not_modified"
   ],
   "note": "Proved in the C locale for times whose year fits a struct tm; violated otherwise."
  },
  {
   "property": "C135",
   "status": "partial",
   "theorems": [
    "C135_hash_respects",
    "C135_equivalence",
    "C135_table",
    "C135_ascii_partial",
    "C135_locale_refuted",
    "C135_not_ascii_refuted",
    "C135_turkish_refuted"
   ],
   "note": "Proved when no locale is set (all names), and for ASCII names when all locales set agree about ASCII; violated otherwise."
  },
  {
   "property": "C136",
   "status": "partial",
   "theorems": [
    "C136_answers_partial",
    "C136_success",
    "C136_honest_refuted",
    "C136_full_disk_refuted"
   ],
   "note": "What each answer means is proved; that success means the data is in the file is violated."
  },
  {
   "property": "C137",
   "status": "partial",
   "theorems": [
    "C137_read_back_partial",
    "C137_read_back_refuted",
    "C137_ways_refuted"
   ],
   "note": "Proved without scanning, with caching 0 or 1, and no earlier content of the same length and time; violated otherwise."
  },
  {
   "property": "C138",
   "status": "proved",
   "theorems": [
    "C138_accepted_is_legal",
    "C138_fields"
   ],
   "note": "Requests of HTTP version 0 are excluded in the statement (see C141); C138_fields covers them. What is sent as a content is covered by C18-C20."
  },
  {
   "property": "C139",
   "status": "partial",
   "theorems": [
    "C139_read_as_partial",
    "C139_headers_partial",
    "C139_refused_partial",
    "C139_continues_refuted"
   ],
   "note": "Violated: C139_continues_refuted. C139_read_as_partial and C139_headers_partial say for all heads what indented lines and lines of blanks are read as, C139_refused_partial which continuations are refused."
  },
  {
   "property": "C140",
   "status": "partial",
   "theorems": [
    "C140_kept_partial",
    "C140_refused_partial",
    "C140_dropped_refuted",
    "C140_slash_refuted"
   ],
   "note": "Violated: C140_dropped_refuted (blanks kept) and C140_slash_refuted (no blank). C140_kept_partial and C140_refused_partial say what happens instead; values without a blank that are read are in C139_read_as_partial."
  },
  {
   "property": "C141",
   "status": "partial",
   "theorems": [
    "C141_whole_partial",
    "C141_line_feed_refuted"
   ],
   "note": "Violated for lines that end in LF: C141_line_feed_refuted. C141_whole_partial is the claim for lines that end in CR LF."
  },
  {
   "property": "C142",
   "status": "partial",
   "theorems": [
    "C142_service_line_partial",
    "C142_config_line_partial",
    "C142_nothing_to_serve_partial",
    "C142_unknown_partial",
    "C142_value_missing_partial",
    "C142_names_partial",
    "C142_refused_values_partial",
    "C142_port_partial",
    "C142_only_ports_refuted",
    "C142_always_says_refuted"
   ],
   "note": "Missing: ports are used as typed and unusable texts are reported, which the code violates (C142_only_ports_refuted, C142_always_says_refuted). With -c up to two further names are told, and whether -v was given."
  },
  {
   "property": "C143",
   "status": "partial",
   "theorems": [
    "C143_all_done_partial",
    "C143_start_last_partial",
    "C143_config_partial",
    "C143_refused_partial",
    "C143_status_refuted",
    "C143_ssl_refuted",
    "C143_options_refuted"
   ],
   "note": "Missing: status, SSL and ignored options, which the code violates (C143_status_refuted, C143_ssl_refuted, C143_options_refuted)."
  },
  {
   "property": "C144",
   "status": "partial",
   "theorems": [
    "C144_first_partial",
    "C144_none_partial",
    "C144_outcome_partial",
    "C144_open_partial",
    "C144_first_refuted",
    "C144_closed_refuted",
    "C144_retry_refuted",
    "C144_retry_partial"
   ],
   "note": "Missing: connections that were open before, and being closed after a failed connect to one address, which the code violates (C144_first_refuted, C144_closed_refuted, C144_retry_refuted)."
  },
  {
   "property": "C145",
   "status": "partial",
   "theorems": [
    "C145_stream_partial",
    "C145_connected_partial",
    "C145_handshake_partial",
    "C145_clear_refuted",
    "C145_handshake_refuted",
    "C145_reconnect_refuted"
   ],
   "note": "Proved for builds with SSL support and, for connections, after a handshake; the rest is violated (C145_clear_refuted, C145_handshake_refuted, C145_reconnect_refuted)."
  },
  {
   "property": "C146",
   "status": "partial",
   "theorems": [
    "C146_hello_partial",
    "C146_deny_partial",
    "C146_allow_refuted",
    "C146_head_refuted",
    "C146_head_partial"
   ],
   "note": "Missing: the Allow header and HEAD, which the code violates (C146_allow_refuted, C146_head_refuted)."
  },
  {
   "property": "C147",
   "status": "partial",
   "theorems": [
    "C147_what_partial",
    "C147_again_partial",
    "C147_class_partial",
    "C147_own_refuted",
    "C147_later_refuted",
    "C147_why_refuted"
   ],
   "note": "Class, text and information are stated by tables of their own in P_Report.v. Missing: confused kinds, later information and the reason of open_plugin, which the code violates (C147_own_refuted, C147_later_refuted, C147_why_refuted)."
  },
  {
   "property": "C148",
   "status": "partial",
   "theorems": [
    "C148_written_partial",
    "C148_own_refuted",
    "C148_own_partial",
    "C148_line_refuted"
   ],
   "note": "The titles of levels are stated by a table of their own in P_Report.v. Missing: levels per logger and one line per event, which the code violates (C148_own_refuted, C148_line_refuted)."
  },
  {
   "property": "C149",
   "status": "partial",
   "theorems": [
    "C149_search_partial",
    "C149_open_partial",
    "C149_directories_refuted",
    "C149_inside_refuted",
    "C149_name_refuted",
    "C149_library_refuted"
   ],
   "note": "Missing: only from the directories, staying inside, own name and own library, which the code violates (C149_directories_refuted, C149_inside_refuted, C149_name_refuted, C149_library_refuted). Windows and Cygwin are not modelled."
  },
  {
   "property": "C150",
   "status": "partial",
   "theorems": [
    "C150_exact_partial",
    "C150_found_partial",
    "C150_found_refuted",
    "C150_once_refuted",
    "C150_others_refuted",
    "C150_fails_partial",
    "C150_added_partial"
   ],
   "note": "Missing: empty names, names listed twice and unreadable directories, which the code violates (C150_found_refuted, C150_once_refuted, C150_others_refuted)."
  },
  {
   "property": "C151",
   "status": "partial",
   "theorems": [
    "C151_returns_partial",
    "C151_only_partial",
    "C151_signal_refuted",
    "C151_signals_partial"
   ],
   "note": "Missing: signals to a thread that has the mutex, where the code deadlocks (C151_signal_refuted)."
  },
  {
   "property": "C152",
   "status": "partial",
   "theorems": [
    "C152_type_partial",
    "C152_one_partial",
    "C152_dot_refuted",
    "C152_font_refuted"
   ],
   "note": "Missing: names without a dot and .eot, which the code violates (C152_dot_refuted, C152_font_refuted)."
  },
  {
   "property": "C153",
   "status": "partial",
   "theorems": [
    "C153_taken_partial",
    "C153_all_taken",
    "C153_refused_partial",
    "C153_negative_refuted",
    "C153_kept_refuted",
    "C153_configured",
    "C153_read_only"
   ],
   "note": "Missing: numbers with a minus sign (C153_negative_refuted) and refused directories and files (C153_kept_refuted), which the code violates."
  },
  {
   "property": "C154",
   "status": "partial",
   "theorems": [
    "C154_first_line_partial",
    "C154_status_partial",
    "C154_simple_refuted"
   ],
   "note": "Missing: answers to requests without version, which the code violates (C154_simple_refuted). Proved for all others, and the first line is told for these too."
  },
  {
   "property": "C155",
   "status": "partial",
   "theorems": [
    "C155_values_partial",
    "C155_self_partial",
    "C155_self_refuted",
    "C155_refused_refuted"
   ],
   "note": "Missing: self-assignment (C155_self_refuted; exactly what it does is C155_self_partial) and refused memory for resize and assignment (C155_refused_refuted); both are violated by the code."
  },
  {
   "property": "C156",
   "status": "partial",
   "theorems": [
    "C156_copies_partial",
    "C156_self_refuted"
   ],
   "note": "Missing: self-assignment, which the code violates (C156_self_refuted). A copied unordered_multimap is taken to keep the order of its elements, as libstdc++ does."
  },
  {
   "property": "C157",
   "status": "partial",
   "theorems": [
    "C157_named_partial",
    "C157_misnamed_partial",
    "C157_uri_refuted",
    "C157_reason_refuted",
    "C157_told_apart_partial",
    "C157_apart_refuted",
    "C157_spdy_partial"
   ],
   "note": "Missing: over-long URIs and status messages and two SPDY errors, which the code violates (C157_uri_refuted, C157_reason_refuted, C157_apart_refuted)."
  },
  {
   "property": "C158",
   "status": "partial",
   "theorems": [
    "C158_reason_partial",
    "C158_frame_partial",
    "C158_status_refuted",
    "C158_frame_refuted"
   ],
   "note": "Missing: GOAWAY frames, which the code violates (C158_status_refuted, C158_frame_refuted)."
  },
  {
   "property": "C159",
   "status": "partial",
   "theorems": [
    "C159_length_partial",
    "C159_chunks_partial",
    "C159_close_partial",
    "C159_request_refuted",
    "C159_response_refuted",
    "C159_status_refuted",
    "C159_invalid_refuted",
    "C159_cookies_refuted"
   ],
   "note": "Missing: the first line, responses whose status has no content, lengths that are no number and cookies already read, all violated by the code (C159_request_refuted, C159_response_refuted, C159_status_refuted, C159_invalid_refuted, C159_cookies_refuted). Chunked content is proved without trailers; the parser is a new one."
  },
  {
   "property": "C160",
   "status": "partial",
   "theorems": [
    "C160_daemon_partial",
    "C160_descriptors_partial",
    "C160_mode_partial",
    "C160_parent_refuted",
    "C160_null_refuted",
    "C160_limit_refuted"
   ],
   "note": "Missing: a parent that is process 1, no null device, descriptors above the limit; all violated by the code (C160_parent_refuted, C160_null_refuted, C160_limit_refuted). What the code does with the descriptors in the last two cases is C160_descriptors_partial."
  },
  {
   "property": "C161",
   "status": "proved",
   "theorems": [
    "C161_match",
    "C161_lines"
   ],
   "note": "For all files."
  },
  {
   "property": "C162",
   "status": "proved",
   "theorems": [
    "C162_exact",
    "C162_open"
   ],
   "note": "For all files."
  },
  {
   "property": "C163",
   "status": "partial",
   "theorems": [
    "C163_ignoring_partial",
    "C163_long_refuted",
    "C163_zero_refuted",
    "C163_rest_partial"
   ],
   "note": "Missing: lines of more than 4095 characters and zero bytes, violated by the code (C163_long_refuted, C163_zero_refuted; C163_rest_partial says what happens after a long line)."
  },
  {
   "property": "C164",
   "status": "partial",
   "theorems": [
    "C164_entries_partial",
    "C164_ends_partial",
    "C164_others_refuted",
    "C164_cdata_partial",
    "C164_cdata_refuted"
   ],
   "note": "Missing: threads that write or finish without having started, and texts with the end of a CDATA section; both violated by the code (C164_others_refuted, C164_cdata_refuted)."
  },
  {
   "property": "C165",
   "status": "partial",
   "theorems": [
    "C165_kept_partial",
    "C165_forms_partial",
    "C165_cookies_partial",
    "C165_multipart_partial",
    "C165_commas_partial",
    "C165_forms_refuted",
    "C165_variables_refuted",
    "C165_buffer_refuted",
    "C165_headers_refuted"
   ],
   "note": "Proved: headers, cookies, first line and collected chunks never exceed the bytes received, variables never 1024 times the bytes, for every sequence of blocks. Missing: a small factor for the variables, a buffer in proportion and a limit on headers, violated by the code (C165_forms_refuted for every factor below 1024, C165_variables_refuted, C165_buffer_refuted, C165_headers_refuted)."
  },
  {
   "property": "C166",
   "status": "partial",
   "theorems": [
    "C166_form_partial",
    "C166_other_partial",
    "C166_multipart_partial",
    "C166_cookies_partial",
    "C166_type_case_refuted",
    "C166_type_name_refuted",
    "C166_silent_refuted"
   ],
   "note": "Proved for forms (C166_form_partial), multipart forms of text fields (C166_multipart_partial), other content (C166_other_partial) and cookies (C166_cookies_partial), with the type compared as the code does. Missing: types in other letters, types that only begin alike and the report of broken forms, violated by the code (C166_type_case_refuted, C166_type_name_refuted, C166_silent_refuted)."
  },
  {
   "property": "C167",
   "status": "partial",
   "theorems": [
    "C167_text_partial",
    "C167_digest_only_partial",
    "C167_carried_partial",
    "C167_carried_refuted",
    "C167_unset_partial",
    "C167_unset_refuted"
   ],
   "note": "C167_text_partial: the exact text. C167_digest_only_partial: two histories whose passwords have the same digests leave the same state. C167_carried_partial: carrying over works for every history in which no update threw on a text of the length of a hash. Missing: histories with such an update, violated by the code (C167_carried_refuted). C167_unset_partial: which password a user without one takes (C167_unset_refuted: the empty one, without OpenSSL)."
  },
  {
   "property": "C168",
   "status": "partial",
   "theorems": [
    "C168_only_partial",
    "C168_found_partial",
    "C168_spelling_refuted",
    "C168_root_refuted",
    "C168_slash_refuted",
    "C168_starts_partial"
   ],
   "note": "C168_only_partial: nothing else is served, for every directory but the root. C168_found_partial: what was found is served, for an absolute directory with plain names and the plain path. C168_starts_partial: start returns for every tree that ends and holds only directories and files (with scan 1, any tree that ends). Missing: other spellings, the root, and a directory with a slash at the end, where the code violates it (C168_spelling_refuted, C168_root_refuted, C168_slash_refuted)."
  },
  {
   "property": "C169",
   "status": "partial",
   "theorems": [
    "C169_head_partial",
    "C169_length_partial",
    "C169_between_partial",
    "C169_inside_partial",
    "C169_chunks_partial",
    "C169_trailers_partial",
    "C169_valid_refuted",
    "C169_content_refuted",
    "C169_variables_refuted"
   ],
   "note": "C169_head_partial, C169_length_partial: truncated, with the content that came. C169_chunks_partial (and C169_between_partial, C169_inside_partial): chunks cut anywhere before their last line ends give the data that came; truncated, unless the cut is where a chunk is to begin - then the message is taken for whole. C169_trailers_partial: in the trailers the content is lost. Missing: what the code violates (C169_valid_refuted, C169_content_refuted, C169_variables_refuted), chunked content over the maximum (C20), and multipart forms."
  },
  {
   "property": "C170",
   "status": "partial",
   "theorems": [
    "C170_lines_partial",
    "C170_added_partial",
    "C170_split_partial",
    "C170_headers_refuted",
    "C170_message_refuted"
   ],
   "note": "Missing: texts with line breaks, for which the code violates the claim (C170_headers_refuted, C170_message_refuted). What a receiver then sees is proved for broken header values and cookies (C170_added_partial) and for a status text that ends the head (C170_split_partial)."
  },
  {
   "property": "C171",
   "status": "partial",
   "theorems": [
    "C171_calls_partial",
    "C171_same_partial",
    "C171_reads_nothing",
    "C171_form_refuted"
   ],
   "note": "Missing: requests with a form, for which the code violates the claim (C171_form_refuted); what happens to them is in C171_calls_partial. Messages with missing packets are covered once data came after them."
  },
  {
   "property": "C172",
   "status": "partial",
   "theorems": [
    "C172_gone_partial",
    "C172_not_sent_partial",
    "C172_kept_partial",
    "C172_gone_refuted",
    "C172_ways_refuted"
   ],
   "note": "Missing: files that are in the cache and services that scan their directory, for which the code violates the claim (C172_gone_refuted, C172_ways_refuted); what happens to cached files without a scan is in C172_kept_partial."
  }
 ]
}