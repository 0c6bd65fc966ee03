{"claims": [
{"property": "C01", "status": "proved", "theorems": ["C01_list_refines_sequence", "C01_list_frame"], "note": ""},
{"property": "C02", "status": "proved", "theorems": ["C02_iteration_with_removal", "C02_kept_is_filter"], "note": ""},
{"property": "C03", "status": "partial", "theorems": ["C03_out_of_range", "C03_add_appends_partial", "C03_add_appends_refuted"], "note": "Out-of-range claims proved. Insertion at an out-of-range position appends for pos = -1 and pos >= size; for pos < -1 it is refuted: osip_list_add inserts at index 1."},
{"property": "C04", "status": "partial", "theorems": ["C04_add_partial", "C04_never_late", "C04_add_refuted", "C04_compare"], "note": "osip_timercmp and min_timercmp proved for all inputs; add_gettimeofday proved up to 1 000 000 ms and refuted above (microseconds of the current time are dropped)."},
{"property": "C05", "status": "partial", "theorems": ["C05_never_misses_a_timer_partial", "C05_not_too_early", "C05_refuted"], "note": "The returned delay never misses an armed timer and is normalised; refuted: pending events are only considered for INVITE client transactions."},
{"property": "C06", "status": "proved", "theorems": ["C06_linearizable", "C06_nothing_lost", "C06_fifo", "C06_semaphore", "C06_claim_served"], "note": ""},
{"property": "C07", "status": "proved", "theorems": ["C07_killed_once", "C07_kill_when_entering", "C07_silent_after_termination"], "note": ""},
{"property": "C08", "status": "partial", "theorems": ["C08_follows_rfc_diagram_partial", "C08_never_backwards", "C08_refuted"], "note": "Every change is an RFC 3261 edge except one: a 3xx-6xx without From/To/Call-ID/CSeq terminates an INVITE client transaction directly (refuted part)."},
{"property": "C09", "status": "proved", "theorems": ["C09_one_outcome", "C09_answers_are_reported", "C09_outcome_when_over", "C09_outcome_when_over_needs_headers"], "note": ""},
{"property": "C10", "status": "partial", "theorems": ["C10_ack_for_each_final_partial", "C10_no_other_ack", "C10_same_ack", "C10_refuted"], "note": "Reports are exact except for the silent termination on a 3xx-6xx for which no ACK can be built (refuted part)."},
{"property": "C11", "status": "proved", "theorems": ["C11_ack_fields"], "note": ""},
{"property": "C12", "status": "partial", "theorems": ["C12_timer_D", "C12_timer_D_ends", "C12_schedule_partial", "C12_retransmits", "C12_times_out", "C12_timeout_not_before", "C12_only_before_answer", "C12_reliable", "C12_refuted"], "note": "Schedule proved for every timed run; refuted part: timers A and B run from the creation of the transaction, not from the first send."},
{"property": "C13", "status": "proved", "theorems": ["C13_announced_once", "C13_copy_resends_last", "C13_ack_announced", "C13_ack_stops", "C13_one_final_answer"], "note": ""},
{"property": "C14", "status": "partial", "theorems": ["C14_timer_H", "C14_timer_H_ends", "C14_timer_I_partial", "C14_timer_I_ends", "C14_schedule_partial", "C14_resends", "C14_until_ack", "C14_refuted", "C14_timer_I_refuted"], "note": "Schedule proved for runs where timers are polled with an empty queue; refuted: a poll with pending timeouts queues duplicates, and each ACK restarts timer I."},
{"property": "C15", "status": "partial", "theorems": ["C15_timer_K", "C15_timer_K_ends", "C15_schedule_partial", "C15_resends", "C15_only_before_answer", "C15_timeout_not_before", "C15_times_out", "C15_reliable_partial", "C15_refuted"], "note": "Schedule proved for runs where timers are polled with an empty queue; refuted: duplicates otherwise."},
{"property": "C16", "status": "proved", "theorems": ["C16_timer_J", "C16_timer_J_ends", "C16_announced_once", "C16_copy_resends_last", "C16_one_final_answer", "C16_further_answers_ignored"], "note": ""},
{"property": "C17", "status": "partial", "theorems": ["C17_failure_is_reported", "C17_error_only_on_failure_partial", "C17_nonnegative_request_send", "C17_refuted"], "note": "Refuted for ACKs and server responses: a positive send result is treated as an error. Everything else proved."},
{"property": "C18", "status": "proved", "theorems": ["C18_stray_events", "C18_kill_event"], "note": ""},
{"property": "C19", "status": "proved", "theorems": ["C19_delivered", "C19_no_crash"], "note": ""},
{"property": "C20", "status": "partial", "theorems": ["C20_delivered", "C20_copy_and_ack", "C20_copy_2543_partial", "C20_refuted", "C20_2543_same"], "note": "Refuted part: a RFC 2543 style copy does not match before the first event of the transaction was executed."},
{"property": "C21", "status": "proved", "theorems": ["C21_typed", "C21_created", "C21_no_crash", "C21_unique_ids"], "note": ""},
{"property": "C22", "status": "proved", "theorems": ["C22_tables", "C22_remove"], "note": ""},
{"property": "C23", "status": "proved", "theorems": ["C23_drained", "C23_total"], "note": ""},
{"property": "C24", "status": "partial", "theorems": ["C24_response_target_partial", "C24_refuted"], "note": "Refuted part: a maddr or received parameter without value makes the destination a null host."},
{"property": "C25", "status": "proved", "theorems": ["C25_destination", "C25_sends"], "note": ""},
{"property": "C26", "status": "proved", "theorems": ["C26_refines", "C26_alone", "C26_bounded", "C26_not_early", "C26_not_omitted"], "note": ""},
{"property": "C27", "status": "proved", "theorems": ["C27_initial_routes", "C27_route_history", "C27_frozen"], "note": ""},
{"property": "C28", "status": "partial", "theorems": ["C28_stable", "C28_remote_tag_origin", "C28_match_uac", "C28_match_uas_partial", "C28_match_unknown_remote", "C28_refuted"], "note": "Refuted part: osip_dialog_match_as_uas never compares the local tag."},
{"property": "C29", "status": "proved", "theorems": ["C29_clrspace", "C29_clrncpy", "C29_clrncpy_with_terminator"], "note": ""},
{"property": "C30", "status": "proved", "theorems": ["C30_quote_find"], "note": ""},
{"property": "C31", "status": "proved", "theorems": ["C31_round_trip", "C31_dequote_in_bounds", "C31_one_quoted_string"], "note": ""},
{"property": "C32", "status": "proved", "theorems": ["C32_escape", "C32_unescape_in_place", "C32_round_trip"], "note": ""},
{"property": "C33", "status": "proved", "theorems": ["C33_round_trip", "C33_other_scheme"], "note": "Round trip proved for every well formed URI (uri_wf states the values the grammar admits in each field); other schemes in C33_other_scheme."},
{"property": "C34", "status": "partial", "theorems": ["C34_round_trip", "C34_comment_refuted"], "note": "Round trip proved for well formed Vias; refuted edge case: a semicolon inside a comment."},
{"property": "C35", "status": "partial", "theorems": ["C35_round_trip", "C35_other_scheme", "C35_contact", "C35_contact_star", "C35_leading_space_refuted", "C35_semicolon_refuted"], "note": "Round trip proved for well formed name-addr values; refuted edge cases: leading spaces, trailing semicolon after a tel URI inside brackets."},
{"property": "C36", "status": "partial", "theorems": ["C36_cseq_round_trip", "C36_cseq_trailing_refuted", "C36_cseq_match", "C36_call_id_round_trip", "C36_call_id_match", "C36_call_id_match_text"], "note": "Round trip proved; refuted edge case: trailing white space is kept in the CSeq method."},
{"property": "C37", "status": "proved", "theorems": ["C37_round_trip"], "note": ""},
{"property": "C38", "status": "partial", "theorems": ["C38_content_type", "C38_accept", "C38_flag_refuted", "C38_accept_encoding", "C38_call_info"], "note": "Round trip proved; refuted edge case: a parameter without value makes printing fail."},
{"property": "C39", "status": "proved", "theorems": ["C39_init", "C39_known", "C39_unknown", "C39_case"], "note": ""},
{"property": "C40", "status": "partial", "theorems": ["C40_www_authenticate", "C40_authorization", "C40_authentication_info_refuted", "C40_authentication_info_partial", "C40_from", "C40_via", "C40_cseq", "C40_call_id", "C40_content_type", "C40_accept", "C40_accept_encoding", "C40_call_info", "C40_startline", "C40_body", "C40_message", "C40_message_safe", "C40_message_boundary_refuted", "C40_uri"], "note": "Proved: every header printer, the start line, the MIME part printer and osip_message_to_str write exactly the specified text inside their buffer (C40_message is an equation over all messages, C40_message_safe excludes undefined behaviour for printable messages). Refuted edge cases: Authentication-Info buffer is one byte short; a boundary parameter made of a single double quote makes osip_message_to_str copy SIZE_MAX bytes."},
{"property": "C41", "status": "proved", "theorems": ["C41_top", "C41_last", "C41_get_byname", "C41_get_byname_none", "C41_replace", "C41_named", "C41_negative_position_ub"], "note": ""},
{"property": "C42", "status": "partial", "theorems": ["C42_unfold_partial", "C42_message_partial", "C42_blank_continuation_refuted", "C42_safe_partial", "C42_end_refuted"], "note": "Folding proved inert for messages ending with an empty line; refuted edge cases: text ending in a line break, and a continuation line of blanks before the empty line."},
{"property": "C43", "status": "partial", "theorems": ["C43_join", "C43_unsplit", "C43_no_comma", "C43_split_partial", "C43_store_partial", "C43_escape_refuted", "C43_scheme_refuted"], "note": "Splitting proved for every sequence of elements whose commas are quoted or inside a known-scheme <uri>; refuted edge cases: escaped quotes and other schemes."},
{"property": "C44", "status": "proved", "theorems": ["C44_request", "C44_response", "C44_request_sip"], "note": "Request lines and status lines printed from a message are read back exactly, whatever follows the line. Finding: a status line without a reason phrase takes it from the next line (Example startline_crosses_line)."},
{"property": "C45", "status": "partial", "theorems": ["C45_body", "C45_too_long", "C45_no_length", "C45_message", "C45_received_partial", "C45_mixed_breaks_refuted", "C45_start_line_refuted"], "note": "Proved in terms of the received bytes for every message whose head consists of visible lines ended by CR LF with a start line of at least two spaces, folded or not: no body (no complete Content-Type or no positive Content-Length) or exactly the first Content-Length bytes after the empty line (C45_received_partial); too long a Content-Length is refused. Refuted: if the last header line ends with LF alone the body is rewritten by the unfolding; a start line without spaces is continued behind the empty line."},
{"property": "C46", "status": "partial", "theorems": ["C46_partial", "C46_refuted"], "note": "Printed Content-Length equals the body size whenever the printed message has at most 999 999 bytes; refuted above: the seventh digit overwrites the colon."},
{"property": "C47", "status": "partial", "theorems": ["C47_digest_partial", "C47_chunking_partial", "C47_huge_chunk_refuted"], "note": "Proved for chunks of at most 2^32-64 bytes, any number of them and any total length. A chunk of 2^32-1 bytes after one buffered byte makes the unsigned index wrap and reads past the input (C47_huge_chunk_refuted)."},
{"property": "C48", "status": "partial", "theorems": ["C48_param", "C48_uri", "C48_from", "C48_via", "C48_cseq", "C48_call_id", "C48_content_length", "C48_content_type", "C48_elem", "C48_header", "C48_www_partial", "C48_authz_partial", "C48_authinfo", "C48_body", "C48_message_partial", "C48_independent", "C48_cached_text_refuted", "C48_auth_param_refuted", "C48_empty_body_refuted"], "note": "Proved on a heap of blocks for every clone function. Conditions: mandatory fields present; strings without NUL; the unused field auth_param is NULL; application_data is an opaque pointer and is shared. Refuted: a cached text with a NUL byte is truncated while its length is copied, auth_param is lost, a message with an empty body cannot be cloned."},
{"property": "C49", "status": "partial", "theorems": ["C49_www_authenticate", "C49_authorization", "C49_authentication_info", "C49_empty_quoted_refuted", "C49_short_token_refuted"], "note": "Round trip proved; refuted edge cases: fewer than six trailing characters are ignored, empty quoted values are dropped."},
{"property": "C50", "status": "partial", "theorems": ["C50_partial", "C50_refuted"], "note": "Exact up to INT_MAX; refuted above on LP64: the long is truncated to int, e.g. 4294972356 becomes 5060."},
{"property": "C51", "status": "proved", "theorems": ["C51_poll_effect", "C51_due_is_queued"], "note": ""},
{"property": "C52", "status": "proved", "theorems": ["C52_incoming_class", "C52_outgoing_class", "C52_accepted"], "note": ""},
{"property": "C53", "status": "proved", "theorems": ["C53_in_bounds"], "note": ""},
{"property": "C54", "status": "proved", "theorems": ["C54_no_missing_message", "C54_ownership"], "note": ""},
{"property": "C55", "status": "partial", "theorems": ["C55_partial", "C55_unquoted", "C55_refuted"], "note": "Refuted for a text that is one quote: byte -1 of the copy is written."},
{"property": "C56", "status": "partial", "theorems": ["C56_www_authenticate", "C56_authorization", "C56_authentication_info", "C56_generic_params", "C56_from", "C56_contact", "C56_via_refuted", "C56_via_partial", "C56_cseq", "C56_call_id", "C56_content_length", "C56_content_type", "C56_accept_encoding", "C56_call_info", "C56_header_field", "C56_headers", "C56_startline", "C56_message_partial", "C56_message_refuted", "C56_uri"], "note": "Proved for all header parsers and the message parser, for every text whose multipart body has no empty part; refuted edge cases: Via text 'SIP/2.0/ ' and a multipart body with an empty part."},
{"property": "C57", "status": "partial", "theorems": ["C57_multipart", "C57_part_refuted", "C57_via", "C57_from", "C57_contact", "C57_call_id", "C57_cseq", "C57_content_type", "C57_text", "C57_accept_encoding", "C57_info", "C57_www_authenticate", "C57_authorization", "C57_authentication_info", "C57_syntax", "C57_multipart_syntax", "C57_round_trip", "C57_multipart_refuted"], "note": "Proved up to a million bytes for messages without body, with one non-multipart body (C57_syntax) and with a multipart body under a Mime-Version header (C57_multipart_syntax); the conditions are on the fields of the message only. Refuted outside them: boundary lines need a Mime-Version header, a part without headers does not parse back, a part header comes back with a capital, a part header whose name begins as Content-Type is taken for it."},
{"property": "C58", "status": "partial", "theorems": ["C58_parse_safe_partial", "C58_parse_safe_refuted"], "note": "Proved for every text that does not end in a lone CR or LF right after its last value (it ends with CR LF or without line end). Refuted otherwise: a final \"m=\" line without payload ended by a single LF or CR is read one byte past the terminator."},
{"property": "C59", "status": "proved", "theorems": ["C59_accepted_complete"], "note": ""},
{"property": "C60", "status": "proved", "theorems": ["C60_print"], "note": ""},
{"property": "C61", "status": "proved", "theorems": ["C61_round_trip", "C61_can_write", "C61_received"], "note": ""},
{"property": "C62", "status": "partial", "theorems": ["C62_clone_partial", "C62_clone_received", "C62_clone_no_time_refuted", "C62_clone_ttl_refuted"], "note": "Proved for descriptions whose fields fit on their lines, in particular all parsed ones. Refuted for a description without time (no copy) and for a connection with a number of addresses but no TTL (the copy differs)."},
{"property": "C63", "status": "partial", "theorems": ["C63_nothing_lost_partial", "C63_nothing_lost_refuted"], "note": "Proved for texts in the form the printer uses. Refuted: after the first \"t=\", a line of unknown kind or out of order ends the parse with success and the rest of the text is dropped."},
{"property": "C64", "status": "partial", "theorems": ["C64_attribute_add", "C64_bandwidth_add", "C64_connection_add", "C64_key_set", "C64_info_set", "C64_payload_add", "C64_port_set", "C64_media_add", "C64_lists_add", "C64_repeat_add", "C64_no_media_partial", "C64_no_media_refuted"], "note": "Proved for the session (-1) and existing media. A position beyond the last media is an error; a position below -1 or equal to INT_MAX is refuted: NULL is dereferenced."},
{"property": "C65", "status": "partial", "theorems": ["C65_del_by_name", "C65_del_at_index_session", "C65_del_at_index_media_refuted", "C65_del_first_media_refuted", "C65_payload_del"], "note": "Proved for deletion by name, deletion of session attributes by position and of payloads. Refuted for attributes of a media by position: position 0 deletes all, any other position never returns."},
{"property": "C66", "status": "partial", "theorems": ["C66_param", "C66_uri", "C66_from", "C66_via", "C66_cseq", "C66_call_id", "C66_content_length", "C66_content_type", "C66_elem", "C66_header", "C66_authinfo", "C66_www_partial", "C66_authz_partial", "C66_body", "C66_message_partial", "C66_sdp", "C66_dialog", "C66_event_partial", "C66_transaction_partial", "C66_ixt_partial", "C66_null", "C66_param_null_refuted", "C66_clone_then_free", "C66_free_original", "C66_message_clone_then_free_partial", "C66_auth_param_refuted"], "note": "Proved for every free function. Structures holding credentials (WWW-Authenticate, Authorization and what contains them) only when their auth_param is NULL, which no library function sets: the field is not freed (C66_auth_param_refuted). osip_uri_param_free(NULL) crashes, unlike the others."},
{"property": "C67", "status": "partial", "theorems": ["C67_print_current_partial", "C67_property_partial", "C67_force_update", "C67_print_keeps_content", "C67_start_line_refuted", "C67_method_refuted", "C67_fragment_refuted", "C67_clone_nul_refuted", "C67_no_memory_refuted"], "note": "Proved for histories that use one of the two printing functions, call osip_message_force_update with a change of the start line after a print, and do not clone a message whose cached text has a NUL byte. Refuted otherwise: the five start line setters leave the old text in use, osip_message_to_str answers the text of osip_message_to_str_sipfrag, printing the clone of a message with a NUL byte in its body reads past the cached copy, and a failed allocation of the copy makes the next print read NULL. Direct changes of the structure by the application are its own responsibility."},
{"property": "C68", "status": "partial", "theorems": ["C68_param_partial", "C68_uri_partial", "C68_from_partial", "C68_via_partial", "C68_cseq_partial", "C68_call_id_partial", "C68_content_type_partial", "C68_elem_partial", "C68_authinfo_partial", "C68_www_partial", "C68_authz_partial", "C68_body_partial", "C68_message_partial", "C68_error_leaves_nothing", "C68_original_kept", "C68_enough_memory", "C68_content_length", "C68_header", "C68_www", "C68_uri_refuted", "C68_list_refuted", "C68_authz_refuted"], "note": "Proved in full for content_length/allow/content_encoding/mime_version, header and www_authenticate/proxy_authenticate, which test every allocation. For all clone functions: no undefined behaviour, the original untouched, nothing outside fresh blocks changed, an error after which no failure was overlooked leaves memory as before, a success without overlooked failure is an equal copy. Refuted in full: osip_strdup results are not tested in osip_uri_clone, osip_uri_param_clone, cseq, call_id, content_type, authentication_info (success with fields missing); osip_authorization_clone tests the original's fields; osip_list_clone ignores osip_list_add, the element is lost and leaked. Bodies must have their header list."},
{"property": "C69", "status": "proved", "theorems": ["C69_no_undefined_behaviour", "C69_tables_and_ids", "C69_events_once_in_order", "C69_pass_leaves_nothing", "C69_free_rule_needed", "C69_callback_rule_needed", "C69_create_rule_needed"], "note": "Proved under the stated rules of use; the three C69_*_rule_needed theorems show that none can be dropped."},
{"property": "C70", "status": "proved", "theorems": ["C70_no_deadlock", "C70_callback_rule_needed"], "note": "Proved under the stated rules of use; C70_callback_rule_needed shows the one on callbacks is needed."},
{"property": "C71", "status": "proved", "theorems": ["C71_one_transaction_per_key", "C71_source_rule_needed"], "note": "Proved under the stated rules of use; C71_source_rule_needed shows that two receiving threads break it."},
{"property": "C72", "status": "partial", "theorems": ["C72_one_executor_partial", "C72_state_race_refuted"], "note": "At most one thread executes events of a transaction (proved). Refuted: the timer functions read the state without a mutex while the state machine runs."},
{"property": "C73", "status": "proved", "theorems": ["C73_forget_rule_needed", "C73_no_undefined_behaviour", "C73_request_is_the_clients", "C73_request_told_once", "C73_answers_are_the_servers", "C73_one_final_told", "C73_agreement", "C73_ack_means_known"], "note": "Two transactions and a lossy network, any history. C73_forget_rule_needed: once the server lets go of its transaction a late copy of the request is new again."},
{"property": "C74", "status": "proved", "theorems": ["C74_lost_answer_recovered", "C74_lost_refusal_or_ack_recovered", "C74_lost_request_recovered", "C74_lost_2xx_rule_needed"], "note": "Recovery within three moves from any reachable state, all earlier messages lost. C74_lost_2xx_rule_needed: a lost 2xx to an INVITE is never repeated by the transactions and no timer of the client ends the wait."},
{"property": "C75", "status": "proved", "theorems": ["C75_read_back", "C75_opens", "C75_ack_sendable", "C75_reaches_server", "C75_reaches_client"], "note": "Composition of C57 with C19, C20 and C21. The branch must be an RFC 3261 one for requests; two transactions with the same branch, sent-by and method are told apart by age only."},
{"property": "C76", "status": "partial", "theorems": ["C76_safe_partial", "C76_whole_message", "C76_round_trip_partial", "C76_start_line", "C76_safe_refuted", "C76_refuted"], "note": "Round trip proved up to a million bytes for fragments without multipart body. Without a start line the text must not begin like one: the first header line \"Subject: sip:a SIP/2.0\" is read back as a request of the method \"Subject:\". Memory safety as C56: refuted for texts that end with blanks and for multipart bodies with a part without headers."},
{"property": "C77", "status": "partial", "theorems": ["C77_call_id", "C77_cseq", "C77_content_length", "C77_www_authenticate", "C77_authorization", "C77_authentication_info", "C77_uri_partial", "C77_address_partial", "C77_via_partial", "C77_content_type_partial", "C77_accept_encoding_partial", "C77_call_info_partial", "C77_message_partial", "C77_message_refuted", "C77_list_refuted"], "note": "Proved in full for Call-ID, CSeq, Content-Length (and the headers parsed like it) and the authentication headers. For URIs, addresses, Via, Content-Type and the other headers with parameters, and for messages and fragments, proved except for two ways to lose memory that are refuted: osip_list_add cannot allocate its node and nobody looks at its answer (needs a failed allocation), and a part of a multipart body with two Content-Type lines (needs nothing but the text). Parsing into a structure that was already filled is not covered."},
{"property": "C78", "status": "partial", "theorems": ["C78_sdp_partial", "C78_connection", "C78_pair", "C78_media_partial", "C78_sdp_refuted"], "note": "Proved except for two ways to lose memory, both refuted: the node of a list cannot be allocated (C77_list_refuted), and a line replaces what an earlier line of the same kind had set, which needs nothing but the text (C78_sdp_refuted, C78_sdp_refuted_text). Connection, bandwidth, attribute and key lines come back in full."},
{"property": "C79", "status": "partial", "theorems": ["C79_stack", "C79_event_partial", "C79_transaction_partial", "C79_other_kinds_partial", "C79_new_transaction_partial", "C79_dialog_partial", "C79_transaction_refuted", "C79_ict_rule_needed"], "note": "Proved except for what is lost when an allocation fails unnoticed, which is refuted: the node of a list (as in C77), and the semaphore of the queue of a transaction, without which queued events are never freed (C79_transaction_refuted). C79_new_transaction_partial and C79_dialog_partial exclude everything but the nodes of lists; C79_stack has no exception. C79_ict_rule_needed: __osip_ict_init leaves a dangling pointer on an error path that osip_transaction_init only avoids because osip_via_clone has made the same test before."},
{"property": "C80", "status": "partial", "theorems": ["C80_semaphore_partial", "C80_value_refuted", "C80_permits_partial", "C80_nothing_lost_partial", "C80_no_deadlock", "C80_wait_returns"], "note": "Proved for semaphores made with the value 0, the only one the library uses (C80_semaphore_partial: every history of calls and answers is one of an atomic counting semaphore; C80_permits_partial and C80_nothing_lost_partial say the same in numbers); C80_no_deadlock and C80_wait_returns hold for every value. Refuted for other values: osip_sem_init ignores its argument (C80_value_refuted). The other platforms hand the calls to the operating system."},
{"property": "C81", "status": "partial", "theorems": ["C81_mutex", "C81_signals", "C81_kept", "C81_wakes_partial", "C81_returns", "C81_wakes_refuted", "C81_limit_partial", "C81_limit_refuted"], "note": "C81_mutex, C81_signals, C81_kept and C81_returns hold for any use. Waking up is proved when osip_cond_wait is used by one thread at a time (C81_wakes_partial; timed waits are not restricted) and refuted for two: they deadlock each other for ever, whatever is signalled (C81_wakes_refuted). The time limit is proved for limits up to 24 days away (C81_limit_partial) and refuted beyond (C81_limit_refuted). The pthread version hands the calls to the system; the VxWorks version does not compile."},
{"property": "C82", "status": "partial", "theorems": ["C82_never_back", "C82_never_back_history", "C82_not_ahead", "C82_catches_up_partial", "C82_catches_up_refuted"], "note": "Never going back is proved for every reading of the real time clock (C82_never_back, C82_never_back_history), never being two seconds ahead for every history (C82_not_ahead). Catching up is proved for a correction made between five seconds and an hour after the last one (C82_catches_up_partial) and refuted later: more than an hour after the last correction the code returns before it notes the readings, so that nothing is ever corrected again (C82_catches_up_refuted). Both clocks are taken to be read at one moment."},
{"property": "C83", "status": "proved", "theorems": ["C83_first_place", "C83_strcasecmp", "C83_strncasecmp"], "note": "For every text and every length. Only the answer 0 or not 0 of the comparisons is modelled, which is all the library uses."},
{"property": "C84", "status": "proved", "theorems": ["C84_reasons"], "note": "Both directions, for every integer; the phrases of RFC 3261 are written down separately from the tables of the model."},
{"property": "C85", "status": "partial", "theorems": ["C85_levels_partial", "C85_levels_refuted"], "note": "Proved for levels of the table; refuted for END_TRACE_LEVEL, a value of the type of levels, for which osip_trace_enable_level writes past the table (C85_levels_refuted). The text that is printed is not modelled."},
{"property": "C86", "status": "partial", "theorems": ["C86_message", "C86_fragment_partial", "C86_fragment_refuted"], "note": "Proved for every text given to osip_message_parse (C86_message), and for fragments that do not begin with \"SIP/\" (C86_fragment_partial). Refuted for those that do: a refused status line leaves its version behind (C86_fragment_refuted)."},
{"property": "C87", "status": "partial", "theorems": ["C87_text_partial", "C87_safe", "C87_parsed_back_partial", "C87_distinct_partial", "C87_distinct_refuted", "C87_text_refuted"], "note": "Safety and length are proved for every URI that has a text (C87_safe), the text for every well-formed URI whose host and port have no percent sign (C87_text_partial). Reading back and distinctness are proved when no part needs an escape (C87_parsed_back_partial, C87_distinct_partial). Refuted in general: a zone in the host cuts the text (C87_text_refuted), and two different URIs share a canonical text (C87_distinct_refuted)."},
{"property": "C88", "status": "partial", "theorems": ["C88_exact_partial", "C88_bounds", "C88_exact_refuted", "C88_arc"], "note": "Exact below one second and for whole seconds (C88_exact_partial), never longer and less than a second shorter in general (C88_bounds), exact in the version for ARC (C88_arc). Refuted in general: the fraction of a longer time is dropped (C88_exact_refuted). What the system then does is not modelled."},
{"property": "C89", "status": "partial", "theorems": ["C89_append_partial", "C89_overlap_refuted", "C89_append_n", "C89_printing", "C89_printing_n"], "note": "Proved for osip_strn_append with any overlap (C89_append_n) and for osip_str_append unless the destination lies inside the text or at its terminator (C89_append_partial); in that case the loop leaves the memory (C89_overlap_refuted). With the text in another object, appending in memory gives exactly what the models of the printing functions say of it (their emit), overrun included (C89_printing, C89_printing_n)."},
{"property": "C90", "status": "partial", "theorems": ["C90_vxworks_partial", "C90_vxworks_refuted", "C90_psos_accumulates_refuted", "C90_psos_overrun_refuted"], "note": "About the two versions the library brings itself; elsewhere it is the one of the C library. VxWorks: what is written is proved for every text handed over in at least one piece (C90_vxworks_partial); the value returned, no piece and no room are refuted (C90_vxworks_refuted). pSOS: refuted for every sequence of calls; each delivers the texts of all earlier ones (C90_psos_accumulates_refuted), until the static buffer is overrun (C90_psos_overrun_refuted)."},
{"property": "C91", "status": "partial", "theorems": ["C91_place_partial", "C91_place_refuted", "C91_name", "C91_time_partial", "C91_monotone_partial", "C91_time_refuted", "C91_line_partial", "C91_line_refuted"], "note": "Place: proved when all initializations are of one kind (C91_place_partial); refuted otherwise, a function or syslog keeps the traces (C91_place_refuted). Name: proved (C91_name). Time: proved for 24 days (C91_time_partial, C91_monotone_partial), negative after 25 (C91_time_refuted). Line for syslog: proved when its head fits in 511 bytes (C91_line_partial), otherwise the buffer is overrun (C91_line_refuted). The other systems and the formatting of the C library are not modelled."},
{"property": "C92", "status": "partial", "theorems": ["C92_last_partial", "C92_negative_refuted"], "note": "Proved for every history without negative types (C92_last_partial). Refuted for negative types, which are not refused (C92_negative_refuted)."}
]}
