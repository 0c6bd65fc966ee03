{"id": "C01", "title": "Lists behave as sequences over every history", "statement": "After any history of osip_list_add, osip_list_get, osip_list_remove and osip_list_size on a list, the value returned by every call is the one a plain mathematical sequence would return, no element is lost, duplicated or reordered, and no call touches a freed or unallocated node.", "quantifier": "every finite history of list calls, every position argument >= -1, every element value, every address the allocator hands out", "why_tests_cant": "histories and positions are unbounded; pointer splicing bugs only show for particular positions in particular histories", "anchors": ["src/osipparser2/osip_list.c: osip_list_add, osip_list_get, osip_list_remove, osip_list_size, osip_list_eol"]}
{"id": "C02", "title": "List iteration visits each element once, also while removing", "statement": "Walking a list with osip_list_get_first / osip_list_get_next visits every element exactly once in list order; calling osip_list_iterator_remove on any subset of the visited elements removes exactly that subset, still visits every other element once, and leaves the remaining order unchanged.", "quantifier": "every list, every subset of elements removed during the walk", "why_tests_cant": "the number of lists times subsets is unbounded; the first/last/only element cases differ", "anchors": ["src/osipparser2/osip_list.c: osip_list_get_first, osip_list_get_next, osip_list_iterator_remove", "include/osipparser2/osip_list.h: osip_list_iterator_has_elem"]}
{"id": "C03", "title": "Out-of-range list positions are harmless", "statement": "osip_list_get and osip_list_remove with a position outside 0..size-1 report failure and leave the list unchanged; osip_list_add with any position outside 0..size-1 appends at the end; on success add and remove return the new size.", "quantifier": "every list and every int position", "why_tests_cant": "positions range over all ints including negative ones", "anchors": ["src/osipparser2/osip_list.c: osip_list_add, osip_list_get, osip_list_remove"]}
{"id": "C04", "title": "Timer arithmetic adds exactly the requested delay", "statement": "Arming a timer d milliseconds ahead of time t stores a normalised time equal to t + d ms.", "quantifier": "every normalised time and every non-negative int delay", "why_tests_cant": "the delay and the microsecond part range over millions of values; the defect needs a delay over 1000 s", "anchors": ["src/osip2/osip_time.c: add_gettimeofday", "include/osip2/osip_time.h: osip_timercmp"]}
{"id": "C05", "title": "Sleeping for osip_timers_gettimeout never misses a timer", "statement": "The delay returned by osip_timers_gettimeout is normalised, non-negative, and never later than the earliest armed timer of any transaction; when a timer has already expired or an event is pending it is zero.", "quantifier": "every set of transactions of the four kinds, every timer value, every current time", "why_tests_cant": "depends on the minimum over an unbounded set and on borrow arithmetic", "anchors": ["src/osip2/osip.c: osip_timers_gettimeout", "src/osip2/osip_time.c: min_timercmp"]}
{"id": "C06", "title": "Event queues are FIFO and lose nothing", "statement": "For any interleaving of osip_fifo_add, osip_fifo_insert, osip_fifo_get and osip_fifo_tryget by any number of threads, the events handed out are exactly those queued, each once, in queue order (insert puts an event first), and the semaphore count plus the number of readers already let through always equals the number of queued events, so a blocked reader is woken exactly when an event is there.", "quantifier": "every interleaving (each call is atomic under the queue mutex), every number of producers and consumers", "why_tests_cant": "schedules are unbounded; races are not reproducible by tests", "anchors": ["src/osip2/port_fifo.c: osip_fifo_add, osip_fifo_insert, osip_fifo_get, osip_fifo_tryget, osip_fifo_size"]}
{"id": "C07", "title": "A terminated transaction stays silent and is reported dead exactly once", "statement": "For each of the four transaction kinds, whatever events arrive in whatever order, the kill callback is invoked exactly when the transaction enters its terminated state, at most once overall, and afterwards no event causes any send, any callback or any state change.", "quantifier": "every sequence of events (messages, timeouts) and every result of the send callback", "why_tests_cant": "event histories are unbounded and send results are environment controlled", "anchors": ["src/osip2/osip_transaction.c: osip_transaction_execute", "src/osip2/ict_fsm.c, ist_fsm.c, nict_fsm.c, nist_fsm.c", "src/osip2/fsm_misc.c: fsm_callmethod"]}
{"id": "C08", "title": "Transactions only follow the RFC 3261 state diagrams", "statement": "Every state change performed by a transaction is an edge of the RFC 3261 section 17 diagram of its kind, taken on an event that labels that edge; states never go backwards.", "quantifier": "every history of events and send results for each of the four transaction kinds", "why_tests_cant": "histories are unbounded", "anchors": ["src/osip2/ict_fsm.c, ist_fsm.c, nict_fsm.c, nist_fsm.c"]}
{"id": "C09", "title": "Client INVITE transaction reports each final answer once", "statement": "Over the whole life of a client INVITE transaction the application gets at most one first-time final outcome: one 2xx, or one 3xx-6xx, or one timeout, or one transport error before a final answer; provisional answers are reported only before it, and further copies of the final answer are reported only as 'received again'.", "quantifier": "every event history and every send result", "why_tests_cant": "duplicates, reordering and late answers combine without bound", "anchors": ["src/osip2/ict_fsm.c: ict_rcv_1xx, ict_rcv_2xx, ict_rcv_3456xx, ict_retransmit_ack, osip_ict_timeout_b_event"]}
{"id": "C10", "title": "Every non-2xx final INVITE answer is acknowledged, nothing else is", "statement": "A client INVITE transaction sends an ACK once for every 3xx-6xx answer it accepts (first copy and each retransmission) and never for a 1xx or 2xx; every ACK sent is the same message, built at the first answer.", "quantifier": "every event history in which the send callback reports success, every answer content", "why_tests_cant": "history dependent and unbounded", "anchors": ["src/osip2/ict_fsm.c: ict_rcv_3456xx, ict_retransmit_ack, ict_create_ack"]}
{"id": "C11", "title": "The automatic ACK carries what RFC 3261 17.1.1.3 demands", "statement": "The ACK built for a 3xx-6xx answer has the Request-URI, version, top Via and all Routes (in order) of the INVITE, the From, To (with tag), Call-ID and CSeq number of the answer, method ACK in both the request line and CSeq, a single Via; and the INVITE's credentials are copied except for 401 and 407.", "quantifier": "every INVITE and every matching answer", "why_tests_cant": "messages are unbounded data; a swapped field is only visible when the two sources differ", "anchors": ["src/osip2/ict_fsm.c: ict_create_ack"]}
{"id": "C12", "title": "INVITE retransmission schedule (timers A, B, D)", "statement": "On an unreliable transport an unanswered INVITE is retransmitted with intervals T1, 2*T1, 4*T1, ... and never before each interval has elapsed; retransmissions happen only before the first answer; on a reliable transport there are none; if no answer comes, a timeout is reported once 64*T1 has elapsed and never earlier, and after a 3xx-6xx the transaction goes away after timer D.", "quantifier": "every sequence of clock readings and polls of the event loop, every send result", "why_tests_cant": "real clocks and polling schedules are unbounded", "anchors": ["src/osip2/ict.c: __osip_ict_init, __osip_ict_need_timer_a_event", "src/osip2/ict_fsm.c: osip_ict_timeout_a_event, osip_ict_timeout_b_event, osip_ict_timeout_d_event"]}
{"id": "C13", "title": "A retransmitted INVITE is absorbed by the server transaction", "statement": "A server INVITE transaction announces the INVITE to the application exactly once; each later copy, until the ACK or the end of the transaction, is answered by resending the most recent response (if any was sent) and is never announced as new; at most one final answer is sent; ACKs are announced and stop the retransmissions.", "quantifier": "every event history and every send result", "why_tests_cant": "histories are unbounded", "anchors": ["src/osip2/ist_fsm.c: ist_rcv_invite, ist_snd_1xx, ist_snd_3456xx, ist_rcv_ack"]}
{"id": "C14", "title": "Non-2xx final answers are retransmitted until ACKed (timers G, H, I)", "statement": "On an unreliable transport a 3xx-6xx answer to an INVITE is resent with intervals T1, 2*T1, ... capped at T2, only until an ACK is received; without ACK the transaction goes away after timer H (64*T1) and never earlier, with ACK after timer I.", "quantifier": "every sequence of clock readings and polls, every send result", "why_tests_cant": "real clocks and polling schedules are unbounded", "anchors": ["src/osip2/ist.c", "src/osip2/ist_fsm.c: osip_ist_timeout_g_event, osip_ist_timeout_h_event, osip_ist_timeout_i_event"]}
{"id": "C15", "title": "Non-INVITE requests: retransmission schedule (timers E, F, K)", "statement": "On an unreliable transport a non-INVITE request is resent with intervals T1, 2*T1, ... capped at T2 (every T2 once a provisional answer came), only while no final answer came; after 64*T1 without final answer exactly one timeout is reported, never earlier; the first final answer is reported once and later copies are silently absorbed until timer K.", "quantifier": "every event history, clock and send result", "why_tests_cant": "clocks and histories are unbounded", "anchors": ["src/osip2/nict.c", "src/osip2/nict_fsm.c"]}
{"id": "C16", "title": "Non-INVITE server transaction sends one final answer and replays it", "statement": "A server non-INVITE transaction announces the request exactly once, sends at most one final answer, ignores further answers from the application, and answers every retransmitted request by resending the most recent answer; it goes away after timer J.", "quantifier": "every event history, clock and send result", "why_tests_cant": "histories are unbounded", "anchors": ["src/osip2/nist.c", "src/osip2/nist_fsm.c"]}
{"id": "C17", "title": "Send failures end a transaction with one transport error report", "statement": "If and only if the send callback reports a failure (negative result), the transaction reports one transport error carrying that result, then terminates and is reported dead; a non-negative result never ends a transaction.", "quantifier": "every transaction kind, state, event and send result", "why_tests_cant": "send results are environment controlled ints", "anchors": ["src/osip2/ict_fsm.c: ict_handle_transport_error", "src/osip2/ist_fsm.c", "src/osip2/nict_fsm.c", "src/osip2/nist_fsm.c"]}
{"id": "C18", "title": "Stray events have no effect", "statement": "An event that the transaction's state machine does not expect in its current state changes nothing: no send, no callback, no timer, no state change; a queued kill event is consumed without any effect.", "quantifier": "every transaction kind, state and event", "why_tests_cant": "product of states and events with arbitrary payloads and histories", "anchors": ["src/osip2/fsm_misc.c: fsm_callmethod", "src/osip2/osip_transaction.c: osip_transaction_execute"]}
{"id": "C19", "title": "A response is delivered to the transaction that sent the request", "statement": "A received response matches a client transaction exactly when its top Via branch and its CSeq method equal those of the request that created the transaction; the response is queued to the first such transaction and to no other; a response that matches none is handed back to the caller.", "quantifier": "every set of transactions and every response", "why_tests_cant": "unbounded sets of transactions and message contents", "anchors": ["src/osip2/osip_transaction.c: __osip_transaction_matching_response_osip_to_xict_17_1_3", "src/osip2/osip.c: __osip_find_transaction"]}
{"id": "C20", "title": "A retransmitted request finds its transaction", "statement": "A copy of the request that created a server transaction always matches that transaction, the ACK of a non-2xx answer matches the INVITE transaction it belongs to, and a request with a different RFC 3261 branch, sent-by host, sent-by port or (INVITE/ACK apart) method never matches.", "quantifier": "every request with RFC 3261 or RFC 2543 style branches", "why_tests_cant": "unbounded message contents; two matching regimes", "anchors": ["src/osip2/osip_transaction.c: __osip_transaction_matching_request_osip_to_xist_17_2_3"]}
{"id": "C21", "title": "Transaction creation is well-typed and ids are unique", "statement": "osip_create_transaction builds a transaction only from an incoming or outgoing request whose method equals its CSeq method and is not ACK; INVITE requests get INVITE machines, others non-INVITE machines, incoming server and outgoing client; every created transaction has an id different from all others of the stack.", "quantifier": "every history of creations and every event", "why_tests_cant": "histories are unbounded", "anchors": ["src/osip2/osip.c: osip_create_transaction", "src/osip2/osip_transaction.c: osip_transaction_init"]}
{"id": "C22", "title": "Registered transactions are found until removed", "statement": "After any history of creations and osip_remove_transaction calls, the stack's tables hold exactly the transactions created and not removed, each in the table of its kind; removing one leaves every other one in place.", "quantifier": "every history of creations and removals", "why_tests_cant": "histories are unbounded", "anchors": ["src/osip2/osip.c: __osip_add_ict, __osip_remove_ict_transaction and the ist/nict/nist variants, osip_remove_transaction"]}
{"id": "C23", "title": "Workers drain every queued event in order", "statement": "One call of osip_ict_execute (and ist, nict, nist) processes every queued event of every transaction of that kind in queue order, until every queue is empty, and leaves transactions of the other kinds alone.", "quantifier": "every table of transactions and every queue content", "why_tests_cant": "unbounded tables and queues", "anchors": ["src/osip2/osip.c: osip_ict_execute, osip_ist_execute, osip_nict_execute, osip_nist_execute"]}
{"id": "C24", "title": "Responses are sent where RFC 3261 18.2.2 / RFC 3581 say", "statement": "A response is sent to the top Via's maddr if present, else to its received parameter, else to its host; the port is the rport value if present, else the Via port, else 5060.", "quantifier": "every Via header", "why_tests_cant": "all combinations of absent/present/valueless parameters and any port text", "anchors": ["src/osip2/osip_transaction.c: __osip_transaction_snd_xxx", "src/osip2/osip.c: osip_response_get_destination"]}
{"id": "C25", "title": "Requests are sent to the first loose route, else to the Request-URI", "statement": "The destination chosen for a new client transaction is the host/port of the topmost Route when that is a loose router, else the Request-URI's maddr value, else its x-obr/x-obp outbound address when both are present, else its host; the default port is 5060.", "quantifier": "every request", "why_tests_cant": "all combinations of Routes and URI parameters", "anchors": ["src/osip2/ict.c: __osip_ict_init", "src/osip2/nict.c: __osip_nict_init"]}
{"id": "C26", "title": "2xx/ACK retransmission stops on ACK and is bounded", "statement": "A registered 2xx is retransmitted at intervals T1, 2*T1, ... capped at T2, a bounded number of times, stops when the ACK with the same dialog and CSeq number arrives, and stopping one dialog leaves other dialogs' retransmissions in place.", "quantifier": "every set of registered retransmissions, every clock and every ACK history", "why_tests_cant": "histories and clocks are unbounded", "anchors": ["src/osip2/osip.c: osip_start_200ok_retransmissions, osip_stop_200ok_retransmissions, osip_stop_retransmissions_from_dialog, ixt_retransmit, osip_retransmissions_execute"]}
{"id": "C27", "title": "Dialog route sets", "statement": "A dialog created by the caller's side has as route set the Record-Routes of the response in reverse order, one created by the callee's side has those of its response in order; it is frozen once the dialog is confirmed.", "quantifier": "every number of Record-Routes, every history of answers", "why_tests_cant": "list sizes and histories unbounded", "anchors": ["src/osip2/osip_dialog.c: osip_dialog_init_as_uac, osip_dialog_init_as_uas, osip_dialog_update_route_set_as_uac"]}
{"id": "C28", "title": "Dialog identity is stable", "statement": "Call-ID and local tag of a dialog never change; the remote tag is set at most once and then never changes; a message matches a dialog only if Call-ID and (when known) both tags match, with the roles of From and To exchanged between the two sides.", "quantifier": "every history of updates and every message", "why_tests_cant": "histories and contents are unbounded", "anchors": ["src/osip2/osip_dialog.c: osip_dialog_match_as_uac, osip_dialog_match_as_uas, osip_dialog_update_tag_as_uac"]}
{"id": "C29", "title": "White space trimming", "statement": "osip_clrspace and osip_clrncpy return exactly the input without leading and trailing white space, inner bytes untouched, and never write outside the destination.", "quantifier": "every C string and every length", "why_tests_cant": "unbounded strings; boundary cases of all-blank and empty input", "anchors": ["src/osipparser2/osip_port.c: osip_clrspace, osip_clrncpy"]}
{"id": "C30", "title": "Quote search", "statement": "__osip_quote_find (used by all quoted-string parsers) returns the first double quote that is preceded by an even number of backslashes, and fails exactly when there is none.", "quantifier": "every C string", "why_tests_cant": "runs of backslashes of any length", "anchors": ["src/osipparser2/osip_port.c: __osip_quote_find"]}
{"id": "C31", "title": "Quoting round trip", "statement": "osip_dequote (osip_enquote s) gives back s for any text without CR/LF, and the quoted text is one well-formed quoted string: starting from its first quote, the next unescaped quote is its last byte.", "quantifier": "every C string", "why_tests_cant": "escape sequences of any shape and length", "anchors": ["src/osipparser2/osip_port.c: osip_enquote, osip_dequote"]}
{"id": "C32", "title": "URI escaping round trip", "statement": "Unescaping an escaped string gives the original; escaped text contains only unreserved/allowed characters and well-formed %XX triplets; and the writer never exceeds its buffer.", "quantifier": "every byte string without NUL and each of the four allowed-character sets", "why_tests_cant": "all byte values in all positions; buffer growth depends on length", "anchors": ["src/osipparser2/osip_uri.c: __osip_uri_escape_nonascii_and_nondef, __osip_uri_unescape"]}
{"id": "C33", "title": "SIP URI print/parse round trip", "statement": "Parsing the printed form of a SIP URI gives back the same scheme, user, password, host, port, parameters and headers, in order.", "quantifier": "every well-formed URI value (any user and password bytes, IPv4/hostname/IPv6 host, any number of parameters and headers)", "why_tests_cant": "unbounded field contents and lists", "anchors": ["src/osipparser2/osip_uri.c: osip_uri_to_str, osip_uri_parse, osip_uri_parse_params, osip_uri_parse_headers"]}
{"id": "C34", "title": "Via print/parse round trip", "statement": "Parsing the printed form of a Via gives back the same version, protocol, host, port, comment and parameters.", "quantifier": "every well-formed Via value", "why_tests_cant": "unbounded field contents and parameter lists", "anchors": ["src/osipparser2/osip_via.c: osip_via_to_str, osip_via_parse"]}
{"id": "C35", "title": "From/To/Contact/Route print/parse round trip", "statement": "Parsing the printed form of a name-addr header gives back the same display name, URI and header parameters.", "quantifier": "every well-formed value", "why_tests_cant": "unbounded field contents and parameter lists, nested URI", "anchors": ["src/osipparser2/osip_from.c: osip_from_to_str, osip_from_parse"]}
{"id": "C36", "title": "CSeq and Call-ID print/parse round trip and matching", "statement": "Parsing the printed form of a CSeq or Call-ID gives back the same value; two Call-IDs match exactly when their texts are equal; two CSeqs match exactly when numbers are equal and methods are equal or both in {INVITE, ACK}.", "quantifier": "every well-formed value", "why_tests_cant": "unbounded field contents", "anchors": ["src/osipparser2/osip_cseq.c", "src/osipparser2/osip_call_id.c"]}
{"id": "C37", "title": "Generic header parameters print/parse round trip", "statement": "The ;name=value list printed by the headers is parsed back to the same ordered list by the generic parameter parser, including quoted values containing semicolons.", "quantifier": "every list of well-formed parameters", "why_tests_cant": "unbounded lists", "anchors": ["src/osipparser2/osip_from.c: __osip_generic_param_parseall"]}
{"id": "C38", "title": "Content-Type, Accept, Accept-Encoding, Call-Info round trip", "statement": "Parsing the printed form of these headers gives back the same value.", "quantifier": "every well-formed value", "why_tests_cant": "unbounded lists", "anchors": ["src/osipparser2/osip_content_type.c", "src/osipparser2/osip_accept.c", "src/osipparser2/osip_accept_encoding.c", "src/osipparser2/osip_call_info.c"]}
{"id": "C39", "title": "Known-header dispatch is exact", "statement": "A (lower-cased) header name is dispatched to the specialised parser of exactly that name, and any other name is treated as an unknown header, never as a known one.", "quantifier": "every header name", "why_tests_cant": "names are unbounded and hashed: a collision would misroute a header", "anchors": ["src/osipparser2/osip_parser_cfg.c: parser_init, __osip_message_is_known_header", "src/osipparser2/osip_port.c: osip_hash"]}
{"id": "C40", "title": "Printing never overruns its buffer", "statement": "Every to_str function of the parser writes only inside the buffer it allocated.", "quantifier": "every value of every printable structure", "why_tests_cant": "sizes are arbitrary; an off-by-one only shows for particular length combinations", "anchors": ["src/osipparser2: osip_uri_to_str, osip_via_to_str, osip_from_to_str, osip_cseq_to_str, osip_call_id_to_str, osip_content_type_to_str, osip_accept_encoding_to_str, osip_www_authenticate_to_str, osip_authorization_to_str, osip_header_to_str, osip_body_to_str, _osip_message_to_str"]}
{"id": "C41", "title": "Generic header accessors", "statement": "osip_message_header_get_byname returns the first header at or after the given position whose name matches case-insensitively; osip_message_replace_header removes the first header of that name if any, appends the new one, and keeps every other header in order.", "quantifier": "every list of headers and every name", "why_tests_cant": "unbounded lists", "anchors": ["src/osipparser2/osip_header.c: osip_message_set_header, osip_message_set_topheader, osip_message_replace_header, osip_message_header_get_byname"]}
{"id": "C42", "title": "Line folding is removed without touching the rest", "statement": "Before parsing, each folded line break of the header part becomes blanks, everything else and everything from the blank line on is unchanged, and no byte outside the message is read or written.", "quantifier": "every received byte string", "why_tests_cant": "unbounded inputs; the defect needs a fold at the very end", "anchors": ["src/osipparser2/osip_message_parse.c: osip_util_replace_all_lws, __osip_find_next_crlf, __osip_find_next_crlfcrlf"]}
{"id": "C43", "title": "Comma separated header values are split as RFC 3261 7.3 says", "statement": "A multi-valued header line is split at commas outside double quotes and angle brackets, and at no other commas; joining the pieces gives the original value; header names that may contain commas are never split.", "quantifier": "every header value", "why_tests_cant": "unbounded inputs, nested quoting", "anchors": ["src/osipparser2/osip_message_parse.c: osip_message_set_multiple_header"]}
{"id": "C44", "title": "Start-line print/parse round trip", "statement": "Parsing the printed request line or status line gives back the method, Request-URI and version, or the version, status code and reason.", "quantifier": "every method, URI, version, status code 100..699 and reason phrase", "why_tests_cant": "unbounded contents", "anchors": ["src/osipparser2/osip_message_parse.c: __osip_message_startline_parsereq, __osip_message_startline_parseresp", "src/osipparser2/osip_message_to_str.c: __osip_message_startline_to_str"]}
{"id": "C45", "title": "The body is exactly Content-Length bytes of the buffer", "statement": "A parsed body holds exactly the Content-Length first bytes after the blank line; a Content-Length greater than what was received is rejected; nothing beyond the received buffer is read.", "quantifier": "every received buffer, body bytes and Content-Length value", "why_tests_cant": "unbounded, attacker controlled", "anchors": ["src/osipparser2/osip_message_parse.c: msg_osip_body_parse", "src/osipparser2/osip_content_length.c"]}
{"id": "C46", "title": "Printed Content-Length equals the printed body size", "statement": "The message produced by osip_message_to_str has a Content-Length header whose value is the number of bytes after the blank line.", "quantifier": "every message and every body size", "why_tests_cant": "the defect only shows for body sizes above 99999 bytes", "anchors": ["src/osipparser2/osip_message_to_str.c: _osip_message_to_str"]}
{"id": "C47", "title": "MD5 is RFC 1321 and independent of chunking", "statement": "Feeding data to the MD5 update function in any chunks and finishing gives the RFC 1321 digest of the concatenation.", "quantifier": "every byte string and every way to cut it into chunks", "why_tests_cant": "unbounded inputs and chunkings", "anchors": ["src/osipparser2/osip_md5c.c: osip_MD5Init, osip_MD5Update, osip_MD5Final"]}
{"id": "C48", "title": "Clones are equal and independent", "statement": "Cloning a URI, header or message gives a value equal to the original in every field, and owning no storage of the original.", "quantifier": "every value", "why_tests_cant": "unbounded nested structures", "anchors": ["src/osipparser2: osip_uri_clone, osip_from_clone, osip_via_clone, osip_message_clone, osip_list_clone"]}
{"id": "C49", "title": "Authentication headers round trip", "statement": "Parsing the printed form of a WWW-Authenticate or Authorization header gives back the same fields.", "quantifier": "every well-formed value", "why_tests_cant": "any subset of a dozen optional fields with any contents", "anchors": ["src/osipparser2/osip_www_authenticate.c", "src/osipparser2/osip_authorization.c"]}
{"id": "C50", "title": "Numeric text conversion", "statement": "osip_atoi returns the decimal value of its argument when that fits in an int and otherwise reports it as out of range, so ports and lengths are never silently altered.", "quantifier": "every digit string", "why_tests_cant": "the defect needs values above 2^31", "anchors": ["src/osipparser2/osip_port.c: osip_atoi"]}
{"id": "C51", "title": "A reliable transport or a stopped timer is never re-armed by polling", "statement": "Polling the stack (osip_timers_ict_execute and variants) queues a timeout event only for a timer that is armed, in a state that allows it and strictly expired; polling has no other effect.", "quantifier": "every transaction state, timer value and clock", "why_tests_cant": "clocks and polling schedules are unbounded", "anchors": ["src/osip2/osip.c: osip_timers_ict_execute, osip_timers_ist_execute, osip_timers_nict_execute, osip_timers_nist_execute", "src/osip2/osip_transaction.c: __osip_transaction_need_timer_x_event"]}
{"id": "C52", "title": "Event classification is exact", "statement": "osip_parse and osip_new_outgoing_sipmessage classify a message as INVITE, ACK, other request, 1xx, 2xx or 3xx-6xx exactly according to its method or status code; a status outside 100-299 counts as a non-2xx final answer.", "quantifier": "every message", "why_tests_cant": "methods are unbounded strings, status codes all ints", "anchors": ["src/osip2/osip_event.c: evt_set_type_incoming_sipmessage, evt_set_type_outgoing_sipmessage"]}
{"id": "C53", "title": "Error text lookup is in bounds", "statement": "osip_strerror returns a valid table entry for every int.", "quantifier": "every int", "why_tests_cant": "all ints", "anchors": ["src/osipparser2/osip_port.c: osip_strerror"]}
{"id": "C54", "title": "Transactions own their messages: no use after free, no double free, no loss", "statement": "Whatever events a new transaction executes, in whatever order, no handler dereferences a missing message; no message is sent, reported or freed after it was freed; and every message handed to the transaction is either freed exactly once or still held by it.", "quantifier": "every new transaction of each of the four kinds, every finite sequence of events built by the library's own constructors, every send result", "why_tests_cant": "a leak or double free needs a particular order of retransmissions, answers, timeouts and transport errors", "anchors": ["src/osip2/osip_transaction.c: osip_transaction_execute", "src/osip2/ict_fsm.c", "src/osip2/ist_fsm.c", "src/osip2/nict_fsm.c", "src/osip2/nist_fsm.c"]}
{"id": "C55", "title": "Copying without quotes", "statement": "osip_strdup_without_quote returns the text between the quotes when its argument is quoted, the whole text otherwise, and writes only inside its own copy.", "quantifier": "every C string, including those that are only one quote", "why_tests_cant": "the defect needs a degenerate string in a memory checker", "anchors": ["src/osipparser2/osip_port.c: osip_strdup_without_quote"]}
{"id": "C56", "title": "Parsing never leaves its input, for any text", "statement": "Whatever bytes they are given, well formed or not, the parsers of SIP elements read only bytes of their argument (its terminator included), write only inside the memory they allocated, dereference no null pointer and end with a result or an error code.", "quantifier": "every C string", "why_tests_cant": "hostile inputs are unbounded; a fuzzer only samples them", "anchors": ["src/osipparser2/osip_uri.c: osip_uri_parse, osip_uri_parse_params, osip_uri_parse_headers", "src/osipparser2/osip_via.c: osip_via_parse", "src/osipparser2/osip_from.c: osip_from_parse, __osip_generic_param_parseall", "src/osipparser2/osip_cseq.c: osip_cseq_parse", "src/osipparser2/osip_call_id.c: osip_call_id_parse", "src/osipparser2/osip_content_type.c: osip_content_type_parse"]}
{"id": "C57", "title": "A printed message parses back to itself", "statement": "osip_message_to_str of a request or response whose header values survive their own printing, that has no body, one body with a Content-Type other than multipart, or a Mime-Version header and the parts of a multipart body, gives a text that osip_message_parse turns back into the same message: same start line, same headers in the same order, same other headers, same body or parts, and Content-Length equal to the number of bytes after the headers.", "quantifier": "every message made of header values that survive printing, any number of headers, any body bytes, up to a million bytes", "why_tests_cant": "messages are unbounded and every header kind can interact with line splitting, comma splitting and the Content-Length slot", "anchors": ["src/osipparser2/osip_message_to_str.c: _osip_message_to_str", "src/osipparser2/osip_message_parse.c: _osip_message_parse, msg_headers_parse, osip_message_set_multiple_header"]}
{"id": "C58", "title": "Reading a session description never leaves the text", "statement": "Whatever bytes it is given, sdp_message_parse reads only the text and its terminator, dereferences no null pointer, and ends with success or an error.", "quantifier": "every C string", "why_tests_cant": "hostile bodies are unbounded; the defect needs a truncated last line under a memory checker", "anchors": ["src/osipparser2/sdp_message.c: sdp_message_parse, sdp_message_parse_m", "src/osipparser2/osip_port.c: __osip_set_next_token"]}
{"id": "C59", "title": "An accepted session description is complete", "statement": "If sdp_message_parse succeeds, the description has a version, all six origin fields and a time, and every field is a non-empty text without line ends (and without the separators of its line), so that accessors never return an empty or multi-line value.", "quantifier": "every C string that is accepted", "why_tests_cant": "accepted texts are unbounded in lines, media and payloads", "anchors": ["src/osipparser2/sdp_message.c: sdp_message_parse"]}
{"id": "C60", "title": "Writing a session description", "statement": "sdp_message_to_str writes exactly one line per item, in the order of RFC 2327, into a buffer that always has room, or fails without writing when a field that a line needs is missing.", "quantifier": "every description, with any number of items, whose text has less than 2^30 bytes", "why_tests_cant": "buffer growth depends on the lengths of all the fields", "anchors": ["src/osipparser2/sdp_message.c: sdp_message_to_str, __osip_sdp_append_string, sdp_append_media"]}
{"id": "C61", "title": "A written session description is read back unchanged", "statement": "Parsing the text that sdp_message_to_str gives for a description yields the same description; a received description can be written and read again without loss.", "quantifier": "every description whose fields fit on their lines, every accepted text", "why_tests_cant": "the line order, optional lines and loops of the parser interact for every combination of items", "anchors": ["src/osipparser2/sdp_message.c: sdp_message_parse, sdp_message_to_str"]}
{"id": "C62", "title": "Copies of session descriptions", "statement": "sdp_message_clone gives a description equal to the original.", "quantifier": "every description", "why_tests_cant": "the copy goes through text; which descriptions survive is a question about all of them", "anchors": ["src/osipparser2/sdp_message.c: sdp_message_clone"]}
{"id": "C63", "title": "Nothing of an accepted session description is lost", "statement": "When sdp_message_parse reports success, every line of the text is represented in the description.", "quantifier": "every accepted text", "why_tests_cant": "unknown and misordered lines can occur anywhere", "anchors": ["src/osipparser2/sdp_message.c: sdp_message_parse"]}
{"id": "C64", "title": "Session description accessors", "statement": "The add and set functions of sdp_message.h change the session or the one media they name, so that the matching get function answers the new value, every other answer stays the same, and a media position that does not exist is reported as an error.", "quantifier": "every description, every int position, every value", "why_tests_cant": "positions and lists are unbounded", "anchors": ["src/osipparser2/sdp_accessor.c"]}
{"id": "C65", "title": "Deleting attributes and payloads", "statement": "sdp_message_a_attribute_del removes exactly the attributes of the given name, sdp_message_a_attribute_del_at_index exactly the attribute at the given position, sdp_message_m_payload_del exactly the payload at the given position; all end.", "quantifier": "every description, position and name", "why_tests_cant": "removal inside loops over the same list goes wrong only for particular lengths and positions", "anchors": ["src/osipparser2/sdp_accessor.c: sdp_message_a_attribute_del, sdp_message_a_attribute_del_at_index, sdp_message_m_payload_del"]}
{"id": "C66", "title": "Freeing releases everything once", "statement": "The free function of every structure (URIs, parameters, headers, bodies, whole SIP messages, session descriptions, dialogs, events, transactions) releases exactly the memory blocks the structure is made of: none is left, none is released twice, none is used after its release, and no other memory is touched. Cloning and then freeing the copy leaves the memory as it was; freeing the original leaves the copy intact.", "quantifier": "every structure with any number of list elements, any fields present or NULL, any layout in memory", "why_tests_cant": "a leak or double free shows only for the particular fields and list lengths that reach it, and tests without an instrumented allocator do not see it", "anchors": ["src/osipparser2: osip_*_free, sdp_message_free", "src/osip2/osip_dialog.c: osip_dialog_free", "src/osip2/osip_transaction.c: osip_transaction_free2", "src/osip2/osip_event.c: osip_event_free", "src/osip2/osip.c: ixt_free"]}
{"id": "C67", "title": "The cached text of a message is never stale", "statement": "osip_message_to_str keeps the text it built and answers it again. Whatever functions of the message API were called in between, in any order, it answers the text of the message as it is now, the same text a message without cache would give; it never reads outside the cached copy.", "quantifier": "every message, every sequence of calls of the setters, header and body functions, printing, cloning and force_update", "why_tests_cant": "staleness shows only for a particular order of calls", "anchors": ["src/osipparser2/osip_message_to_str.c: osip_message_to_str, osip_message_to_str_sipfrag, osip_message_force_update, osip_message_get__property", "src/osipparser2/osip_message.c: osip_message_clone, osip_message_set_method, osip_message_set_status_code", "src/osipparser2/osip_header.c: osip_message_set_header, osip_message_replace_header"]}
{"id": "C68", "title": "Cloning when memory runs out", "statement": "If any allocation fails while a structure is cloned, the clone function either answers an error and leaves the memory exactly as it was, or succeeds with a complete copy equal to the original. The original is never changed, and nothing undefined happens.", "quantifier": "every structure, every allocator, every subset of failing allocations", "why_tests_cant": "each of the dozens of allocations of a message clone can fail alone or with others, and error paths free partial structures", "anchors": ["src/osipparser2: osip_*_clone", "src/osipparser2/osip_list.c: osip_list_clone"]}
{"id": "C69", "title": "Several threads: no freed transaction is used, no event is lost", "statement": "When one thread per kind of transaction calls osip_*_execute, adds events by transaction pointer and frees transactions (not from a callback), any number of threads may deliver messages, create transactions, poll timers, ask for the next timeout and use the retransmission list at any time: no step uses a freed transaction, touches a table, queue, list or the id counter without its mutex, releases a mutex it does not hold or takes one it holds; the tables hold exactly the registered transactions; ids are unique; every event given to a transaction is executed exactly once and in the order given, or freed with the transaction; a pass of osip_*_execute leaves a transaction only when all its events were executed.", "quantifier": "every number of threads, every sequence of calls (also from callbacks), every interleaving of their steps", "why_tests_cant": "a use after free or lost event needs one particular interleaving of several threads", "anchors": ["src/osip2/osip.c: osip_ict_execute, osip_find_transaction_and_add_event, osip_timers_ict_execute, osip_timers_gettimeout, __osip_add_ict, __osip_remove_ict_transaction", "src/osip2/osip_transaction.c: osip_transaction_init, osip_transaction_free, osip_transaction_add_event", "src/osip2/port_fifo.c: osip_fifo_add, osip_fifo_tryget"]}
{"id": "C70", "title": "Several threads: no deadlock", "statement": "Under the same rules of use, and if callbacks of osip_retransmissions_execute do not call the functions that use the retransmission list, there is never a set of threads waiting for each other: some thread that a waiting thread depends on can always go on.", "quantifier": "every number of threads, every sequence of calls, every interleaving", "why_tests_cant": "a deadlock needs one particular interleaving", "anchors": ["src/osip2/osip.c", "src/osip2/osip_transaction.c", "src/osip2/port_fifo.c", "src/osip2/port_sema.c"]}
{"id": "C71", "title": "Several threads: one transaction per branch", "statement": "When the transactions of a kind are created by one thread, for messages that osip_find_transaction_and_add_event could not place or with a new branch, no table ever holds two transactions that match the same messages.", "quantifier": "every number of threads, every sequence of calls, every interleaving", "why_tests_cant": "duplicates need a retransmission that arrives at one particular moment", "anchors": ["src/osip2/osip.c: osip_find_transaction_and_add_event, osip_create_transaction"]}
{"id": "C72", "title": "Several threads: the state of a transaction", "statement": "The state and timers of a transaction are never read or written by one thread while another thread writes them.", "quantifier": "every number of threads, every sequence of calls, every interleaving", "why_tests_cant": "a data race is not observable in most runs", "anchors": ["src/osip2/osip.c: osip_timers_gettimeout, osip_timers_ict_execute", "src/osip2/osip_transaction.c: osip_transaction_execute"]}
{"id": "C73", "title": "Two ends: the applications agree", "statement": "A client transaction and the server transaction at the other end, joined by a network that loses, repeats, delays and reorders messages, never reach undefined behaviour. The server's application is told of nothing but the request the client's application handed over, and once (once per transaction it has let go of otherwise). The client's application is told of nothing but answers the server's application handed over, of one final answer at most, and as long as the server keeps its transaction of the same final answer the server's application was told is sent. An ACK is announced to the server only when the client was told of the answer it acknowledges, or of a transport error.", "quantifier": "every request, every sequence of answers, every loss, repetition, delay and reordering, every timer and transport result, on both sides", "why_tests_cant": "the histories of two machines and a network between them multiply", "anchors": ["src/osip2/ict_fsm.c", "src/osip2/ist_fsm.c", "src/osip2/nict_fsm.c", "src/osip2/nist_fsm.c", "src/osip2/osip_transaction.c: osip_transaction_execute, osip_transaction_init"]}
{"id": "C74", "title": "Two ends: retransmission recovers from loss", "statement": "Over an unreliable transport, whatever was lost so far: while the client waits, the timers alone make the request reach the server's application if it never did; make the final answer the server holds reach the client's application for a non-INVITE request; and for an INVITE that was refused make the answer reach the client's application and the ACK the server's. A 2xx to an INVITE is the exception, which the application must repeat itself.", "quantifier": "every history of both ends with an in-range clock, complete messages and an unreliable top Via", "why_tests_cant": "one would have to lose every message of every history", "anchors": ["src/osip2/ict_fsm.c: osip_ict_timeout_a_event, ict_retransmit_ack", "src/osip2/ist_fsm.c: osip_ist_timeout_g_event, ist_snd_2xx", "src/osip2/nict_fsm.c: osip_nict_timeout_e_event", "src/osip2/nist_fsm.c: nist_rcv_request"]}
{"id": "C75", "title": "On the wire: messages keep their transaction", "statement": "A well formed message that is printed, sent and parsed is read as what it was, with its length filled in, and sending what was read changes nothing more. A request so received opens a server transaction of the right kind. The ACK made for a refused INVITE is well formed again. A repeated request and this ACK, sent as text, are handed to the server transaction the request opened; an answer, sent as text, is handed to the client transaction of the request it answers.", "quantifier": "every well formed request, answer and ACK up to a million bytes, every state of the stacks at both ends", "why_tests_cant": "every header value takes part in the printing and the parsing, every transaction of the stack in the matching", "anchors": ["src/osipparser2/osip_message_to_str.c", "src/osipparser2/osip_message_parse.c", "src/osip2/ict_fsm.c: ict_create_ack", "src/osip2/osip_transaction.c: osip_transaction_init", "src/osip2/osip.c: osip_find_transaction_and_add_event, osip_create_transaction", "src/osip2/osip_event.c: osip_parse"]}
{"id": "C76", "title": "Message fragments", "statement": "A text that is accepted as a message is accepted as a fragment with the same result. A well formed fragment, with or without start line, with or without headers and body, is printed, and the text parsed as a fragment gives the fragment back, its Content-Length being the size of its body, unless a fragment without start line begins like one. Parsing a fragment never touches memory outside the text.", "quantifier": "every text, every well formed fragment up to a million bytes", "why_tests_cant": "the decision whether the first line is a start line depends on every byte of it, and all headers and bodies take part in the round trip", "anchors": ["src/osipparser2/osip_message_parse.c: osip_message_parse_sipfrag, _osip_message_parse", "src/osipparser2/osip_message_to_str.c: osip_message_to_str_sipfrag, _osip_message_to_str"]}
{"id": "C77", "title": "Parsing gives back its memory", "statement": "A structure is made, a text is parsed into it and the structure is freed, whether the parser accepted the text or not. Then no block is freed twice, nothing the program held before is freed, and everything that was allocated on the way is freed again. This holds for a whole message, a fragment, a URI and each header, for every text, and whichever allocations fail on the way.", "quantifier": "every text (as any sequence of answers to the tests of the parser), every choice of failing allocations, every state of the memory before", "why_tests_cant": "every test of the parser has an error path with its own things to free, and each allocation on each path can fail", "anchors": ["src/osipparser2/osip_message_parse.c", "src/osipparser2/osip_message.c: osip_message_init, osip_message_free", "src/osipparser2/osip_body.c", "src/osipparser2/osip_uri.c: osip_uri_parse, osip_uri_free, osip_uri_param_add", "src/osipparser2/osip_from.c: osip_from_parse, __osip_generic_param_parseall, osip_from_free", "src/osipparser2/osip_via.c: osip_via_parse", "src/osipparser2/osip_www_authenticate.c: osip_www_authenticate_parse", "src/osipparser2/osip_list.c: osip_list_add"]}
{"id": "C78", "title": "Parsing a session description gives back its memory", "statement": "A session description is made, a text is parsed into it and the description is freed, whether the parser accepted the text or not. Then no block is freed twice, nothing the program held before is freed, and everything that was allocated on the way is freed again, for every text and whichever allocations fail.", "quantifier": "every text (as any sequence of answers to the tests of the parser), every choice of failing allocations, every state of the memory before", "why_tests_cant": "fifteen kinds of lines can come in any number and order, each with its own error paths, and every allocation can fail", "anchors": ["src/osipparser2/sdp_message.c: sdp_message_parse, sdp_message_parse_v ... sdp_message_parse_m, sdp_message_free, sdp_media_free, sdp_time_descr_free", "src/osipparser2/osip_port.c: __osip_set_next_token"]}
{"id": "C79", "title": "Transactions and dialogs give back their memory", "statement": "Making a transaction (osip_transaction_init), a dialog (osip_dialog_init_as_uac, _as_uas), an event (osip_parse) or the stack (osip_init) either succeeds or leaves the memory as it was. A transaction that was given events and destinations, and a dialog that was updated by any answers, gives everything back when it is freed. No block is freed twice, and nothing the program held before is freed.", "quantifier": "every message the structure is made from (as any sequence of answers to the tests of the code), every kind of transaction, every sequence of uses, every choice of failing allocations, every state of the memory before", "why_tests_cant": "a transaction is made of some forty allocations, each of which can fail, and each error path frees a different part of it", "anchors": ["src/osip2/osip_transaction.c: osip_transaction_init, osip_transaction_free, osip_transaction_free2, osip_transaction_add_event", "src/osip2/ict.c, ist.c, nict.c, nist.c: __osip_ict_init, __osip_ict_free, ...", "src/osip2/port_fifo.c: osip_fifo_init, osip_fifo_free", "src/osip2/osip_dialog.c: __osip_dialog_init, osip_dialog_update_route_set_as_uac, osip_dialog_update_tag_as_uac, osip_dialog_free", "src/osip2/osip_event.c: osip_parse, osip_event_free", "src/osip2/osip.c: osip_init, osip_release", "src/osipparser2: osip_via_clone, osip_from_clone, osip_uri_clone, osip_list_clone"]}
{"id": "C80", "title": "The built semaphore counts", "statement": "Where oSIP builds the semaphore itself (ARC processors), osip_sem_post, osip_sem_wait and osip_sem_trywait behave, for any number of threads, like a counting semaphore with the number of permits given to osip_sem_init, each call being served in one moment between its start and its end: no permit is given twice, none is lost, trywait answers failure only when there is none, and no thread blocks for ever in it while a permit is there.", "quantifier": "every number of threads, every interleaving of their steps, every sequence of calls", "why_tests_cant": "the emulation is a counter under a mutex; a wrong order of its steps shows only for rare interleavings", "anchors": ["src/osip2/port_sema.c: osip_sem_init, osip_sem_post, osip_sem_wait, osip_sem_trywait (__arc__)", "include/osip2/internal.h: osip_sem_t"]}
{"id": "C81", "title": "The built condition variable wakes waiters", "statement": "Where oSIP builds the condition variable itself (Windows), a thread that comes back from osip_cond_wait or osip_cond_timedwait owns its mutex again, and alone; a wait ends by a signal that was sent, no signal ends two waits and none is lost; a waiting thread for which a signal was sent comes back as soon as the owners of the mutex let it go; osip_cond_timedwait waits as long as the given time says, to within a millisecond.", "quantifier": "every number of threads, every interleaving, every sequence of lock, unlock, signal, wait and timed wait; every pair of times", "why_tests_cant": "lost wake-ups and deadlocks depend on the interleaving of several threads", "anchors": ["src/osip2/port_condv.c: osip_cond_init, osip_cond_signal, osip_cond_wait, osip_cond_timedwait, _delta_time (WIN32)", "include/osip2/osip_condv.h"]}
{"id": "C82", "title": "The clock includes the time a device slept", "statement": "On Android the clock the timers use does not run while the device sleeps; oSIP adds the time slept, which it finds by comparing with the real time clock. The corrected clock never goes back, whatever the real time clock says; with a real time clock that is never set it is never two seconds ahead, and after osip_compensatetime it is less than three seconds behind.", "quantifier": "every history of running, sleeping, questions and corrections, every start of both clocks; for never going back also every reading of the real time clock", "why_tests_cant": "the error adds up over the whole history of sleeps and corrections", "anchors": ["src/osip2/osip_time.c: osip_compensatetime, osip_gettimeofday, osip_getsystemtime (ANDROID)"]}
{"id": "C83", "title": "Searching and comparing regardless of case", "statement": "osip_strcasestr answers the first place where the needle occurs but for the case of letters, and NULL only if it occurs nowhere; the empty needle is found at once. The osip_strcasecmp and osip_strncasecmp oSIP has for systems without them answer 0 for exactly the texts those of the system do.", "quantifier": "every pair of texts, every length", "why_tests_cant": "a search that goes on at the wrong place misses only overlapping occurrences", "anchors": ["src/osipparser2/osip_port.c: osip_strcasestr, osip_strcasecmp, osip_strncasecmp"]}
{"id": "C84", "title": "Reason phrases", "statement": "osip_message_get_reason answers the phrase of RFC 3261 for every status code of RFC 3261, the known phrase for the nine other codes the library lists, and NULL for every other number.", "quantifier": "every integer", "why_tests_cant": "every number, negative ones too, is a legal argument", "anchors": ["src/osipparser2/osip_message_parse.c: osip_message_get_reason"]}
{"id": "C85", "title": "Trace levels are as last set", "statement": "After any calls of osip_trace_initialize, osip_trace_enable_until_level, osip_trace_enable_level and osip_trace_disable_level, each level is active just if the last call that concerns it said so, and no memory outside the table is touched.", "quantifier": "every sequence of calls, every level", "why_tests_cant": "the state depends on the whole sequence of calls", "anchors": ["src/osipparser2/osip_port.c: osip_trace_initialize, osip_trace_initialize_func, osip_trace_initialize_syslog, osip_trace_enable_until_level, osip_trace_enable_level, osip_trace_disable_level, osip_is_trace_level_activate"]}
{"id": "C86", "title": "An accepted message is a request or a response", "statement": "A text that osip_message_parse accepts gives a request, with method, Request-URI and version and without status code and reason, or a response, with version, status code and reason and without method and Request-URI. A fragment that osip_message_parse_sipfrag accepts is one of these, or has nothing of a start line.", "quantifier": "every text", "why_tests_cant": "a refused start line may leave parts of itself behind, and each header and body may come after it", "anchors": ["src/osipparser2/osip_message_parse.c: osip_message_parse, osip_message_parse_sipfrag, __osip_message_startline_parsereq, __osip_message_startline_parseresp, msg_headers_parse, msg_osip_body_parse"]}
{"id": "C87", "title": "The canonical text of a URI", "statement": "For every URI the canonical text can be made within its buffer and is no longer than the ordinary text; for a well-formed URI it consists of the scheme, user, password, host, port, parameters and headers exactly as they are stored, without escapes, so that different URIs have different canonical texts and reading the text gives the URI back.", "quantifier": "every URI, whatever bytes its parts have", "why_tests_cant": "the text is decoded in place after the parts have been joined, and each part may hold any byte, escaped or not", "anchors": ["src/osipparser2/osip_uri.c: osip_uri_to_str_canonical, osip_uri_to_str, __osip_uri_unescape"]}
{"id": "C88", "title": "Waiting as long as told", "statement": "osip_usleep asks the system to wait for exactly the number of microseconds it is given, in a form the system accepts.", "quantifier": "every time that is not negative", "why_tests_cant": "the request is split into seconds and a rest, which may go wrong only for some times", "anchors": ["src/osipparser2/osip_port.c: osip_usleep"]}
{"id": "C89", "title": "Appending to a text", "statement": "osip_str_append and osip_strn_append put the bytes and a terminator at the destination, change nothing else, return the place of the terminator and stay within the memory, wherever text and destination lie.", "quantifier": "every memory, text, length and pair of places with enough room", "why_tests_cant": "text and destination may overlap in every way", "anchors": ["src/osipparser2/osip_port.c: osip_str_append, osip_strn_append"]}
{"id": "C90", "title": "Printing into a buffer of given size", "statement": "osip_snprintf writes as much of the text as fits and a terminator, changes nothing beyond, and returns the length of the whole text, so that the caller can see whether it was cut; no call depends on earlier ones.", "quantifier": "every text, every way the system hands it over, every size, every sequence of calls", "why_tests_cant": "the pieces, sizes and earlier calls can be combined in every way", "anchors": ["src/osipparser2/osip_port.c: osip_snprintf, osip_vsnprintf, _cb_snprintf (VxWorks, pSOS)"]}
{"id": "C91", "title": "Where traces go and what they say", "statement": "A trace of an active level is written to exactly the place the last initialization named, a trace of another level nowhere. It carries the last part of the path of the source file and the milliseconds since the first trace, right to the millisecond and never going back. A line for syslog is the head and the message, cut to the size of the buffer, and nothing outside of the buffer is written.", "quantifier": "every sequence of initializations, every level, path, pair of times and message", "why_tests_cant": "initializations follow each other in any order; times, paths and messages are arbitrary", "anchors": ["src/osipparser2/osip_port.c: osip_trace, osip_trace_initialize, osip_trace_initialize_syslog, osip_trace_initialize_func"]}
{"id": "C92", "title": "The callback registered last is called", "statement": "After every history of registrations, an event of one of the three kinds calls exactly the function registered last for its kind and type, with its type, and nothing if there is none; the registration of a type that does not exist is refused and changes nothing.", "quantifier": "every history of registrations, every kind and type", "why_tests_cant": "registrations of different kinds and types may follow each other in any order", "anchors": ["src/osip2/osip.c: osip_set_message_callback, osip_set_kill_transaction_callback, osip_set_transport_error_callback, __osip_message_callback, __osip_kill_transaction_callback, __osip_transport_error_callback"]}
