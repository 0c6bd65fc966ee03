# Formal model of aurelihein/osip in Rocq (Coq 8.16.1)

## Approach

The C sources are read as text and transcribed, function by function, into total
computable Gallina functions under `rocq/theories`.  Every definition carries a comment
with the file and lines in /repo it models and the simplifications made.  Files come in
groups per area:

* `XModel.v`  - the transcription (definitions only, no proofs),
* `XSpec.v`   - a small independent specification when the property needs one,
* `XProofs.v` - lemmas,
* `XProps.v`  - the property theorems (`Cnn_...`), an `Example` next to each showing that a
  concrete non-trivial case meets its hypotheses, and `Print Assumptions`.

Conventions

* A C string is a `list ascii` without NUL; a raw buffer is a `list ascii`.  Pointers into a
  string are suffixes or indices.  Where memory safety is what the property is about,
  reads and writes go through checked accessors and an out-of-range access is a distinct
  outcome (`UB`), never a default value.
* Error codes are the C integers of `osip_port.h`.
* The environment (send callback, clock, allocator addresses, socket numbers) is passed as
  an argument (oracle), so theorems quantify over it.  Allocation failure (`OSIP_NOMEM`) is
  not modelled except where said: `malloc` is assumed to succeed.
* A property that is false of the faithful model gets a theorem `..._refuted` with a
  witness, and the strongest true part gets a `_partial` theorem.

## Plan per property

| id | model | proof |
|----|-------|-------|
| C01-C03 | linked nodes in an explicit heap, allocator oracle (osip_list.c) | refinement to `list`, induction on histories |
| C04 | `add_gettimeofday` on (sec,usec) integers | arithmetic; refuted above 1000 s, partial below |
| C05 | `osip_timers_gettimeout` over four transaction lists | fold/minimum invariant |
| C06 | mutex-atomic operations on queue + semaphore counter (port_fifo.c) | induction on interleavings |
| C07-C10, C13, C17, C18 | four state machines: table, handlers, callbacks as an output trace | invariants by induction on event lists |
| C11 | `ict_create_ack` on abstract message records | field-by-field theorem |
| C12, C14-C16 | state machines composed with the polling loop and a monotone clock | invariants over (clock, poll, event) histories |
| C19-C23 | matching functions, transaction tables, dispatch, workers | equivalence with declarative match, induction on tables |
| C24, C25 | destination selection | case analysis against a declarative spec |
| C26 | ixt list and retransmission step | invariants over clock/ack histories |
| C27, C28 | dialog functions | induction |
| C29-C32 | string utilities with checked buffers | induction on strings |
| C33-C38, C44, C49 | parsers and printers on strings | round-trip lemmas composed bottom-up |
| C39 | hash and table construction | finite no-collision computation lifted to all names |
| C40 | printers in a checked-buffer monad | size invariants |
| C41 | header list accessors, and where a new header goes (HdrAccess) | induction |
| C42, C43, C45, C46 | message parser passes | simulation against declarative splitting; C45 down to the received bytes (MsgReceived) |
| C47 | MD5 bit-exact on 32-bit words (osip_md5c.c) | block refinement to an independent RFC 1321 spec, chunking invariant |
| C48 | clones in a heap of addressed blocks | separation: same value, fresh blocks, original unchanged |
| C50, C53 | integer conversions | arithmetic |
| C51, C52 | polling predicates, classification | case analysis |
| C54 | transaction values with NULLable message fields | invariant over event histories |
| C55 | removal of surrounding quotes in a checked buffer | induction; refuted for a one-character string |
| C56 | every parser with checked reads | a read outside the text is `UB`; theorem: never `UB`; refuted where false |
| C57 | message printer composed with message parser | the parser passes run over the printed text, header by header; for a multipart body the search for the boundary lines finds exactly the printed ones |
| C58, C59 | sdp_message_parse line by line, pointers as text suffixes | every line function keeps the cursor inside the text, shortens it and only stores values of the right shape; lifted through the loops |
| C60 | sdp_message_to_str over a growing buffer | the buffer size stays between the text length and twice it |
| C61, C63 | printer composed with parser | stage lemmas: each stage of the parser consumes the lines of its letter |
| C62 | sdp_message_clone | composition of C60 and C61 |
| C64, C65 | sdp_accessor.c over lists | lemmas on list positions; loops with a step bound |
| C66 | free functions as programs over the heap of C48, freeing a block twice is `UB` | one theorem about programs that release each field once, checked for each program by computation |
| C67 | message with cached text, length and property flag; every call a step | invariant over histories: flag 1 means the text is current |
| C68 | the clone programs of C48 with an allocator that may fail at any call, what the C text tests, and the free program run on the partial copy (FailClone) | one induction over programs: the partial copy is always a structure the free program of C66 accepts |
| C69 | the calls of the transaction layer as sequences of mutex operations and memory accesses, any number of threads interleaved step by step, with the tables, queues and lifetimes of transactions (ThreadModel); the rules of use are a parameter (ThreadSpec: `one_worker`) | one invariant over all histories: what a thread holds and still refers to is alive, what it is in the middle of; each rule shown necessary by a history |
| C70 | the same | the mutexes are ordered (retransmissions, tables and ids, queues): a chain of waiting threads ends |
| C71 | the same, with `one_source` | invariant: keys are unique in memory, and unused from a failed search to the creation |
| C72 | the same | refuted for the readers of the state, proved for its writers |
| C73 | a client transaction, a server transaction and the messages either sent; moves: an application hands over a message, a sent message arrives (any number of times, or never), a due timer fires, the server lets go of a finished transaction | invariant over all moves, linking each log to what the other end sent |
| C74 | the same | invariants on the repeating timers (A, E, G); the three moves are exhibited and computed |
| C75 | the printer, the parser, the making of an ACK and the matching of received messages, joined | C57 for the text, C19 and C20 for the matching, which does not depend on the length header; a message as read is a fixed point |
| C76 | the parser and the printer of fragments, which share all but the start line and the Content-Length rule with those of messages | the proofs of C56 and C57 with an optional start line; "begins like a start line" is specified on the text |
| C77 | what every parser allocates, owns and frees, on a set of blocks; each test on the text, each number of rounds and the success of each allocation is an arbitrary choice | the memory is described by counting blocks; each function is shown to turn what its argument owns into what its result owns, for all choices; two ways to lose memory are counted and refuted |
| C78 | the same for the SDP parser, line by line, with the order in which it looks for the lines | as C77; a description keeps its eleven text pointers, every line turns what it owns before into what it owns after |
| C79 | what making, using and freeing a transaction, a dialog, an event and the stack allocates and frees; whether the top Via has a protocol is a parameter because it is looked at twice | as C77; each constructor makes a structure or nothing, each use turns what is owned before into what is owned after |
| C80 | the semaphore of port_sema.c for ARC, one step per mutex operation or access, any number of threads (WaitModel) | simulation by an atomic counting semaphore; calls and answers are the same |
| C81 | the condition variable of port_condv.c for Windows, step by step, with the mutex of the program (WaitModel); `_delta_time` on 32-bit integers | invariants: who owns which mutex, how many signals are where; the deadlock is a set of states no step leaves |
| C82 | the clock for Android with its offset; a device that runs and sleeps (ClockModel) | invariant on the offset and the last readings; the lost correction is an invariant of its own |
| C83 | osip_strcasestr and the comparisons for VxWorks and pSOS on texts (HelpModel) | induction on the texts |
| C84 | osip_message_get_reason with its tables (HelpModel) | equivalence with the list of RFC 3261 and nine more codes, for every integer |
| C85 | the table of trace levels, with its bounds (HelpModel) | induction on the calls; refuted for END_TRACE_LEVEL |
| C86 | the parsers of messages and fragments (MsgModel, FragModel) | every header and body leaves the start line alone; joining lines writes only spaces |
| C87 | the canonical text of a URI (CanonModel) | each part, escaped by its own set, is read back as itself whatever follows; the in-place decoder is C32's |
| C88 | osip_usleep: what select or nanosleep is asked for (AppendModel) | arithmetic of truncated division |
| C89 | osip_str_append, osip_strn_append in one memory (AppendModel), and with the text in another object | induction on the text; for the overlap, no byte the loop still has to read is zero; with two objects, the memory does what `emit`, by which the printing functions are modelled, says (C89_printing, EmitProps) |
| C90 | osip_snprintf for VxWorks and pSOS (SnprintfModel) | invariant on the buffer over the pieces; on the static buffer over the calls |
| C91 | osip_trace (TraceModel) | induction on the initializations; arithmetic of truncated division; what is in the buffer after each of the two prints |
| C92 | the tables of callbacks (CallbackModel) | induction on the registrations |

## Trusted base

* Coq 8.16.1's kernel, including its virtual machine (`vm_compute` is used for closed
  computations in Examples, the keyword table of C39, and the MD5 table).
* `Print Assumptions` follows the theorems in each `*Props.v` (and `*Round.v`, `*Safe.v`,
  `Timed*.v`) file.  Every theorem in MANIFEST.json is "Closed under the global context":
  no axiom, neither of ours nor of a library.
* Only Coq's standard library is imported.  vcheck lists seven "library axioms" named
  `Coq.ssr.ssrunder.Under_rel.*`; these are the parameters of a module type inside the
  standard library's ssreflect support which the prelude loads.  No theorem depends on them.
* The transcription of C into Gallina by reading.  It is not checked by a tool: nothing was
  compiled or run.  The line citations in the model files are there so it can be audited.
* The specifications: the `*Spec.v` files, and the definitions placed directly above the
  theorems in `*Props.v`.

## What is modelled

| file of /repo/src | theory | functions |
|---|---|---|
| osipparser2/osip_list.c | ListModel | all operations and the iterator, on a heap of nodes |
| osipparser2/osip_port.c | Str, PortModel, PortBuf, CString | osip_clrspace, osip_clrncpy, osip_strncpy, osip_str_append, osip_strdup_without_quote, osip_enquote, osip_dequote, osip_token_set, osip_atoi, osip_tolower, 5-character search helpers (`next_separator`, `__osip_quote_find`) |
| osipparser2/osip_port.c, osip_message_parse.c | HelpModel | osip_strcasestr, osip_strcasecmp and osip_strncasecmp for VxWorks and pSOS (answer 0 or not), trace levels; osip_message_get_reason |
| osipparser2/osip_port.c | AppendModel, SnprintfModel | osip_str_append and osip_strn_append in memory, osip_usleep (last branch and ARC); osip_snprintf for VxWorks and pSOS |
| osipparser2/osip_port.c | TraceModel | osip_trace and its initialization, as built for Linux with syslog: place, name, time, line for syslog; the formatting itself is that of the C library |
| osipparser2/osip_uri.c | UriModel, CanonModel | parse, print, canonical text, escape/unescape, params, headers, clone |
| osipparser2/osip_from.c, osip_to.c, osip_contact.c, osip_route.c, osip_record_route.c | HdrModel | parse, print, generic parameters, compare |
| osipparser2/osip_via.c, osip_cseq.c, osip_call_id.c, osip_content_type.c, osip_content_length.c, osip_accept*.c, osip_call_info.c, osip_alert_info.c, osip_error_info.c, osip_mime_version.c, osip_content_encoding.c, osip_allow.c | HdrModel, ViaModel, MatchModel | parse, print, match |
| osipparser2/osip_www_authenticate.c, osip_authorization.c, osip_authentication_info.c and the proxy variants | AuthModel | parse, print |
| osipparser2/osip_parser_cfg.c | MsgModel | hash, keyword table, dispatch |
| osipparser2/osip_message_parse.c, osip_header.c, osip_body.c | MsgModel | start line, line unfolding, header loop, comma splitting, bodies, multipart |
| osipparser2/osip_message_parse.c: osip_message_parse_sipfrag | FragModel | all of it |
| osipparser2/osip_message_to_str.c | MsgPrint, CacheModel | whole message, bodies, Content-Length slot, cached text |
| osipparser2/osip_message.c | CloneModel, MsgModel | clone, header access |
| osipparser2/osip_md5c.c | Md5Model | all of it |
| osipparser2/sdp_message.c | SdpModel | parse, print, clone (init and free functions are record constants or not modelled) |
| osipparser2/sdp_accessor.c | SdpAcc | all but the plain one-field getters and setters of the session |
| the `*_clone` functions of osipparser2 | CloneHeap, FailClone | all, on a heap of blocks; FailClone with failing allocations |
| the `*_free` functions of osipparser2 and osip2 | FreeHeap | all that own more than one block, on the same heap |
| the `*_init`, `*_parse` and `*_free` functions of osipparser2 | OwnModel, OwnSdp | what they allocate and free, for any text and failing allocations (C77, C78) |
| creation, use and freeing of events, transactions, dialogs and the stack; `*_clone` of Via, addresses, Call-ID, CSeq | OwnStack | what they allocate and free, for any message and failing allocations (C79); the messages a transaction keeps are C54, the hash tables of HAVE_DICT_DICT_H are left out |
| osip2/osip.c, osip_transaction.c, port_fifo.c, port_sema.c (threads) | ThreadModel | locking, tables, queues, ids and lifetimes, one step at a time; not what the state machines compute, not the contents of the retransmission list; the emulations for Windows and ARC are in WaitModel |
| osip2/ict*.c, nict*.c, ist*.c, nist*.c, fsm_misc.c, osip_event.c, osip_transaction.c | TransModel | the four state machines with all handlers and timers |
| the four state machines, twice | PairModel | a client and a server transaction over a network that loses, repeats and reorders; dispatch (C05, C06) and the text of messages (C57) are taken for granted |
| osip2/osip.c | StackModel, IxtProps | transaction tables, event dispatch, workers, timer polling, 2xx/ACK retransmission list |
| osip2/osip.c | CallbackModel | the tables of callbacks: registering and calling |
| osip2/osip_dialog.c | DialogModel | all except the URI/contact allocation failures |
| osip2/osip_time.c | TimeModel | add_gettimeofday, osip_timercmp/sub |
| osip2/osip_time.c (ANDROID) | ClockModel | osip_compensatetime, osip_gettimeofday, osip_getsystemtime; both clocks read at one moment |
| osip2/port_fifo.c, port_sema.c | FifoModel | queue with its mutex and semaphore, any interleaving |
| osip2/port_sema.c (`__arc__`), port_condv.c (WIN32) | WaitModel | all but init/destroy failures; the versions for other systems are wrappers (the one of port_condv.c for VxWorks does not compile: line 296) |

Simplifications used throughout (each is repeated at the definition it concerns):

* `malloc` succeeds.  The `OSIP_NOMEM` paths are not modelled, except in FailClone, OwnModel, OwnSdp and OwnStack (C77 to C79).
* Memory is modelled only where a property is about it (lists, buffers, clones); elsewhere a
  structure is a Gallina record and a pointer that may be NULL is an `option`.
* The state machines see a message through the fields they read (`TransModel`), not as text.
* Characters are 8-bit; the C locale; `isspace`/`tolower` are not used on characters >= 128.
* Printing and parsing sizes fit an `int`/`size_t`; C57 limits the printed text to 10^6 bytes.

Not modelled: port_thread.c (wrappers of the operating system),
the DNS/NAPTR callbacks, osip_trace on other systems than Linux, osip_content_disposition.c (an unused alias of
the Call-Info functions), allocator hooks, `osip_free`/destructors except where C54 tracks who owns
a message.

## Findings

Statements a user would expect that are false of the code, each shown by a theorem ending in
`_refuted` (or an Example where said):

1. An ACK or server response whose send callback returns a positive number is treated as a transport error (C17_refuted).
2. A 3xx-6xx answer lacking From, To, Call-ID or CSeq ends the INVITE transaction without report (C08_refuted, C10_refuted).
3. `add_gettimeofday` drops the microseconds for 1000 s and more (C04_add_refuted).
4. `osip_list_add` with a position below -1 inserts at index 1 (C03_add_appends_refuted).
5. Timers A/B run from creation, not from the first send; timeouts are queued twice; each ACK restarts timer I (C12_refuted, C14_refuted, C15_refuted, C14_timer_I_refuted).
6. `osip_timers_gettimeout` ignores pending events of three of the four kinds (C05_refuted).
7. An RFC 2543 copy does not match before the first event was executed (C20_refuted).
8. A `received`/`maddr` parameter without value is used as a NULL host (C24_refuted).
9. `osip_dialog_match_as_uas` never compares the local tag (C28_refuted).
10. `osip_atoi` truncates 64-bit values (C50_refuted).
11. `osip_strdup_without_quote` underflows on a one-character string (C55_refuted).
12. Line unfolding steps past the terminator (C42_end_refuted); a blank continuation line hides the end of the headers (C42_blank_continuation_refuted).
13. A Content-Length of seven digits overwrites the colon of its slot (C46_refuted).
14. The comma splitter's escape check has no effect (C43_escape_refuted), and a comma in `<...>` splits the element for schemes other than sip, sips, http, https, tel (C43_scheme_refuted).
15. `osip_via_parse("SIP/2.0/ ")` reads past its text (C56_via_refuted).
16. A multipart body with an empty part makes `memcpy` copy SIZE_MAX bytes (C56_message_refuted).
17. A boundary parameter of exactly one quote makes `osip_message_to_str` copy SIZE_MAX bytes (C40_message_boundary_refuted).
18. `osip_authentication_info_to_str` allocates one byte too few (C40_authentication_info_refuted).
19. Leading spaces truncate a display name (C35_leading_space_refuted); `<tel:12345;>` does not survive (C35_semicolon_refuted); a `;` in a Via comment (C34_comment_refuted); trailing blanks of a CSeq method are kept (C36_cseq_trailing_refuted); a Content-Type parameter without value cannot be printed (C38_flag_refuted).
20. Empty quoted values and short trailing tokens of the authentication headers are dropped (C49_empty_quoted_refuted, C49_short_token_refuted).
21. A multipart message without Mime-Version is printed without boundary lines, a part without headers does not parse back (C57_multipart_refuted); a header of a part comes back with a capital, and one whose name begins as Content-Type is taken for it (C57_part_refuted).
22. `osip_header_get_byname` with a negative position dereferences NULL (C41_negative_position_ub).
23. A chunk of nearly 2^32 bytes makes `osip_MD5Update` read past its input (C47_huge_chunk_refuted).
24. A cached message text containing a NUL byte is truncated by `osip_message_clone` although its length is copied (C48_cached_text_refuted); the field `auth_param` is never cloned (C48_auth_param_refuted); a message with an empty body cannot be cloned (C48_empty_body_refuted).
25. `sdp_message_parse` reads one byte past the terminator when the last line is an `m=` without payload ended by a lone LF or CR (C58_parse_safe_refuted).
26. `sdp_message_parse` drops the rest of the text, with success, at an unknown or misordered line after `t=` (C63_nothing_lost_refuted).
27. `sdp_message_clone` fails for a description without `t=` (C62_clone_no_time_refuted) and moves a number of addresses without TTL into the TTL (C62_clone_ttl_refuted).
28. The SDP accessors dereference NULL for a media position below -1 or equal to INT_MAX (C64_no_media_refuted).
29. `sdp_message_a_attribute_del_at_index` on a media never returns for a position other than 0 (C65_del_at_index_media_refuted) and deletes every attribute for position 0 (C65_del_first_media_refuted).
30. The field `auth_param` of credentials is never freed (C66_auth_param_refuted); no library function sets it.
31. `osip_uri_param_free(NULL)` dereferences NULL, unlike the other free functions (C66_param_null_refuted).
32. `osip_message_set_method`, `_set_version`, `_set_uri`, `_set_status_code` and `_set_reason_phrase` do not mark the cached text as stale: after a print, the next print answers the old text (C67_start_line_refuted).
33. `osip_message_to_str` and `osip_message_to_str_sipfrag` share one cache, each answers the text of the other (C67_fragment_refuted).
34. Printing the clone of a printed message whose body has a NUL byte reads past the cached copy (C67_clone_nul_refuted).
35. If the copy for the cache cannot be allocated, the message is marked as cached all the same and the next print copies from NULL (C67_no_memory_refuted).
36. `osip_uri_clone`, `osip_uri_param_clone`, `osip_cseq_clone`, `osip_call_id_clone`, `osip_content_type_clone` and `osip_authentication_info_clone` do not test `osip_strdup`: out of memory they succeed with fields missing (C68_uri_refuted).
37. `osip_authorization_clone` tests the original's field instead of the copy's after twelve of its `osip_strdup` calls, so these failures are not noticed either (C68_authz_refuted).
38. `osip_list_clone` does not look at the answer of `osip_list_add`: if the node cannot be allocated the element is missing in the copy and its memory is lost (C68_list_refuted).
39. The state and timers of a transaction have no mutex: `osip_timers_gettimeout` and `osip_timers_*_execute` read them, under the mutex of the table, while `osip_*_execute`, which holds none, changes them (C72_state_race_refuted).
40. `osip_transaction_init` puts a transaction in its table before the caller can give it its first event: a retransmission that another thread receives meanwhile is added first, and if the worker executes it and frees the transaction the caller uses freed memory (C69_create_rule_needed).
41. `osip_find_transaction_and_add_event` followed by `osip_create_transaction` is not atomic: two receiving threads make two transactions of one branch (C71_source_rule_needed).
42. `osip_retransmissions_execute` calls `cb_send_message` with `ixt_fastmutex` held, and the mutexes are not recursive: a callback that stops a retransmission, or asks for the next timeout, blocks for ever (C70_callback_rule_needed).
43. A server transaction that sent a 2xx to an INVITE is over at once and throws the answer away, and a client transaction in PROCEEDING has no timer: if the 2xx is lost, nothing but the application (osip's retransmission list, or its own) ends the client's wait (C74_lost_2xx_rule_needed; RFC 3261 says the same, RFC 6026 does not).
44. When the server has removed its finished transaction, a late copy of the request is announced as a new one and the two applications may end with different answers (C73_forget_rule_needed).
45. The unfolding of header lines stops at CR LF CR LF, CR CR or LF LF only: if the line before the empty line ends with a lone LF it goes on into the body and replaces line breaks there (C45_mixed_breaks_refuted).
46. The method reaches up to the first space of the message, wherever it is: a start line without spaces swallows header lines, the empty line and more (C45_start_line_refuted).
47. `osip_message_parse_sipfrag` tries the first line as a start line before it takes it for a header: a fragment that begins with the header line "Subject: sip:a SIP/2.0", which `osip_message_to_str_sipfrag` prints, is read back as a request of the method "Subject:" (C76_refuted).
48. `osip_body_set_contenttype` overwrites the pointer without a look at it: a part of a multipart body with two Content-Type lines, which the parser accepts, leaks the structure of the first.  Anybody who can send a message can make the program lose memory, with every message (C77_message_refuted, C77_message_refuted_text).
49. No parser looks at the answer of `osip_list_add`: if the node cannot be allocated, the header or parameter is lost with all it owns, and the message is accepted without it (C77_list_refuted).
50. The SDP parser assigns without a look at what was there: a description with an s line before and after the o line, with two i or two k lines in one media, or with a c, i or k line after the attributes of a description without media, is accepted and leaks what the first line had allocated.  Anybody who can send a description can make the program lose memory (C78_sdp_refuted, C78_sdp_refuted_text).
51. `__osip_ict_init` frees its context when the top Via is missing or has no protocol, but leaves the pointer (the other three kinds set it to NULL), and `osip_transaction_init` then frees the transaction with it: a double free.  It is not reachable: `osip_transaction_init` has copied the same Via before, and `osip_via_clone` refuses one without a protocol.  It would be if another thread changed the request in between (C79_ict_rule_needed).
52. `osip_fifo_init` answers nothing, so a queue whose semaphore could not be allocated is used: `osip_fifo_add` puts events in, `osip_fifo_tryget` answers NULL for ever, the transaction never runs and the events are not freed with it (C79_transaction_refuted).
53. The semaphore for ARC ignores the value given to `osip_sem_init`: it always starts with no permit (C80_value_refuted).  The library itself only asks for 0.
54. On Windows two threads in `osip_cond_wait` on one condition variable deadlock: the second one blocks on the mutex inside the condition variable while it still owns the mutex of the program, which the first one needs to come back.  No signal helps and nobody gets the mutex again (C81_wakes_refuted).
55. On Windows `osip_cond_timedwait` overflows for a limit more than 24 days away (C81_limit_refuted).
56. On Android the time slept is lost for ever once more than an hour of real time has passed since the last correction: `osip_compensatetime` returns without noting the readings, so the difference stays above an hour (C82_catches_up_refuted).
57. `osip_trace_enable_level`, `osip_trace_disable_level` and `osip_is_trace_level_activate` use END_TRACE_LEVEL, a value of their argument's type, as an index past the table (C85_levels_refuted).
58. `osip_message_parse_sipfrag` keeps the version of a status line it refuses: the fragment "SIP/2.0 x: z" has a version but is neither request nor response nor without a start line (C86_fragment_refuted).
59. `osip_uri_to_str_canonical` decodes the whole text and not the parts, so a host with an IPv6 zone, which is printed without escapes, is cut at its percent sign: "sip:a@[fe80::1%zone]:5070" becomes "sip:a@[fe80::1" (C87_text_refuted).
60. Two different URIs can have the same canonical text: one parameter x with value "y;lr", and two parameters x=y and lr, both give "sip:a@b;x=y;lr" (C87_distinct_refuted). The canonical text cannot be used to compare or to parse back.
61. `osip_usleep` drops the fraction of a second of any time above one second: 1500000 microseconds become one second (C88_exact_refuted).
62. `osip_str_append` with a destination inside the text, or at its terminator (doubling a text), overwrites the terminator before reading it and leaves the memory (C89_overlap_refuted). `osip_strn_append` does not.
63. `osip_snprintf` built for VxWorks returns the length written and not that of the text, so that a cut is not seen; a text handed over in no piece leaves no terminator (C90_vxworks_refuted).
64. `osip_snprintf` built for pSOS appends to what earlier calls left in its static buffer, behind a line feed (C90_psos_accumulates_refuted), and overruns it once all texts together exceed 1022 bytes (C90_psos_overrun_refuted).
65. `osip_trace_initialize` does not undo `osip_trace_initialize_func` or `osip_trace_initialize_syslog`: traces go on to the function or to syslog although a file was named last (C91_place_refuted).
66. The time in a trace wraps: after 25 days it is negative (C91_time_refuted).
67. For syslog, `osip_trace` uses the result of `snprintf` as an offset without a test: a source file name of about 500 bytes makes it write beyond its buffer (C91_line_refuted).
68. Registering a callback for a negative type writes before the table; only types that are too large are refused (C92_negative_refuted).

Further oddities seen while transcribing, kept in the model and not the subject of a theorem:
the reason phrase of a response may cross the line end (Example startline_crosses_line);
two spaces before the protocol of an `m=` line make it swallow the payloads; `a=name:` with an empty value makes the whole description unacceptable; a second `s=` before `o=` leaks the first;
header printers' errors are ignored for single-valued headers; an ACK without To in RFC 2543
matching and a client transaction without request URI dereference NULL; "sipfoo:" is taken as a
SIP URI; URI parameter errors are ignored; an empty "Accept:" adds an empty entry; a
Content-Length above INT_MAX is accepted truncated; a name-addr whose URI has fewer than six
characters is rejected.

## Testing the theorems

`seeded/LOG.jsonl` has one line per seeded wrong program: the definition edited, the edit, the
claim it breaks, the theorems that stopped proving, and what was tightened if none did.
"Stopped proving" means that the script of the first lemma or theorem no longer checks; what depends
on it is listed beside it.  That alone does not show that the theorem has become false, since a script can also fail for its
form.  The edits were chosen so that the claim is false of the edited program.  The kills of C82 to C85 were
looked at one by one: scripts that failed for their form were made independent of it and the edits were tried again, an
edit that gave no well-formed program was replaced, and one that changed nothing was dropped.  The earlier ones were not gone through in this way.
