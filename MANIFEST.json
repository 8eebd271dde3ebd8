{
 "claims": [
  {
   "property": "C01",
   "status": "proved",
   "theorems": [
    "c01_head_roundtrip"
   ],
   "note": "Also gives the body and when is_valid_request is false. The empty Host entry the parser adds itself is the only name excluded from the headers[] clause."
  },
  {
   "property": "C02",
   "status": "proved",
   "theorems": [
    "c02_body_independent"
   ],
   "note": ""
  },
  {
   "property": "C03",
   "status": "partial",
   "theorems": [
    "c03_valid_refuted",
    "c03_valid_exact",
    "c03_valid_partial"
   ],
   "note": "The full claim is false: a field named _version disables the Host check. c03_valid_exact is the exact iff; c03_valid_partial is the claim for heads without such a field."
  },
  {
   "property": "C04",
   "status": "partial",
   "theorems": [
    "c04_request_line_partial",
    "c04_request_line_refuted"
   ],
   "note": "Method and URL hold whenever the request object is created; the version can be overridden by a _version field, and a _method/_url field makes the constructor raise."
  },
  {
   "property": "C05",
   "status": "partial",
   "theorems": [
    "c05_save_partial",
    "c05_save_refuted"
   ],
   "note": "Needs no field named _line, and one more byte of line length for the second parse."
  },
  {
   "property": "C06",
   "status": "proved",
   "theorems": [
    "c06_remove_exact",
    "c06_append_exact"
   ],
   "note": ""
  },
  {
   "property": "C07",
   "status": "proved",
   "theorems": [
    "c07_content_length",
    "c07_content_length_accepts"
   ],
   "note": "The error response for rejected values is C52."
  },
  {
   "property": "C08",
   "status": "proved",
   "theorems": [
    "c08_no_ambiguous_framing"
   ],
   "note": "Chunked is recognised by substring, as in the code."
  },
  {
   "property": "C09",
   "status": "partial",
   "theorems": [
    "c09_keepalive_partial",
    "c09_keepalive_refuted"
   ],
   "note": "Exact rule: spaces (also inner ones) are deleted from each part, tabs are not; with RFC 9110 optional whitespace the claim is false."
  },
  {
   "property": "C10",
   "status": "partial",
   "theorems": [
    "c10_split_partial",
    "c10_split_refuted"
   ],
   "note": "Every segmentation and limit except a head of exactly client_max_header_size bytes, where the outcome depends on the split (refuted)."
  },
  {
   "property": "C11",
   "status": "proved",
   "theorems": [
    "c11_header_memory"
   ],
   "note": ""
  },
  {
   "property": "C12",
   "status": "proved",
   "theorems": [
    "c12_content_length_body",
    "c12_resumption"
   ],
   "note": "The end marker is queued by put_to_queue (C19)."
  },
  {
   "property": "C13",
   "status": "partial",
   "theorems": [
    "c13_chunked_partial",
    "c13_chunked_refuted"
   ],
   "note": "False when a piece ends right after chunk data or inside the CRLF following it; proved for all other segmentations."
  },
  {
   "property": "C14",
   "status": "proved",
   "theorems": [
    "c14_truncated_chunked"
   ],
   "note": ""
  },
  {
   "property": "C15",
   "status": "partial",
   "theorems": [
    "c15_accepted_partial",
    "c15_accepted_refuted"
   ],
   "note": "Exact description of what is accepted; the two-byte terminator clause fails at piece boundaries (refuted)."
  },
  {
   "property": "C16",
   "status": "proved",
   "theorems": [
    "c16_sized_reads"
   ],
   "note": ""
  },
  {
   "property": "C17",
   "status": "partial",
   "theorems": [
    "c17_mixed_partial",
    "c17_mixed_refuted"
   ],
   "note": "read() after a sized read skips the bytes held back; proved when read() is called at piece ends."
  },
  {
   "property": "C18",
   "status": "proved",
   "theorems": [
    "c18_oversized_body"
   ],
   "note": ""
  },
  {
   "property": "C19",
   "status": "partial",
   "theorems": [
    "c19_upload_partial",
    "c19_upload_expect",
    "c19_upload_refuted"
   ],
   "note": "Full for requests without Expect: 100-continue. With it the 100 response resumes reading early and one more piece can be taken (refuted; bounded by c19_upload_expect). SSL transports may deliver already decrypted data after pause_reading: not modelled."
  },
  {
   "property": "C20",
   "status": "partial",
   "theorems": [
    "c20_queue_bound",
    "c20_one_writer",
    "c20_two_writers_refuted"
   ],
   "note": "Full claim for one writer per queue; with N concurrent writers the bound is max_queue_size + N (the literal bound is refuted for two)."
  },
  {
   "property": "C21",
   "status": "proved",
   "theorems": [
    "c21_throughput"
   ],
   "note": "Float arithmetic is taken as exact rationals."
  },
  {
   "property": "C22",
   "status": "proved",
   "theorems": [
    "c22_create_frame"
   ],
   "note": "str payloads are UTF-8 encoded (PyUtf8.v); opcode 1 with bytes, or another opcode with str, raises and is outside the claim"
  },
  {
   "property": "C23",
   "status": "proved",
   "theorems": [
    "c23_roundtrip",
    "c23_waits"
   ],
   "note": "for any packets, any left-over buffer, any following data, and whether the connection then stays open, ends or times out; c23_waits: an incomplete frame makes recv wait"
  },
  {
   "property": "C24",
   "status": "partial",
   "theorems": [
    "c24_limit_partial",
    "c24_limit_refuted",
    "c24_claim_refuted"
   ],
   "note": "holds for the 64-bit length form; false for the 7-bit and 16-bit forms, where ws_max_payload_size is not checked (websocket.py:52-64)"
  },
  {
   "property": "C25",
   "status": "partial",
   "theorems": [
    "c25_control_partial",
    "c25_control_refuted"
   ],
   "note": "every clause but one: a close frame with 126 bytes or more of payload ends the session with the peer's code, not 1008 (refuted)"
  },
  {
   "property": "C26",
   "status": "partial",
   "theorems": [
    "c26_truncated_partial",
    "c26_truncated_refuted",
    "c26_claim_refuted"
   ],
   "note": "recv raises when the connection ends in the first two bytes, and at the next call in every other case; a frame cut later is returned truncated (refuted, for every binary frame and every cut in the payload)"
  },
  {
   "property": "C27",
   "status": "partial",
   "theorems": [
    "c27_receive_partial",
    "c27_terminates",
    "c27_receive_refuted",
    "c27_fragments_refuted"
   ],
   "note": "text and non-empty binary messages after any pings/pongs; empty binary messages are swallowed and fragmented messages broken (refuted)"
  },
  {
   "property": "C28",
   "status": "partial",
   "theorems": [
    "c28_stored",
    "c28_write",
    "c28_append_refuted"
   ],
   "note": "stored lines and the head of write(); unconditional for set_header, set_cookie, set_content_type, set_status; append_header does not check its arguments (refuted without the LF-free condition)"
  },
  {
   "property": "C29",
   "status": "proved",
   "theorems": [
    "c29_lines",
    "c29_reject",
    "c29_sent",
    "c29_write_sends"
   ],
   "note": "after the head was sent, set_base_header is a silent no-op instead of raising; every other header call raises"
  },
  {
   "property": "C30",
   "status": "partial",
   "theorems": [
    "c30_end_partial",
    "c30_cleared_refuted"
   ],
   "note": "full claim for responses that start with set_base_header, as the server does; after the headers.clear() of an error handler the head can end with an extra CRLF (refuted)"
  },
  {
   "property": "C31",
   "status": "proved",
   "theorems": [
    "c31_stream",
    "c31_unchunked",
    "c31_value"
   ],
   "note": "generator handlers and value handlers, with any header calls before and any response middlewares; the header lines by name, except Date, Server, Connection, Content-Type, Content-Length and Transfer-Encoding, which are C29 and C32"
  },
  {
   "property": "C32",
   "status": "partial",
   "theorems": [
    "c32_stream",
    "c32_value",
    "c32_direct_partial",
    "c32_direct_refuted",
    "c32_middleware_refuted"
   ],
   "note": "all handler results, end() (c30) and direct writes; false for HEAD with status 426 and several direct writes, and when a response middleware changes the status to 204"
  },
  {
   "property": "C33",
   "status": "proved",
   "theorems": [
    "c33_sends"
   ],
   "note": ""
  },
  {
   "property": "C34",
   "status": "partial",
   "theorems": [
    "c34_range_partial",
    "c34_standard",
    "c34_head",
    "c34_suffix0_refuted",
    "c34_zero_end_refuted"
   ],
   "note": "Every Range header: 400/416 with nothing changed, or a complete 206 response with 1-101 in-bounds ranges, byte-exact, single or multipart. Missing: suffix ranges of length 0 ('-0'), for which no response is sent at all (refuted); 'a-0' is served as 'a-a' (refuted). The file is assumed not to change and file_size, if given, to be right."
  },
  {
   "property": "C35",
   "status": "proved",
   "theorems": [
    "c35_full",
    "c35_bodyless",
    "c35_not_modified"
   ],
   "note": "Byte-exact full download for every buffer size, incl. failed If-Range; bodyless and 304 answers are heads only. The handler's own header calls are assumed not to set Content-Length/Transfer-Encoding and to have colon-free names. First sendfile of a connection; later ones are C66."
  },
  {
   "property": "C36",
   "status": "partial",
   "theorems": [
    "c36_session_partial",
    "c36_refused",
    "c36_injection_refuted",
    "c36_event_injection_refuted",
    "c36_retry_refuted"
   ],
   "note": "Every sequence of send calls without CR (and NUL in the id, negative retry) is decoded by a WHATWG parser to exactly the messages sent; line feeds in event/id are refused without effect. False in full: a CR in data, event or id injects fields and events."
  },
  {
   "property": "C39",
   "status": "proved",
   "theorems": [
    "c39_escape",
    "c39_escape_str"
   ],
   "note": "bytes and str branches; html.escape of the standard library is modelled by its documented replacements"
  },
  {
   "property": "C42",
   "status": "proved",
   "theorems": [
    "c42_bounded",
    "c42_add",
    "c42_registered",
    "c42_again",
    "c42_drop"
   ],
   "note": ""
  },
  {
   "property": "C56",
   "status": "proved",
   "theorems": [
    "c56_parse_args",
    "c56_unknown"
   ],
   "note": "sys.exit is None; command lines start with the program name and end with the app"
  },
  {
   "property": "C41",
   "status": "partial",
   "theorems": [
    "c41_fifo_partial",
    "c41_accounted",
    "c41_once",
    "c41_cancelled",
    "c41_lost_refuted",
    "c41_next_get_refuted",
    "c41_other_refuted"
   ],
   "note": "FIFO and exactly-once for every schedule of one consumer, exactly-once for any number of consumers; a get cancelled while it waits never gets an item. False in full: an item handed over and then cancelled before the getter runs is lost; after a cancelled get the next get raises CancelledError until something is put."
  },
  {
   "property": "C43",
   "status": "partial",
   "theorems": [
    "c43_exclusion_partial",
    "c43_acquire",
    "c43_given_partial",
    "c43_timeout_refuted",
    "c43_cancel_refuted",
    "c43_leak_refuted"
   ],
   "note": "Mutual exclusion for all schedules in which no `async with` fails to acquire, and for acquire()/release() with all timeouts and cancels. False in full: on a timeout (or cancel) `async with` releases the other task's lock and enters."
  },
  {
   "property": "C37",
   "status": "partial",
   "theorems": [
    "c37_one_line",
    "c37_attributes",
    "c37_round_trip_partial",
    "c37_alone_partial",
    "c37_empty_refuted",
    "c37_name_refuted"
   ],
   "note": "No value, path, domain or samesite adds a line or an attribute (RFC 6265 user agent, full); every non-empty UTF-8 value set under a plain name is reported by request.cookies among any other cookies. False for the empty value, which is dropped; and names with % + & are not quoted (refuted)."
  },
  {
   "property": "C38",
   "status": "partial",
   "theorems": [
    "c38_query",
    "c38_limit",
    "c38_cookies",
    "c38_form_partial",
    "c38_form_limit",
    "c38_form_short_refuted",
    "c38_second_refuted"
   ],
   "note": "Query and cookies in full, for every way of writing the fields; form for bodies of more than two bytes. False: a two-byte body (=a) is ignored by form(), and the ValueError for too many fields is raised on the first access only."
  },
  {
   "property": "C40",
   "status": "partial",
   "theorems": [
    "c40_files_partial",
    "c40_end_refuted",
    "c40_name_refuted",
    "c40_quoted_refuted"
   ],
   "note": "Parts are delivered in order, byte-exact, with their info, for every segmentation and limit, and a later call continues with the rest; proved for Content-Disposition parameters with ; & % + escaped, unquoted boundaries and CRLF after the closing delimiter. Refuted: closing delimiter without CRLF (BadRequest after the parts), ; in a quoted name, quoted boundary."
  },
  {
   "property": "C49",
   "status": "partial",
   "theorems": [
    "c49_literal_partial",
    "c49_root_partial",
    "c49_no_slash",
    "c49_root_refuted",
    "c49_dot_refuted"
   ],
   "note": "All tables of literal routes without regular-expression characters, all URLs, through the real patterns and a model of re. False: of several routes for the root the last wins, and characters special in regular expressions keep their meaning."
  },
  {
   "property": "C50",
   "status": "partial",
   "theorems": [
    "c50_worker_partial",
    "c50_literal",
    "c50_refuted",
    "c50_stale_refuted"
   ],
   "note": "Within the life of a worker the same URL always gets the same handler and parameters, for all tables, histories and interleavings; with literal routes it is a function of the routes and the URL. False across histories: a regular expression is removed from the table by the first request that matches it."
  },
  {
   "property": "C51",
   "status": "partial",
   "theorems": [
    "c51_order",
    "c51_reached",
    "c51_options_partial",
    "c51_route_refuted"
   ],
   "note": "Order, short-circuit and the precedence of options among middlewares are proved. False as stated: a request middleware's options override those of the route."
  },
  {
   "property": "C52",
   "status": "partial",
   "theorems": [
    "c52_error_partial",
    "c52_sent",
    "c52_websocket_refuted",
    "c52_frame_refuted",
    "c52_message_refuted"
   ],
   "note": "Proved for HTTPException, TimeoutError and ordinary exceptions with one-line message and content type and an error handler that leaves the response alone. False for WebSocket exceptions and for messages with a line feed."
  },
  {
   "property": "C53",
   "status": "partial",
   "theorems": [
    "c53_length_partial",
    "c53_truncated",
    "c53_no_body",
    "c53_chunked_partial",
    "c53_zero_refuted",
    "c53_chunked_refuted",
    "c53_empty_refuted",
    "c53_disconnect"
   ],
   "note": "Proved for Content-Length of one and more and for requests without a body; chunked bodies concatenate correctly. False: Content-Length 0 gives http.disconnect only, chunked bodies never end with more_body false, and an event with an empty body and more_body false can come in the middle of one."
  },
  {
   "property": "C54",
   "status": "partial",
   "theorems": [
    "c54_head_partial",
    "c54_response",
    "c54_colon_refuted",
    "c54_line_refuted",
    "c54_status_refuted",
    "c54_late_refuted"
   ],
   "note": "Head lines for every sequence of events, where header names have no colon; framing and body for start followed by bodies. False: names with a colon, the name _line, statuses unknown to http.HTTPStatus, body events after the last one."
  },
  {
   "property": "C55",
   "status": "partial",
   "theorems": [
    "c55_decision",
    "c55_complete",
    "c55_unsupported_partial",
    "c55_fails_only",
    "c55_fails_partial",
    "c55_progress",
    "c55_caught_refuted",
    "c55_cancelled_refuted",
    "c55_late_refuted",
    "c55_shutdown_refuted"
   ],
   "note": "The outcome of startup for every interleaving of the application, the timer and the server. False: an application that catches the exception of send() after startup.failed is started, and one that ends with CancelledError stops the startup."
  },
  {
   "property": "C58",
   "status": "partial",
   "theorems": [
    "c58_count",
    "c58_replaced_partial",
    "c58_kept",
    "c58_progress_partial",
    "c58_eof_refuted",
    "c58_boot_refuted",
    "c58_stop_refuted",
    "c58_told",
    "c58_serves",
    "c58_stops",
    "c58_replies"
   ],
   "note": "The number of workers and the distinct pids in every reachable state; a dead worker is replaced within one round of the supervisor, if the supervisor gets through the round; it does unless a worker closes its pipe between the two checks, or a new worker dies before it has sent its pid: then the supervisor crashes (EOFError) or hangs, and the property is false. A worker that is told 0 or loses its parent stops, and stops only then."
  },
  {
   "property": "C45",
   "status": "partial",
   "theorems": [
    "c45_bodies_partial",
    "c45_pipelined_partial",
    "c45_progress_partial",
    "c45_delivered_partial",
    "c45_unread_refuted",
    "c45_smuggle_refuted",
    "c45_late_refuted",
    "c45_chunks_refuted"
   ],
   "note": "Every history of requests (Content-Length, chunked, without a body), segments, task schedules and handler reads, where the handlers read the bodies of their requests (the connection still open). False otherwise: the body a handler did not read is delivered as the body of the next request, or dispatched as a request of its own; and when the head of an upload arrives before the end of the previous response, its handler can see the end of the body too early; so can the handler of an upload that follows a chunked one, if the task that put the last segment of that into the queue ends after its response (c45_chunks_refuted). See also c78_leftover_refuted: the end mark of a body that was not taken ends the next body."
  },
  {
   "property": "C46",
   "status": "partial",
   "theorems": [
    "c46_order_partial",
    "c46_complete_partial",
    "c46_waiting_partial",
    "c46_responses_partial",
    "c46_stuck_refuted",
    "c46_steal_refuted"
   ],
   "note": "Order, exactly once, and not before the previous response was completed, for every segmentation and schedule in which no segment is still on its way into the queue when a response ends (for clients that wait this is needed after chunked requests only). False otherwise: a request that arrives in a segment longer than buffer_size while the previous response ends can be lost; and a handler of a body-less request that reads more than once (ASGI: a second receive()) takes the next request."
  },
  {
   "property": "C44",
   "status": "partial",
   "theorems": [
    "c44_isolated_partial",
    "c44_close_partial",
    "c44_kept_partial",
    "c44_close_refuted",
    "c44_dropped_refuted",
    "c44_stray_refuted",
    "c44_escape_refuted"
   ],
   "note": "Every history of connects (with any reuse of socket numbers), disconnects, reads and writes without close middlewares, and with them if no socket number is used again before they are done. False otherwise: while a close middleware runs the next client with this number is sent what is left in the queue, and loses its own data when it is done; the same if a task of the application's own is inside send() at the disconnect, or a callable escapes the cleanup."
  },
  {
   "property": "C57",
   "status": "partial",
   "theorems": [
    "c57_tasks_partial",
    "c57_more_partial",
    "c57_cleaned_partial",
    "c57_silent_partial",
    "c57_refuted"
   ],
   "note": "All sets of tasks and callables, in any order, where callables raise Exceptions (with a message that can be made). False for other exceptions, such as CancelledError: the rest is neither cancelled nor cleaned up."
  },
  {
   "property": "C48",
   "status": "proved",
   "theorems": [
    "c48_order",
    "c48_bound",
    "c48_waits",
    "c48_timeout",
    "c48_drained",
    "c48_low"
   ],
   "note": "Every schedule of puts, drains, changes of the watermarks, timeouts, closes and disconnects, on asyncio's selector transport (not TLS)."
  },
  {
   "property": "C47",
   "status": "partial",
   "theorems": [
    "c47_aborts",
    "c47_waits",
    "c47_in_time_partial",
    "c47_started",
    "c47_handler_partial",
    "c47_cancels_partial",
    "c47_slow_refuted",
    "c47_asgi_refuted",
    "c47_early_refuted"
   ],
   "note": "For every order of events and all times: late connections are aborted, those whose handler was started in time are not; proved that a head in time is enough when it comes alone, refuted when it comes with further bytes (put_to_queue sleeps before the waiter is resolved). A handler is cancelled only by its own time, for handlers that run one after the other and are not ASGI applications; refuted for ASGI applications (their timers are never cancelled) and for handlers that go on after the end of their response."
  },
  {
   "property": "C59",
   "status": "partial",
   "theorems": [
    "c59_interim_partial",
    "c46_waiting_partial",
    "c46_complete_partial",
    "c45_bodies_partial",
    "c45_delivered_partial",
    "c59_unasked_refuted",
    "c59_close_refuted",
    "c59_twice_refuted"
   ],
   "note": "Every history of requests (with or without Expect), segments and task schedules on a connection that is kept alive, where handlers read the body to its end and ask once: exactly one 100, at the point where the body is first asked for, and the connection serves all later requests. False otherwise: a handler that answers without reading leaves the connection open but deaf; without keep-alive the connection is closed after the 100, before the response; send_continue followed at once by a read gives two, and the body is then read as a head."
  },
  {
   "property": "C60",
   "status": "partial",
   "theorems": [
    "c60_handshake_partial",
    "c60_plain",
    "c60_close_refuted",
    "c60_lists_refuted",
    "c60_loose_refuted"
   ],
   "note": "Every well-formed head, every key and all header calls before accept(): a handshake on a connection that is kept alive gets exactly one 101 head with the accept value of RFC 6455 (SHA-1 and base64 are defined in PySha1.v) and is upgraded; requests without the fields are served as plain requests. False otherwise: with close in Connection the 101 says close and the connection is not upgraded; lists in Upgrade and repeated fields are not understood; other methods, versions and Connection fields are accepted too."
  },
  {
   "property": "C61",
   "status": "partial",
   "theorems": [
    "c61_stream_partial",
    "c61_delivered_partial",
    "c61_open_partial",
    "c61_close_partial",
    "c61_second_refuted",
    "c61_early_refuted"
   ],
   "note": "Every segmentation, schedule and handler of a session that is the first request of its connection, with a client that waits for the first bytes of the answer. False otherwise: a handshake on a connection that served a request before is closed together with its 101; frames that are sent before the answer can be read out of order with those sent after it."
  },
  {
   "property": "C62",
   "status": "partial",
   "theorems": [
    "c62_connect",
    "c62_accept_partial",
    "c62_illegal",
    "c62_talk_partial",
    "c62_client_close",
    "c62_client_gone",
    "c62_close",
    "c62_fails",
    "c62_empty_refuted",
    "c62_unaccepted_refuted",
    "c62_refused_refuted",
    "c62_return_refuted",
    "c62_keep_refuted"
   ],
   "note": "Every client, segmentation and sequence of calls of the application on an open session. False: empty messages are dropped; without websocket.accept, messages and closes go out as bare frames with no head; a frame that is refused (too large, unknown) gives the application code 1005 and the client no close frame; an application that returns when the client closed leaves the connection open without a close frame; Connection: close given with websocket.accept makes a 101 that is not upgraded."
  },
  {
   "property": "C63",
   "status": "partial",
   "theorems": [
    "c63_request",
    "c63_ip_forwarded_partial",
    "c63_ip_direct",
    "c63_ip_refuted",
    "c63_scheme_partial",
    "c63_scheme_refuted",
    "c63_stable",
    "c63_list_partial",
    "c63_list_refuted",
    "c63_scope_http_partial",
    "c63_scope_ws_partial",
    "c63_invalid",
    "c63_path_refuted"
   ],
   "note": "Every head within the limits of the parser, every body, peer and order of reads. False: an empty first element of X-Forwarded-For gives an empty ip and a space before the comma is kept; X-Forwarded-Proto sent twice makes the scheme raise (an ASGI application is then not called); lists are cut after the hundredth comma and keep spaces before commas; the ASGI path is decoded as Latin-1 and not as UTF-8."
  },
  {
   "property": "C64",
   "status": "partial",
   "theorems": [
    "c64_connect",
    "c64_gate",
    "c64_refuses",
    "c64_close",
    "c64_cleaned",
    "c64_sure",
    "c64_overlap_refuted",
    "c64_worker_start",
    "c64_worker_stop"
   ],
   "note": "Every number of middlewares, outcome and interleaving. One clause is false: when the client leaves while an on_connect middleware still runs, the on_close middlewares run and the connection is cleaned up at the same time (c64_overlap_refuted)."
  },
  {
   "property": "C65",
   "status": "partial",
   "theorems": [
    "c65_options",
    "c65_middlewares",
    "c65_events",
    "c65_returns",
    "c65_errors_partial",
    "c65_errors_ignored",
    "c65_errors_refuted",
    "c65_listen",
    "c65_kept"
   ],
   "note": "Every sequence of registrations. One clause is false: a handler for an error other than 400, 404 and 500 is accepted, returned and never kept (c65_errors_ignored, c65_errors_refuted). Keyword-only parameters are not in __defaults__ and give no options (py_function has positional ones only)."
  },
  {
   "property": "C66",
   "status": "partial",
   "theorems": [
    "c66_same_partial",
    "c66_full_partial",
    "c66_missing",
    "c66_other",
    "c66_refuted",
    "c66_replaced_refuted"
   ],
   "note": "Every sequence of calls in which no earlier call opened another file: each does what it does on a new connection, with the bytes of the file as they are now (then C34 and C35 apply). False otherwise: the context of the connection keeps the first handle, so that a later call for another file (or for a path that was given a new file) sends the size and the date of the new file and the bytes of the first one (c66_other, for all such calls); the client of a kept-alive connection gets a wrong file, and framing is lost if the sizes differ."
  },
  {
   "property": "C67",
   "status": "partial",
   "theorems": [
    "c67_exact",
    "c67_own_partial",
    "c67_called",
    "c67_options",
    "c67_stale_refuted",
    "c67_stale_sse_refuted",
    "c67_options_refuted"
   ],
   "note": "Every sequence of requests: which WebSocket and which SSE each function gets is characterised exactly (the last one made on the connection); own ones are given where the request makes them, None where no request so far made one; the handler is called exactly if all middlewares pass and the handshake fields can be examined; own options are in context.options with their values. False in full: a later request on a kept-alive connection is given the WebSocket or SSE of an earlier one (self._server lives as long as the connection), and context.options keeps options of routes of earlier requests."
  },
  {
   "property": "C68",
   "status": "partial",
   "theorems": [
    "c68_lost",
    "c68_gone",
    "c68_told_partial",
    "c68_timer",
    "c68_timer_partial",
    "c68_stopped_partial",
    "c68_sent",
    "c68_own_partial",
    "c68_told_refuted",
    "c68_fault_refuted",
    "c68_timer_refuted",
    "c68_own_refuted",
    "c68_timer_other_refuted"
   ],
   "note": "Every order of requests, calls, cancellations and times. Proved: all running applications are cancelled when the connection is lost and nothing goes to or comes from a client afterwards; the last request's application that waits in receive is told; the timer cancels once, no sooner than app_close_timeout after a loss or a disconnect event; with applications one after the other calls go to their own request. False in full: receive after the end of the body says http.disconnect to an application whose client waits, and gets it cancelled; receive called after the loss raises TypeError; the timer is used up by the first such event of a connection, so that later applications are never stopped; an application that outlives its response reads and writes the next request's, and its disconnect event gets the next application cancelled."
  },
  {
   "property": "C69",
   "status": "partial",
   "theorems": [
    "c69_classes",
    "c69_http_partial",
    "c69_secret",
    "c69_internal",
    "c69_debug",
    "c69_404",
    "c69_args_refuted",
    "c69_encode_refuted",
    "c69_markup_refuted"
   ],
   "note": "Every class, text, code, message, content type, traceback and path. False in full: an HTTPException with an argument that is not a str gets no response at all, because the log line evaluates str(exc) first and raises (c69_args_refuted); nor does one whose text the declared charset cannot encode (c69_encode_refuted); with debug off the text of an HTTPException is put into a text/html page without quoting (c69_markup_refuted)."
  },
  {
   "property": "C70",
   "status": "partial",
   "theorems": [
    "c70_run",
    "c70_all",
    "c70_none",
    "c70_listen",
    "c70_main",
    "c70_port",
    "c70_bad",
    "c70_sock",
    "c70_files",
    "c70_last",
    "c70_colon_refuted",
    "c70_typo_refuted",
    "c70_workers_refuted",
    "c70_empty_refuted",
    "c70_close_refuted",
    "c70_workers_limit_refuted",
    "c70_path_refuted"
   ],
   "note": "Every sequence of listen calls and every command line of documented words and well-formed binds. False in full: of several workers on a Unix socket only the last one is reachable, as each removes the socket of the one before (c70_workers_refuted; c70_last for any number); an empty file is removed though it is no socket; the socket file stays after the end, as close_sock asks a closed socket for its name; a host name that does not resolve becomes a Unix socket; listen(worker_num=...) is neither limited nor checked; run() with a path as port raises TypeError; a path with a colon cannot be bound from the command line. Systems without Unix sockets are not modelled; whether a name resolves is a parameter."
  },
  {
   "property": "C71",
   "status": "partial",
   "theorems": [
    "c71_main",
    "c71_options",
    "c71_level_refuted"
   ],
   "note": "Every command line of documented words (C56) and well-formed binds; 17 options by name, log level, TLS files, server name, loop and application. One clause is false: listen(log_level=...) in small letters makes the worker fail (c71_level_refuted), as only run() makes them capital. The options reload and ssl password, and names of the module logging that are no levels, are not covered."
  },
  {
   "property": "C72",
   "status": "partial",
   "theorems": [
    "c72_name",
    "c72_default",
    "c72_dotted_refuted"
   ],
   "note": "Every path and attribute without backslash; os.path.abspath is a parameter, and importing is not modelled. False in full: of a dotted name (package.module) the part after the last dot is cut off as an extension, so that the package is imported instead (c72_dotted_refuted)."
  },
  {
   "property": "C73",
   "status": "partial",
   "theorems": [
    "c73_reason",
    "c73_reload_partial",
    "c73_off",
    "c73_memory",
    "c73_over",
    "c73_rebind",
    "c73_later_refuted",
    "c73_away_refuted",
    "c73_below_refuted",
    "c73_rebind_refuted"
   ],
   "note": "Every sequence of looks. Proved in general: a reload always has a reason, the memory limit works as stated, and modules that are there at the first look and stay there are watched exactly. False in full: a module loaded after the first look is never watched (c73_later_refuted); a module whose file was away at one look, as when an editor replaces it, is not watched from then on (c73_away_refuted); nor is one in a directory of sys.path below that of the application (c73_below_refuted); of several applications in the module the supervisor goes on with the last by name (c73_rebind_refuted). Reimporting itself is not modelled."
  },
  {
   "property": "C74",
   "status": "proved",
   "theorems": [
    "c74_dropped",
    "c74_pinged",
    "c74_answers",
    "c74_silent",
    "c74_apart",
    "c74_unlisted"
   ],
   "note": "Every sequence of segments, calls and times. Which frames a segment completes is C23 and C25 to C27; sessions with close frames or refused frames end there (C24, C25). At the same instant timers run before a segment is queued. What follows the failure of receive() is C61 and C62."
  },
  {
   "property": "C75",
   "status": "proved",
   "theorems": [
    "c75_exchange"
   ],
   "note": "The composition of the models of the parser, framing, routing, the request server, responses and the connection. The client may also send early if no data is on its way when a response ends; that waiting is needed, and that bodies have to be read before the response is closed, is in C45 and C46. HEAD and statuses without a body are left out, as the server then closes the connection; middlewares, streams of several yields, and handlers that let exceptions out are in C29 to C32, C63 and C69."
  },
  {
   "property": "C76",
   "status": "partial",
   "theorems": [
    "c76_reads_partial",
    "c76_fixed",
    "c76_get_refuted",
    "c76_setattr_refuted",
    "c76_name_refuted"
   ],
   "note": "Every history of stores and deletions, for names that the class does not take. False in full: a value stored under the name get is called by every later get() (c76_get_refuted), an item stored under __setattr__ stops items from being stored (c76_setattr_refuted), and names of methods are there as attributes though nothing is stored (c76_name_refuted). Assigning to __dict__ or __class__ is not modelled."
  },
  {
   "property": "C77",
   "status": "partial",
   "theorems": [
    "c77_open_partial",
    "c77_answered_partial",
    "c77_exchange",
    "c77_segments_refuted",
    "c77_slow_refuted"
   ],
   "note": "Every schedule and segmentation, for requests whose head without its last byte fits the limit and while no more than max_queue_size pieces of a body are waiting to be read; c77_exchange is the whole exchange of C75 without assuming that the connection stays open. False in full: a head at the limit is handled in one segment and gets the connection closed in two (c77_segments_refuted); the server keeps on reading while the handler does not, and closes the connection when max_queue_size small segments are waiting, here for a body of 129 bytes (c77_slow_refuted). Clients that wait (C45, C46 for the others); after chunked requests no receive task is left when the response ends (C45)."
  },
  {
   "property": "C78",
   "status": "partial",
   "theorems": [
    "c78_exchange_partial",
    "c78_leftover_refuted"
   ],
   "note": "Every application that reads the body of its request up to http.disconnect (without a body: at most one receive), every number of requests, every schedule and segmentation; requests as in C75. False for applications that stop reading when more_body is false, as ASGI has it: the end mark of the body stays in the queue, and the application that is called for the next request with a body gets http.disconnect instead of that body. Not said: WebSocket scopes, HEAD, statuses without a body, requests that the application is not called for."
  },
  {
   "property": "C79",
   "status": "proved",
   "theorems": [
    "c79_exchange"
   ],
   "note": "Every application of this form, every schedule and segmentation; requests as in C75. Header calls of request middlewares and handlers may fail (the application catches what they raise); those of response middlewares are accepted ones and not about framing. A generator makes its header calls before its first yield. Middlewares do not read the body themselves. Statuses without a body and HEAD are left out, as in C75; exceptions that get out are in C63 and C69."
  },
  {
   "property": "C80",
   "status": "partial",
   "theorems": [
    "c80_stack",
    "c80_asgi_partial",
    "c80_mode_refuted"
   ],
   "note": "c80_stack holds in full for the applications of C79. For ASGI applications: all responses have a Content-Length, or none; otherwise it is false (c80_mode_refuted): after a response with a Content-Length, the server sends the next one without neither chunked nor with a length, so that the client cannot tell where it ends, and closes the connection. As in C77, the head without its last byte fits the limit and the handlers keep up with the queue; clients that wait."
  },
  {
   "property": "C81",
   "status": "partial",
   "theorems": [
    "c81_exchange",
    "c81_open_partial",
    "c81_stream_refuted",
    "c81_reset_refuted"
   ],
   "note": "c81_exchange holds in full (connections that stay open); c81_open_partial, without assuming this, if no async generator has status 204 or 304. Then it is false (c81_stream_refuted): the connection is closed after the response though that says Connection: keep-alive. Status 205 is left out: its response has no length and is not chunked, and the connection is kept, so that the client waits for its end (c81_reset_refuted). Response middlewares that set the status are in C32 (c32_middleware_refuted). Otherwise as in C79 and C80."
  },
  {
   "property": "C82",
   "status": "partial",
   "theorems": [
    "c82_date",
    "c82_distinct",
    "c82_cookie",
    "c82_revalidate",
    "c82_resume",
    "c82_locale_refuted",
    "c82_second_refuted",
    "c82_cookie_refuted"
   ],
   "note": "Every time from 1970 to 9999 in the C locale, which is the one Python starts with; files whose versions differ in the second of their modification. False in full: with the names of another locale (setlocale) the dates are not HTTP dates (c82_locale_refuted); a version written within the same second as the one before gets 304 for ever (c82_second_refuted); set_cookie without expires says max-age=0, and the browser deletes the cookie at once (c82_cookie_refuted). How old the Date of the worker loop is (it is renewed once a second) is not modelled."
  },
  {
   "property": "C83",
   "status": "partial",
   "theorems": [
    "c83_closed_partial",
    "c83_obeyed",
    "c83_asgi_partial",
    "c83_asgi_obeyed_partial",
    "c83_middle_refuted"
   ],
   "note": "Requests within the limits and handlers that keep up; the reason is proved for applications whose async generators do not have the statuses 204 and 304 (c81_stream_refuted). False in full: when the body of a request exceeds client_max_body_size, the server ends the response in the middle and closes the connection (c83_middle_refuted), also when small segments pile up before the handler reads (c77_slow_refuted). For ASGI applications in addition: all of the responses have a Content-Length, or none (c80_mode_refuted), and the requests have no Connection field."
  },
  {
   "property": "C84",
   "status": "partial",
   "theorems": [
    "c84_open",
    "c84_closed_partial"
   ],
   "note": "c84_open holds in full. c84_closed_partial as c83_closed_partial: requests within the limits, handlers that keep up (otherwise c83_middle_refuted). The error handler leaves the response alone, and what it returns can be encoded. Exceptions of WebSockets that an HTTP handler raises, and messages with a line feed, are in C52 (c52_websocket_refuted, c52_message_refuted); an exception after the first yield aborts the connection (c52_sent)."
  },
  {
   "property": "C85",
   "status": "proved",
   "theorems": [
    "c85_whole",
    "c85_asgi"
   ],
   "note": "c85_asgi is the same for ASGI applications that may mix responses with and without Content-Length, and ask to close the connection; one that has neither length nor chunks (a finding of C80) is never read as whole. For c85_whole the handlers are those of C84; p_page says what an async generator would have yielded if it had not been stopped. Clients that wait for each response, or send when the connection is settled, and handlers that read their bodies, as in C75 and C84. What the client takes for a whole response: read_answer_to, S_Bare.v."
  },
  {
   "property": "C86",
   "status": "partial",
   "theorems": [
    "c86_words",
    "c86_open_partial",
    "c86_closed_partial",
    "c86_trust_partial",
    "c86_asgi_open",
    "c86_asgi_closed_partial",
    "c86_middleware_refuted",
    "c86_mode_refuted"
   ],
   "note": "c86_words holds in full for applications whose response middlewares set no Connection header. The others: no async generator has status 204 or 304, else the response says keep-alive and the connection is closed (c81_stream_refuted); requests within the limits and handlers that keep up, as c84_closed_partial. False in full: a response middleware that sets Connection: close makes the response say so, and the connection goes on (c86_middleware_refuted); an ASGI response without Content-Length after one that had it says keep-alive, and the connection is closed to end it (c86_mode_refuted), so c86_asgi_closed_partial is for applications that always or never give a length."
  },
  {
   "property": "C87",
   "status": "partial",
   "theorems": [
    "c87_limit_partial",
    "c87_reason",
    "c87_upgraded",
    "c87_fate",
    "c87_retry_refuted",
    "c87_error_refuted"
   ],
   "note": "False of handlers that try again when no data came: request.recv turns the cancellation of the handler into the same TimeoutError as its own limit, so such a handler goes on after app_handler_timeout and is not stopped any more, although it never catches CancelledError (c87_retry_refuted). The error handler has no limit (c87_error_refuted). ASGI applications are in C68, lost connections in C57, what is in the responses in C84."
  },
  {
   "property": "C88",
   "status": "partial",
   "theorems": [
    "c88_end_partial",
    "c88_file_partial",
    "c88_conn",
    "c88_promise_refuted",
    "c88_next_refuted"
   ],
   "note": "False of handlers that return nothing: http_server.py:128-130 closes the response once more, so the connection is closed after a response that says Connection: keep-alive (c88_promise_refuted); and if the handler went on for a while after its response, self.response is that of the next request, whose client then gets no response (c88_next_refuted). tests/http_server.py:291 is such a handler. The options of the route (status, content_type) count as calls before those of the handler; without the sse option and middlewares; files without Range and If-Modified-Since matches, which are in C34 and C35."
  },
  {
   "property": "C89",
   "status": "partial",
   "theorems": [
    "c89_pieces_partial",
    "c89_unended",
    "c89_old",
    "c89_empty_refuted",
    "c89_end_refuted"
   ],
   "note": "HTTP/1.1: an empty piece is sent as the last chunk, so the client takes it for the end of the body and the pieces behind it for something else (c89_empty_refuted; exactly what it reads is in c89_pieces_partial); without an empty piece at the end the body has no end, for all pieces (c89_unended, c89_end_refuted). Generators skip empty pieces and end the body themselves (C31). The options of the route (status, content_type) count as calls before those of the handler; without the sse option and middlewares."
  },
  {
   "property": "C90",
   "status": "partial",
   "theorems": [
    "c90_end_partial",
    "c90_write_partial",
    "c90_value_partial",
    "c90_stream_partial",
    "c90_append_refuted"
   ],
   "note": "The last set_content_type or set_header wins on all four paths; for values and streams the set_content_type calls of response middlewares count too, as the last ones. Without middlewares that set the type with set_header, the sse option (C36), sendfile (C35) and types that begin with white space. A second type given with append_header is lost: get_content_type takes the first line and deletes them all (c90_append_refuted)."
  }
 ]
}