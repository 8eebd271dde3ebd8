{"id": "C01", "title": "Request heads parse back to what was sent", "statement": "Serialise any request line (method without spaces, URL, version) and any list of at most 99 header fields whose names are non-empty, contain no colon/CR/LF, do not end in a space and are not one of the reserved names, with values free of CR/LF, as an HTTP/1.x head. ParseHeader reports is_request, the same method, URL and version, getheaders() is the list of (lower-cased name, value) pairs in the order sent, and headers[name] is the single value when the name occurs once and the list of all its values in order when it occurs several times.", "quantifier": "all methods, URLs, versions, header lists (any length up to the limit, any duplicates), all bodies following the head", "why_tests_cant": "The set of heads is infinite and duplicate/ordering interactions between arbitrary names cannot be enumerated by examples.", "anchors": ["tremolo/lib/http_parser.py: ParseHeader.parse", "tremolo/lib/http_parser.py: ParseHeader.getheaders"]}
{"id": "C02", "title": "Bytes after the blank line never influence the head", "statement": "For a fixed head, the flags, method, URL, version and headers reported by ParseHeader are the same whatever bytes follow the blank line; the bytes that follow are exactly the body handed on.", "quantifier": "all byte strings containing a head, all continuations", "why_tests_cant": "Requires comparing two runs for every possible continuation.", "anchors": ["tremolo/lib/http_parser.py: ParseHeader.parse"]}
{"id": "C03", "title": "Exactly the well-formed heads are reported valid", "statement": "ParseHeader reports is_valid_request if and only if the first line is `method SP target SP HTTP/version`, there are at most max_lines lines, every line is at most max_line_size long and contains no LF, every later line has a colon after its first byte not preceded by a space, and (when the version is 1.1) a Host field is present.", "quantifier": "all byte strings, all header_size values found by the scan, all max_lines/max_line_size", "why_tests_cant": "An if-and-only-if over all byte strings; fuzzing samples it only.", "anchors": ["tremolo/lib/http_parser.py: ParseHeader.parse"]}
{"id": "C04", "title": "Request line facts cannot be overridden by header fields", "statement": "The method, URL and version that the application sees are the ones in the request line, whatever header fields the client sends.", "quantifier": "all requests", "why_tests_cant": "Needs every header name a client could invent, including ones that collide with internal keys.", "anchors": ["tremolo/lib/http_parser.py: ParseHeader.parse, getmethod, geturl, getversion", "tremolo/lib/http_request.py: HTTPRequest.__init__"]}
{"id": "C05", "title": "save() re-emits a parsed head losslessly", "statement": "For a head that parses as valid, save() yields the first line, then one `name: value` line per getheaders() entry in order, then the blank line and the body; parsing save() again gives the same getheaders() and the same body (names already lower-cased).", "quantifier": "all valid heads and bodies", "why_tests_cant": "Round-trip law over an infinite set of heads.", "anchors": ["tremolo/lib/http_parser.py: ParseHeader.save"]}
{"id": "C06", "title": "remove() and append() on parsed headers do exactly what they say", "statement": "remove(*names) keeps precisely the entries whose name is not listed, in their original order; append(*pairs) adds them at the end in order; headers not named are untouched.", "quantifier": "all header lists, all argument lists", "why_tests_cant": "remove iterates by decreasing index while deleting; index errors show only for particular positions/multiplicities.", "anchors": ["tremolo/lib/http_parser.py: ParseHeader.remove, ParseHeader.append"]}
{"id": "C07", "title": "Only canonical Content-Length values are accepted", "statement": "A request with a Content-Length is accepted by the framing step only if the header occurs once and its value is the canonical decimal numeral of a non-negative integer n (no sign, no leading zero, no spaces, no underscores); then the declared length is n. Every other value makes the request fail with an error response and the connection closes.", "quantifier": "all header values", "why_tests_cant": "Python int() accepts many spellings; only a proof over all byte strings excludes them all.", "anchors": ["tremolo/lib/http_protocol.py: HTTPProtocol._handle_request"]}
{"id": "C08", "title": "No ambiguous body framing is accepted", "statement": "A request that carries a Content-Length together with a chunked Transfer-Encoding, or any Transfer-Encoding in HTTP/1.0, or a body without Content-Length in HTTP/1.0, or repeated Content-Length / Transfer-Encoding headers, never reaches the handler.", "quantifier": "all header combinations and versions", "why_tests_cant": "Request-smuggling vectors are combinations of headers; the space is unbounded.", "anchors": ["tremolo/lib/http_protocol.py: HTTPProtocol._handle_request"]}
{"id": "C09", "title": "Keep-alive decision", "statement": "A connection is kept alive after a request exactly when the client did not ask to close: with a Connection header present, it is kept iff no comma-separated token equals \"close\" case-insensitively; without one, it is kept iff the version is not 1.0.", "quantifier": "all Connection values and versions", "why_tests_cant": "Token lists with arbitrary spacing/case.", "anchors": ["tremolo/lib/http_protocol.py: HTTPProtocol._handle_request"]}
{"id": "C10", "title": "Request dispatch does not depend on how the head is split into packets", "statement": "Whatever way the bytes of a head are cut into data_received calls, the request is dispatched with the same head bytes and remaining bytes, or the connection is aborted, depending only on the byte stream and the limit.", "quantifier": "all byte streams, all segmentations, all client_max_header_size values", "why_tests_cant": "The number of segmentations is exponential in the length of the head.", "anchors": ["tremolo/lib/http_protocol.py: HTTPProtocol.data_received"]}
{"id": "C11", "title": "Header memory is bounded", "statement": "While a request head is incomplete the server never holds more than client_max_header_size bytes of it: a head (including its final CRLF) larger than the limit is never dispatched to a handler, and the connection is aborted as soon as the limit is passed without a blank line.", "quantifier": "all byte streams, all segmentations", "why_tests_cant": "Safety over every prefix of every stream.", "anchors": ["tremolo/lib/http_protocol.py: HTTPProtocol.data_received"]}
{"id": "C12", "title": "Content-Length bodies are delivered exactly", "statement": "For a request with Content-Length n whose body arrives in any pieces (with any surplus bytes after it), the concatenation of what request.stream()/body() delivers is the first n bytes that followed the head, and the stream ends.", "quantifier": "all n, bodies, segmentations, surplus", "why_tests_cant": "Segmentation space is exponential; off-by-one at the surplus cut appears only for particular cuts.", "anchors": ["tremolo/lib/http_request.py: HTTPRequest.stream, HTTPRequest.body", "tremolo/lib/request.py: Request.recv", "tremolo/lib/http_protocol.py: HTTPProtocol.put_to_queue"]}
{"id": "C13", "title": "Chunked bodies are decoded exactly, for every segmentation", "statement": "For every chunked encoding of a body (any chunk sizes, hex case, leading zeros, extensions) and every way the network splits it into pieces, request.stream()/body() delivers exactly the body and then ends.", "quantifier": "all bodies, all chunkings, all segmentations", "why_tests_cant": "Segmentation space is exponential and failures occur at specific cut points.", "anchors": ["tremolo/lib/http_request.py: HTTPRequest.stream"]}
{"id": "C14", "title": "A truncated chunked body is always an error", "statement": "If the client ends the stream before the terminating zero-size chunk, reading the body raises BadRequest; the handler never sees a normal end of body.", "quantifier": "all byte streams, all segmentations, all truncation points", "why_tests_cant": "Every truncation point of every stream.", "anchors": ["tremolo/lib/http_request.py: HTTPRequest.stream"]}
{"id": "C15", "title": "Whatever the chunked decoder accepts was chunk-encoded", "statement": "If request.stream() ends normally after delivering data D, then the bytes consumed form a sequence of chunks (size line, that many bytes, a two-byte terminator) whose data concatenates to D, followed by a zero-size chunk line.", "quantifier": "all byte streams, all segmentations", "why_tests_cant": "Soundness over every input, including hostile ones.", "anchors": ["tremolo/lib/http_request.py: HTTPRequest.stream"]}
{"id": "C16", "title": "Sized reads return consecutive slices of the body", "statement": "For any sequence of request.read(n) calls with n >= 0, each call returns the next n bytes of the body (fewer only when the body ends), whatever the segmentation, and eof() becomes true only when everything was returned.", "quantifier": "all bodies, segmentations, size sequences", "why_tests_cant": "Combination of segmentation and size sequence is unbounded.", "anchors": ["tremolo/lib/http_request.py: HTTPRequest.recv, HTTPRequest.read, HTTPRequest.eof"]}
{"id": "C17", "title": "Mixing read() with sized reads preserves body order", "statement": "Any interleaving of request.read() and request.read(n) calls returns the body bytes in order, without skipping or reordering.", "quantifier": "all interleavings of calls, all segmentations", "why_tests_cant": "Interleavings of call kinds with segmentations.", "anchors": ["tremolo/lib/http_request.py: HTTPRequest.recv"]}
{"id": "C18", "title": "Oversized declared bodies are refused before any byte is delivered", "statement": "If Content-Length exceeds client_max_body_size, reading the (non-chunked) body raises PayloadTooLarge without delivering data, and an Expect: 100-continue request is answered with 417 rather than 100.", "quantifier": "all lengths and limits", "why_tests_cant": "Boundary over all integers and all read entry points.", "anchors": ["tremolo/lib/http_request.py: HTTPRequest.stream", "tremolo/lib/http_response.py: HTTPResponse.send_continue"]}
{"id": "C19", "title": "Upload memory is bounded", "statement": "For one request the server stops reading from the client once client_max_body_size bytes have been accepted: the number of body bytes accepted is always less than client_max_body_size plus the size of the last piece received (or stops at Content-Length).", "quantifier": "all sequences of pieces, all limits", "why_tests_cant": "Invariant over arbitrary long histories of packets.", "anchors": ["tremolo/lib/http_protocol.py: HTTPProtocol.put_to_queue, data_received"]}
{"id": "C20", "title": "Queue overflow aborts the connection", "statement": "No queue ever grows past max_queue_size + 1 through throttled writes or uploads: the write that exceeds the limit aborts the connection and queues nothing more; otherwise all the data is queued in order, in pieces of at most buffer_size bytes.", "quantifier": "all data sizes, buffer sizes, queue states", "why_tests_cant": "Depends on every interleaving of producer and consumer.", "anchors": ["tremolo/lib/http_protocol.py: HTTPProtocol.put_to_queue"]}
{"id": "C21", "title": "Throughput never exceeds the configured rate", "statement": "The total time put_to_queue sleeps while queueing n bytes is at least n / rate seconds, whatever the queue sizes observed on the way.", "quantifier": "all data sizes, rates, buffer sizes and queue-size observations", "why_tests_cant": "Timing law over all schedules; a benchmark samples a few.", "anchors": ["tremolo/lib/http_protocol.py: HTTPProtocol.put_to_queue"]}
{"id": "C22", "title": "Outgoing WebSocket frames follow RFC 6455", "statement": "create_frame produces FIN/opcode byte, mask bit, the minimal length encoding (7, 16 or 64 bits, network order), the masking key when masking, and the (masked) payload; nothing else.", "quantifier": "all payloads of length below 2^64, all opcodes, both mask settings, all masking keys", "why_tests_cant": "Length boundaries and masks over all payloads.", "anchors": ["tremolo/lib/websocket.py: WebSocket.create_frame"]}
{"id": "C23", "title": "WebSocket messages survive the wire", "statement": "A text or binary message sent with create_frame (masked or not, any key) and received with WebSocket.recv, however the frame is split into packets, is returned unchanged, leaving the following bytes untouched, provided its length is allowed by ws_max_payload_size.", "quantifier": "all payloads, keys, segmentations, following data", "why_tests_cant": "Round-trip over all payloads and segmentations.", "anchors": ["tremolo/lib/websocket.py: WebSocket.recv, WebSocket.create_frame"]}
{"id": "C24", "title": "Oversized WebSocket payloads are refused", "statement": "A frame announcing a payload longer than ws_max_payload_size is refused with close code 1009 before its payload is read.", "quantifier": "all announced lengths and limits", "why_tests_cant": "Boundary over all lengths, all limits, all three length encodings.", "anchors": ["tremolo/lib/websocket.py: WebSocket.recv"]}
{"id": "C25", "title": "WebSocket control frames", "statement": "A ping (payload < 126 bytes) is answered by exactly one pong frame with the same payload and is not delivered as a message; a pong is swallowed; a close frame ends the session with the code in its first two bytes (1005 if empty); any other opcode, or a control frame with a longer length field, ends the session with code 1008.", "quantifier": "all control payloads, all opcodes", "why_tests_cant": "All opcodes x lengths x payloads.", "anchors": ["tremolo/lib/websocket.py: WebSocket.recv, WebSocket.pong"]}
{"id": "C26", "title": "A WebSocket message is never delivered truncated", "statement": "If the connection ends in the middle of a frame, recv/receive raises instead of returning a shorter message.", "quantifier": "all frames, all truncation points", "why_tests_cant": "Every truncation point.", "anchors": ["tremolo/lib/websocket.py: WebSocket.recv"]}
{"id": "C27", "title": "receive() delivers every data message", "statement": "receive() returns the next text or binary message sent by the peer, skipping only control frames (pings and pongs).", "quantifier": "all sequences of frames", "why_tests_cant": "All sequences of messages and control frames.", "anchors": ["tremolo/lib/websocket.py: WebSocket.receive"]}
{"id": "C28", "title": "No response splitting through the header API", "statement": "After any sequence of set_header, set_cookie, set_content_type, set_status and set_base_header calls (append_header too, when given LF-free arguments), every header line stored for the response is LF-free, so the emitted head has exactly one line per stored entry: no caller-supplied value can add a header line or end the head.", "quantifier": "all sequences of calls with arbitrary byte arguments", "why_tests_cant": "All call histories with hostile values.", "anchors": ["tremolo/lib/http_response.py: HTTPResponse.set_header, set_cookie, set_content_type, set_status, append_header, write, end"]}
{"id": "C29", "title": "Header set/append semantics", "statement": "Response headers are case-insensitive: set_header replaces all previous values of a name, append_header adds one and keeps the rest, other names are unaffected, and after the head was sent every header operation raises InternalServerError.", "quantifier": "all call sequences", "why_tests_cant": "Refinement of arbitrary histories to a map.", "anchors": ["tremolo/lib/http_response.py: HTTPResponse.set_header, append_header, headers, headers_sent"]}
{"id": "C30", "title": "response.end() frames the body exactly", "statement": "end(data) emits one head whose Content-Length is len(data) (and is the only Content-Length, Connection and Content-Type line, with no Transfer-Encoding), followed by exactly data - or by nothing for HEAD requests and 1xx/204/205/304 statuses - so that a client reading Content-Length bytes gets data.", "quantifier": "all data, statuses, methods and stored headers", "why_tests_cant": "Byte-exact framing for all header sets.", "anchors": ["tremolo/lib/http_response.py: HTTPResponse.end"]}
{"id": "C31", "title": "Streamed chunked responses decode to what the handler produced", "statement": "When a handler yields any sequence of byte strings (including empty ones) on HTTP/1.1, the bytes after the head are a well-formed chunked body that a standard decoder maps back to the concatenation of the yields, properly terminated. The head has, for every header name that the server does not decide about, exactly the lines that the header calls made before leave: those appended since it was last set, in order.", "quantifier": "all sequences of yields, any buffering option", "why_tests_cant": "All sequences, including empties and buffering boundaries.", "anchors": ["tremolo/http_server.py: HTTPServer._handle_response", "tremolo/lib/http_response.py: HTTPResponse.write"]}
{"id": "C32", "title": "No body for HEAD, 1xx, 204, 205 and 304", "statement": "Responses to HEAD requests and responses with status 1xx, 204, 205 or 304 carry no body bytes, whatever the handler produces.", "quantifier": "all handler outputs and statuses", "why_tests_cant": "All outputs x statuses x code paths.", "anchors": ["tremolo/lib/http_response.py: HTTPResponse.write, end", "tremolo/http_server.py: HTTPServer._handle_response"]}
{"id": "C33", "title": "Buffered sends neither lose, duplicate nor reorder bytes", "statement": "For any sequence of response.send calls (throttled or not, any buffer_min_size) followed by close, the bytes queued for the client are the concatenation of the data sent, in order.", "quantifier": "all sequences of sends and options", "why_tests_cant": "Buffer thresholds interact with history.", "anchors": ["tremolo/lib/response.py: Response.send, Response.close"]}
{"id": "C34", "title": "Ranges served are inside the file and byte-exact", "statement": "For every Range header, the first sendfile of a connection (later calls: C66) either fails with 400/416 or serves only ranges 0 <= start <= end < file_size, announces Content-Range/Content-Length accordingly and sends exactly those bytes of the file; at most 101 ranges are served.", "quantifier": "all Range header values, file sizes, file contents, buffer sizes", "why_tests_cant": "All header values; arithmetic boundaries.", "anchors": ["tremolo/lib/http_response.py: HTTPResponse.sendfile"]}
{"id": "C35", "title": "Full-file downloads are byte-exact", "statement": "The first sendfile of a connection, without a usable Range, sends Content-Length equal to the file size and exactly the file content, for every buffer size (later calls: C66).", "quantifier": "all file contents and buffer sizes", "why_tests_cant": "Read-loop boundaries for every size.", "anchors": ["tremolo/lib/http_response.py: HTTPResponse.sendfile"]}
{"id": "C36", "title": "SSE events are decoded by a standard EventSource parser to what was sent", "statement": "sse.send(data, event, id, retry) emits exactly one event that a WHATWG EventSource parser decodes to the same data (outer newlines stripped), event name, id and retry; no caller value can inject another field or event.", "quantifier": "all data, event names, ids, retries", "why_tests_cant": "Injection safety over all strings.", "anchors": ["tremolo/lib/sse.py: SSE.send"]}
{"id": "C37", "title": "Cookie values round-trip", "statement": "A value set with set_cookie and sent back by the browser in a Cookie header is what request.cookies reports, and no value can add attributes or header lines to the Set-Cookie line.", "quantifier": "all cookie values", "why_tests_cant": "All strings.", "anchors": ["tremolo/lib/http_response.py: HTTPResponse.set_cookie", "tremolo/lib/http_request.py: HTTPRequest.cookies"]}
{"id": "C38", "title": "Query and form decoding", "statement": "request.query / request.form() / request.cookies return, for a percent-encoded list of name/value pairs, every non-empty value grouped by name in order of appearance; more than the permitted number of fields raises.", "quantifier": "all lists of name/value pairs", "why_tests_cant": "All lists of all strings.", "anchors": ["tremolo/lib/http_request.py: HTTPRequest.query, form, cookies"]}
{"id": "C39", "title": "html_escape is safe and lossless", "statement": "html_escape(data) contains none of < > \" and every & in it starts one of the four entities it produces; decoding the entities gives data back.", "quantifier": "all byte strings", "why_tests_cant": "All strings; order of replacements matters.", "anchors": ["tremolo/utils.py: html_escape"]}
{"id": "C40", "title": "Multipart uploads are delivered part by part, byte-exact, for every segmentation", "statement": "For a well-formed multipart/form-data body, request.files() yields the parts in order with exactly their bytes and declared type/length, whatever the segmentation, and stops after the closing delimiter or after the requested number of parts (a later files() call continues).", "quantifier": "all lists of parts, boundaries not occurring in them, segmentations, limits", "why_tests_cant": "Segmentation x boundary positions.", "anchors": ["tremolo/lib/http_request.py: HTTPRequest.files"]}
{"id": "C41", "title": "The data queue is FIFO and loses nothing", "statement": "For any interleaving of put_nowait, get and cancelled gets (with one consumer at a time), items are delivered exactly once and in the order put, and an item is never handed to a cancelled getter.", "quantifier": "all interleavings", "why_tests_cant": "All schedules.", "anchors": ["tremolo/lib/queue.py: Queue"]}
{"id": "C42", "title": "Keep-alive registry is bounded and evicts the oldest", "statement": "The registry never holds more than maxlen connections; adding one beyond the limit drops exactly the connection registered longest ago; re-adding a present connection changes nothing else.", "quantifier": "all sequences of insertions and deletions, all maxlen >= 1", "why_tests_cant": "Invariant over all histories.", "anchors": ["tremolo/lib/connections.py: KeepAliveConnections"]}
{"id": "C43", "title": "Locks give mutual exclusion", "statement": "At most one task at a time runs inside `async with lock(name)` for the same lock, whatever the schedule and timeouts.", "quantifier": "all schedules of any number of tasks, all timeouts", "why_tests_cant": "All interleavings including timeouts.", "anchors": ["tremolo/lib/locks.py: ServerLock"]}
{"id": "C44", "title": "Connections do not see each other's data", "statement": "Bytes queued for one connection are never sent to, or consumed by, another connection, even when the operating system reuses the socket number.", "quantifier": "all interleavings of connects, disconnects (with or without close middleware), reads and writes", "why_tests_cant": "Descriptor reuse races cannot be scheduled by tests.", "anchors": ["tremolo/lib/http_protocol.py: HTTPProtocol.connection_made, connection_lost, put_to_queue", "tremolo/http_server.py: HTTPServer.connection_lost"]}
{"id": "C45", "title": "Request bodies never leak into other requests", "statement": "On a keep-alive connection the body bytes of one request are never delivered as the body of, or interpreted as the head of, another request - including when the handler did not read the body.", "quantifier": "all request sequences on a connection, all handler behaviours", "why_tests_cant": "All histories of requests and handler reads.", "anchors": ["tremolo/lib/http_protocol.py: HTTPProtocol._handle_keepalive, _handle_request, put_to_queue"]}
{"id": "C46", "title": "Pipelined requests are answered in order", "statement": "Body-less requests sent back to back on one connection are each dispatched exactly once, in order, the next one only after the previous response was completed.", "quantifier": "all numbers of pipelined requests, all segmentations", "why_tests_cant": "All segmentations x all counts.", "anchors": ["tremolo/lib/http_protocol.py: HTTPProtocol._handle_keepalive, data_received, _send_data"]}
{"id": "C47", "title": "Timeouts close only connections that deserve it", "statement": "A connection whose request head did not arrive within request_timeout is aborted; one whose head arrived in time is not aborted by that timer; a handler is cancelled by the handler timeout only if that same handler has been running for app_handler_timeout.", "quantifier": "all timings of events", "why_tests_cant": "All timings.", "anchors": ["tremolo/lib/http_protocol.py: HTTPProtocol.set_timeout, handler_timeout, _handle_request"]}
{"id": "C48", "title": "Backpressure: the write buffer is bounded", "statement": "The server hands at most one more item to the transport once its write buffer exceeds the high watermark, until the client drains it or the send timeout aborts the connection; items are written in queue order.", "quantifier": "all schedules of drains and sends", "why_tests_cant": "All schedules.", "anchors": ["tremolo/lib/http_protocol.py: HTTPProtocol._send_data, resume_writing"]}
{"id": "C49", "title": "Routes are found by their path", "statement": "A handler registered for a literal path is selected for every URL with that path (any number of leading and trailing slashes, any query string) and for no URL with a different path; the first registered route wins.", "quantifier": "all literal paths and URLs, all route tables of literal routes", "why_tests_cant": "All paths and URLs.", "anchors": ["tremolo/tremolo.py: Tremolo.add_route", "tremolo/http_server.py: HTTPServer.headers_received"]}
{"id": "C50", "title": "Routing depends only on the URL and the registered routes", "statement": "The same URL is always routed to the same handler, whatever requests were served before or are being served concurrently.", "quantifier": "all request histories and interleavings, all route tables including regex routes", "why_tests_cant": "History and concurrency dependence.", "anchors": ["tremolo/http_server.py: HTTPServer.headers_received"]}
{"id": "C51", "title": "Middleware order and short-circuit", "statement": "Request middlewares run in registration order and stop at the first one that answers; the handler runs iff none answered; response middlewares run in reverse registration order, also stopping at the first that answers; a middleware's options never override those of the route or of an earlier middleware.", "quantifier": "all lists of middlewares and their results", "why_tests_cant": "All lists.", "anchors": ["tremolo/http_server.py: HTTPServer.headers_received, _handle_middleware, _handle_response"]}
{"id": "C52", "title": "Every failure before the head is sent becomes one error response that closes the connection", "statement": "If the handler fails before sending a head, the client gets exactly one response whose status is the HTTPException code (408 for TimeoutError, 500 otherwise) with Connection: close, and the connection closes; if the head was already sent the connection is aborted.", "quantifier": "all exceptions, all response states", "why_tests_cant": "All exception kinds x response states.", "anchors": ["tremolo/lib/http_protocol.py: HTTPProtocol.handle_exception"]}
{"id": "C53", "title": "ASGI request bodies", "statement": "The http.request events an ASGI app receives concatenate to the request body, more_body is true on every event but the last one and false on the last.", "quantifier": "all bodies, segmentations, framings", "why_tests_cant": "Segmentation space.", "anchors": ["tremolo/asgi_server.py: ASGIServer.receive"]}
{"id": "C54", "title": "ASGI responses", "statement": "Whatever http.response.start / body events an app sends, header values containing LF never reach the wire, the app cannot override Date, Server or Transfer-Encoding, and the emitted body decodes to the concatenation of the body events.", "quantifier": "all event sequences", "why_tests_cant": "All sequences.", "anchors": ["tremolo/asgi_server.py: ASGIServer.send"]}
{"id": "C55", "title": "ASGI lifespan", "statement": "Startup proceeds iff the app reports startup.complete, does not support lifespan or times out; it fails iff the app reports startup.failed.", "quantifier": "all sequences of app behaviours", "why_tests_cant": "All app behaviours.", "anchors": ["tremolo/asgi_lifespan.py: ASGILifespan"]}
{"id": "C56", "title": "Command-line parsing", "statement": "For every command line made of known options with values not starting with a dash, followed by an app name, parse_args returns exactly the given settings (last one wins) over the defaults.", "quantifier": "all option lists", "why_tests_cant": "All combinations and orders.", "anchors": ["tremolo/utils.py: parse_args"]}
{"id": "C57", "title": "Disconnect cleans up everything", "statement": "When a connection is lost every registered task is cancelled, every registered callable runs exactly once even if others raise, the connection leaves the keep-alive registry, its queues are emptied and nothing is queued for it any more.", "quantifier": "all sets of tasks/callables and all failure patterns", "why_tests_cant": "All failure patterns.", "anchors": ["tremolo/lib/http_protocol.py: HTTPProtocol.connection_lost"]}
{"id": "C58", "title": "Workers are supervised and stop when told", "statement": "A worker process that dies is replaced on the next supervision round, the number of workers never changes, and a worker that is told 0 or loses its parent stops serving.", "quantifier": "all histories of worker deaths and pings", "why_tests_cant": "All histories.", "anchors": ["tremolo/tremolo.py: Tremolo.run, _serve"]}
{"id": "C59", "title": "Expect: 100-continue", "statement": "A client that sends Expect: 100-continue gets at most one 100 response, before any body byte is read, and the connection is still able to serve (or is closed) after the final response.", "quantifier": "all handler behaviours", "why_tests_cant": "All handler behaviours incl. not reading the body.", "anchors": ["tremolo/lib/http_response.py: HTTPResponse.send_continue", "tremolo/lib/http_protocol.py: HTTPProtocol._handle_keepalive"]}
{"id": "C60", "title": "Opening handshake of WebSocket sessions", "statement": "A client that sends the opening handshake of RFC 6455 gets, when the handler accepts, exactly one 101 response with Upgrade: websocket, Connection: upgrade and the Sec-WebSocket-Accept value that belongs to its key, and the connection is upgraded; a request that is not a handshake is served as a plain request.", "quantifier": "all handshakes, all keys, all header calls before accept", "why_tests_cant": "All keys, all combinations of header fields.", "anchors": ["tremolo/http_server.py: HTTPServer._handle_websocket", "tremolo/lib/websocket.py: WebSocket.accept"]}
{"id": "C61", "title": "Sessions on an upgraded connection", "statement": "After a request was upgraded, every byte that the client sends reaches the handler exactly once and in order, everything the handler sends is written in order, and the connection stays open until the handler ends the session or the client leaves; then all that was sent before has been written.", "quantifier": "all segmentations, all schedules of the tasks of the connection, all handlers", "why_tests_cant": "All segmentations and interleavings.", "anchors": ["tremolo/lib/http_protocol.py: HTTPProtocol._handle_keepalive (480-484), data_received, _receive_data, _send_data", "tremolo/lib/http_request.py: HTTPRequest.upgrade"]}
{"id": "C62", "title": "ASGI applications on WebSocket connections", "statement": "An ASGI application receives websocket.connect until it accepts; accepting sends one 101 head with the accept value for the client's key, the subprotocol and the application's headers. Then it receives every message of the client once and in order, text as text and bytes as bytes; each message it sends goes out as exactly one frame, in order; pings are answered. When the client closes or leaves, it receives websocket.disconnect with the client's code; when it closes or fails, the client gets one close frame with the code (1011 for a failure), the connection ends and nothing is sent after it. Every session that is refused or ends is closed towards the client.", "quantifier": "all messages and segmentations of the client, all sequences of calls of the application, all headers", "why_tests_cant": "All interleavings of messages, control frames and calls.", "anchors": ["tremolo/asgi_server.py: ASGIServer.receive, send, headers_received, _handle_websocket", "tremolo/lib/websocket.py: WebSocket"]}
{"id": "C63", "title": "What the application is told about a request", "statement": "For every request head, handlers and ASGI applications are told what the client sent: method (upper case), path and query string (the target cut at its first question mark), version, host, and all fields in order; the client address is that of the peer or the first one a proxy forwarded; the scheme is that of the connection or the one a proxy forwarded; list-valued fields give all their elements; the ASGI path is the percent-decoded UTF-8 path. These facts do not change while the request is handled.", "quantifier": "all heads, bodies, peers, orders of reads", "why_tests_cant": "All combinations of fields, repetitions, list syntaxes and encodings.", "anchors": ["tremolo/lib/http_request.py: HTTPRequest.__init__, client, ip, is_secure, scheme", "tremolo/asgi_server.py: ASGIServer.headers_received, _handle_http, _handle_websocket", "tremolo/lib/http_parser.py: Headers.getlist"]}
{"id": "C64", "title": "Hooks of connections and workers", "statement": "For every connection, whatever its hooks do and whenever they end: on_connect middlewares are called once each in the order of registration, the next when the last one ended with a false value, until one returns a true value or fails; no request of the connection is handled before they are done, nor after one failed (such requests are refused). on_close middlewares are called after the disconnect only, once each in reverse order, until one returns a true value or fails, when no on_connect middleware runs any more; the connection is then cleaned up, exactly once, however they ended. on_worker_start functions run in order, on_worker_stop functions in reverse order.", "quantifier": "All numbers of middlewares, all outcomes (false value, true value, exception) and all interleavings of the connect task, the close task, arriving requests and the disconnect.", "why_tests_cant": "The interleavings of the two tasks with requests and the disconnect cannot be enumerated by tests, and the overlap of a slow on_connect with on_close shows only when a client leaves at the wrong time.", "anchors": ["tremolo/http_server.py: HTTPServer._connection_made", "tremolo/http_server.py: HTTPServer._connection_lost", "tremolo/http_server.py: HTTPServer.connection_lost", "tremolo/http_server.py: HTTPServer.headers_received", "tremolo/tremolo.py: Tremolo._serve", "tremolo/tremolo.py: Tremolo._worker_stop"]}
{"id": "C65", "title": "Registrations keep what they are given", "statement": "After any sequence of calls of route(code), error, middleware, on_*, event and listen on a new application: the middlewares of each of the four kinds are exactly the functions given for it, in order, and each has the defaults of its parameters (and nothing else) as options; the same of the two hooks of workers; an unknown name raises and changes nothing. The handler of an error is the last one given for its code, with the options of the handlers before it where it has none. An address (host and port, or the path of a Unix socket) is listened on with the options given first, and listen returns whether the address is new.", "quantifier": "All sequences of calls, functions (any parameters, locals and defaults), names, codes and addresses.", "why_tests_cant": "Tests register a handful of hooks in one order; that nothing is lost, reordered or given the options of another function for every sequence of registrations is a statement about all of them.", "anchors": ["tremolo/tremolo.py: Tremolo.listen", "tremolo/tremolo.py: Tremolo.error", "tremolo/tremolo.py: Tremolo.event", "tremolo/tremolo.py: Tremolo.middleware", "tremolo/tremolo.py: Tremolo.add_middleware", "tremolo/tremolo.py: Tremolo.getoptions"]}
{"id": "C66", "title": "Files sent on one connection are the files that were asked for", "statement": "Every sendfile(path) on a connection sends the file that path is of when the call is made, with its size, date and bytes, whatever was sent on the connection before; a path that does not exist raises and sends nothing.", "quantifier": "All sequences of sendfile calls on a connection (any paths, requests, responses, buffer sizes), and all changes of the files and of the directory in between.", "why_tests_cant": "Tests of sendfile use one file or one connection per request; what a connection remembers of the file before shows only with several files on one kept-alive connection.", "anchors": ["tremolo/lib/http_response.py: HTTPResponse.sendfile", "tremolo/lib/http_protocol.py: HTTPProtocol.__init__", "tremolo/lib/request.py: Request.context"]}
{"id": "C67", "title": "Handlers are called with their own request's objects", "statement": "On a connection that carries several requests, every middleware and handler called for a request is given that request and its response. A handler (and the response middlewares after it) whose route asks for a websocket or sse argument, for a request without a body that carries the opening handshake, is given the WebSocket (the SSE) made for that very request; where the request makes none the argument is None, not an object belonging to another request. The handler is called exactly when all request middlewares have returned None. context.options, as the handler sees it, holds the options of its own route and of the middlewares before it with their values, and nothing else but the server's defaults.", "quantifier": "all sequences of requests on one connection, all middlewares, handlers and options, however each of them ends", "why_tests_cant": "What a function is given depends on everything that happened on the connection before: which earlier requests opened sessions, how middlewares ended, which options they had. Tests send one request per connection or look at one argument.", "anchors": ["tremolo/http_server.py:17-23", "tremolo/http_server.py:59-73", "tremolo/http_server.py:91-120", "tremolo/http_server.py:171-181", "tremolo/http_server.py:262-339"]}
{"id": "C68", "title": "ASGI applications are told when their client is gone, stopped if they go on, and otherwise left alone", "statement": "On a connection with several requests, each served by its own call of an ASGI application: what an application receives is of its own request and what it sends goes to its own response. When the connection is lost, every running application is cancelled, one that waits in receive() gets http.disconnect, and so does one that calls receive() later; nothing is sent or received for the connection afterwards; an application that is still running app_close_timeout later is cancelled again. An application whose client is connected and has not got its whole response is neither told http.disconnect nor cancelled by that timer.", "quantifier": "all numbers of requests, all orders of calls of receive and send, ends of applications, connection loss and timers, all times", "why_tests_cant": "The wrong behaviours need a particular order: an application that outlives its response while the next request begins, a receive() after the body's end, a connection lost during a send(), a timer armed by an earlier request. A test fixes one order.", "anchors": ["tremolo/asgi_server.py:80-109", "tremolo/asgi_server.py:111-172", "tremolo/asgi_server.py:235-266", "tremolo/lib/http_protocol.py:341-353", "tremolo/lib/http_protocol.py:504-534"]}
{"id": "C69", "title": "Error responses show what was raised as text, and nothing of internal errors", "statement": "An HTTPException (of any class) that a handler raises before anything was sent gets a response with its code, message and content type (those of its class where not given, with the reason phrase of the standard), whose body is its arguments separated by spaces, or its message, in the charset that the content type declares; they are shown as text. A TimeoutError gets 408. Any other exception gets 500 with a fixed page: unless debug is on, the response is the same for all of them. With debug on the page is a list of the lines of the traceback, and the page for an unknown path names the path: a browser shows both as text, whatever bytes are in them.", "quantifier": "all classes, arguments, codes, messages, content types, tracebacks and paths", "why_tests_cant": "Tests compare a few pages with expected strings; that no exception text, traceback or path breaks out of its place in the page, and that no error text reaches the client, is a statement about all of them.", "anchors": ["tremolo/lib/http_exceptions.py: HTTPException", "tremolo/handlers.py: error_404", "tremolo/handlers.py: error_500", "tremolo/lib/http_protocol.py: HTTPProtocol.handle_exception", "tremolo/lib/http_protocol.py: HTTPProtocol.print_exception"]}
{"id": "C70", "title": "The server listens on exactly the addresses it was told", "statement": "Calls of listen(port, host), listen(path) and run(host, port), or the words --host, --port and --bind of the command line (host:port, [v6]:port, :port and paths, separated by commas), decide where the server listens: every address that was asked for is listened on once, in the order of first mention, and no other. A missing host is that of run, or localhost; a missing port is that of run. Each has the options of the first call that asked for it, else those of run, and as many workers as those say (at most one per processor by default), each of which clients can reach. Without an address, or with less than one worker, the server does not start. Unix sockets never replace other files, and are removed when the server stops.", "quantifier": "all sequences of listen calls, all command lines, all files at the path of a Unix socket, any number of workers", "why_tests_cant": "Tests start one server on one or two ports. Duplicate targets, defaults that meet each other, orders of --host and --bind, and the state of the file system need all combinations; the effect of several processes on one path is not seen in any of them alone.", "anchors": ["tremolo/tremolo.py: Tremolo.listen", "tremolo/tremolo.py: Tremolo.run", "tremolo/tremolo.py: Tremolo.create_sock", "tremolo/tremolo.py: Tremolo.close_sock", "tremolo/__main__.py: bind"]}
{"id": "C71", "title": "Settings of the command line reach every connection, with the documented defaults", "statement": "Whatever words are on the command line, in any order and with repetitions: every worker and every connection uses, for every option that the help text documents, the value that was given last, or the documented default; log levels are understood in small and capital letters; TLS is used exactly if a certificate or a key is given, with these; the Server field, the loop and the application are those given. The same goes for options of run() and listen().", "quantifier": "all command lines of documented words, all values", "why_tests_cant": "A test looks at one option at a time. That each of the options, by its own name, reaches the parameter where it is used, through parsing, merging, workers and connections, independently of the others, is a statement about all command lines.", "anchors": ["tremolo/__main__.py: usage", "tremolo/utils.py: parse_args", "tremolo/tremolo.py: Tremolo.run", "tremolo/tremolo.py: Tremolo._serve", "tremolo/tremolo.py: Tremolo._worker"]}
{"id": "C72", "title": "The ASGI application is the one that is named", "statement": "For an application that is given as name:attribute or as a name alone (then the attribute is app), where the name is that of a module or the path of a module's file with or without .py, the server imports that module from its directory and takes that attribute.", "quantifier": "all names, paths and attributes, for any working directory", "why_tests_cant": "Tests use one or two names. Dots, colons and slashes in directories and names are handled by a chain of splits whose order matters.", "anchors": ["tremolo/tremolo.py:281-299"]}
{"id": "C73", "title": "With --reload a worker restarts when a module of the application changes, and only then", "statement": "With reload on, a worker reloads at the first look at which the file of a loaded module of the application differs in type, size or modification time from what it was when it was loaded; it never reloads for another reason, and without the option it never reloads. A module of the application is one whose file is in no directory of sys.path but those that contain the application's. Independently, a worker ends at the first look at which it uses more memory than limit_memory, and never because of memory otherwise. After a reload the supervisor goes on with the application of the reloaded module.", "quantifier": "all sequences of looks, with any modules loaded, unloaded, created, changed and removed in between, all paths and limits", "why_tests_cant": "Tests touch one file. Which of all later changes are noticed depends on the bookkeeping over an unbounded sequence of looks, where files and modules come and go.", "anchors": ["tremolo/tremolo.py:382-446", "tremolo/utils.py: file_signature", "tremolo/tremolo.py: Tremolo._reload_module"]}
{"id": "C74", "title": "Idle WebSocket clients are pinged, kept if they answer, and dropped if they do not", "statement": "While the application waits in receive() of a WebSocket: if no frame is completed for half of keepalive_timeout, the client is sent one ping at that moment, as long as its connection is listed among the keep-alive connections; pings are never closer than half of keepalive_timeout. A client whose connection is listed and that completes a frame within the other half after each ping is never dropped. receive() fails with close code 1000 exactly when it has been waiting, and no byte has arrived, for keepalive_timeout. While the application is not in receive() there are neither pings nor drops.", "quantifier": "all sequences of segments with any complete or incomplete frames, calls of receive() and passing times, all time-outs", "why_tests_cant": "A test can wait for one ping. That two kinds of timers, restarted by frames and by bytes, together never drop a client that answers in time, is a statement about all timings.", "anchors": ["tremolo/lib/websocket.py: WebSocket.receive", "tremolo/lib/websocket.py: WebSocket._ping", "tremolo/lib/request.py: Request.recv"]}
{"id": "C75", "title": "A client on a keep-alive connection reads, for each request, what the application's function returned for it", "statement": "An application has routes that are literal paths, and handlers that are coroutine functions which read the body, look at header fields, set headers and status and return bytes. A client sends HTTP/1.1 requests other than HEAD on one connection, with or without a Content-Length body, waiting for each response. Decoding what the server wrote (status line, header lines up to an empty line, chunked body) gives, in the order of the requests, exactly one status line and one body per response; each is what the function of the request's path returned for the request's method, URL, header fields and body, or the 404 page. When nothing is left to do every request has its response and nothing else was written.", "quantifier": "all such applications, all numbers of requests, all contents and lengths of bodies and headers within the limits, all segmentations, all schedules of the tasks", "why_tests_cant": "A test sends one request to one application. That parser, router, handler, response, chunked encoding, queues and keep-alive together lose, mix or reorder nothing is a statement about the composition of all of them over every schedule.", "anchors": ["tremolo/lib/http_protocol.py: HTTPProtocol", "tremolo/http_server.py: HTTPServer", "tremolo/tremolo.py: Tremolo.add_route", "tremolo/lib/response.py: Response.send", "tremolo/lib/http_response.py: HTTPResponse"]}
{"id": "C76", "title": "A context keeps what is stored in it, however it is stored and read, and keeps it to itself", "statement": "A value stored in the context of a connection or of a worker, as an attribute or as an item, is what every later read gives, as attribute, as item, with get() and with in, until it is replaced or deleted; a name under which nothing is stored raises AttributeError or KeyError or gives the default. Other names and the contexts of other connections do not matter. The entries options, tasks and queues are at any time the objects made for this context, and can be neither replaced nor deleted.", "quantifier": "all numbers of contexts, all sequences of stores and deletions, all names", "why_tests_cant": "Tests store one value and read it. The two ways of writing and four ways of reading go through different mechanisms (descriptors, the instance's dict, methods found on the instance), and agree or not depending on what was stored before.", "anchors": ["tremolo/lib/contexts.py: Context", "tremolo/lib/contexts.py: ServerContext", "tremolo/lib/contexts.py: WorkerContext"]}
{"id": "C77", "title": "The server does not close a connection that nobody wants to end", "statement": "If the client sends requests that fit client_max_header_size and client_max_body_size and keep the connection alive, waiting for each response, the handlers read the bodies and close their responses with keep-alive, and no time-out comes, then the server never closes the connection, however the requests are cut into segments; so each request gets its response.", "quantifier": "all numbers and contents of requests within the limits, all segmentations, all schedules of the tasks, all limits", "why_tests_cant": "Tests send a few requests in whole segments. Each limit check, queue check and flag that can close the connection is reached in some states only, and that none of them fires wrongly is a statement about every reachable state.", "anchors": ["tremolo/lib/http_protocol.py: HTTPProtocol.data_received", "tremolo/lib/http_protocol.py: HTTPProtocol.put_to_queue", "tremolo/lib/http_protocol.py: HTTPProtocol._handle_keepalive", "tremolo/lib/http_protocol.py: HTTPProtocol._send_data"]}
{"id": "C78", "title": "Clients of an ASGI application get the responses that it gave for their requests", "statement": "On a connection that stays open, a client that reads the responses from what the server writes, chunked or by Content-Length, gets one for each of its requests, in order; each has the status, the headers and the body which the ASGI application sent for the scope that describes this request and for the body of this request, whatever was sent before on the connection.", "quantifier": "all applications that read the body and send a response in any number of parts, with or without Content-Length; all sequences of requests, all segmentations, all schedules of the tasks", "why_tests_cant": "It composes receive, send, the scope, the chunked mode that is kept per connection, the queues and the connection; whether state left over from one request (the mode, an end marker in the queue) reaches the next depends on how the application reads, how the data is cut and when the tasks run.", "anchors": ["tremolo/asgi_server.py: ASGIServer.headers_received", "tremolo/asgi_server.py: ASGIServer.receive", "tremolo/asgi_server.py: ASGIServer.send", "tremolo/lib/http_protocol.py: HTTPProtocol._handle_keepalive", "tremolo/lib/http_protocol.py: HTTPProtocol.put_to_queue"]}
{"id": "C79", "title": "With middlewares and streaming handlers, each client still reads the response that was made for its request", "statement": "An application has routes that are literal paths, handlers that are coroutine functions which return bytes or async generator functions which yield them, request middlewares that go on or answer themselves, and response middlewares; all look at header fields and set headers and status. A client sends HTTP/1.1 requests other than HEAD on one connection that stays open, waiting for each response, and the bodies are read. What the server writes, read chunked or by Content-Length, is one response per request, in order. If a request middleware answers, the response has its data, and the status and header lines which the calls of the request middlewares up to it make; no handler and no response middleware has a say. Otherwise it has the data of the handler of the request's path (or of the 404 page), and the status and header lines which the calls of the request middlewares, of the handler and of the response middlewares, the last registered first, make in this order. When nothing is left to do every request has its response and nothing else was written.", "quantifier": "all such applications with any numbers of middlewares, all numbers of requests, all bodies, header fields and yields, all segmentations, all schedules of the tasks", "why_tests_cant": "Each middleware may add, replace or take away what the others did, and the data goes in parts through a buffered, chunked or counted path chosen from the headers; a test fixes a few middlewares and one request.", "anchors": ["tremolo/http_server.py: HTTPServer.headers_received", "tremolo/http_server.py: HTTPServer._handle_middleware", "tremolo/http_server.py: HTTPServer._handle_response", "tremolo/lib/http_response.py: HTTPResponse", "tremolo/lib/http_protocol.py: HTTPProtocol"]}
{"id": "C80", "title": "Connections that nobody asks to close stay open through exchanges with middlewares, streaming handlers and ASGI applications", "statement": "A client sends HTTP/1.1 requests within the limits on one connection, waiting for each response, to an application with middlewares and handlers as in C79 or to an ASGI application as in C78. Bodies are read as they come. As long as neither the client nor the network nor a time-out ends the connection and the application does not send Connection: close, the server does not end it either: it is open after any number of exchanges, and the client reads from it one response for each request, in order, the right one.", "quantifier": "all such applications, all numbers of requests, all bodies, headers and parts of responses, all segmentations, all schedules of the tasks", "why_tests_cant": "Whether a connection is kept is decided from the request, from the headers of the response and from what earlier responses left behind; a test sends a few requests in one order.", "anchors": ["tremolo/lib/http_response.py: HTTPResponse.end", "tremolo/lib/http_response.py: HTTPResponse.set_base_header", "tremolo/asgi_server.py: ASGIServer.send", "tremolo/http_server.py: HTTPServer.headers_received", "tremolo/lib/http_protocol.py: HTTPProtocol"]}
{"id": "C81", "title": "Requests with HEAD and responses without a body do not get the client out of step", "statement": "As in C79 and C80, but requests may have any method, also HEAD, and handlers and request middlewares may set the statuses 204 (No Content) and 304 (Not Modified); response middlewares leave the status alone. A client that reads only the head of the responses to its HEAD requests and of responses with status 204 or 304, and the others chunked or by Content-Length, reads one response per request, in order; status and header lines are those that the calls of middlewares and handler make for this request, the body is the one they gave, and nothing for HEAD, 204 and 304, whatever was returned or yielded. The connection stays open if nobody asks to close it.", "quantifier": "all such applications, all numbers and orders of requests with and without HEAD, all bodies and yields, all segmentations, all schedules of the tasks", "why_tests_cant": "One byte too many after such a head is taken for the start of the next response; a test reads one response, and with a library that drops what follows it.", "anchors": ["tremolo/http_server.py: HTTPServer._handle_response", "tremolo/lib/http_response.py: HTTPResponse.write", "tremolo/lib/http_response.py: HTTPResponse.end", "tremolo/lib/http_protocol.py: HTTPProtocol"]}
{"id": "C82", "title": "Dates in responses name the right second, and files are revalidated by them", "statement": "Date, Last-Modified and the expires of cookies are HTTP dates (RFC 9110) of 29 bytes that exist in the calendar, with the right name of the day, and stand for the second that was meant; expires and max-age of a cookie say the same. A client that sends back the Last-Modified of a file in If-Modified-Since gets 304 if the file was not changed since, and otherwise all of the file as it is now, also if it became older; one that continues a download with If-Range never gets a part of another version. A cookie that is set without expires lasts as long as the session of the browser.", "quantifier": "all times from 1970 to 9999, all locales, all modification times and contents of files, all cookies", "why_tests_cant": "Leap years, centuries and ends of months: a test knows the dates it was written with. A stale 304 or a download glued together from two versions is seen by nobody at the time.", "anchors": ["tremolo/utils.py: server_date", "tremolo/lib/http_response.py: HTTPResponse.set_cookie", "tremolo/lib/http_response.py: HTTPResponse.sendfile"]}
{"id": "C83", "title": "A connection that the server ends is ended after a whole response, and for a reason", "statement": "Applications as in C81; a client sends HTTP/1.1 requests on one connection, waiting for each response, some of them perhaps with Connection: close; neither the client nor the network nor a time-out ends the connection. If the server ends it, then what it has written until then is the right responses to the first requests, each of them whole, up to and with one, and it writes nothing more afterwards; no other handler was started. This last request asked to close the connection, or the server had to make room for other connections. And a request that asked for it is the last one to be answered on its connection. With an ASGI application as in C78 the same holds, where it is the application that asks, by sending Connection: close with a response.", "quantifier": "all such applications, all numbers of requests with any Connection fields, all bodies and parts of responses, all segmentations, all schedules of the tasks", "why_tests_cant": "Closing is decided in one task while others write, read bodies and end responses; a response that was cut off looks to a test like a client that was too slow.", "anchors": ["tremolo/lib/http_protocol.py: HTTPProtocol._send_data", "tremolo/lib/http_protocol.py: HTTPProtocol._handle_keepalive", "tremolo/lib/http_protocol.py: HTTPProtocol.put_to_queue", "tremolo/lib/http_response.py: HTTPResponse.end", "tremolo/lib/http_request.py: HTTPRequest"]}
{"id": "C84", "title": "A handler or middleware that fails gives the response of its exception, whole, and then the connection is ended", "statement": "Applications and requests as in C83, but the function of a route may raise an exception, instead of returning or before its first yield, and so may request and response middlewares, instead of returning. The client then reads a whole response with the status, message and content type of the exception (408 for a time-out, 500 for anything that is not an HTTP exception) and with the page of the error handler, without anything of the header calls that the handler and the middlewares had made, and with Connection: close; to HEAD, and with statuses 204 and 304, without the page. The responses to the requests before are right too. The server ends the connection after this response, and as long as a connection is open no handler or middleware has failed for an answered request.", "quantifier": "all such applications, all exceptions with single-line messages but those of WebSockets, all pages of the error handler, all numbers of requests, segmentations and schedules", "why_tests_cant": "What a failing handler has left behind in the response object, the sending task and the queue depends on where it failed; tests look at one failing request, and not at what the connection does afterwards.", "anchors": ["tremolo/lib/http_protocol.py: HTTPProtocol.handle_exception", "tremolo/lib/http_protocol.py: HTTPProtocol._handle_request", "tremolo/lib/http_response.py: HTTPResponse.end", "tremolo/http_server.py: HTTPServer._handle_response", "tremolo/http_server.py: HTTPServer.headers_received"]}
{"id": "C85", "title": "A response that was cut off is not mistaken for a whole one", "statement": "Applications and requests as in C84, but the bodies of requests may exceed the limits, and a handler may be stopped anywhere in its response: cancelled, waiting for ever, or failing after its first yield. The connection breaks at any moment, for whatever reason: the client or the network ends it, the server aborts it, or gives it up for a time-out, a body over the limit, an exception. Whatever has arrived at the client by then, or at any time before: if the client can read it, by its Content-Length or chunks, as whole responses to its first k requests, then these are the right responses to these requests, with whole bodies, and k handlers were started. So of a response that was cut off the client sees that it was. The same holds with ASGI applications as in C78, which may be stopped anywhere.", "quantifier": "all such applications, all numbers of requests, all moments and reasons of the end, all segmentations and schedules, all beginnings of what was written", "why_tests_cant": "Where a connection breaks is a matter of timing between five tasks and the network; a client that takes half a file for the file does not notice, and neither does a test that does not break the connection at that byte.", "anchors": ["tremolo/lib/http_protocol.py: HTTPProtocol._send_data", "tremolo/lib/http_protocol.py: HTTPProtocol.abort", "tremolo/lib/http_protocol.py: HTTPProtocol.connection_lost", "tremolo/lib/http_response.py: HTTPResponse.write", "tremolo/lib/http_response.py: HTTPResponse.end", "tremolo/http_server.py: HTTPServer._handle_response"]}
{"id": "C86", "title": "The Connection line of a response says truly whether the connection goes on", "statement": "Applications and requests as in C84; response middlewares leave the Connection header alone. Every response has a Connection line, and no two that differ: close if the client asked for that or the handler or a middleware failed, otherwise keep-alive (or upgrade, for a streamed 426), whatever handlers and request middlewares set. While the connection is open no response on it has said close; when the server ends it, all responses but the last have said that it goes on, and the last has said close, unless the server had to make room for other connections. So a client that relies on the line neither writes its next request into a connection that is about to be closed, nor gives up one that goes on. The same holds with ASGI applications as in C78, where the line says close if the application asked for that.", "quantifier": "all such applications, all numbers of requests with any Connection fields, all bodies and parts of responses, all segmentations, all schedules of the tasks", "why_tests_cant": "The line is written before the body, by one part of the code, and the connection is closed after it, by another; a test client opens a new connection for each request or tries again, and does not see a line that was wrong.", "anchors": ["tremolo/http_server.py: HTTPServer._handle_response", "tremolo/lib/http_response.py: HTTPResponse.end", "tremolo/lib/http_response.py: HTTPResponse.close", "tremolo/lib/http_protocol.py: HTTPProtocol._handle_keepalive", "tremolo/lib/http_protocol.py: HTTPProtocol.handle_exception"]}
{"id": "C87", "title": "A handler that takes too long is stopped, and its client told", "statement": "A handler (with its middlewares) waits for the body of its request and for things of its own, may write parts of its response, and may catch exceptions. If it does not wait again after a wait of it was ended by an exception, and the error handler does not wait either, it is over within app_handler_timeout, however slowly the body comes; if it does not stream, its client then has a response, its own or one for an error. A handler that lets exceptions through is stopped only when its time is over (500, or 408 if it was waiting for the body) or when nothing of the body came for keepalive_timeout while it waited for it (408), so that a slow upload that goes on is left alone. Once the connection is upgraded app_handler_timeout does not apply.", "quantifier": "all handlers as interaction trees, all limits, all times of the parts of the body, all orders of events at the same time", "why_tests_cant": "The limit is the race of two timers, a queue and the handler's own waits, with one exception for two causes; a test tries one moment and one handler, and would have to wait two minutes for the default limit.", "anchors": ["tremolo/lib/http_protocol.py: HTTPProtocol.handler_timeout", "tremolo/lib/http_protocol.py: HTTPProtocol._handle_request", "tremolo/lib/http_protocol.py: HTTPProtocol.handle_exception", "tremolo/lib/request.py: Request.recv"]}
{"id": "C88", "title": "A handler may send its response itself, and the connection is kept if the response says so", "statement": "A coroutine handler that makes header calls and then sends its response with response.end(data) or response.sendfile(path), and returns: the client gets exactly this response, once, complete and with its body, with the header lines of the calls and with a Connection line that says whether the connection is kept; what the handler returns adds nothing to it. If the handler returns True and the client allowed it, the connection then stays open for the next request. Handlers that return nothing should do the same; instead the connection is closed after the response although it says keep-alive.", "quantifier": "all header calls, options of the route, data and files, keep-alive or not, all states of a connection that waits for this response", "why_tests_cant": "The response is right in both cases; whether the connection survives depends on a second end mark in the queue and on a flag that is read later by another task. A test client that sends one request on each connection sees no difference.", "anchors": ["tremolo/http_server.py: HTTPServer._handle_response", "tremolo/lib/http_response.py: HTTPResponse.end", "tremolo/lib/http_response.py: HTTPResponse.sendfile", "tremolo/lib/http_response.py: HTTPResponse.close", "tremolo/lib/http_protocol.py: HTTPProtocol._send_data"]}
{"id": "C89", "title": "What a handler writes with response.write is the body that the client reads", "statement": "A coroutine handler makes header calls, calls response.write(d) for one piece after the other, and returns: the client gets one response with the status, with the header lines of the calls and with the pieces, one after the other, as its body, and nothing after it. On HTTP/1.1 (chunked) this holds if the last piece, and no other, is empty; on HTTP/1.0 always. On HTTP/1.1 an empty piece should add nothing, as in a generator, and the end of the handler should end the body; neither is so.", "quantifier": "all header calls, options of the route and pieces, both versions, throttled or not, all buffer sizes", "why_tests_cant": "Pieces often come from elsewhere (a file, another server, a template) and are empty now and then; a test writes the pieces it thought of. Most test clients do not tell a body that ended from one that was cut off.", "anchors": ["tremolo/lib/http_response.py: HTTPResponse.write", "tremolo/lib/response.py: Response.send", "tremolo/lib/response.py: Response.close", "tremolo/http_server.py: HTTPServer._handle_response"]}
{"id": "C90", "title": "The Content-Type of a response is the one that was set last", "statement": "A handler makes header calls and gives its response with response.end, with response.write, by returning it or by yielding it. The response has exactly one Content-Type line. Its type is the one that was set last, with set_content_type or set_header (whatever the case of the name), where the content_type option of the route comes before the calls of the handler, and the calls of response middlewares come after them; it is text/html; charset=utf-8 if none was set. Types given with append_header should not be lost; a second one is.", "quantifier": "all sequences of header calls and options of the route, all types, all bodies, both versions", "why_tests_cant": "The type is kept in two places (a list and the dictionary of headers) that are written by different calls and read by three different paths; a test sees one order of calls on one path.", "anchors": ["tremolo/lib/http_response.py: HTTPResponse.set_content_type", "tremolo/lib/http_response.py: HTTPResponse.get_content_type", "tremolo/lib/http_response.py: HTTPResponse.set_header", "tremolo/lib/http_response.py: HTTPResponse.end", "tremolo/http_server.py: HTTPServer._handle_response"]}
