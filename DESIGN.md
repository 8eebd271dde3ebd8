# Formal model of nggit/tremolo in Coq 8.16.1

## Approach

The server is a Python/asyncio program. Its logic is modelled as total, executable
Gallina functions, branch by branch, with exceptions as values, generators as explicit
state records with a `next` function, and asyncio scheduling as explicit event/step
relations (one step = the code between two `await`s). Nothing is assumed about timing:
schedules, segmentations of the byte stream and application behaviour are universally
quantified inputs of the theorems.

Layout of `rocq/theories` (flat, listed in `_CoqProject`):

* `Py*.v`   Python built-ins used by the code (bytes methods, `int()`, `%d`, `%X`, UTF-8,
  `urllib.parse`), executable.
* `M_*.v`   the model, one file per source module; each definition cites the file and lines.
* `S_*.v`   small specifications (RFC grammars, reference decoders, predicates), which use none of the
  model's functions; some use its data types, such as the events that a run shows.
* `P_*.v`   proofs.
* `T_*.v`   the property theorems, each followed by `Print Assumptions`, with non-vacuity
  `Example`s beside them.

A property whose full statement is false of the code is kept in full in `properties.jsonl`;
its `_refuted` theorem gives a concrete witness run of the model, and the `_partial` theorem
gives the strongest version found to hold.

Bytes are `ascii` (8 booleans), byte strings `list ascii`; Python ints are `Z`.

## Per property: what is modelled, how it is proved

| id | model | how it is proved |
|----|-------|------------------|
| C01-C03, C05, C06 | `M_Parser` (`ParseHeader.parse/save/remove/append/getheaders`) | structural recursion over lines; induction; reference line grammar in `S_Head` |
| C04 | same + `HTTPRequest.__init__` (`M_Framing`) | refutation by witness (`_version:` field), positive theorems |
| C07-C09 | `M_Framing`: the framing part of `_handle_request` | case analysis, canonical-numeral lemmas for `int()` |
| C10, C11 | `M_Header`: head phase of `data_received` | induction over segments, invariant on the buffer |
| C12-C18 | `M_Stream`: `Request.recv`, `HTTPRequest.stream/recv/read/body/eof` as generator state machines | invariants relating generator state, remaining items and remaining encoding |
| C19-C21 | `M_Upload`: `put_to_queue`, pause/resume, sleeps as exact rationals | induction over pieces |
| C22-C27 | `M_WebSocket`: `create_frame/recv/receive` over `M_Stream` | independent RFC 6455 frame grammar; big-endian and xor lemmas |
| C28-C33 | `M_Response`: header API, `end`, `write`, `send`, `close` | invariants over call lists; reference chunked decoder |
| C34, C35, C66 | `M_Sendfile`: `sendfile`, the handle kept in the context | arithmetic; induction over the read loop; sequences of calls |
| C36 | `M_Sse` | reference EventSource parser |
| C37, C38 | `M_Form`, `PyUrl`, `PyQs` | per-byte lemmas, induction on pair lists; RFC 6265 user agent |
| C39, C42, C56 | `M_Utils` | per-byte map; refinement; induction over argv |
| C40 | `M_Files` | invariant over segments |
| C41 | `M_Queue`: futures and tasks | invariants over all schedules |
| C43 | `M_Lock`: N tasks and the executor's jobs | invariant; refutation |
| C44, C57 | `M_Worker`: connections, socket numbers, shared queues | invariants over all histories |
| C45, C46, C59, C61 | `M_Conn`: one connection as a transition system | invariants over all schedules; refutation by witness runs |
| C47 | `M_Timer`: timers with a logical clock | invariants over timed runs |
| C48 | `M_Send`: `_send_data` and asyncio's write buffer | invariant |
| C49, C50 | `M_Route`, `PyRe` | lemmas about the table and about matching |
| C51, C52 | `M_Server` | induction over middleware lists; case analysis |
| C53, C54 | `M_Asgi` | reuse of the stream and response theorems |
| C55 | `M_Lifespan` | all interleavings of application, timer, server |
| C58 | `M_Super`: supervisor and worker loops | invariants of a transition system |
| C60 | `M_Handshake`, `PySha1` | through C01 and C28-C30 |
| C62 | `M_AsgiWs` | through C23-C27, C60 |
| C63 | `M_Scope` | through C01 |
| C64 | `M_Hooks` | invariants over all interleavings |
| C65 | `M_App` | induction over registrations |
| C67 | `M_Args` | induction over the requests of a connection |
| C68 | `M_AsgiConn` | invariants over timed runs |
| C69 | `M_Pages` | pages read back as HTML tokens; through C52 |
| C70-C72 | `M_Run` | induction over listen calls and over the words of the command line (C56) |
| C73 | `M_Reload` | invariants over the looks of a worker |
| C74 | `M_Idle` | invariant over timed runs |
| C75 | `M_Site` | composition of C02, C31, C45, C46, C49, C52 and C63 on one connection |
| C76 | `M_Context` | invariant over all histories |
| C77 | `M_Conn` (with C75's `M_Site`) | the invariant of C45, one step further: no step closes |
| C78 | `M_AsgiSite` | composition of C45, C46, C54 and C63 on one connection; `P_Exchange` is the part it shares with C75 |
| C79 | `M_Stack` | as C75, with C30, C31 and C51 for the middlewares and the streams |
| C80 | `M_Stack`, `M_AsgiSite`, `M_Conn` | what C79 and C78 say the response ends with (keep-alive) is fed back into C77: by induction over the run nobody has asked to close so far |
| C81 | `M_Stack`, `M_Conn` | C79 and C80 again over requests of any method; a response is what the client reads given the method it asked with; head-only responses from C32, the others from C79 |
| C82 | `PyTime` (Python's calendar), `M_Date` | division by the lengths of cycles, checks over the days of a year and over all years with four digits; dates are read back by a client's calendar that counts years one by one (S_Date); then C35 and C37 |
| C83 | `M_Conn`, `M_Stack`, `M_AsgiSite` | why a request is not kept (it asked, or its handler did) is an invariant of open runs; the step that closes is the end of a response, of which all was written (the layers of C46); then as C81, and for ASGI applications as C78 and C80 |
| C84 | `M_Fault`, `M_Conn` | the request middlewares as in C81, the failing call as C52, its head lines read by the client; no call before the response is written sends anything, so that it does not matter who fails, a middleware or the handler; both kinds of responses through the steps of C83 |
| C85 | `M_Conn`, `M_Fault`, `M_AsgiSite` | what was written of the current response is a beginning of what its handler has put (an invariant of open connections, without the limits of C77); the client's reader is stable under more input, and cannot read a proper beginning of a response; the step that closes writes nothing |
| C86 | `M_Response`, `M_Fault`, `M_AsgiSite`, `M_Conn` | the Connection line of each kind of response (value, stream, end, error page) by the keep-alive flag of its request, which no other part of the response can change; the flag decides, by C83 and C84, which response is the last one |
| C87 | `M_Limit`: handlers as interaction trees, two timers | induction on the tree; a relation, so that events at the same time come in any order |
| C88 | `M_Server`, `M_Sendfile` and `M_Conn`, unchanged; `S_Own` has the handlers | the theorems of C30 and C35 around one more close(); induction on the items in the queue |
| C89 | `M_Server` and `M_Response`, unchanged; `S_Pieces` has the handlers | the runs of writes of C35, the chunked client of C78 |
| C90 | `M_Response` and `M_Server`, unchanged; `S_Ctype` says which type was set last | what every header call does to the type; then the runs of end, write, values and streams |

The status of each property, the exact theorem names and what is missing or false are in
`MANIFEST.json`; the full statements stay in `properties.jsonl`.

## Trusted base

* Coq 8.16.1's kernel. `Print Assumptions` stands under every theorem in `T_*.v` and prints
  "Closed under the global context" for each of them: no theorem depends on any axiom.
  Some files load `Lia` and parts of the standard library that in turn load
  `Coq.ssr.ssrunder`; its `Under_rel` module interface is counted among the axioms of the loaded
  libraries (7 of them) by tools that list everything loaded. No theorem uses them.
  There is no `Axiom`, `Parameter`, `Admitted`, functor or module type in `theories/`.
* The reading of the Python code into the model: it was done by hand from the text of `/repo`.
  The code was not run, and the model was not tested against it.
* Python built-ins as modelled in `Py*.v`: bytes methods, `int()` and `%` formatting, UTF-8,
  `urllib.parse`, the part of `re` that `PyRe.v` lists, SHA-1 and base64 (from their standards,
  with published test vectors).
* asyncio: code between two awaits is atomic; a transport delivers bytes in order, calls
  `data_received` no more when paused, closing or lost, and drops writes after `abort()`;
  `task.cancel()` reaches the task that the cancelled task waits for; tasks that can run may run in any order.

Each `M_*.v` file begins with what it covers and what it leaves out, and every definition cites
the lines it models. The tables below collect this.

## Modelled

| source | files | what |
|---|---|---|
| `tremolo/lib/http_parser.py` | M_Parser | all of `ParseHeader`: parse, save, remove, append, getheaders |
| `tremolo/lib/http_request.py` | M_Framing, M_Stream, M_Form, M_Files, M_Scope | constructor, framing attributes, stream/recv/read/body/eof, query, cookies, form, files, client, ip, is_secure, scheme |
| `tremolo/lib/request.py` | M_Stream, M_Limit | `recv`; its timeout is an item of the queue in M_Stream, a timer in M_Limit |
| `tremolo/lib/http_response.py` | M_Response, M_Sendfile, M_Date | header API, status, content type, cookies, send_continue, end, write, sendfile with ranges |
| `tremolo/lib/response.py` | M_Response | send (plain and throttled), close |
| `tremolo/lib/http_protocol.py` | M_Header, M_Framing, M_Upload, M_Conn, M_Timer, M_Limit, M_Send, M_Worker, M_Server | connection_made, connection_lost, data_received, _handle_request, _receive_data, eof_received, put_to_queue, _send_data, _handle_keepalive, set_timeout, handler_timeout, handle_exception, watermarks |
| `tremolo/lib/queue.py` | M_Queue | all |
| `tremolo/lib/connections.py` | M_Utils | all |
| `tremolo/lib/contexts.py` | M_Context | all, without assignments to `__dict__` and `__class__` |
| `tremolo/lib/locks.py` | M_Lock | ServerLock (a single lock, any number of tasks and workers) |
| `tremolo/lib/websocket.py` | M_WebSocket, M_Handshake, M_Idle | accept, create_frame, recv, receive, send, close, the pings |
| `tremolo/lib/sse.py` | M_Sse | send, close |
| `tremolo/http_server.py` | M_Server, M_Route, M_Hooks, M_Args | middlewares of all four kinds, choice of the handler, responses of functions and generators, arguments, options |
| `tremolo/asgi_server.py` | M_Asgi, M_AsgiWs, M_AsgiConn, M_Scope, M_AsgiSite | scope, receive, send, the close timer, connection_lost |
| `tremolo/asgi_lifespan.py` | M_Lifespan | startup, shutdown, send, the task |
| `tremolo/tremolo.py` | M_App, M_Route, M_Hooks, M_Super, M_Lifespan, M_Run, M_Reload | registrations, add_route, worker_start/worker_stop, the supervisor loop, the worker loop, listen and run, sockets, options of workers and connections, locating the application, reload and memory limit |
| `tremolo/__main__.py` | M_Run | bind, the main program |
| `tremolo/handlers.py`, `tremolo/lib/http_exceptions.py` | M_Pages | all |
| `tremolo/utils.py` | M_Utils, M_Reload, M_Date | html_escape, parse_args, file_signature, server_date |

`M_AsgiSite` does for ASGI applications what `M_Site` does for handlers; it leaves out WebSocket scopes.
`M_Stack` does the same with middlewares and generator functions, for `T_Stack`; `M_Fault` with handlers and middlewares that
raise, for `T_Fault`.
`M_Site` puts the models of `_handle_request`, routing, the request server and responses together, for `T_Site`.

## Not modelled, and simplifications

* TLS transports; sharing sockets on Windows; logging altogether, but for the choice of its level
  (C71) and the failure of its arguments (C69); importing and reimporting modules.
* str arguments of the response API that are encoded first: the model takes the encoded bytes.
* The keep-alive pings of `WebSocket.receive` are in `M_Idle` only, where segments come with the frames they complete. An application's call that waits in the middle of a frame ends the run in `M_AsgiWs`.
* Floats: sleeps and rates are exact rationals (C21); times are integers in any unit (C47, C68).
* `sendfile`: the file does not change while it is sent; reads return what was asked for unless the
  file ends; a given `file_size` is right (C34, C35). Which bytes a kept handle reads is a parameter (C66).
* Generators of handlers are finite lists of steps (`M_Server`).
* `M_Conn` leaves the bytes of error responses to C52 and the watermarks to C48; `M_Timer` leaves out
  heads that are not valid; `M_AsgiConn` leaves out WebSocket scopes.
* An item that `put_nowait` hands to a waiting `get()` counts as taken at that moment or later in
  `M_Conn` and `M_Worker`; the queue itself is C41.
* `re` patterns outside the subset of `PyRe` (`{m,n}`, lazy quantifiers, look-around, flags) compile to None.
* HTTP status phrases (`http.HTTPStatus`) are parameters outside `M_Pages`. Whether a host resolves, `os.path.abspath` and
  the text of tracebacks are parameters (C69, C70, C72).

## What the refutations found

Each of these is a `_refuted` theorem with a concrete run of the model, and a note in `MANIFEST.json`:

* requests: a field `_version` overrides the version and switches off the Host check (C03, C04); the
  outcome for a head of exactly the maximal size depends on packets (C10); chunked bodies whose pieces end
  behind chunk data are rejected (C13); `read()` after a sized read skips bytes (C17); bodies that a handler
  does not read become the next request, and the size of a chunked body is added to that of the next (C45); pipelined requests lost in long segments (C46); Expect (C59).
* responses: CR in SSE fields (C36); `append_header` does not check (C28); suffix range `-0` gets no answer
  (C34); the handle of the first `sendfile` of a connection serves all later ones (C66); errors of
  WebSocket kind and messages with a line feed (C52).
* WebSocket: payload limit not checked below 64 KiB, truncated frames returned, fragmented and empty
  messages broken (C24-C27); the handshake with `Connection: close` (C60); a session that is not the first
  request of its connection is closed with its 101 (C61).
* ASGI: body events (C53), header names with colons (C54), lifespan (C55), WebSocket events (C62),
  the scope (C63); http.disconnect for connected clients, errors instead of it, a timer that works once per
  connection, calls that reach the next request (C68); time-outs of an earlier request (C47).
* server: middleware options override the route's (C51); regular-expression routes disappear after the
  first request (C50); queues shared with the next client of a socket number (C44); tasks left when a callable
  raises CancelledError (C57); the supervisor's crash when a new worker dies at once (C58); `async with`
  on a lock that times out (C43); error handlers for other codes ignored (C65); stale WebSocket, SSE and
  options on kept-alive connections (C67); on_close overlapping on_connect (C64); exceptions with other arguments than
  text get no response, and error text is not quoted (C69).
* starting: several workers on a Unix socket, of which one is reachable; the socket file that is never removed; host names
  that do not resolve become files (C70); log levels in small letters (C71); dotted module names (C72);
  modules that --reload does not watch (C73).
* time limits: a handler that tries again when no data of the body came outlives app_handler_timeout, and error handlers have no limit (C87).
* handlers that send their response with end() or sendfile() and return nothing: the connection is closed although the response says keep-alive; if the handler goes on after its response, the connection is closed under the next request (C88).
* handlers that write pieces: an empty piece ends a chunked body, and nothing else does (C89).
* a second Content-Type given with append_header is lost (C90).
* contexts: values stored under `get` or `__setattr__` (C76).
* ASGI: the end mark of a body that an application does not fetch, because more_body was false, ends the
  body of the next request before it begins (C78).
* keep-alive: heads at the limit, depending on the segments; small segments while the handler does not read (C77);
  an ASGI response without Content-Length after one that had it is not framed (C80) and promises to keep the connection (C86); a generator with status 204 or 304
  closes the connection that its head promised to keep, and 205 has no length (C81); a Connection: close set by a
  response middleware is sent and not obeyed (C86); a response is cut off when the body
  of the request is too large (C83).
* dates: names of days and months in another locale; changes within a second are not seen by If-Modified-Since;
  set_cookie without expires makes a cookie that is deleted at once (C82).

## Seeded bugs

`seeded/LOG.jsonl` has one line for every wrong program tried: the definition edited, the edit, the claim that it
breaks, the theorems that failed, and theorems that were tightened because they had survived. The edits were made in
a copy; every proof that broke was admitted there, so that all theorems downstream were tried as well.
