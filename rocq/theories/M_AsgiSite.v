(** The parts put together for ASGI: what the server does for an application that is called for each request of a connection
    (tremolo/asgi_server.py:30-37, 48-95, 174-266; tremolo/lib/http_protocol.py:338-349).

    The application reads the whole body, then sends one http.response.start and the body of the response in one or more http.response.body. HTTP scopes only.
    The event loop and the connection are in M_Conn.v, receive and send in M_Asgi.v, the scope in M_Scope.v. *)
From Verif Require Import PyBytes PyUtf8 PyExn M_Parser M_Framing M_Response M_Scope M_Asgi.

(** What it sends: status, headers, the bodies with more_body, and the last one. asgi_server.py:176-185, 235-250 *)
Record reply := mkReply { y_status : Z; y_headers : list (bytes * bytes); y_more : list bytes; y_last : bytes }.
(** asgi_server.py:174-250 *)
Definition events_of (x : reply) : list event := Start (Some (y_status x)) (y_headers x) :: map (fun d => Body d true) (y_more x) ++ [Body (y_last x) false].
(** The application and the server it runs in: the phrases of http.HTTPStatus, the page of an InternalServerError, options['ws'], ['_root_path'],
    ['buffer_size'] and the name of the server; the peer of the connection, and whether it is TLS. asgi_server.py:60-81, 179-180, 237-242 *)
Record asite := mkASite {
  y_app : scope -> bytes -> reply; y_phrase : Z -> option bytes; y_text : bytes; y_ws : bool; y_root : pystr; y_buf : Z; y_name : bytes;
  y_peer : peername; y_tls : bool }.
(** The scope for a request: [head] is what it was parsed from. asgi_server.py:56-78, http_protocol.py:268-270 *)
Definition scope_for (y : asite) (head : bytes) (r : hreq) : option scope :=
  match fst (asgi_called (y_ws y) (y_root y) (parse_header head (blen head - 2) 65536 [bs "proxy"] 100 8190) r (mkWorld (y_peer y) (y_tls y) true (rq_headers r)) memo0) with
  | Ok (Some sc) => Some sc
  | _ => None
  end.
(** The response to a request; [body] is what the application reads, [ch] is self._http_chunked when it starts (only connection_made resets it, 30-37).
    Left out, nothing is sent: invalid requests (error_400), requests for a WebSocket, exceptions before the application is called. asgi_server.py:55-81 *)
Definition asgi_serve (date : bytes) (y : asite) (head : bytes) (r : hreq) (body : bytes) (ch : option bool) : aserver :=
  let a := mkA (new_rsp (rq_keepalive r)) ch true in
  match scope_for y head r with
  | Some sc =>
      if sc_websocket sc then a
      else asgi_sends (mkEnv (beqb (rq_version r) (bs "1.1")) (rq_method r) date (y_name y)) (y_phrase y) (y_text y) (y_buf y) (events_of (y_app y sc body)) a
  | None => a
  end.
