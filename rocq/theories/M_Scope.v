(** Model of what a request object tells about the peer (HTTPRequest.client, ip, is_secure, scheme: tremolo/lib/http_request.py:73-124) and of the scope
    that an ASGI application is called with (tremolo/asgi_server.py:39-80). A str is its list of code points.
    Left out: the keys asgi and server of the scope apart from getsockname() failing. *)
From Verif Require Import PyBytes PyExn PyUtf8 PyQs M_Parser M_Framing.
From Verif Require M_Handshake.

(** What getpeername() gives: a tuple (only its first two elements are used), a str for Unix sockets, nothing, or OSError. http_request.py:81-86 *)
Inductive peername := PeerTuple (host : pystr) (port : Z) | PeerPath (path : pystr) | PeerNone | PeerGone.
(** request.client when it is not None: getpeername()[:2]. http_request.py:84 *)
Inductive address := APair (host : pystr) (port : Z) | AStr (s : pystr).
(** The attributes _client, _ip, _is_secure, _scheme. http_request.py:40-43 *)
Record memo := mkMemo { m_client : option address; m_ip : option bytes; m_secure : option bool; m_scheme : option bytes }.
(** http_request.py:40-43 *)
Definition memo0 : memo := mkMemo None None None None.
(** What is outside at the moment of a read: the peer, whether the transport has an sslcontext, whether getsockname() works, and request.headers, which
    handlers may change. http_request.py:74-76, 82-84, 93, 109, 116, asgi_server.py:69 *)
Record world := mkWorld { w_peer : peername; w_tls : bool; w_sock : bool; w_headers : hdict }.

(** http_request.py:80-88 *)
Definition read_client (w : world) (m : memo) : res (option address) * memo :=
  match m_client m with
  | Some a => (Ok (Some a), m)
  | None =>
      let got a := (Ok a, mkMemo a (m_ip m) (m_secure m) (m_scheme m)) in
      match w_peer w with
      | PeerTuple host port => got (Some (APair host port))
      | PeerPath [] => got None
      | PeerPath p => got (Some (AStr (firstn 2 p)))
      | PeerNone => (Ok None, m)
      | PeerGone => (Raise OSError, m)
      end
  end.

(** client[0], http_request.py:101 *)
Definition address_first (a : address) : pystr :=
  match a with APair host _ => host | AStr s => firstn 1 s end.

(** http_request.py:93-96: the value of the header or the first of its values; an empty list or an int cannot be there. *)
Definition forwarded_for (d : hdict) : res bytes :=
  match hget (bs "x-forwarded-for") d with
  | None => Ok []
  | Some (One (AB v)) | Some (Many (AB v :: _)) => Ok v
  | Some (Many []) => Raise IndexError
  | Some _ => Raise AttributeError
  end.
(** http_request.py:90-105 *)
Definition read_ip (w : world) (m : memo) : res bytes * memo :=
  match m_ip m with
  | Some (c :: v) => (Ok (c :: v), m)
  | _ =>
      match forwarded_for (w_headers w) with
      | Raise x => (Raise x, m)
      | Ok v =>
          let ip := strip_ws v in
          let got v m := (Ok v, mkMemo (m_client m) (Some v) (m_secure m) (m_scheme m)) in
          let first m := got (upto ip (pos (find (bs ",") (ip ++ bs ",")))) m in
          match ip with
          | [] =>
              match read_client w m with
              | (Ok (Some a), m1) => match utf8_encode (address_first a) with Some b => got b m1 | None => (Raise ValueError, m1) end
              | (Ok None, m1) => first m1
              | (Raise x, m1) => (Raise x, m1)
              end
          | _ => first m
          end
      end
  end.

(** http_request.py:107-112 *)
Definition read_secure (w : world) (m : memo) : bool * memo :=
  match m_secure m with
  | Some b => (b, m)
  | None => (w_tls w, mkMemo (m_client m) (m_ip m) (Some (w_tls w)) (m_scheme m))
  end.
(** http_request.py:114-124. A repeated header is a list, which has no strip(). *)
Definition read_scheme (w : world) (m : memo) : res bytes * memo :=
  match m_scheme m with
  | Some (c :: v) => (Ok (c :: v), m)
  | _ =>
      match hget (bs "x-forwarded-proto") (w_headers w) with
      | Some (Many _) | Some (One (AI _)) => (Raise AttributeError, m)
      | o =>
          let scheme := strip_ws match o with Some (One (AB v)) => v | _ => [] end in
          let got v m := (Ok v, mkMemo (m_client m) (m_ip m) (m_secure m) (Some v)) in
          match scheme with
          | [] => let '(s, m1) := read_secure w m in got (if s then bs "https" else bs "http") m1
          | _ => got scheme m
          end
      end
  end.

(** bytes.decode('latin-1'), asgi_server.py:45, 52, 53, 62, 63 *)
Definition latin (b : bytes) : pystr := map N_of_ascii b.

(** The scope; method is there for http only, subprotocols for websocket only. asgi_server.py:39-53, 60-70 *)
Record scope := mkScope {
  sc_websocket : bool;
  sc_version : pystr;
  sc_method : option pystr;
  sc_scheme : pystr;
  sc_path : pystr;
  sc_raw_path : bytes;
  sc_query : bytes;
  sc_root : pystr;
  sc_headers : list (bytes * bytes);
  sc_client : option address;
  sc_subprotocols : option (list pystr)
}.

(** _handle_websocket and _handle_http, asgi_server.py:39-53, in headers_received, 60-78. [h]: request.header, [r]: the request; [ws], [root]:
    options['ws'], options['_root_path']. *)
Definition asgi_scope (ws : bool) (root : pystr) (h : header) (r : hreq) (w : world) (m : memo) : res scope * memo :=
  match read_client w m with
  | (Raise x, m1) => (Raise x, m1)
  | (Ok client, m1) =>
      if negb (w_sock w) then (Raise OSError, m1)
      else
        let make websocket method scheme subprotocols :=
          mkScope websocket (latin (rq_version r)) method scheme (latin (unquote_to_bytes (rq_path r))) (rq_path r) (rq_query_string r) root
                  (hlist h) client subprotocols in
        match M_Handshake.ws_offered ws (w_headers w) with
        | Raise x => (Raise x, m1)
        | Ok true =>
            match read_scheme w m1 with
            | (Raise x, m2) => (Raise x, m2)
            | (Ok s, m2) =>
                match getlist (w_headers w) (bs "sec-websocket-protocol") with
                | Raise x => (Raise x, m2)
                | Ok l => (Ok (make true None (latin (if beqb s (bs "https") then bs "wss" else bs "ws")) (Some (map latin l))), m2)
                end
            end
        | Ok false =>
            match read_scheme w m1 with
            | (Raise x, m2) => (Raise x, m2)
            | (Ok s, m2) => (Ok (make false (Some (latin (rq_method r))) (latin s) None), m2)
            end
        end
  end.
(** headers_received, asgi_server.py:55-80: what the application is called with, if at all; an invalid request is answered with error_400 instead. *)
Definition asgi_called (ws : bool) (root : pystr) (h : header) (r : hreq) (w : world) (m : memo) : res (option scope) * memo :=
  if rq_is_valid r then
    match asgi_scope ws root h r w m with
    | (Ok sc, m1) => (Ok (Some sc), m1)
    | (Raise x, m1) => (Raise x, m1)
    end
  else (Ok None, m).
