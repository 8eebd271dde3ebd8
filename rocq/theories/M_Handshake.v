(** Model of the opening handshake: when a request is given a WebSocket (http_server.py:90-96, asgi_server.py:72-78) and WebSocket.accept
    (tremolo/lib/websocket.py:25-35). SHA-1 and Base64 are those of PySha1.v. *)
From Verif Require Import PyBytes PyExn PySha1 M_Response.
From Verif Require M_Parser.

(** http_server.py:91, asgi_server.py:72 *)
Definition h_upgrade := bs "upgrade".
(** http_server.py:92, asgi_server.py:73 *)
Definition h_connection := bs "connection".
(** http_server.py:93, asgi_server.py:74, websocket.py:28 *)
Definition h_key := bs "sec-websocket-key".

(** http_server.py:91-94, asgi_server.py:72-75. [ws]: options['ws']. A repeated field is a list, which has no lower(). *)
Definition ws_offered (ws : bool) (h : M_Parser.hdict) : res bool :=
  if ws && M_Parser.hmem h_upgrade h && M_Parser.hmem h_connection h && M_Parser.hmem h_key h then
    match M_Parser.hget h_upgrade h with
    | Some (M_Parser.One (M_Parser.AB v)) => Ok (beqb (lower v) (bs "websocket"))
    | _ => Raise AttributeError
    end
  else Ok false.

(** websocket.py:26 *)
Definition magic_string : bytes := bs "258EAFA5-E914-47DA-95CA-C5AB0DC85B11".
(** write(None) without keyword arguments, http_response.py:224, response.py:21-24 *)
Definition kw_default : kw := mkKw true 16384 None.

(** websocket.py:25-35. [h]: request.headers. A repeated key is a list: adding bytes to it is a TypeError. The answer does not depend on
    anything else of the request than [e]. *)
Definition accept (e : renv) (h : M_Parser.hdict) : call unit :=
  match M_Parser.hget h_key h with
  | Some (M_Parser.One (M_Parser.AB key)) =>
      let accept_key := b64encode (sha1 (key ++ magic_string)) in
      set_status 101 (bs "Switching Protocols") ;;
      set_header (bs "Upgrade") (bs "websocket") ;;
      set_header (bs "Sec-WebSocket-Accept") accept_key ;;
      write e None None kw_default
  | Some _ => raise TypeError
  | None => raise KeyError
  end.
