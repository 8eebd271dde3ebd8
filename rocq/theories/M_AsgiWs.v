(** Model of ASGIServer.receive and send for WebSocket scopes (tremolo/asgi_server.py:39-46, 80-91, 111-146, 174-266).

    The application is a list of calls, one after the other; a call that waits for the client ends the list, since M_WebSocket.v
    cannot go on in the middle of a frame. The events are those of M_Asgi.v and the WebSocket ones. A missing or None key is [],
    which the code treats alike (221, 253-256). subprotocol is UTF-8 encoded. *)
From Verif Require Import PyBytes PyInt PyExn PyUtf8 M_Stream M_WebSocket M_Response M_Server M_Asgi M_Handshake.
From Verif Require M_Parser.

(** asgi_server.py:176-261 *)
Inductive ws_event :=
| Http (ev : M_Asgi.event)
| WsAccept (headers : list (bytes * bytes)) (subprotocol : bytes)
| WsSend (data : bytes) (text : pystr)
| WsClose (code : Z).
(** What receive() returns; [Stays] is not an event: the call is still waiting. asgi_server.py:118-146 *)
Inductive ws_received := Connect | GotText (s : pystr) | GotBytes (b : bytes) | Disconnected (code : Z) | Stays.
(** [z_ws]: self._websocket is not None. [z_timer]: self._timer will cancel the application. [z_in]: what the request reads from. asgi_server.py:30-46 *)
Record session := mkZ { z_a : aserver; z_ws : bool; z_timer : bool; z_in : reader }.
(** asgi_server.py:174-266 *)
Definition with_a (z : session) (a : aserver) : session := mkZ a (z_ws z) (z_timer z) (z_in z).

(** websocket.py:169-173, awaited in 254, 256 and http_response: the frame is queued at once. *)
Definition ws_put (v : pyval) (opcode : option N) : call unit :=
  match create_frame v 1 opcode false [] with Ok f => M_Response.send (Some f) kw_now | Raise x => M_Response.raise x end.
(** websocket.py:187-190. code.to_bytes raises OverflowError for what is not a 16-bit number. *)
Definition ws_close (code : Z) : call unit :=
  match close_frame code with Ok f => M_Response.send (Some f) kw_now | Raise x => M_Response.raise x end ;; close true.

(** asgi_server.py:185-219 again, as [start_headers] of M_Asgi.v, with whether it went through. *)
Fixpoint accept_headers (e : renv) (text : bytes) (hs : list (bytes * bytes)) (a : aserver) : aserver * bool :=
  match hs with
  | [] => (a, true)
  | (n, v) :: hs' =>
      if memb LF n || memb LF v then (a_fail e text a, false)
      else
        let name := lower n in
        if beqb name (bs "content-type") then
          match a_call (set_content_type v) a with
          | (Ok _, a') => accept_headers e text hs' a'
          | (Raise _, a') => (a', false)
          end
        else if beqb name (bs "date") || beqb name (bs "server") || beqb name (bs "transfer-encoding") then accept_headers e text hs' a
        else if beqb name (bs "connection") then
          accept_headers e text hs' (if beqb (lower v) (bs "close") then mkA (with_keep (a_rsp a) false) (a_chunked a) (a_open a) else a)
        else
          let a1 := if beqb name (bs "content-length") then mkA (a_rsp a) (Some false) (a_open a) else a in
          match a_call (append_header n v) a1 with
          | (Ok _, a') => accept_headers e text hs' a'
          | (Raise _, a') => (a', false)
          end
  end.
(** websocket.accept, asgi_server.py:176-233, 257-258. [h]: request.headers. *)
Definition ws_accept (e : renv) (text : bytes) (h : M_Parser.hdict) (ws : bool) (hs : list (bytes * bytes)) (sub : bytes) (a : aserver) : aserver :=
  let finish a := if ws then snd (a_call (accept e h) a) else a in        (* AttributeError on None *)
  match a_call (set_base_header e) a with
  | (Raise _, a1) => a1
  | (Ok _, a1) =>
      let '(a2, through) := accept_headers e text hs a1 in
      if negb through then a2
      else match sub with
           | [] => finish a2
           | _ => if memb LF sub then a_fail e text a2
                  else match a_call (set_header (bs "Sec-WebSocket-Protocol") sub) a2 with
                       | (Ok _, a3) => finish a3
                       | (Raise _, a3) => a3
                       end
           end
  end.

(** send, asgi_server.py:174-266; exceptions are only logged (262-266). *)
Definition ws_send (e : renv) (phrase : Z -> option bytes) (text : bytes) (size : Z) (h : M_Parser.hdict) (z : session) (ev : ws_event) : session :=
  match ev with
  | Http ev => with_a z (asgi_send e phrase text size (z_a z) ev)
  | WsAccept hs sub => with_a z (ws_accept e text h (z_ws z) hs sub (z_a z))
  | WsSend data t =>
      if negb (z_ws z) then z
      else match data, t with
           | _ :: _, _ => with_a z (snd (a_call (ws_put (VBytes data) None) (z_a z)))
           | [], _ :: _ => with_a z (snd (a_call (ws_put (VStr t) (Some 1%N)) (z_a z)))
           | [], [] => z
           end
  | WsClose code =>
      if negb (z_ws z) then z
      else match a_call (ws_close code) (z_a z) with
           | (Ok _, a) => mkZ a false (z_timer z) (z_in z)
           | (Raise _, a) => with_a z a
           end
  end.

(** The pongs that websocket.receive sends meanwhile, websocket.py:82-85. *)
Fixpoint put_all (fs : list bytes) (a : aserver) : aserver :=
  match fs with [] => a | f :: fs' => put_all fs' (snd (a_call (M_Response.send (Some f) kw_now) a)) end.
(** receive, asgi_server.py:111-146. [max]: ws_max_payload_size. *)
Definition ws_receive (o : M_Stream.opts) (max : Z) (z : session) : ws_received * session :=
  if negb (r_up (a_rsp (z_a z))) then (Connect, z)
  else if negb (z_ws z) then (Disconnected 1005, mkZ (z_a z) (z_ws z) true (z_in z))
  else
    let '(x, r, out) := M_WebSocket.receive o max (z_in z) in
    let now t := mkZ (put_all out (z_a z)) (z_ws z) t r in
    match x with
    | WRet (VStr s) => (GotText s, now (z_timer z))
    | WRet (VBytes b) => (GotBytes b, now (z_timer z))
    | WRaise (WSClientClosed c) => (Disconnected c, now true)
    | WRaise _ => (Disconnected 1005, now true)
    | WBlock | WFuel => (Stays, now (z_timer z))
    end.

(** What an application does. *)
(** asgi_server.py:80-81 *)
Inductive app_call := Receive | Send (ev : ws_event).
(** The events it receives, and the state after its calls. asgi_server.py:80-81 *)
Fixpoint ws_app (e : renv) (phrase : Z -> option bytes) (text : bytes) (size : Z) (h : M_Parser.hdict) (o : M_Stream.opts) (max : Z) (calls : list app_call) (z : session) : list ws_received * session :=
  match calls with
  | [] => ([], z)
  | Send ev :: calls' => ws_app e phrase text size h o max calls' (ws_send e phrase text size h z ev)
  | Receive :: calls' =>
      match ws_receive o max z with
      | (Stays, z') => ([Stays], z')
      | (ev, z') => let '(evs, z2) := ws_app e phrase text size h o max calls' z' in (ev :: evs, z2)
      end
  end.
(** How the application ends: it returns (and the timer is cancelled), or raises, being cancelled included. asgi_server.py:80-91 *)
Definition ws_end (e : renv) (text : bytes) (raised : option exc) (z : session) : session :=
  match raised with
  | Some x =>
      let x' := if r_up (a_rsp (z_a z)) && z_ws z then XWsServer 1011 else x in
      let '(p, s) := handle_exception e (fun _ s => (EData text, s)) x' (a_rsp (z_a z)) in
      with_a z (mkA s (a_chunked (z_a z)) (a_open (z_a z) && match p with Aborted => false | _ => true end))
  | None => mkZ (z_a z) (z_ws z) false (z_in z)
  end.
(** A new WebSocket scope: nothing sent, [ch] being what the last response of the connection left (asgi_server.py:37, 218), [r] the reader of the request. 39-46 *)
Definition ws_scope (keep : bool) (ch : option bool) (r : reader) : session := mkZ (mkA (new_rsp keep) ch true) true false r.
