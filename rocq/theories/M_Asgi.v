(** Model of ASGIServer.receive and send for HTTP scopes (tremolo/asgi_server.py:111-266). WebSocket scopes and their events are
    left out. *)
From Verif Require Import PyBytes PyInt PyExn M_Stream M_Response M_Server.

(** ** receive, asgi_server.py:155-172 *)
(** [Waiting] is not an event: the call is still waiting for the queue. *)
(** asgi_server.py:158-172 *)
Inductive received := Request (body : bytes) (more : bool) | Disconnect | Waiting.
(** [r]: self._read, which send sets to None when the response is over (250). *)
Definition receive (o : M_Stream.opts) (s : rstate) (r : option gen) : received * rstate * option gen :=
  match r with
  | None => (Disconnect, s, None)                                  (* AttributeError *)
  | Some g =>
      match gen_next o s g with
      | (OYield d, s', g') =>
          (Request d ((negb (beqb d []) && (clen s' =? -1)%Z) || (consumed s' <? clen s')%Z), s', Some g')
      | (OBlock, s', g') => (Waiting, s', Some g')
      | (_, s', g') => (Disconnect, s', Some g')
      end
  end.
(** The application calls receive() [n] times. *)
(** asgi_server.py:155-172 *)
Fixpoint receives (n : nat) (o : M_Stream.opts) (s : rstate) (r : option gen) : list received :=
  match n with
  | O => []
  | S n' => let '(ev, s', r') := receive o s r in ev :: receives n' o s' r'
  end.

(** ** send, asgi_server.py:174-266 *)
(** http.response.start, with or without a status, and http.response.body (without body or more_body: b'' and False). *)
(** asgi_server.py:176-185, 235-244 *)
Inductive event := Start (status : option Z) (headers : list (bytes * bytes)) | Body (body : bytes) (more : bool).
(** [a_chunked]: self._http_chunked. [a_open]: the connection was not aborted. *)
(** asgi_server.py:30-37 *)
Record aserver := mkA { a_rsp : rsp; a_chunked : option bool; a_open : bool }.
(** self.response.f(...), asgi_server.py:179-248 *)
Definition a_call (m : call unit) (a : aserver) : res unit * aserver :=
  let '(r, s) := m (a_rsp a) in (r, mkA s (a_chunked a) (a_open a)).
(** self.handle_exception(InternalServerError(...)): the error page is [text] *)
(** asgi_server.py:187-191 *)
Definition a_fail (e : renv) (text : bytes) (a : aserver) : aserver :=
  let '(p, s) := handle_exception e (fun _ s => (EData text, s)) (XHttp 500 (bs "Internal Server Error") default_ctype) (a_rsp a) in
  mkA s (a_chunked a) (a_open a && match p with Aborted => false | _ => true end).

(** 185-219: the headers of http.response.start. An exception ends it, and is only logged (264-266). *)
Fixpoint start_headers (e : renv) (text : bytes) (hs : list (bytes * bytes)) (a : aserver) : aserver :=
  match hs with
  | [] => a
  | (n, v) :: hs' =>
      if memb LF n || memb LF v then a_fail e text a
      else
        let name := lower n in
        if beqb name (bs "content-type") then
          match a_call (set_content_type v) a with
          | (Ok _, a') => start_headers e text hs' a'
          | (Raise _, a') => a'
          end
        else if beqb name (bs "date") || beqb name (bs "server") || beqb name (bs "transfer-encoding") then start_headers e text hs' a
        else if beqb name (bs "connection") then
          start_headers e text hs' (if beqb (lower v) (bs "close") then mkA (with_keep (a_rsp a) false) (a_chunked a) (a_open a) else a)
        else
          let a1 := if beqb name (bs "content-length") then mkA (a_rsp a) (Some false) (a_open a) else a in
          match a_call (append_header n v) a1 with
          | (Ok _, a') => start_headers e text hs' a'
          | (Raise _, a') => a'
          end
  end.
(** 182-219: set_base_header and the headers *)
Definition start_base (e : renv) (text : bytes) (hs : list (bytes * bytes)) (a : aserver) : aserver :=
  match a_call (set_base_header e) a with
  | (Ok _, a') => start_headers e text hs a'
  | (Raise _, a') => a'
  end.
(** 244-248: the end of the body *)
Definition body_finish (e : renv) (more : bool) (a : aserver) : aserver :=
  if more then a
  else match a_call (write e (Some []) (a_chunked a) kw_now) a with
       | (Ok _, a') => snd (a_call (close true) a')
       | (Raise _, a') => a'
       end.
(** [phrase]: HTTPStatus(status).phrase, None being ValueError. [size]: options['buffer_size']. *)
(** asgi_server.py:174-266 *)
Definition asgi_send (e : renv) (phrase : Z -> option bytes) (text : bytes) (size : Z) (a : aserver) (ev : event) : aserver :=
  match ev with
  | Start None hs => start_base e text hs a
  | Start (Some st) hs =>
      match phrase st with
      | None => a
      | Some p => match a_call (set_status st p) a with
                  | (Ok _, a') => start_base e text hs a'
                  | (Raise _, a') => a'
                  end
      end
  | Body [] more => body_finish e more a
  | Body body more =>
      match a_call (write e (Some body) (a_chunked a) (mkKw (headers_sent (a_rsp a)) size None)) a with
      | (Ok _, a') => body_finish e more a'
      | (Raise _, a') => a'
      end
  end.
(** asgi_server.py:174-266 *)
Definition asgi_sends (e : renv) (phrase : Z -> option bytes) (text : bytes) (size : Z) : list event -> aserver -> aserver :=
  fold_left (asgi_send e phrase text size).
