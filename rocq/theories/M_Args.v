(** Model of what handlers and middlewares of a connection are called with (tremolo/http_server.py:12-23, 25-28, 37, 59-65, 91-120, 171-181, 262-339): the dict
    self._server, which lives as long as the connection, the request and the response, and context.options.

    A WebSocket, an SSE, a request or a response is the number of the request that it was made for. What a function does is how it ends. What happens to the response
    is in M_Server.v; the options status and content_type are taken to be good ones (http_server.py:110-114). *)
From Verif Require Import PyBytes PyExn M_Server.

(** How a function ends: a middleware with None, a handler with data (then the response middlewares are called); otherwise; with an exception.
    http_server.py:67-73, 122-135 *)
Inductive ending := Passes | Stops | Raises.
(** http_server.py:27, 37, 63, 119, 237-241, 268-272 *)
Inductive role := ConnectMid | RequestMid (i : nat) | TheHandler | ResponseMid (i : nat) | CloseMid.
(** A call: who is called, and its arguments request (response is of the same), websocket, sse and context.options. http_server.py:27, 37, 63-65, 119-120 *)
Record called := mkCalled { c_role : role; c_request : option nat; c_websocket : option nat; c_sse : option nat; c_options : opts }.
(** self._server as far as it changes, and self.context.options. http_server.py:17-23, 61, 96, 108, 117 *)
Record held := mkHeld { x_websocket : option nat; x_sse : option nat; x_options : opts }.
(** A new connection. http_server.py:17-23, contexts.py:38-43 *)
Definition held0 : held := mkHeld None None [].
(** A request: whether it has a body; what _handle_websocket finds (M_Handshake.ws_offered); the request middlewares, the handler found and the response
    middlewares with their options and how they end. http_server.py:91-95, 268-272, 281-339 *)
Record areq := mkAreq { a_body : bool; a_offer : res bool; a_before : list (opts * ending); a_handler : opts * ending; a_after : list (opts * ending) }.
(** The server's own options. http_server.py:99-101 *)
Record defaults := mkDefaults { d_rate : oval; d_bufsize : oval }.

(** A call with what is held now. http_server.py:63-65, 119-120 *)
Definition call_now (s : held) (r : role) (k : option nat) : called := mkCalled r k (x_websocket s) (x_sse s) (x_options s).
(** self.context.options.update(options), http_server.py:61, 117 *)
Definition ctx_add (o : opts) (s : held) : held := mkHeld (x_websocket s) (x_sse s) (merge (x_options s) o).
(** Middlewares in turn: 268-275, and 171-181, 235-245, which go through the list from its end. [f]: which middleware has this place. *)
Fixpoint run_mids (f : nat -> role) (i : nat) (k : nat) (l : list (opts * ending)) (o : opts) (s : held) : held * list called * option opts :=
  match l with
  | [] => (s, [], Some o)
  | (mo, e) :: l' =>
      let o' := merge mo o in
      let s1 := ctx_add o' s in
      let c := call_now s1 (f i) (Some k) in
      match e with
      | Passes => let '(s2, cs, r) := run_mids f (S i) k l' o' s1 in (s2, c :: cs, r)
      | _ => (s1, [c], None)
      end
  end.
(** _handle_response, 98-120, and the response middlewares. *)
Definition run_handler (d : defaults) (k : nat) (r : areq) (options : opts) (s : held) : held * list called :=
  let o := set_default "buffer_size" (d_bufsize d) (set_default "rate" (d_rate d) options) in
  let made :=
    if a_body r then Some s
    else match oget "websocket" o, a_offer r with
         | Some _, Raise _ => None                                             (* 95: AttributeError *)
         | w, offer =>
             let ws := match w, offer with Some _, Ok true => Some k | _, _ => x_websocket s end in
             let sse := match oget "sse" o with Some _ => Some k | None => x_sse s end in
             Some (mkHeld ws sse (x_options s))
         end in
  match made with
  | None => (s, [])
  | Some s1 =>
      let s2 := ctx_add o s1 in
      let c := call_now s2 TheHandler (Some k) in
      match snd (a_handler r) with
      | Passes => let '(s3, cs, _) := run_mids (fun i => ResponseMid (List.length (a_after r) - 1 - i)) 0 k (rev (a_after r)) o s2 in (s3, c :: cs)
      | _ => (s2, [c])
      end
  end.
(** headers_received, 262-339, of request number [k]. *)
Definition run_request (d : defaults) (k : nat) (r : areq) (s : held) : held * list called :=
  let '(s1, cs, o) := run_mids RequestMid 0 k (a_before r) [] s in
  match o with
  | None => (s1, cs)
  | Some o => let '(s2, cs2) := run_handler d k r (merge (fst (a_handler r)) o) s1 in (s2, cs ++ cs2)
  end.
(** The requests of a connection one after the other; [k] is the number of the first. http_server.py:262-339 *)
Fixpoint run_requests (d : defaults) (k : nat) (rs : list areq) (s : held) : held * list (list called) :=
  match rs with
  | [] => (s, [])
  | r :: rs' => let '(s1, cs) := run_request d k r s in let '(s2, css) := run_requests d (S k) rs' s1 in (s2, cs :: css)
  end.
