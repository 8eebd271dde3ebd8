(** Model of the time limits of a handler: app_handler_timeout and what a wait for the body raises
    (tremolo/lib/http_protocol.py:188-263, 337-354, tremolo/lib/request.py:29-51).
    Times are integers, in any unit. Left out: WebSocketException, error handlers that write or upgrade, ASGI applications (C68), a connection that is lost meanwhile (C57), what is in the responses (C84). *)
From Verif Require Import PyBytes.
Local Open Scope Z_scope.

(** What a handler can raise, or see raised: asyncio.CancelledError, TimeoutError, an HTTPException with its code, any other. http_protocol.py:239-242 *)
Inductive hexn := XCancelled | XTimeout | XHttp (code : Z) | XOther.
(** How a wait ends that is not for the body: with its result, or by an exception. http_protocol.py:193 *)
Inductive woken := Woken | Stopped (x : hexn).
(** What recv() gives: data, its end, or an exception. request.py:40-51 *)
Inductive taken := Got (d : bytes) | Over | Broken (x : hexn).
(** A handler (with the middlewares around it), as it acts: it returns, raises, waits for something of its own, waits for the next part of the body, writes a part of its response, or upgrades the connection.
    What it does next depends on what it saw; it may catch anything. http_server.py:262-338 *)
Inductive prog :=
| Return (d : bytes)
| Throw (x : hexn)
| Await (k : woken -> prog)
| Recv (k : taken -> prog)
| Write (d : bytes) (k : prog)
| Upgrade (k : prog).

(** app_handler_timeout, keepalive_timeout, and the error handler of the application (handle_error_500, http_server.py:341-345). *)
Record lopts := mkL { l_limit : Z; l_keep : Z; l_error : hexn -> prog }.
(** The time; when the timer of http_protocol.py:344-346 fires, if it can; request.upgraded; what was written, the head with the first part of it; the parts of the body that were not taken, and when they are in the queue
    (None: its end); the code of the error response that is made (256-280). http_protocol.py:188-196, 344-354 *)
Record lst := mkS { s_now : Z; s_timer : option Z; s_up : bool; s_out : list bytes; s_feed : list (Z * option bytes); s_code : option Z }.
(** What becomes of a request: a response of the handler; an error response; a connection that is closed without a whole response; none of it, ever. http_protocol.py:204-280, http_server.py:255-260 *)
Inductive fate := Answered (t : Z) (out : list bytes) | Refused (t : Z) (code : Z) (page : bytes) | Cut (t : Z) | Endless.

(** [s] at another time. http_protocol.py:344 *)
Definition at_time (t : Z) (s : lst) : lst := mkS t (s_timer s) (s_up s) (s_out s) (s_feed s) (s_code s).
(** The timer has fired, or was cancelled. http_protocol.py:344-354 *)
Definition disarm (s : lst) : lst := mkS (s_now s) None (s_up s) (s_out s) (s_feed s) (s_code s).
(** One part of the body was taken. request.py:41 *)
Definition take (s : lst) : lst := mkS (s_now s) (s_timer s) (s_up s) (s_out s) (tl (s_feed s)) (s_code s).
(** response.write. http_response.py:224-290 *)
Definition put (d : bytes) (s : lst) : lst := mkS (s_now s) (s_timer s) (s_up s) (s_out s ++ [d]) (s_feed s) (s_code s).
(** request.upgraded = True, after a response (http_server.py:146-160, http_response.py:251-258). *)
Definition upgrade (s : lst) : lst := mkS (s_now s) (s_timer s) true (s_out s) (s_feed s) (s_code s).
(** The error handler runs; no timer is for it. http_protocol.py:350-354, 256-263 *)
Definition failing (code : Z) (s : lst) : lst := mkS (s_now s) None (s_up s) (s_out s) (s_feed s) (Some code).
(** http_protocol.py:239-242, 251 *)
Definition code_of (x : hexn) : Z := match x with XTimeout => 408 | XHttp c => c | XCancelled | XOther => 500 end.
(** When handler_timeout cancels the handler: not if the request is upgraded. http_protocol.py:188-193 *)
Definition deadline (s : lst) : option Z := if s_up s then None else s_timer s.
(** [t] is not after the time at which the handler is cancelled. If they are equal, either can come first. http_protocol.py:193 *)
Definition in_time (t : Z) (s : lst) : Prop := match deadline s with Some z => t <= z | None => True end.
(** The next part of the body is not in the queue before t. request.py:31-33 *)
Definition nothing_before (t : Z) (s : lst) : Prop := match s_feed s with [] => True | (a, _) :: _ => t <= a end.

(** [handles o s p f]: the handler that has come to [p] in state [s] can have the fate [f]. *)
(** http_protocol.py:188-263, 344-354, request.py:29-51 *)
Inductive handles (o : lopts) : lst -> prog -> fate -> Prop :=
(** http_server.py:255-260: the response is ended *)
| h_return s d : s_code s = None -> handles o s (Return d) (Answered (s_now s) (s_out s ++ [d]))
(** http_protocol.py:262-280: the page of the error handler *)
| h_page s d code : s_code s = Some code -> handles o s (Return d) (Refused (s_now s) code d)
(** http_protocol.py:262-263, 280: the error handler fails *)
| h_nopage s x code : s_code s = Some code -> handles o s (Throw x) (Refused (s_now s) code [])
(** http_protocol.py:205-210, 245-247: the head was sent *)
| h_cut s x : s_code s = None -> (s_out s <> [] \/ s_up s = true) -> handles o s (Throw x) (Cut (s_now s))
(** http_protocol.py:239-263: the error handler is called *)
| h_fail s x f : s_code s = None -> s_out s = [] -> s_up s = false -> handles o (failing (code_of x) s) (l_error o x) f -> handles o s (Throw x) f
(** A wait ends, at any time. http_protocol.py:349 *)
| h_woken s k t f : s_now s <= t -> in_time t s -> handles o (at_time t s) (k Woken) f -> handles o s (Await k) f
(** It is cancelled. http_protocol.py:188-193 *)
| h_stopped s k z f : deadline s = Some z -> s_now s <= z -> handles o (disarm (at_time z s)) (k (Stopped XCancelled)) f -> handles o s (Await k) f
(** It does not end. http_protocol.py:349 *)
| h_ever s k : deadline s = None -> handles o s (Await k) Endless
(** recv gets the next part. request.py:30-33, 40-51 *)
| h_recv s k a d rest t f : s_feed s = (a, d) :: rest -> t = Z.max (s_now s) a -> t <= s_now s + l_keep o -> in_time t s ->
    handles o (take (at_time t s)) (k (match d with Some x => Got x | None => Over end)) f -> handles o s (Recv k) f
(** Its own timer cancels the task that waits for the queue. request.py:34-38, 43-44 *)
| h_silence s k f : nothing_before (s_now s + l_keep o) s -> in_time (s_now s + l_keep o) s -> handles o (at_time (s_now s + l_keep o) s) (k (Broken XTimeout)) f -> handles o s (Recv k) f
(** The handler is cancelled, and with it the task that it waits for: this is not told apart. request.py:43-44, http_protocol.py:188-193 *)
| h_recv_stopped s k z f : deadline s = Some z -> s_now s <= z <= s_now s + l_keep o -> nothing_before z s -> handles o (disarm (at_time z s)) (k (Broken XTimeout)) f -> handles o s (Recv k) f
(** http_response.py:224-290 *)
| h_write s d k f : handles o (put d s) k f -> handles o s (Write d k) f
(** http_server.py:146-160, http_response.py:251-258 *)
| h_upgrade s k f : handles o (upgrade s) k f -> handles o s (Upgrade k) f.

(** A handler is started at [t]; [feed] is when the parts of the body of its request are in the queue. http_protocol.py:343-346 *)
Definition start_at (o : lopts) (t : Z) (feed : list (Z * option bytes)) : lst := mkS t (Some (t + l_limit o)) false [] feed None.
