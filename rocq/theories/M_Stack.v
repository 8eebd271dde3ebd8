(** Applications with middlewares and streaming handlers: as M_Site.v, with
    - request middlewares, which look at header fields, make header calls, and go on or answer themselves,
    - response middlewares, which look at header fields and make header calls,
    - handlers that are coroutine functions or async generator functions
    (tremolo/lib/http_protocol.py:282-354, tremolo/http_server.py:59-345, tremolo/tremolo.py:36-60).

    An async generator function makes its header calls before the first yield. Middlewares have no options of their own and do not read the body. *)
From Verif Require Import PyBytes PyInt PyExn PyRe M_Parser M_Framing M_Route M_Response M_Server M_Pages M_Site.

(** What a handler returns, or yields; a generator that yields nothing is left out. http_server.py:119-126, 203-218 *)
Inductive content := Whole (data : bytes) | Parts (y0 : bytes) (ys : list bytes).
(** As [site]; [p_eyes] are the header fields the middlewares look at. A request middleware that returns [Some] data answers. tremolo.py:36-60, 62-140, 192-217 *)
Record stack := mkStack {
  p_regs : list (bytes * nat); p_looks : nat -> list bytes; p_page : nat -> bytes -> bytes -> list (list bytes) -> bytes -> list hop * content;
  p_eyes : list bytes; p_before : list (bytes -> bytes -> list (list bytes) -> list hop * option bytes); p_after : list (bytes -> bytes -> list (list bytes) -> list hop);
  p_rate : Z; p_buf : Z; p_name : bytes }.
(** http_server.py:63-73 *)
Definition mid_func (e : renv) (x : list hop * option bytes) : func unit :=
  fun a s _ => (a, do_hops e (fst x) s, match snd x with Some d => OData d | None => ONone end).
(** http_server.py:119-126 *)
Definition page_func (e : renv) (x : list hop * content) : handler unit :=
  match snd x with
  | Whole d => Coro (fun a s _ => (a, do_hops e (fst x) s, OData d))
  | Parts y0 ys => Gen ((fun a s _ => (a, do_hops e (fst x) s, OData y0)) :: map yields ys)
  end.
(** The values of some header fields. http_request.py:44, http_parser.py:140-150 *)
Definition seen (r : hreq) (ns : list bytes) : list (list bytes) := map (fun n => strings (M_Parser.hget n (rq_headers r))) ns.
(** http_server.py:10-22, 268-275 *)
Definition server_of (e : renv) (ap : stack) (r : hreq) : @server unit :=
  mkServer (map (fun g => (mid_func e (g (rq_method r) (rq_url r) (seen r (p_eyes ap))), [])) (p_before ap))
           (map (fun g => (mid_func e (g (rq_method r) (rq_url r) (seen r (p_eyes ap)), None), [])) (p_after ap))
           (VInt (p_rate ap)) (VInt (p_buf ap)).
(** The handler of the route, with its options. http_server.py:285-320, tremolo.py:48-54, handlers.py:9-10 *)
Definition app_route (e : renv) (ap : stack) (r : hreq) (body : bytes) : option (handler unit * opts) :=
  match fst (choose search (add_routes (p_regs ap)) (rq_url r)) with
  | Found f _ _ =>
      Some (if (f =? index)%nat then (page_func e ([], Whole (bs "Service Unavailable")), [(bs "status", VStatus 503 (bs "Service Unavailable"))])
            else (page_func e (p_page ap f (rq_method r) (rq_url r) (seen r (p_looks ap f)) body), []))
  | Missing => None
  end.
(** tremolo.py:40-47, handlers.py:13-31 *)
Definition app_errors (ap : stack) (r : hreq) : @errors unit :=
  mkErrors (Coro (fun a s _ => (a, s, OExc (XHttp 400 (message_of 400) default_ctype))), [])
           (Gen (map yields (page_404 (rq_path r) (p_name ap))), [(bs "status", VStatus 404 (bs "Not Found")); (bs "stream", VBool false)]).
(** The response to a request; [body] is what the handler reads. http_protocol.py:338-354, http_server.py:262-339 *)
Definition app_serve (date : bytes) (ap : stack) (r : hreq) (body : bytes) : pout * rsp :=
  let e := mkEnv (beqb (rq_version r) (bs "1.1")) (rq_method r) date (p_name ap) in
  serve_request e error_page
    (headers_received e (server_of e ap r) (app_errors ap r) (rq_is_valid r) (has_body r) (app_route e ap r body))
    (mkW tt (new_rsp (rq_keepalive r)) [] []).
