(** The parts put together: what an application with routes answers to a request that _handle_request has framed
    (tremolo/lib/http_protocol.py:282-349, tremolo/http_server.py:262-345, tremolo/tremolo.py:36-60, tremolo/handlers.py).

    The handlers of the application are coroutine functions which read the body, look at some of the header fields, make calls of the header API
    (catching what these raise) and return bytes. No middlewares; debug is off. The event loop and the connection are in M_Conn.v. *)
From Verif Require Import PyBytes PyInt PyExn PyRe M_Parser M_Framing M_Route M_Response M_Server M_Pages.

(** A dict value as a list of bytes; no code. http_request.py:44, http_parser.py:140-150 *)
Definition strings (v : option hval) : list bytes :=
  match v with
  | Some (One (AB x)) => [x]
  | Some (Many l) => flat_map (fun a => match a with AB x => [x] | _ => [] end) l
  | _ => []
  end.
(** An application: the calls of add_route (path, number of the function; the number 0 is handlers.index), for each function the names of the
    header fields that it looks at and what it does, given the method, the URL, the values of these fields and the body; options rate and buffer_size,
    and the name of the server. tremolo.py:36-60, 192-217 *)
Record site := mkSite {
  t_regs : list (bytes * nat); t_looks : nat -> list bytes; t_page : nat -> bytes -> bytes -> list (list bytes) -> bytes -> list hop * bytes;
  t_rate : Z; t_buf : Z; t_name : bytes }.
(** http_server.py:119-126 *)
Definition coro (e : renv) (x : list hop * bytes) : handler unit := Coro (fun a s _ => (a, do_hops e (fst x) s, OData (snd x))).
(** A yield of an async generator function. handlers.py:18-31 *)
Definition yields (y : bytes) : func unit := fun a s _ => (a, s, OData y).
(** The arguments of the handler. http_server.py:262-339 *)
Definition page_for (si : site) (f : nat) (r : hreq) (body : bytes) : list hop * bytes :=
  t_page si f (rq_method r) (rq_url r) (map (fun n => strings (M_Parser.hget n (rq_headers r))) (t_looks si f)) body.
(** The handler of the route, with its options. http_server.py:285-320, tremolo.py:48-54, handlers.py:9-10 *)
Definition route_for (e : renv) (si : site) (r : hreq) (body : bytes) : option (handler unit * opts) :=
  match fst (choose search (add_routes (t_regs si)) (rq_url r)) with
  | Found f _ _ =>
      Some (if (f =? index)%nat then (coro e ([], bs "Service Unavailable"), [(bs "status", VStatus 503 (bs "Service Unavailable"))])
            else (coro e (page_for si f r body), []))
  | Missing => None
  end.
(** tremolo.py:40-47, handlers.py:13-31 *)
Definition errors_of (si : site) (r : hreq) : @errors unit :=
  mkErrors (Coro (fun a s _ => (a, s, OExc (XHttp 400 (message_of 400) default_ctype))), [])
           (Gen (map yields (page_404 (rq_path r) (t_name si))), [(bs "status", VStatus 404 (bs "Not Found")); (bs "stream", VBool false)]).
(** handlers.py:34-41, with str(exc) as the message (http_exceptions.py:10-14) *)
Definition error_page (x : exc) (s : rsp) : edata * rsp := (match x with XHttp _ m _ => EData m | _ => ENone end, s).
(** The response to a request; [body] is what the handler reads. http_protocol.py:338-354, http_server.py:262-339 *)
Definition serve (date : bytes) (si : site) (r : hreq) (body : bytes) : pout * rsp :=
  let e := mkEnv (beqb (rq_version r) (bs "1.1")) (rq_method r) date (t_name si) in
  serve_request e error_page
    (headers_received e (mkServer [] [] (VInt (t_rate si)) (VInt (t_buf si))) (errors_of si r) (rq_is_valid r) (has_body r) (route_for e si r body))
    (mkW tt (new_rsp (rq_keepalive r)) [] []).
