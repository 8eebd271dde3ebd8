(** Applications whose handlers and middlewares may fail: as M_Stack.v, but a middleware may raise an exception instead of returning, and the function of a route may raise one instead
    of returning, or before its first yield (tremolo/lib/http_protocol.py:204-265, 338-354, tremolo/http_server.py:59-89, 119-126, 168-181, 233-245, 262-339).

    The header calls made before the exception are those of [p_page], [p_before] and [p_after]. An exception after the first yield is left out here (M_Server.v has it: [Aborted]).
    The error handler (the one registered for status 500, or the page of M_Pages.v) leaves the response alone. *)
From Verif Require Import PyBytes PyInt PyExn PyRe M_Parser M_Framing M_Route M_Response M_Server M_Pages M_Site M_Stack.

(** [f_raises] says of a function, given what it sees, whether it raises, what, and what the error handler makes of it; [f_before] and [f_after] say so of the
    request and response middlewares, by their place in the lists. http_protocol.py:226-246 *)
Record faulty := mkFaulty {
  f_app : stack; f_raises : nat -> bytes -> bytes -> list (list bytes) -> bytes -> option (exc * edata);
  f_before : nat -> bytes -> bytes -> list (list bytes) -> option (exc * edata); f_after : nat -> bytes -> bytes -> list (list bytes) -> option (exc * edata) }.
(** http_server.py:63-73 *)
Definition mid_faulty (e : renv) (x : list hop * option bytes) (fault : option (exc * edata)) : func unit :=
  match fault with Some (y, _) => fun a s _ => (a, do_hops e (fst x) s, OExc y) | None => mid_func e x end.
(** http_server.py:171-174, 235-238, 268 *)
Definition placed {X} (l : list X) : list (nat * X) := combine (List.seq 0 (List.length l)) l.
(** What the request middlewares do, and whether they fail. http_server.py:268-275 *)
Definition befores (fa : faulty) (r : hreq) : list ((list hop * option bytes) * option (exc * edata)) :=
  let v := seen r (p_eyes (f_app fa)) in
  map (fun ig => (snd ig (rq_method r) (rq_url r) v, f_before fa (fst ig) (rq_method r) (rq_url r) v)) (placed (p_before (f_app fa))).
(** The response middlewares. http_server.py:171-181, 235-245 *)
Definition afters (fa : faulty) (r : hreq) : list (list hop * option (exc * edata)) :=
  let v := seen r (p_eyes (f_app fa)) in
  map (fun ig => (snd ig (rq_method r) (rq_url r) v, f_after fa (fst ig) (rq_method r) (rq_url r) v)) (placed (p_after (f_app fa))).
(** http_server.py:10-22, 268-275 *)
Definition server_faulty (e : renv) (fa : faulty) (r : hreq) : @server unit :=
  mkServer (map (fun y => (mid_faulty e (fst y) (snd y), [])) (befores fa r))
           (map (fun y => (mid_faulty e (fst y, None) (snd y), [])) (afters fa r))
           (VInt (p_rate (f_app fa))) (VInt (p_buf (f_app fa))).
(** The calls made before, the exception, and the page of it. http_server.py:285-320 *)
Definition fault_of (fa : faulty) (r : hreq) (body : bytes) : option (list hop * (exc * edata)) :=
  match fst (choose search (add_routes (p_regs (f_app fa))) (rq_url r)) with
  | Found f _ _ =>
      if (f =? index)%nat then None
      else let v := seen r (p_looks (f_app fa) f) in
           option_map (pair (fst (p_page (f_app fa) f (rq_method r) (rq_url r) v body))) (f_raises fa f (rq_method r) (rq_url r) v body)
  | Missing => None
  end.
(** http_server.py:119-126: both kinds of functions raise at the same place. *)
Definition fault_route (e : renv) (fa : faulty) (r : hreq) (body : bytes) : option (handler unit * opts) :=
  match fault_of fa r body with
  | Some (ops, (x, _)) => Some (Coro (fun a s _ => (a, do_hops e ops s, OExc x)), [])
  | None => app_route e (f_app fa) r body
  end.
(** The exception that is raised, and its page: that of the first request middleware that does not go on; of the handler; of the response middlewares, which run
    last one first. http_server.py:63-73, 171-181, 235-245, 268-275 *)
Definition the_fault (fa : faulty) (r : hreq) (body : bytes) : option (exc * edata) :=
  match List.find (fun y => match y with ((_, None), None) => false | _ => true end) (befores fa r) with
  | Some y => snd y
  | None =>
      match fault_of fa r body with
      | Some (_, xd) => Some xd
      | None => match List.find (fun y => match snd y with Some _ => true | None => false end) (rev (afters fa r)) with Some y => snd y | None => None end
      end
  end.
(** The response to a request. http_protocol.py:204-265, 338-354, http_server.py:262-339 *)
Definition fault_serve (date : bytes) (fa : faulty) (r : hreq) (body : bytes) : pout * rsp :=
  let ap := f_app fa in
  let e := mkEnv (beqb (rq_version r) (bs "1.1")) (rq_method r) date (p_name ap) in
  serve_request e (match the_fault fa r body with Some (_, d) => fun _ s => (d, s) | None => error_page end)
    (headers_received e (server_faulty e fa r) (app_errors ap r) (rq_is_valid r) (has_body r) (fault_route e fa r body))
    (mkW tt (new_rsp (rq_keepalive r)) [] []).
