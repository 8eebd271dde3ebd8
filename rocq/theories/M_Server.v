(** Model of HTTPServer: middlewares, handlers and error responses (tremolo/http_server.py:59-345,
    tremolo/lib/http_protocol.py:204-265, 343-354).

    Middlewares and handlers are arbitrary functions of the response (headers, what was queued, and so on), of
    context.options and of everything else they can reach ([A]), which change these and return a
    value or raise. What they return is bytes here: str and tuples are encoded first
    (81-87, 220-226), which is not modelled. An async generator is the list of its steps, each of them yielding
    bytes or raising; infinite ones, and yields of other objects than bytes, are left out. Exceptions that leave a
    method of HTTPResponse are the [exn] of PyExn.v. Connect middlewares (263-264) are left out. *)
From Verif Require Import PyBytes PyInt PyExn M_Response M_Sse M_WebSocket.

(** ** Exceptions *)
(** HTTPException(code, message, content_type), TimeoutError, WebSocketServerClosed(code),
    other WebSocketExceptions, and any other exception. *)
(** http_exceptions.py, http_protocol.py:216-231 *)
Inductive exc := XHttp (code : Z) (message ctype : bytes) | XTimeout | XWsServer (code : Z) | XWsOther | XOther.
(** http_exceptions.py:20 *)
Definition default_ctype : bytes := bs "text/html; charset=utf-8".
(** The message of the exceptions that tremolo raises itself (http_exceptions.py:17-98). *)
Definition message_of (code : Z) : bytes :=
  if (code =? 400)%Z then bs "Bad Request" else if (code =? 408)%Z then bs "Request Timeout" else
  if (code =? 413)%Z then bs "Payload Too Large" else if (code =? 416)%Z then bs "Range Not Satisfiable" else
  if (code =? 417)%Z then bs "Expectation Failed" else bs "Internal Server Error".
(** http_exceptions.py:45-98 *)
Definition of_exn (x : exn) : exc :=
  match x with
  | HTTPExc c => XHttp c (message_of c) default_ctype
  | TimeoutError => XTimeout
  | WSServerClosed c => XWsServer c
  | WSClientClosed _ => XWsOther
  | _ => XOther
  end.

(** ** Options: dicts with str keys *)
(** http_server.py:75-79, 99-114 *)
Inductive oval := VStatus (code : Z) (message : bytes) | VText (b : bytes) | VBool (b : bool) | VInt (n : Z) | VObj.
(** http_server.py:61, 117, 266 *)
Definition opts := list (bytes * oval).
(** {**a, **b}. Only lookups matter: the first pair with a key counts here. *)
(** http_server.py:177, 241, 271, 281, 306, 331, 338 *)
Definition merge (a b : opts) : opts := b ++ a.
(** http_server.py:75-79, 110-114 *)
Definition oget (k : string) (o : opts) : option oval := dget beqb (bs k) o.
(** http_server.py:139, 192 *)
Definition truthy (v : oval) : bool :=
  match v with VText [] => false | VBool b => b | VInt n => negb (n =? 0)%Z | _ => true end.
(** options[k] = options.get(k, v) *)
(** http_server.py:99-101 *)
Definition set_default (k : string) (v : oval) (o : opts) : opts := o ++ [(bs k, v)].

Section Server.
Context {A : Type}.

(** What a middleware or a handler returned. *)
(** http_server.py:63-73, 119-135 *)
Inductive outcome := ONone | OData (d : bytes) | OOther | OExc (x : exc).
(** http_server.py:171-181, 235-245, 268-275, 119 *)
Inductive who := ReqMid (i : nat) | Handler | RespMid (i : nat).
(** [w_log] is for the theorems: the calls made, each with the options it was made with, and what came out. *)
(** http_server.py:61-65, 117-120 *)
Record event := Called { ev_who : who; ev_opts : opts; ev_out : outcome }.
(** http_protocol.py:38-52, contexts.py *)
Record world := mkW { w_app : A; w_rsp : rsp; w_ctx : opts; w_log : list event }.
(** http_server.py:63, 119 *)
Definition func := A -> rsp -> opts -> A * rsp * outcome.
(** A handler: a coroutine function or an async generator function. *)
(** http_server.py:119-126 *)
Inductive handler := Coro (f : func) | Gen (steps : list func).

(** What runs of http_server.py:59-345, and its exception. *)
Definition act (X : Type) := world -> world * (X + exc).
(** return; http_server.py:59-345 *)
Definition ret {X} (x : X) : act X := fun w => (w, inl x).
(** raise; http_server.py:59-345 *)
Definition throw {X} (x : exc) : act X := fun w => (w, inr x).
(** One statement after another; http_server.py:59-345 *)
Definition andthen {X Y} (m : act X) (k : X -> act Y) : act Y :=
  fun w => match m w with (w', inl x) => k x w' | (w', inr x) => (w', inr x) end.
(** A call of a method of the response. *)
(** self.response.f(...); http_server.py:60-260 *)
Definition rsp_do {X} (m : call X) : act X :=
  fun w => let '(r, s) := m (w_rsp w) in
           (mkW (w_app w) s (w_ctx w) (w_log w), match r with Ok x => inl x | Raise x => inr (of_exn x) end).
(** self.context.options.update(options) *)
(** http_server.py:61, 117 *)
Definition ctx_update (o : opts) : act unit := fun w => (mkW (w_app w) (w_rsp w) (merge (w_ctx w) o) (w_log w), inl tt).
(** http_server.py:63, 119-126 *)
Definition run_func (f : func) : act outcome :=
  fun w => let '(a, s, r) := f (w_app w) (w_rsp w) (w_ctx w) in (mkW a s (w_ctx w) (w_log w), inl r).
(** No code: for the theorems; the calls of http_server.py:63, 119. *)
Definition note (n : who) (o : opts) (r : outcome) : act unit :=
  fun w => (mkW (w_app w) (w_rsp w) (w_ctx w) (w_log w ++ [Called n o r]), inl tt).
End Server.
Notation "'act!' x '<-' m 'in' k" := (andthen m (fun x => k)) (at level 200, x pattern, m at level 100, k at level 200).
Arguments world : clear implicits.
Arguments func : clear implicits.
Arguments handler : clear implicits.
Arguments act : clear implicits.

Section Server2.
Context {A : Type}.
(** 75-79, 110-114: set_status( *options['status']), set_content_type(options['content_type']) *)
Definition apply_options (o : opts) : act A unit :=
  act! _ <- match oget "status" o with
            | Some (VStatus c m) => rsp_do (set_status c m)
            | Some _ => throw XOther
            | None => ret tt
            end in
  match oget "content_type" o with
  | Some (VText t) => rsp_do (set_content_type t)
  | Some _ => throw XOther
  | None => ret tt
  end.

(** _handle_middleware, 59-89. The result is the dict of options, or None (for any other object). *)
Definition handle_middleware (e : renv) (n : who) (f : func A) (o : opts) : act A (option opts) :=
  act! _ <- rsp_do (set_base_header e) in
  act! _ <- ctx_update o in
  act! r <- run_func f in
  act! _ <- note n o r in
  match r with
  | ONone => ret (Some o)
  | OOther => ret None
  | OExc x => throw x
  | OData d =>
      act! _ <- apply_options o in
      act! _ <- rsp_do (end_ e d true None) in
      ret None
  end.
(** 268-275, 173-181, 237-245: the middlewares in turn, beginning with the options [o]. *)
Fixpoint middlewares (e : renv) (l : list (who * (func A * opts))) (o : opts) : act A (option opts) :=
  match l with
  | [] => ret (Some o)
  | (n, (f, mo)) :: l' =>
      act! r <- handle_middleware e n f (merge mo o) in
      match r with
      | Some o' => middlewares e l' o'
      | None => ret None
      end
  end.
(** http_server.py:171-174, 235-238, 268 *)
Definition numbered (w : nat -> who) (l : list (func A * opts)) : list (who * (func A * opts)) := combine (map w (List.seq 0 (List.length l))) l.

(** The server: middlewares, and self.options. *)
(** http_server.py:10-22 *)
Record server := mkServer { s_req : list (func A * opts); s_resp : list (func A * opts); s_rate : oval; s_bufsize : oval }.
(** The rest of an async generator, 201-218: the loop and its end. *)
Fixpoint gen_loop (e : renv) (k : kw) (steps : list (func A)) : act A unit :=
  match steps with
  | [] => rsp_do (write e (Some []) None (mkKw false 16384 (k_min k)))
  | f :: steps' =>
      act! r <- run_func f in
      match r with
      | OData [] => gen_loop e k steps'
      | OData d => act! _ <- rsp_do (write e (Some d) None k) in gen_loop e k steps'
      | OExc x => throw x
      | _ => throw XOther
      end
  end.
(** http_server.py:187, 252 *)
Definition size_of (o : opts) : act A Z := match oget "buffer_size" o with Some (VInt n) => ret n | _ => throw XOther end.
(** 154-218 for a generator that has yielded [data] first; [st] is (status, no_content). *)
Definition send_stream (e : renv) (sv : server) (o : opts) (st : Z * bool) (data : bytes) (steps : list (func A)) : act A unit :=
  act! _ <- rsp_do (fun s =>
     (if r_keep s then
        run d <- get_headers in
        update (fun s' => if (fst st =? 101)%Z then with_up s' true
                          else if r_chunked s || hmem (bs "content-length") d then s'
                          else with_keep s' false) ;;
        set_header (bs "Connection") (if ((fst st =? 101) || (fst st =? 426))%Z then bs "upgrade" else bs "keep-alive")
      else set_header (bs "Connection") (bs "close")) s) in
  act! r <- middlewares e (rev (numbered RespMid (s_resp sv))) o in
  match r with
  | None => ret tt
  | Some o' =>
      if is_head e || snd st then rsp_do (write e None None (mkKw true 16384 None))
      else
        act! n <- size_of o' in
        let k := mkKw true n (if match oget "stream" o' with Some v => truthy v | None => true end then None else Some (n / 2)%Z) in
        act! _ <- match data with [] => ret tt | _ => rsp_do (write e (Some data) None k) end in
        act! _ <- gen_loop e k steps in
        rsp_do (close true)
  end.
(** 219-258 for a coroutine that has returned [data]. *)
Definition send_value (e : renv) (sv : server) (o : opts) (st : Z * bool) (data : bytes) : act A unit :=
  act! _ <- rsp_do (fun s =>
     ((if snd st || r_chunked s then done tt else set_header (bs "Content-Length") (fmt_d (blen data))) ;;
      set_header (bs "Connection") (if r_keep s then bs "keep-alive" else bs "close")) s) in
  act! r <- middlewares e (rev (numbered RespMid (s_resp sv))) o in
  match r with
  | None => ret tt
  | Some o' =>
      if is_head e || snd st then rsp_do (write e None None (mkKw true 16384 None))
      else
        act! _ <- match data with
                  | [] => ret tt
                  | _ => act! n <- size_of o' in rsp_do (write e (Some data) None (mkKw true n None))
                  end in
        act! _ <- rsp_do (write e (Some []) None kw_now) in
        rsp_do (close true)
  end.
(** _handle_response, 98-260. Creating the WebSocket object (104-105) has no effect on the response. *)
Definition handle_response (e : renv) (sv : server) (has_body : bool) (h : handler A) (options : opts) : act A unit :=
  let o := set_default "buffer_size" (s_bufsize sv) (set_default "rate" (s_rate sv) options) in
  act! _ <- match oget "sse" o with
            | Some _ => if has_body then ret tt else rsp_do (do_mid e sse_hops)
            | None => ret tt
            end in
  act! _ <- apply_options o in
  act! _ <- rsp_do (set_base_header e) in
  act! _ <- ctx_update o in
  act! r <- match h with
            | Coro f => run_func f
            | Gen (f :: _) => run_func f
            | Gen [] => ret (OExc XOther)                                   (* StopAsyncIteration *)
            end in
  act! _ <- note Handler o r in
  let start := rsp_do (start_response e (mkHOpts (option_map truthy (oget "chunked" o)) true 1)) in
  match h, r with
  | _, OExc x => throw x
  | Coro _, ONone => rsp_do (close false)                                  (* 128-130 *)
  | Coro _, OOther => ret tt                                               (* 132-135 *)
  | Coro _, OData d => act! st <- start in send_value e sv o st d
  | Gen steps, OData d => act! st <- start in send_stream e sv o st d (tl steps)
  | Gen _, _ => throw XOther
  end.

(** headers_received, 262-339, with the handler that M_Route.choose found, and its options. [None]: no route. The error
    handlers for 400 and 404 are given as handlers too. *)
Record errors := mkErrors { on_400 : handler A * opts; on_404 : handler A * opts }.
(** http_server.py:262-339 *)
Definition headers_received (e : renv) (sv : server) (er : errors) (valid has_body : bool) (route : option (handler A * opts)) : act A unit :=
  act! r <- middlewares e (numbered ReqMid (s_req sv)) [] in
  match r with
  | None => ret tt
  | Some options =>
      let '(h, kwargs) := if valid then match route with Some x => x | None => on_404 er end else on_400 er in
      handle_response e sv has_body h (merge kwargs options)
  end.

End Server2.

(** ** handle_exception, http_protocol.py:204-265, for a connection whose request and response are there
    (otherwise, 205, it is aborted). The log line (212-214), which evaluates str(exc), is in M_Pages.v. [on_500] is handle_error_500: an arbitrary function, given the exception, whose result is
    encoded (249-263); [EUnencodable] is when that fails. *)
Inductive pout := Aborted | Finished | Escaped (x : exc).
(** http_protocol.py:241-263 *)
Inductive edata := EData (d : bytes) | ENone | ERaised (x : exc) | EUnencodable.
(** 216-226: what is sent to the other side of a WebSocket. *)
Definition close_frame (code : Z) : res bytes :=
  if (code <? 0)%Z then Raise OverflowError
  else let! b := to_big 2 (Z.to_N code) in create_frame (M_WebSocket.VBytes b) 1 (Some 8%N) false [].
(** http_protocol.py:218-236 *)
Definition finish_call {X} (r : res X * rsp) : pout * rsp := (match fst r with Ok _ => Finished | Raise x => Escaped (of_exn x) end, snd r).
(** 228-231 *)
Definition http_of (x : exc) : exc :=
  match x with
  | XHttp c m t => XHttp c m t
  | XTimeout => XHttp 408 (bs "Request Timeout") default_ctype
  | _ => XHttp 500 (bs "Internal Server Error") default_ctype
  end.
(** http_protocol.py:204-265 *)
Definition handle_exception (e : renv) (on_500 : exc -> rsp -> edata * rsp) (x : exc) (s : rsp) : pout * rsp :=
  if headers_sent s && negb (r_up s) then (Aborted, s)
  else
    match x with
    | XWsServer c => finish_call (match close_frame c with
                                  | Ok f => (send (Some f) (mkKw true 16384 None) ;; close true) s
                                  | Raise x => (Raise x, s)
                                  end)
    | XWsOther => finish_call (close true s)
    | _ =>
        if headers_sent s then finish_call (close false s)
        else
          match http_of x with
          | XHttp code message ctype as x' =>
              match (put_headers [] ;; set_status code message ;; set_content_type ctype) s with
              | (Raise y, s1) => (Escaped (of_exn y), s1)
              | (Ok _, s1) =>
                  match on_500 x' s1 with
                  | (EUnencodable, s2) => (Escaped XOther, s2)
                  | (d, s2) =>
                      let '(r, s3) := end_ e (match d with EData b => b | _ => [] end) false None s2 in
                      (match r, d with
                       | Raise y, _ => Escaped (of_exn y)
                       | Ok _, ERaised y => Escaped y
                       | Ok _, _ => Finished
                       end, s3)
                  end
              end
          | _ => (Finished, s)
          end
    end.
(** _handle_request, http_protocol.py:343-354: the handler's task, and what becomes of its exception. *)
Definition serve_request {A} (e : renv) (on_500 : exc -> rsp -> edata * rsp) (m : act A unit) (w : world A) : pout * rsp :=
  match m w with
  | (w', inl _) => (Finished, w_rsp w')
  | (w', inr x) => handle_exception e on_500 x (w_rsp w')
  end.
