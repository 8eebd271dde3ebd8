(** Middlewares, handlers and error responses: C51, C52.

    Middlewares and handlers are arbitrary functions on the response, on context.options and on whatever
    else they can reach ([A]). [w_log] lists the calls made: who was called, with which options, and what came out.
    [ReqMid i] and [RespMid i] are the i-th ones in the order they are kept in (that of registration within a priority). *)
From Verif Require Import PyBytes PyBytesFacts PyInt PyExn M_Response M_Server S_Response S_Server P_Response2 P_Response6 P_Server P_Server2.

Definition call_of (ev : event) : who * outcome := (ev_who ev, ev_out ev).
Definition passes (r : outcome) : Prop := r = ONone.

(** C51. Request middlewares are called in order and no further than the first that does not return None; nothing else is
    called then. Otherwise the handler is called, unless an exception came before; the response middlewares are called after a handler that
    returned data, in reverse order, no further than the first that does not return None (or not at all, if there was an exception). *)
Theorem c51_order : forall (A : Type) e (sv : @server A) er (valid has_body : bool) (route : option (handler A * opts)) (w : world A),
  one_line (e_date e) -> one_line (e_server e) -> w_log w = [] ->
  let '(w', result) := headers_received e sv er valid has_body route w in
  exists first rest all_passed, w_log w' = first ++ rest /\
    stops_at_first passes (map ReqMid (List.seq 0 (List.length (s_req sv)))) (map call_of first) all_passed /\
    (all_passed = false -> rest = []) /\
    (all_passed = true ->
       rest = [] /\ (exists x, result = inr x) \/
       exists h last, rest = h :: last /\ ev_who h = Handler /\
         match ev_out h with
         | OData _ => (exists b, stops_at_first passes (rev (map RespMid (List.seq 0 (List.length (s_resp sv))))) (map call_of last) b) \/
                      last = [] /\ exists x, result = inr x
         | _ => last = []
         end).
Proof.
  intros A e sv er valid hb route w D Sv L. pose proof (received e D Sv sv er valid hb route w) as R. destruct (headers_received e sv er valid hb route w) as [w' res].
  destruct R as (trq & rest & b & L' & St & F & T & _). exists trq, rest, b. rewrite L in L'. split; [exact L'|]. split; [exact St|]. split; [exact F|exact T].
Qed.
Print Assumptions c51_order.

(** The handler runs if and only if every request middleware returned None, where middlewares leave the response unstarted (its headers are there and
    no status line was made) and the options status and content_type, where given, are well-formed. *)
Definition unstarted (s : rsp) : Prop := exists d, r_headers s = Some d /\ hget k_line d = None.
Definition leaves_unstarted {A} (f : func A) : Prop := forall a s c, unstarted s -> unstarted (snd (fst (f a s c))).
Definition good_options (o : opts) : Prop :=
  (forall v, dget beqb (bs "status") o = Some v -> exists c m, v = VStatus c m /\ one_line m) /\
  (forall v, dget beqb (bs "content_type") o = Some v -> exists t, v = VText t /\ one_line t).
Theorem c51_reached : forall (A : Type) e (sv : @server A) er (valid has_body : bool) (route : option (handler A * opts)) (w : world A),
  one_line (e_date e) -> one_line (e_server e) -> w_log w = [] -> unstarted (w_rsp w) ->
  Forall (fun m => leaves_unstarted (fst m) /\ good_options (snd m)) (s_req sv) ->
  good_options (snd (if valid then match route with Some x => x | None => on_404 er end else on_400 er)) ->
  let log := w_log (fst (headers_received e sv er valid has_body route w)) in
  (exists ev, In ev log /\ ev_who ev = Handler) <->
  (forall i, i < List.length (s_req sv) -> exists o, In (Called (ReqMid i) o ONone) log).
Proof. intros A e sv er valid hb route w D Sv L U P C. exact (reached e D Sv sv er valid hb route w U P C L). Qed.
Print Assumptions c51_reached.

(** The options that each of them sees: those of the first in the order request middlewares, route, defaults, response middlewares that has the
    key. So no middleware overrides an earlier one, and no response middleware overrides the route. *)
Theorem c51_options_partial : forall (A : Type) e (sv : @server A) er (valid has_body : bool) (route : option (handler A * opts)) (w : world A) ev key,
  one_line (e_date e) -> one_line (e_server e) -> w_log w = [] ->
  In ev (w_log (fst (headers_received e sv er valid has_body route w))) ->
  let earlier := map snd (s_req sv) in
  let of_route := snd (if valid then match route with Some x => x | None => on_404 er end else on_400 er) in
  let server_wide := [(bs "rate", s_rate sv); (bs "buffer_size", s_bufsize sv)] in
  dget beqb key (ev_opts ev) =
  match ev_who ev with
  | ReqMid i => first_of key (firstn (S i) earlier)
  | Handler => first_of key (earlier ++ [of_route; server_wide])
  | RespMid i => first_of key (earlier ++ [of_route; server_wide] ++ rev (skipn i (map snd (s_resp sv))))
  end.
Proof.
  intros A e sv er valid hb route w ev key D Sv L I. pose proof (received e D Sv sv er valid hb route w) as R. destruct (headers_received e sv er valid hb route w) as [w' res].
  destruct R as (trq & rest & b & L' & _ & _ & _ & O). cbn [fst] in I. rewrite L', L in I. apply O, I.
Qed.
Print Assumptions c51_options_partial.

(** The rest of that claim is false: the options of a request middleware override those of the route. Here the middleware
    returns None, and was added with status=(503, ...); the handler, added with status=(201, ...), answers 503. *)
Definition env := mkEnv true (bs "GET") (bs "Thu, 01 Jan 1970 00:00:00 GMT") (bs "Tremolo").
Definition says (r : outcome) : func unit := fun a s _ => (a, s, r).
Definition nothing : errors := mkErrors (Coro (says (OExc (XHttp 400 (bs "Bad Request") default_ctype))), []) (Gen [says (OData (bs "Not Found"))], [(bs "status", VStatus 404 (bs "Not Found"))]).
Definition world0 := mkW tt (new_rsp true) [] [].
Definition sv_with (req resp : list (func unit * opts)) := mkServer req resp (VInt 1048576) (VInt 16384).
Theorem c51_route_refuted : exists (sv : @server unit) route rest,
  first_of (bs "status") [snd route] = Some (VStatus 201 (bs "Created")) /\
  Forall (fun m => forall a s c, snd (fst m a s c) = ONone) (s_req sv) /\
  r_out (w_rsp (fst (headers_received env sv nothing true false (Some route) world0))) = Some (bs "HTTP/1.1 503 Service Unavailable" ++ rest) :: [Some (bs "2" ++ CRLF ++ bs "hi" ++ CRLF); Some (bs "0" ++ CRLF ++ CRLF); None].
Proof.
  exists (sv_with [(says ONone, [(bs "status", VStatus 503 (bs "Service Unavailable"))])] []), (Coro (says (OData (bs "hi"))), [(bs "status", VStatus 201 (bs "Created"))]).
  eexists. split; [reflexivity|]. split; [repeat constructor|]. vm_compute. reflexivity.
Qed.
Print Assumptions c51_route_refuted.

(** The hypotheses, and what happens: two request middlewares and two response middlewares, with options. *)
Definition sv51 := sv_with [(says ONone, [(bs "a", VInt 1)]); (says ONone, [(bs "a", VInt 2); (bs "b", VInt 2)])] [(says ONone, [(bs "a", VInt 3)]); (says ONone, [(bs "c", VInt 4)])].
Definition route51 : handler unit * opts := (Coro (says (OData (bs "hi"))), [(bs "b", VInt 5); (bs "content_type", VText (bs "text/plain"))]).
Lemma says_leaves r : leaves_unstarted (says r). Proof. now intros a s c U. Qed.
Example c51_example :
  Forall (fun m => leaves_unstarted (fst m) /\ good_options (snd m)) (s_req sv51) /\ good_options (snd route51) /\ unstarted (w_rsp world0) /\
  map (fun ev => (ev_who ev, ev_out ev, oget "a" (ev_opts ev), oget "b" (ev_opts ev))) (w_log (fst (headers_received env sv51 nothing true false (Some route51) world0))) =
  [(ReqMid 0, ONone, Some (VInt 1), None); (ReqMid 1, ONone, Some (VInt 1), Some (VInt 2)); (Handler, OData (bs "hi"), Some (VInt 1), Some (VInt 2));
   (RespMid 1, ONone, Some (VInt 1), Some (VInt 2)); (RespMid 0, ONone, Some (VInt 1), Some (VInt 2))].
Proof.
  split; [|split; [|split; [|vm_compute; reflexivity]]].
  - repeat constructor; try apply says_leaves; cbn; discriminate.
  - split; cbn; [discriminate|]. intros v [= <-]. eexists. split; [reflexivity|]. apply memb_notIn. reflexivity.
  - exists []. now split.
Qed.
(** A request middleware that answers: neither the next one nor the handler nor the response middlewares run. *)
Example c51_stop_example :
  map call_of (w_log (fst (headers_received env (sv_with [(says ONone, []); (says (OData (bs "no")), []); (says ONone, [])] [(says ONone, [])]) nothing true false (Some route51) world0))) =
  [(ReqMid 0, ONone); (ReqMid 1, OData (bs "no"))].
Proof. reflexivity. Qed.

(** C52. What the response to a failure must say. *)
Definition response_to (x : exc) : option (Z * bytes * bytes) :=
  match x with
  | XHttp code message content_type => Some (code, message, content_type)
  | XTimeout => Some (408%Z, bs "Request Timeout", bs "text/html; charset=utf-8")
  | XOther => Some (500%Z, bs "Internal Server Error", bs "text/html; charset=utf-8")
  | XWsServer _ | XWsOther => None
  end.
(** [m] is whatever ran before (headers_received, or anything else) and left the exception [x]. The head was not sent. The error handler is [answer]: it returns
    some data, or None, or raises, and leaves the response alone. Then exactly one response is queued, with the head and body shown, and the end marker after
    which the connection is closed; whatever is queued later does not reach the client. Missing: WebSocket exceptions, messages and content types with a line feed,
    error handlers that change the response. *)
Theorem c52_error_partial : forall (A : Type) e answer (m : act A unit) w w' x code message ctype,
  one_line (e_date e) -> one_line (e_server e) ->
  m w = (w', inr x) -> headers_sent (w_rsp w') = false -> r_buf (w_rsp w') = [] ->
  response_to x = Some (code, message, ctype) -> one_line message -> one_line ctype ->
  answer (XHttp code message ctype) <> EUnencodable ->
  let data := match answer (XHttp code message ctype) with EData d => d | _ => [] end in
  let lines := [bs "HTTP/" ++ version e ++ bs " " ++ fmt_d code ++ bs " " ++ message; bs "Content-Type: " ++ ctype; bs "Content-Length: " ++ fmt_d (blen data);
                bs "Connection: close"; bs "Date: " ++ e_date e; bs "Server: " ++ e_server e] in
  exists body s',
    snd (serve_request e (fun y s => (answer y, s)) m w) = s' /\
    r_out s' = r_out (w_rsp w') ++ [Some (head_of lines ++ body); None] /\ r_keep s' = false /\ r_buf s' = [] /\
    (bodyless (e_method e) code -> body = []) /\ (~ bodyless (e_method e) code -> body = data) /\
    Forall one_line lines /\ client_body (head_of lines ++ body) = Some body /\
    (r_out (w_rsp w') = [] -> forall later, on_wire (r_keep s') (r_out s' ++ later) = head_of lines ++ body).
Proof.
  intros A e answer m w w' x c msg t D Sv Em Hs B Ex Om Ot Nu data lines. exists (if is_head e || no_content c then [] else data), (snd (serve_request e (fun y s => (answer y, s)) m w)).
  unfold serve_request. rewrite Em. set (s := w_rsp w') in *.
  pose proof (error_main e (fun y s => (answer y, s)) x s c msg t (answer (XHttp c msg t)) _ D Sv Hs B Ex Om Ot eq_refl Nu eq_refl eq_refl eq_refl eq_refl) as M. cbv zeta in M.
  destruct (handle_exception e (fun y s => (answer y, s)) x s) as [p s']. destruct M as (_ & O & K & _ & B'). cbn [snd r_out] in *. fold data in O.
  split; [reflexivity|]. split; [exact O|]. split; [exact K|]. split; [exact B'|]. split; [|split; [|split; [|split]]].
  - intros Bl. apply bodyless_iff in Bl. now rewrite Bl.
  - intros Bl. destruct (is_head e || no_content c) eqn:X; [|reflexivity]. apply bodyless_iff in X. now apply Bl in X.
  - eapply Forall_impl; [|exact (lines_ok e c msg t (blen data) D Sv Om Ot)]. now intros l [_ Ol].
  - apply head_client; [discriminate|exact (lines_ok e c msg t (blen data) D Sv Om Ot)].
  - intros E later. rewrite K, O, E. cbn [app on_wire]. apply app_nil_r.
Qed.
Print Assumptions c52_error_partial.

(** If the head was sent, and the connection was not upgraded, the connection is aborted. *)
Theorem c52_sent : forall (A : Type) e on_500 (m : act A unit) w w' x, m w = (w', inr x) -> headers_sent (w_rsp w') = true -> r_up (w_rsp w') = false ->
  serve_request e on_500 m w = (Aborted, w_rsp w').
Proof. intros A e on_500 m w w' x Em H U. unfold serve_request. rewrite Em. exact (error_sent e on_500 x _ H U). Qed.
Print Assumptions c52_sent.

(** False for the exceptions of WebSocket: a handler that raises one before the head gets no response to the client, only an end marker
    (or a close frame where the head should be), and the connection is kept alive. *)
Theorem c52_websocket_refuted : exists x route, headers_sent (w_rsp (fst (headers_received env (sv_with [] []) nothing true false (Some route) world0))) = false /\
  snd (headers_received env (sv_with [] []) nothing true false (Some route) world0) = inr x /\
  forall on_500, let s' := snd (serve_request env on_500 (headers_received env (sv_with [] []) nothing true false (Some route)) world0) in r_out s' = [None] /\ r_keep s' = true.
Proof. exists XWsOther, (Coro (says (OExc XWsOther)), []). split; [reflexivity|]. split; [reflexivity|]. intros on_500. now split. Qed.
Print Assumptions c52_websocket_refuted.
Theorem c52_frame_refuted : exists route, forall on_500,
  let s' := snd (serve_request env on_500 (headers_received env (sv_with [] []) nothing true false (Some route)) world0) in
  r_out s' = [Some (map ascii_of_nat [136; 2; 3; 235]); None] /\ r_keep s' = true.
Proof. exists (Coro (says (OExc (XWsServer 1003))), []). intros on_500. now split. Qed.
Print Assumptions c52_frame_refuted.
(** False for a message with a line feed: no response and no end marker at all, nor is the connection aborted. *)
Theorem c52_message_refuted : exists route x, forall on_500,
  let r := serve_request env on_500 (headers_received env (sv_with [] []) nothing true false (Some route)) world0 in
  fst r = Escaped x /\ r_out (snd r) = [] /\ r_keep (snd r) = true.
Proof. eexists (Coro (says (OExc (XHttp 400 (bs "a" ++ [LF] ++ bs "b") default_ctype))), []), _. intros on_500. now split. Qed.
Print Assumptions c52_message_refuted.

(** Some failures that meet the hypotheses: a TimeoutError after the handler called set_header and set_status. *)
Definition late : handler unit * opts :=
  (Coro (fun a s _ => (a, snd ((set_header (bs "X-A") (bs "1") ;; set_status 202 (bs "Accepted")) s), OExc XTimeout)), [(bs "content_type", VText (bs "text/plain"))]).
Example c52_example :
  let m := headers_received env (sv_with [(says ONone, [])] []) nothing true false (Some late) in
  snd (m world0) = inr XTimeout /\ headers_sent (w_rsp (fst (m world0))) = false /\ r_buf (w_rsp (fst (m world0))) = [] /\
  response_to XTimeout = Some (408%Z, bs "Request Timeout", default_ctype) /\
  r_out (snd (serve_request env (fun y s => (EData (bs "too late"), s)) m world0)) =
  [Some (bs "HTTP/1.1 408 Request Timeout" ++ CRLF ++ bs "Content-Type: text/html; charset=utf-8" ++ CRLF ++ bs "Content-Length: 8" ++ CRLF ++ bs "Connection: close" ++ CRLF
         ++ bs "Date: Thu, 01 Jan 1970 00:00:00 GMT" ++ CRLF ++ bs "Server: Tremolo" ++ CRLF ++ CRLF ++ bs "too late"); None].
Proof. repeat split; vm_compute; reflexivity. Qed.
Example c52_sent_example :
  let m := headers_received env (sv_with [] []) nothing true false (Some (Coro (fun a s _ => (a, snd (write env (Some (bs "x")) None kw_now s), OExc XOther)), [])) in
  snd (m world0) = inr XOther /\ headers_sent (w_rsp (fst (m world0))) = true /\ fst (serve_request env (fun y s => (ENone, s)) m world0) = Aborted.
Proof. repeat split; vm_compute; reflexivity. Qed.
