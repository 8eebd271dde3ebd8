(** C88: handlers that send their response themselves. *)
From Verif Require Import PyBytes PyBytesFacts PyInt PyExn M_Parser M_Framing M_Conn M_Response M_Server M_Sendfile S_Head S_Response S_Calls S_Range S_Sendfile S_Conn S_Site S_Own P_Response6 P_Conn P_Own T_Response T_Sendfile T_Conn.

(** C88. A coroutine handler makes header calls, calls response.end(data), and returns nothing, or True. The client gets the response of C30 with the header lines of the calls, and a Connection
    line that says keep-alive if the connection can be kept. If the handler returns True, this is all and the connection is kept. If it returns nothing, the
    server calls close() once more, and the connection is not kept. The options of the route (status,
    content_type) count as calls that come before those of the handler. Missing: the sse option, middlewares, and the header calls that C30 excludes. *)
Theorem c88_end_partial : forall (A : Type) e (sv : @server A) hb kw (a : A) pre (keep : bool) data min (nothing : bool) ctx log,
  one_line (e_date e) -> one_line (e_server e) -> route_ok kw -> Forall appends_clean pre -> Forall name_ok pre -> Forall unreserved pre ->
  exists (w' : world A) (ctype body : bytes) (others : list bytes),
    let st := the_status (route_calls kw ++ pre) in
    let lines := status_line e st :: (bs "Content-Type: " ++ ctype) :: (bs "Content-Length: " ++ fmt_d (blen data)) ::
                 (bs "Connection: " ++ (if keep then bs "keep-alive" else bs "close")) :: others in
    handle_response e sv hb (Coro (ends_with e pre data min (if nothing then ONone else OOther))) kw (mkW a (new_rsp keep) ctx log) = (w', inl tt) /\
    r_out (w_rsp w') = [Some (head_of lines ++ body); None] ++ (if nothing then [None] else []) /\
    r_keep (w_rsp w') = (negb nothing && keep)%bool /\
    (bodyless (e_method e) (fst st) -> body = []) /\ (~ bodyless (e_method e) (fst st) -> body = data) /\
    Forall one_line lines /\ Forall (fun l => ~ In (field_name l) S_Response.framing) others /\ client_body (head_of lines ++ body) = Some body /\
    forall name, ~ In name added -> lines_named name others = said name (route_calls kw ++ pre) [].
Proof.
  intros A e sv hb kw a pre keep data min nothing ctx log D S Kw A1 A2 A3. destruct (has_stored e kw pre keep Kw A1 A3) as [stored H]. destruct (route_clean kw Kw) as (K1 & K2 & K3 & _).
  destruct (c30_calls e (route_calls kw ++ HBase :: pre) keep data true min stored (route_all kw pre K1 Logic.I A1) (route_all kw pre K2 Logic.I A2) (route_all kw pre K3 Logic.I A3) (route_date e kw pre keep D S) H) as (s' & ctype & body & X).
  cbv zeta in X. change (final_status (route_calls kw ++ HBase :: pre) (200%Z, bs "OK")) with (the_status (route_calls kw ++ HBase :: pre)) in X. rewrite status_base in X. destruct X as (E & O & K & B1 & B2 & L1 & L2 & C & _).
  destruct (own_run e sv hb kw (fun s => end_ e data true min (do_hops e pre s)) a keep ctx log s' nothing D S Kw) as (w' & R & O' & K'); [unfold start in *; rewrite hops_cat in E |- *; exact E|exact (closes_end e data true min _ _ E)|].
  eexists w', ctype, body, _. split; [exact R|]. rewrite O in O'. rewrite K in K'. split; [exact O'|]. split; [exact K'|]. split; [exact B1|]. split; [exact B2|]. split; [exact L1|]. split; [exact L2|]. split; [exact C|].
  intros name NA. rewrite <- said_base. exact (end_said e _ keep stored (route_all kw pre K1 Logic.I A1) (route_all kw pre K2 Logic.I A2) (route_all kw pre K3 Logic.I A3) H name NA).
Qed.
Print Assumptions c88_end_partial.

(** The same with response.sendfile(path) instead of end: the response of C35, with all the bytes of the file. *)
Theorem c88_file_partial : forall (A : Type) e (sv : @server A) hb kw (a : A) q f size ctype boundary k pre keep (nothing : bool) ctx log,
  one_line (e_date e) -> one_line (e_server e) -> route_ok kw ->
  size_ok f size -> ~ uses_range e q f -> ~ not_modified e q f -> (1 <= k_bufsize k)%Z -> ctype_ok ctype -> one_line (fl_mdate f) ->
  Forall appends_clean pre -> Forall name_ok pre -> Forall unreserved pre -> Forall unframed_call pre ->
  ~ bodyless (e_method e) (fst (the_status (route_calls kw ++ pre))) ->
  exists w' lines items,
    handle_response e sv hb (Coro (sends_file e pre q f size ctype boundary k (if nothing then ONone else OOther))) kw (mkW a (new_rsp keep) ctx log) = (w', inl tt) /\
    r_out (w_rsp w') = (Some (head_of (status_line e (the_status (route_calls kw ++ pre)) :: lines)) :: map Some items ++ [None]) ++ (if nothing then [None] else []) /\
    r_keep (w_rsp w') = (negb nothing && keep)%bool /\
    Forall one_line (status_line e (the_status (route_calls kw ++ pre)) :: lines) /\ full_lines ctype (fl_mdate f) (blen (fl_bytes f)) lines /\ concat items = fl_bytes f.
Proof.
  intros A e sv hb kw a q f size ctype boundary k pre keep nothing ctx log D S Kw Z1 Z2 Z3 Z4 Z5 Z6 A1 A2 A3 A4 B. rewrite <- status_base in B. destruct (route_clean kw Kw) as (K1 & K2 & K3 & K4).
  destruct (c35_full e q f size ctype boundary k (route_calls kw ++ HBase :: pre) keep Z1 Z2 Z3 Z4 Z5 Z6) as (s' & lines & items & E & O & L & F & I & K); [apply route_all; [assumption|repeat split; fin|assumption]..|exact B|]. rewrite status_base in O, L.
  destruct (own_run e sv hb kw (fun s => sendfile e q f size ctype boundary k (do_hops e pre s)) a keep ctx log s' nothing D S Kw) as (w' & R & O' & K'); [unfold start in *; rewrite hops_cat in E |- *; exact E|exact (closes_file e q f size ctype boundary k Z3 _ _ E)|].
  exists w', lines, items. split; [exact R|]. rewrite O in O'. rewrite K in K'. repeat (split; [eassumption|]). exact I.
Qed.
Print Assumptions c88_file_partial.

(** At the connection: the send task writes the response. After it the connection is closed if the handler returned nothing, also if the request (and the
    Connection line of the response, above) said that it is kept; nothing is ever sent again. It stays open if the handler returned True. *)
Theorem c88_conn : forall o i items (nothing : bool) s r,
  c_lost s = false -> c_closing s = false -> c_sending s = true -> Forall (fun x => x = None \/ x = Some []) (c_q0 s) -> c_q1 s = [] -> c_cur s = Some i -> live s i = Some r ->
  q_keep r = true -> c_hb s = None -> q_cont r = false -> q_upg r = false ->
  exists s', conn_run o s (own_events i items nothing ++ repeat (RunSend false) (S (length items))) = Some (s', map Wrote items ++ [Ended]) /\
    c_closing s' = nothing /\ c_sending s' = negb nothing.
Proof. intros o i items nothing s r H1 H2 H3 H4 H5 H6 H7 H8 H9 H10 H11. exact (own_conn o false i items nothing s r H1 H2 H3 H4 H5 H6 H7 H8 H9 H10 H11 (or_introl eq_refl)). Qed.
Print Assumptions c88_conn.

(** ** Examples *)
Definition own_calls : list S_Site.call := [mkCall (bs "GET") (bs "/a") [(bs "Host", bs "a")] None; mkCall (bs "GET") (bs "/b") [(bs "Host", bs "a")] None].
Definition own_wire (i : nat) : bytes := wire (msg_of (nth i own_calls (mkCall [] [] [] None))).
Definition own_server : @server unit := mkServer [] [] (VInt 1048576) (VInt 16384).
Definition own_rsp (nothing : bool) (keep : bool) : rsp :=
  w_rsp (fst (handle_response get11 own_server false (Coro (ends_with get11 [] (bs "hello") None (if nothing then ONone else OOther))) [] (mkW tt (new_rsp keep) [] []))).
Definition own_text : bytes := bs "HTTP/1.1 200 OK" ++ CRLF ++ bs "Content-Type: text/html; charset=utf-8" ++ CRLF ++ bs "Content-Length: 5" ++ CRLF ++ bs "Connection: keep-alive" ++ CRLF
   ++ bs "Date: Thu, 01 Jan 1970 00:00:00 GMT" ++ CRLF ++ bs "Server: Tremolo" ++ CRLF ++ CRLF ++ bs "hello".

Example c88_example : one_line (e_date get11) /\ one_line (e_server get11) /\ Forall appends_clean [] /\
  r_out (own_rsp false true) = [Some own_text; None] /\ r_keep (own_rsp false true) = true /\
  (exists s b r, conn_run conn_opts conn_new [Data (own_wire 0); RunHR 0] = Some (s, b) /\ c_lost s = false /\ c_closing s = false /\ c_sending s = true /\ Forall (fun x => x = None \/ x = Some []) (c_q0 s) /\ c_q1 s = [] /\
     c_cur s = Some 0%nat /\ live s 0 = Some r /\ q_keep r = true /\ c_hb s = None /\ q_cont r = false /\ q_upg r = false).
Proof.
  split; [fin|]. split; [fin|]. split; [constructor|]. split; [vm_compute; reflexivity|]. split; [vm_compute; reflexivity|].
  assert (match conn_run conn_opts conn_new [Data (own_wire 0); RunHR 0] with
    | Some (s, b) => match live s 0 with
      | Some r => c_lost s = false /\ c_closing s = false /\ c_sending s = true /\ Forall (fun x => x = None \/ x = Some []) (c_q0 s) /\ c_q1 s = [] /\ c_cur s = Some 0%nat /\ q_keep r = true /\ c_hb s = None /\ q_cont r = false /\ q_upg r = false
      | None => False end
    | None => False end) as F by (vm_compute; repeat split; repeat constructor).
  destruct (conn_run conn_opts conn_new [Data (own_wire 0); RunHR 0]) as [[s b]|]; [|contradiction]. destruct (live s 0) as [r|] eqn:L; [|contradiction]. exists s, b, r. tauto.
Qed.
Example c88_file_example : let q := mkFReq [] [bs "yesterday"] [] in
  let w := w_rsp (fst (handle_response get11 own_server false (Coro (sends_file get11 pre34 q file34 10 plain34 (bs "b") kw34 ONone)) [] (mkW tt (new_rsp true) [] []))) in
  size_ok file34 10 /\ ~ uses_range get11 q file34 /\ ~ not_modified get11 q file34 /\ ctype_ok plain34 /\ Forall unframed_call pre34 /\
  ~ bodyless (e_method get11) (fst (the_status pre34)) /\ tl (r_out w) = [Some (bs "0123"); Some (bs "4567"); Some (bs "89"); None; None] /\ r_keep w = false.
Proof.
  split; [now right|]. split; [intros (_ & A & _); vm_compute in A; congruence|]. split; [intros (_ & A); vm_compute in A; congruence|].
  split; [split; fin|]. split; [fall|]. split; [intros [A|[A|[A|[A|A]]]]; vm_compute in A; intuition discriminate|]. split; vm_compute; reflexivity.
Qed.

(** A route with a status, a content type and a rate. *)
Definition own_kw : opts := [(bs "status", VStatus 201 (bs "Created")); (bs "rate", VInt 5); (bs "content_type", VText (bs "text/plain"))].
Example c88_route_example : route_ok own_kw /\ route_ok [] /\ route_calls own_kw = [HStatus 201 (bs "Created"); HCtype (bs "text/plain")] /\
  r_out (w_rsp (fst (handle_response get11 own_server false (Coro (ends_with get11 [] (bs "hello") None OOther)) own_kw (mkW tt (new_rsp true) [] [])))) =
    [Some (bs "HTTP/1.1 201 Created" ++ CRLF ++ bs "Content-Type: text/plain" ++ CRLF ++ bs "Content-Length: 5" ++ CRLF ++ bs "Connection: keep-alive" ++ CRLF
      ++ bs "Date: Thu, 01 Jan 1970 00:00:00 GMT" ++ CRLF ++ bs "Server: Tremolo" ++ CRLF ++ CRLF ++ bs "hello"); None].
Proof. split; [split; [reflexivity|split; fin]|]. split; [split; [reflexivity|split; exact Logic.I]|]. split; [reflexivity|]. vm_compute. reflexivity. Qed.

(** The Connection line of the response is not true: own_text says keep-alive, as the client asked, and the connection is closed right after the response. *)
Theorem c88_promise_refuted : exists tr s b, let w := own_rsp true true in
  tr = [Data (own_wire 0); RunHR 0] ++ own_events 0 [own_text] true ++ repeat (RunSend false) 2 /\
  r_out w = [Some own_text; None; None] /\ conn_run conn_opts conn_new tr = Some (s, b) /\
  written b = own_text /\ ended b = 1%nat /\ c_closing s = true /\ c_sending s = false.
Proof.
  assert (match conn_run conn_opts conn_new ([Data (own_wire 0); RunHR 0] ++ own_events 0 [own_text] true ++ repeat (RunSend false) 2) with
    | Some (s, b) => written b = own_text /\ ended b = 1%nat /\ c_closing s = true /\ c_sending s = false | None => False end) as F by (vm_compute; tauto).
  destruct (conn_run conn_opts conn_new _) as [[s b]|] eqn:E; [|contradiction]. eexists _, s, b. cbv zeta. split; [reflexivity|]. split; [vm_compute; reflexivity|]. split; [exact E|]. exact F.
Qed.
Print Assumptions c88_promise_refuted.

(** A handler that goes on after it has sent its response, and then returns nothing, closes the response of the request that the client has sent in the
    meantime: the handler of this request was started, and the connection is closed without a response to it. *)
Theorem c88_next_refuted : exists tr s0 b0 s b,
  tr = [Data (own_wire 0); RunHR 0] ++ own_events 0 [own_text] false ++ repeat (RunSend false) 2 ++ [Data (own_wire 1); RunHR 1] /\
  conn_run conn_opts conn_new tr = Some (s0, b0) /\ c_closing s0 = false /\ map fst (starts b0) = [0; 1]%nat /\
  exists e, returns_none s0 = Some e /\ conn_run conn_opts s0 [e; RunSend false] = Some (s, b) /\ written (b0 ++ b) = own_text /\ c_closing s = true /\ c_sending s = false.
Proof.
  assert (match conn_run conn_opts conn_new ([Data (own_wire 0); RunHR 0] ++ own_events 0 [own_text] false ++ repeat (RunSend false) 2 ++ [Data (own_wire 1); RunHR 1]) with
    | Some (s0, b0) => c_closing s0 = false /\ map fst (starts b0) = [0; 1]%nat /\
      match returns_none s0 with
      | Some e => match conn_run conn_opts s0 [e; RunSend false] with Some (s, b) => written (b0 ++ b) = own_text /\ c_closing s = true /\ c_sending s = false | None => False end
      | None => False end
    | None => False end) as F by (vm_compute; tauto).
  destruct (conn_run conn_opts conn_new _) as [[s0 b0]|] eqn:E; [|contradiction]. destruct F as (F1 & F2 & F). destruct (returns_none s0) as [e|] eqn:R; [|contradiction]. destruct (conn_run conn_opts s0 [e; RunSend false]) as [[s b]|] eqn:E2; [|contradiction].
  eexists _, s0, b0, s, b. split; [reflexivity|]. split; [exact E|]. split; [exact F1|]. split; [exact F2|]. exists e. split; [exact R|]. split; [exact E2|]. exact F.
Qed.
Print Assumptions c88_next_refuted.
