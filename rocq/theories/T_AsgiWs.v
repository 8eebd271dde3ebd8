(** C62: ASGI applications on WebSocket scopes. Words: S_AsgiWs.v (utterances of the client, [talk], [is_open], [unread]), S_Handshake.v, S_Asgi.v.
    [queued z] are the items put on the send queue, [None] being the end of the response, which an upgraded connection outlives once. *)
From Verif Require Import PyBytes PyBytesFacts PyInt PyExn PyUtf8 M_Stream M_WebSocket S_WebSocket P_WebSocket M_Response M_Server M_Asgi M_Handshake M_AsgiWs
  S_Response S_Calls S_Asgi S_Handshake S_AsgiWs P_Server2 P_AsgiWs P_AsgiWs2.
From Verif Require Import M_Parser M_Framing S_Head P_Handshake.
Import M_Response M_AsgiWs.

(** Until the application accepts, it receives websocket.connect, whatever the client has sent already. *)
Theorem c62_connect : forall e phrase text size h o max n keep ch r,
  ws_app e phrase text size h o max (repeat Receive n) (ws_scope keep ch r) = (repeat Connect n, ws_scope keep ch r).
Proof. intros. now apply connects. Qed.
Print Assumptions c62_connect.

(** Partial: websocket.accept for a request that [asks] for a WebSocket sends one head that the client takes for an acceptance of its key, with the
    server's Date and Server, the subprotocol given, and the headers given other than those the server decides about; the session is open then and
    nothing of the client's bytes was read. [sent]: header lines by name. Missing: requests that are not to be kept alive, or an application that gives
    Connection: close (C60, c62_keep_refuted). *)
Theorem c62_accept_partial : forall e phrase text size method url version fields body hmax excludes ml mls r0 q key hs sub ch r,
  one_line (e_date e) -> one_line (e_server e) ->
  good_head method url version fields hmax ml mls ->
  request_init (parse_header (S_Head.head_bytes method url version fields ++ body) (-1) hmax excludes ml mls) = Ok r0 -> frame r0 = Ok q ->
  e_11 e = beqb (rq_version q) (bs "1.1") -> asks fields key -> rq_keepalive q = true ->
  Forall (fun h => plain_name (fst h)) hs -> Forall lf_free hs -> wants_close hs = false -> one_line sub ->
  ws_offered true (rq_headers q) = Ok true /\
  exists z' first sent, ws_send e phrase text size (rq_headers q) (ws_scope (rq_keepalive q) ch r) (WsAccept hs sub) = z' /\ is_open z' /\ z_in z' = r /\
    queued z' = [Some (head_of (first :: concat (map snd sent))); None] /\
    is_accepted (rq_version q) key first (concat (map snd sent)) /\ Forall one_line (concat (map snd sent)) /\ NoDup (map fst sent) /\
    dget beqb (bs "date") sent = Some [bs "Date: " ++ e_date e] /\ dget beqb (bs "server") sent = Some [bs "Server: " ++ e_server e] /\
    (sub <> [] -> dget beqb (bs "sec-websocket-protocol") sent = Some [bs "Sec-WebSocket-Protocol: " ++ sub]) /\
    (forall k, ~ In k servers_own -> ~ In k handshake_names -> (sub <> [] -> k <> bs "sec-websocket-protocol") ->
       match dget beqb k sent with Some l => l | None => [] end = app_lines k hs).
Proof.
  intros e phrase text size method url version fields body hmax excludes ml mls r0 q key hs sub ch r Hd Hs GH I F E Ak K F1 F2 Cl Os.
  destruct (head_values _ _ _ _ _ _ _ _ _ _ _ GH I F) as [V HV]. destruct (offered_main fields key _ HV Ak) as [O HK]. split; [exact O|]. rewrite K.
  destruct (accepts e phrase text size (rq_headers q) key hs sub ch r Hd Hs HK F1 F2 Cl Os) as (z' & sent & R & Op & Zi & _ & _ & Q & OL & L1 & L2 & L3 & ND & D1 & D2 & D3 & D4).
  exists z', (status_line e (101%Z, bs "Switching Protocols")), sent. split; [exact R|]. split; [exact Op|]. split; [exact Zi|]. split; [exact Q|]. split; [|split; [exact OL|split; [exact ND|split; [exact D1|split; [exact D2|split; [exact D3|exact D4]]]]]].
  split; [|split; [exact L1|split; [exact L2|exact L3]]]. unfold status_line, M_Response.version. rewrite E. cbn [fst snd]. destruct V as [-> | ->]; reflexivity.
Qed.
Print Assumptions c62_accept_partial.
(** A line feed in a header or in the subprotocol that the application gives: whatever the request, the client gets a 500 with the server's own header lines and
    nothing that the application gave; the session is not open, and the connection is closed after that. [error_lines]: P_Server2.v. *)
Theorem c62_illegal : forall e phrase text size h keep ch r hs sub, one_line (e_date e) -> one_line (e_server e) ->
  Forall (fun x => plain_name (fst x)) hs -> ~ (Forall lf_free hs /\ one_line sub) ->
  let z := ws_send e phrase text size h (ws_scope keep ch r) (WsAccept hs sub) in
  queued z = [Some (head_of (error_lines e 500 (bs "Internal Server Error") default_ctype (blen text)) ++ (if is_head e then [] else text)); None] /\
  ~ is_open z /\ r_keep (a_rsp (z_a z)) = false /\ z_in z = r.
Proof.
  intros e phrase text size h keep ch r hs sub Hd Hs F N z. destruct (illegal_accept e phrase text size h keep ch r hs sub Hd Hs F N) as (A & B & C & D).
  split; [exact A|]. split; [intros (_ & X & _); unfold z in X; rewrite B in X; discriminate|]. now split.
Qed.
Print Assumptions c62_illegal.

(** Partial: on an open session, the application receives the messages of the client in order, text as text and bytes as bytes, however they are cut into
    packets; each message it sends is queued as one frame, in order; a ping is answered when the application receives what follows it; nothing else is
    sent. [B]: what follows in the client's bytes. Missing: empty messages of the application, and empty binary messages and fragments of the client (C27). *)
Theorem c62_talk_partial : forall e phrase text size h o max calls us fs z B tl,
  (0 <= o_max_body o)%Z -> talk max calls us fs -> is_open z -> unread z (concat (map utterance_wire us) ++ B) tl ->
  exists z', ws_app e phrase text size h o max calls z = (map (fun u => event_of (u_says u)) us, z') /\ is_open z' /\ unread z' B tl /\
    queued z' = queued z ++ map Some fs.
Proof.
  intros e phrase text size h o max calls us fs z B tl M T Op Un. destruct (talk_run e phrase text size h o max calls us fs M T z B tl Op Un) as (z' & R & Op' & Un' & Q & _). exists z'. auto.
Qed.
Print Assumptions c62_talk_partial.

(** The client closes: the application receives websocket.disconnect with the code of the close frame, 1005 if there is none. *)
Theorem c62_client_close : forall o max z cs form f B tl code,
  (0 <= o_max_body o)%Z -> is_open z -> Forall (skippable max) cs -> frame_ok form f -> (form = L64 -> Z.of_nat (List.length (f_payload f)) <= max)%Z -> f_op f = 8%N ->
  (f_payload f = [] /\ code = 1005 \/ exists reason, (0 <= code < 65536) /\ f_payload f = network 2 (Z.to_N code) ++ reason)%Z ->
  unread z (frames_wire cs ++ wire form f ++ B) tl ->
  exists z', ws_receive o max z = (Disconnected code, z') /\ queued z' = queued z ++ map Some (pongs cs) /\ is_open z' /\ unread z' B tl.
Proof.
  intros o max z cs form f B tl code M Op Fa K X O8 P Un. destruct (client_closes o max z cs form f B tl M Op Fa K X O8 Un) as (r & E & Un').
  exists (say z (pongs cs) true true r). split; [|split; [reflexivity|split; [now apply say_open|exact Un']]]. rewrite E. f_equal. f_equal. destruct P as [[-> ->]|(reason & C & ->)]; [reflexivity|].
  cbn [network app]. rewrite !N_ascii_embedding by (apply N.mod_lt; discriminate). change (256 ^ N.of_nat 1)%N with 256%N. change (256 ^ N.of_nat 0)%N with 1%N. rewrite N.div_1_r.
  assert (0 <= code < 65536)%Z as C' by exact C. clear -C'. rewrite (N.mod_small (Z.to_N code / 256)); [|apply N.div_lt_upper_bound; lia]. pose proof (N.div_mod' (Z.to_N code) 256). lia.
Qed.
Print Assumptions c62_client_close.
(** The connection ends between two frames: websocket.disconnect with 1005. *)
Theorem c62_client_gone : forall o max z cs tl, (0 <= o_max_body o)%Z -> is_open z -> Forall (skippable max) cs -> unread z (frames_wire cs) (End :: tl) ->
  exists z', ws_receive o max z = (Disconnected 1005, z') /\ queued z' = queued z ++ map Some (pongs cs).
Proof. intros o max z cs tl M Op Fa Un. destruct (client_gone o max z cs tl M Op Fa Un) as (r & E). exists (say z (pongs cs) true true r). split; [exact E|reflexivity]. Qed.
Print Assumptions c62_client_gone.

(** The application closes: one close frame with its code, then the end of the connection. Whatever it sends or receives after that, nothing more is queued
    and each receive gives websocket.disconnect. *)
Theorem c62_close : forall e phrase text size h o max z code calls, is_open z -> (0 <= code < 65536)%Z -> Forall only_ws calls ->
  exists z' n, ws_app e phrase text size h o max (Send (WsClose code) :: calls) z = (repeat (Disconnected 1005) n, z') /\
    n = List.length (filter (fun c => match c with Receive => true | _ => false end) calls) /\
    queued z' = queued z ++ [Some (server_frame 8 (network 2 (Z.to_N code))); None].
Proof.
  intros e phrase text size h o max z code calls Op C F. cbn [ws_app]. destruct (closes e phrase text size h z code Op C) as (Q & W & Up & H).
  destruct (closed_run e phrase text size h o max calls F _ W Up) as (t & R). rewrite R. eexists. eexists. split; [reflexivity|]. split; [reflexivity|]. exact Q.
Qed.
Print Assumptions c62_close.

(** The application raises, or is cancelled, on an open session: a close frame with 1011, then the end of the connection. *)
Theorem c62_fails : forall e text x z, is_open z ->
  queued (ws_end e text (Some x) z) = queued z ++ [Some (server_frame 8 (network 2 1011)); None].
Proof. intros e text x z Op. exact (proj1 (fails e text x z Op)). Qed.
Print Assumptions c62_fails.

(** A session. *)
Definition e62 : renv := mkEnv true (bs "GET") (bs "today") (bs "Tremolo").
Definition o62 : M_Stream.opts := mkOpts 16384 1048576.
Definition h62 : M_Parser.hdict := match (let! r := request_init (parse_header (S_Head.head_bytes (bs "GET") (bs "/chat") (bs "1.1")
  [(bs "Host", bs "a"); (bs "Upgrade", bs "websocket"); (bs "Connection", bs "Upgrade"); (bs "Sec-WebSocket-Key", bs "dGhlIHNhbXBsZSBub25jZQ==")]) (-1) 8192 [] 100 8190) in frame r)
  with Ok r => rq_headers r | Raise _ => [] end.
Definition k62 : bytes := map ascii_of_nat [1; 200; 3; 255]%nat.
Definition r62 (segs : list bytes) (tl : list inp) : reader := fresh_reader (mkR (map Data segs ++ tl) 0 false false (-1) false 0).
Definition run62 (calls : list app_call) (segs : list bytes) (tl : list inp) : list ws_received * session :=
  ws_app e62 (fun _ => None) (bs "oops") 16384 h62 o62 100 calls (ws_scope true None (r62 segs tl)).
Definition head62 : bytes := head_of [bs "HTTP/1.1 101 Switching Protocols"; bs "Date: today"; bs "Server: Tremolo"; bs "X-A: 1"; bs "Sec-WebSocket-Protocol: chat"; bs "Upgrade: websocket";
  bs "Sec-WebSocket-Accept: s3pPLMBiTxaQ9kYGzzhZRbK+xOo="; bs "Connection: upgrade"].
Definition bare62 : bytes := head_of [bs "HTTP/1.1 101 Switching Protocols"; bs "Date: today"; bs "Server: Tremolo"; bs "Upgrade: websocket"; bs "Sec-WebSocket-Accept: s3pPLMBiTxaQ9kYGzzhZRbK+xOo="; bs "Connection: upgrade"].
Definition ping62 := mkFrame true 9 (Some k62) (bs "p").
Definition text62 := mkFrame true 1 (Some k62) (bs "hi").
Definition bin62 := mkFrame true 2 (Some k62) (bs "abc").
Definition close62 := mkFrame true 8 (Some k62) (network 2 4001 ++ bs "bye").
Example c62_example :
  let '(evs, z) := run62 [Receive; Send (WsAccept [(bs "X-A", bs "1"); (bs "Server", bs "evil")] (bs "chat")); Receive; Send (WsSend (bs "one") []); Send (WsSend [] [233]%N); Receive; Receive; Send (WsClose 1000); Send (WsSend (bs "late") []); Receive]
    [[]; wire L7 ping62 ++ firstn 3 (wire L7 text62); skipn 3 (wire L7 text62); wire L7 bin62 ++ wire L7 close62] [] in
  evs = [Connect; GotText [104; 105]%N; GotBytes (bs "abc"); Disconnected 4001; Disconnected 1005] /\
  queued z = [Some head62; None; Some (pong_of ping62); Some (map ascii_of_nat [130; 3]%nat ++ bs "one"); Some (map ascii_of_nat [129; 2; 195; 169]%nat); Some (map ascii_of_nat [136; 2; 3; 232]%nat); None].
Proof. vm_compute. split; reflexivity. Qed.
(** What c62_accept_partial asks of the headers; of the request, see c60_nonvacuous in T_Handshake.v. *)
Example c62_accept_example : let hs := [(bs "X-A", bs "1"); (bs "Server", bs "evil")] in Forall (fun h => plain_name (fst h)) hs /\ Forall lf_free hs /\ wants_close hs = false /\ one_line (bs "chat").
Proof.
  cbv zeta. split; [repeat (constructor; [split; [apply memb_notIn; reflexivity|vm_compute; discriminate]|]); constructor|].
  split; [repeat (constructor; [split; apply memb_notIn; reflexivity|]); constructor|]. split; [reflexivity|apply memb_notIn; reflexivity].
Qed.
Example c62_illegal_example : let sub := bs "chat" ++ CRLF ++ bs "Set-Cookie: a=1" in
  ~ (Forall lf_free [(bs "X-A", bs "1")] /\ one_line sub) /\
  queued (ws_send (mkEnv true (bs "GET") (bs "today") (bs "Tremolo")) (fun _ => None) (bs "oops") 16384 [] (ws_scope true None (fresh_reader (mkR [] 0 false false (-1) false 0))) (WsAccept [(bs "X-A", bs "1")] sub)) =
  [Some (head_of [bs "HTTP/1.1 500 Internal Server Error"; bs "Content-Type: text/html; charset=utf-8"; bs "Content-Length: 4"; bs "Connection: close"; bs "Date: today"; bs "Server: Tremolo"] ++ bs "oops"); None].
Proof. cbv zeta. split; [|vm_compute; reflexivity]. intros [_ H]. apply H. cbn. tauto. Qed.
(** The hypotheses of c62_talk_partial and c62_client_close are those of this session. *)
Example c62_talk_example : talk 100 [Receive; Send (WsSend (bs "one") []); Send (WsSend [] [233]%N); Receive]
  [mkUt [(L7, ping62)] L7 text62 (VStr [104; 105]%N); mkUt [] L7 bin62 (VBytes (bs "abc"))]
  [pong_of ping62; server_frame 2 (bs "one"); server_frame 1 (map ascii_of_nat [195; 169]%nat)].
Proof.
  apply (TalkHear 100 (mkUt [(L7, ping62)] L7 text62 (VStr [104; 105]%N)) _ _ [server_frame 2 (bs "one"); server_frame 1 (map ascii_of_nat [195; 169]%nat)]).
  - split; [|split; [repeat split; reflexivity|split; [easy|split; [split; reflexivity|discriminate]]]]. constructor; [|constructor]. split; [repeat split; reflexivity|]. split; [easy|]. cbn. split; [auto|lia].
  - constructor; [constructor; [discriminate|reflexivity]|]. constructor; [constructor; [discriminate|reflexivity|reflexivity]|].
    apply (TalkHear 100 (mkUt [] L7 bin62 (VBytes (bs "abc"))) [] [] []); [|constructor]. split; [constructor|split; [repeat split; reflexivity|split; [easy|split; [split; reflexivity|discriminate]]]].
Qed.
Definition z62 : session := ws_send e62 (fun _ => None) (bs "oops") 16384 h62 (ws_scope true None (r62 [[]; wire L7 ping62 ++ wire L7 text62; wire L7 bin62 ++ wire L7 close62] [])) (WsAccept [] []).
Example c62_open_example : is_open z62 /\ queued z62 = [Some bare62; None] /\ exists B, unread z62 (concat (map utterance_wire [mkUt [(L7, ping62)] L7 text62 (VStr [104; 105]%N); mkUt [] L7 bin62 (VBytes (bs "abc"))]) ++ B) [] /\ B = wire L7 close62 /\ frame_ok L7 close62.
Proof.
  split; [vm_compute; auto|]. split; [vm_compute; reflexivity|]. exists (wire L7 close62). split; [|split; [reflexivity|repeat split; reflexivity]].
  exists [[]; wire L7 ping62 ++ wire L7 text62; wire L7 bin62 ++ wire L7 close62]. split; [repeat split; vm_compute; auto|]. vm_compute. reflexivity.
Qed.

(** An empty message that the application sends is not sent. *)
Theorem c62_empty_refuted : exists z, is_open z /\ queued (ws_send e62 (fun _ => None) [] 1 h62 z (WsSend [] [])) = queued z.
Proof. exists z62. split; [vm_compute; auto|reflexivity]. Qed.
Print Assumptions c62_empty_refuted.
(** Without websocket.accept: what the application sends goes out as frames to a client that has not got a head; closing, too, where ASGI wants the handshake refused. *)
Theorem c62_unaccepted_refuted : queued (snd (run62 [Receive; Send (WsClose 1000)] [[]] [])) = [Some (server_frame 8 (network 2 1000)); None] /\
  queued (snd (run62 [Receive; Send (WsSend (bs "x") [])] [[]] [])) = [Some (server_frame 2 (bs "x"))].
Proof. vm_compute. split; reflexivity. Qed.
Print Assumptions c62_unaccepted_refuted.
(** A frame that is refused (too large, or of no known kind): the application receives websocket.disconnect with 1005, and the client no close frame (1009, 1008). *)
Theorem c62_refused_refuted :
  (let '(evs, z) := run62 [Send (WsAccept [] []); Receive] [[]; announce L64 true 2 true 101] [] in evs = [Disconnected 1005] /\ queued z = [Some bare62; None]) /\
  (let '(evs, z) := run62 [Send (WsAccept [] []); Receive] [[]; wire L7 (mkFrame true 3 (Some k62) (bs "x"))] [] in evs = [Disconnected 1005] /\ queued z = [Some bare62; None]).
Proof. vm_compute. repeat split; reflexivity. Qed.
Print Assumptions c62_refused_refuted.
(** The client closes, the application receives that and returns: nothing more is sent, neither a close frame nor the end of the connection. *)
Theorem c62_return_refuted : let '(evs, z) := run62 [Send (WsAccept [] []); Receive] [[]; wire L7 close62] [] in
  evs = [Disconnected 4001] /\ queued (ws_end e62 [] None z) = [Some bare62; None].
Proof. vm_compute. split; reflexivity. Qed.
Print Assumptions c62_return_refuted.
(** An application that gives Connection: close when it accepts: a 101 with Connection: close, and no session: it receives websocket.connect again. *)
Theorem c62_keep_refuted : let '(evs, z) := run62 [Send (WsAccept [(bs "Connection", bs "close")] []); Receive] [[]; wire L7 text62] [] in
  evs = [Connect] /\ exists lines, queued z = [Some (head_of (bs "HTTP/1.1 101 Switching Protocols" :: lines)); None] /\ In (bs "Connection: close") lines.
Proof.
  vm_compute run62. split; [reflexivity|]. exists [bs "Date: today"; bs "Server: Tremolo"; bs "Upgrade: websocket"; bs "Sec-WebSocket-Accept: s3pPLMBiTxaQ9kYGzzhZRbK+xOo="; bs "Connection: close"].
  split; [vm_compute; reflexivity|]. cbn [In]. tauto.
Qed.
Print Assumptions c62_keep_refuted.
