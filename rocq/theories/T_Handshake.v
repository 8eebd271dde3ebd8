(** C60: the opening handshake of WebSocket sessions. [start e pre keep] is the response after header calls [pre] of the server and the
    handler (S_Calls.v); the items put on the send queue are [r_out]. *)
From Verif Require Import PyBytes PyBytesFacts PyInt PyExn PyUrl PySha1 M_Response S_Response S_Calls S_Handshake M_Handshake P_Handshake.
From Verif Require Import M_Parser M_Framing S_Head.
Import M_Response.

(** Partial: a request that [asks] for a WebSocket and is kept alive is given one, and accept() sends exactly one head that the client takes
    for an acceptance of its key, with the header lines set before and no others; the request is upgraded then. [None]: the end of the
    response, which an upgraded connection outlives. Missing: requests that are not to be kept alive, repeated fields and lists of
    protocols (refuted below). *)
Theorem c60_handshake_partial : forall e method url version fields body hmax excludes ml mls r0 r key pre stored,
  good_head method url version fields hmax ml mls ->
  request_init (parse_header (S_Head.head_bytes method url version fields ++ body) (-1) hmax excludes ml mls) = Ok r0 -> frame r0 = Ok r ->
  e_11 e = beqb (rq_version r) (bs "1.1") -> asks fields key -> rq_keepalive r = true ->
  Forall appends_clean pre -> Forall name_ok pre -> Forall unreserved pre ->
  r_headers (start e pre (rq_keepalive r)) = Some stored ->
  ws_offered true (rq_headers r) = Ok true /\
  exists s' first sent, accept e (rq_headers r) (start e pre (rq_keepalive r)) = (Ok tt, s') /\
    r_out s' = [Some (head_of (first :: concat (map snd sent))); None] /\
    is_accepted (rq_version r) key first (concat (map snd sent)) /\
    Forall one_line (first :: concat (map snd sent)) /\
    NoDup (map fst sent) /\ (forall k, ~ In k handshake_names -> dget beqb k sent = dget beqb k stored) /\
    r_up s' = true /\ r_keep s' = true.
Proof. exact c60_main. Qed.
Print Assumptions c60_handshake_partial.

(** The example of RFC 6455, section 1.2 and 1.3. *)
Definition rfc_fields : list field :=
  [(bs "Host", bs "server.example.com"); (bs "Upgrade", bs "WebSocket"); (bs "Connection", bs "keep-alive, Upgrade");
   (bs "Sec-WebSocket-Key", bs "dGhlIHNhbXBsZSBub25jZQ=="); (bs "Origin", bs "http://example.com");
   (bs "Sec-WebSocket-Protocol", bs "chat, superchat"); (bs "Sec-WebSocket-Version", bs "13")].
Definition ws_request (method version : bytes) (fields : list field) : res hreq :=
  let! r := request_init (parse_header (S_Head.head_bytes method (bs "/chat") version fields) (-1) 8192 [] 100 8190) in frame r.
Definition ws_env (r : hreq) : renv := mkEnv (beqb (rq_version r) (bs "1.1")) (rq_method r) (bs "Thu, 01 Jan 1970 00:00:00 GMT") (bs "Tremolo").
(** What is sent when the handler accepts, and whether the request is upgraded. *)
Definition answer (x : res hreq) : option (res bool * list (option bytes) * bool) :=
  match x with
  | Ok r => let '(y, s) := accept (ws_env r) (rq_headers r) (start (ws_env r) [HBase] (rq_keepalive r)) in
            Some (ws_offered true (rq_headers r), r_out s, r_up s)
  | Raise _ => None
  end.
Example c60_nonvacuous : good_head (bs "GET") (bs "/chat") (bs "1.1") rfc_fields 8192 100 8190 /\
  asks rfc_fields (bs "dGhlIHNhbXBsZSBub25jZQ==") /\
  accept_value (bs "dGhlIHNhbXBsZSBub25jZQ==") = bs "s3pPLMBiTxaQ9kYGzzhZRbK+xOo=" /\
  option_map rq_keepalive (match ws_request (bs "GET") (bs "1.1") rfc_fields with Ok r => Some r | Raise _ => None end) = Some true.
Proof.
  split.
  - split; [vm_compute; intuition discriminate|]. split; [vm_compute; intuition discriminate|].
    split; [reflexivity|]. split; [repeat constructor; vm_compute; intuition discriminate|].
    split; [repeat constructor; vm_compute; intuition discriminate|]. split; [cbn; lia|].
    split; [repeat constructor; vm_compute; discriminate|]. vm_compute; discriminate.
  - split; [split; [exists (bs "WebSocket"); split; reflexivity|split; [vm_compute; discriminate|reflexivity]]|].
    split; vm_compute; reflexivity.
Qed.
Example c60_example : answer (ws_request (bs "GET") (bs "1.1") rfc_fields) = Some (Ok true,
  [Some (head_of [bs "HTTP/1.1 101 Switching Protocols"; bs "Date: Thu, 01 Jan 1970 00:00:00 GMT"; bs "Server: Tremolo"; bs "Upgrade: websocket";
                  bs "Sec-WebSocket-Accept: s3pPLMBiTxaQ9kYGzzhZRbK+xOo="; bs "Connection: upgrade"]); None], true).
Proof. vm_compute. reflexivity. Qed.

(** A request that lacks one of the fields, asks for another protocol, or comes to a server with ws=False, is served as a plain request. *)
Theorem c60_plain : forall method url version fields body hmax excludes ml mls r0 r ws,
  good_head method url version fields hmax ml mls ->
  request_init (parse_header (S_Head.head_bytes method url version fields ++ body) (-1) hmax excludes ml mls) = Ok r0 -> frame r0 = Ok r ->
  (ws = false \/ values (bs "upgrade") fields = [] \/ values (bs "connection") fields = [] \/ values (bs "sec-websocket-key") fields = [] \/
   exists u, values (bs "upgrade") fields = [u] /\ lower u <> bs "websocket") ->
  ws_offered ws (rq_headers r) = Ok false.
Proof. intros m u v f b hm ex ml mls r0 r ws G I F. exact (not_offered_main f ws _ (proj2 (head_values m u v f b hm ex ml mls r0 r G I F))). Qed.
Print Assumptions c60_plain.
Example c60_plain_example : match ws_request (bs "GET") (bs "1.1") [(bs "Host", bs "a"); (bs "Upgrade", bs "h2c"); (bs "Connection", bs "Upgrade"); (bs "Sec-WebSocket-Key", bs "k")]
  with Ok r => ws_offered true (rq_headers r) | Raise e => Raise e end = Ok false.
Proof. vm_compute. reflexivity. Qed.

(** A handshake whose Connection field also has close is answered by 101 with Connection: close, and not upgraded. *)
Theorem c60_close_refuted : exists fields key first rest,
  asks fields key /\
  answer (ws_request (bs "GET") (bs "1.1") fields) = Some (Ok true, [Some (head_of (first :: rest)); None], false) /\
  first = bs "HTTP/1.1 101 Switching Protocols" /\ In (bs "Connection: close") rest.
Proof.
  exists [(bs "Host", bs "a"); (bs "Upgrade", bs "websocket"); (bs "Connection", bs "Upgrade, close"); (bs "Sec-WebSocket-Key", bs "k")], (bs "k").
  exists (bs "HTTP/1.1 101 Switching Protocols").
  exists [bs "Date: Thu, 01 Jan 1970 00:00:00 GMT"; bs "Server: Tremolo"; bs "Upgrade: websocket"; bs "Sec-WebSocket-Accept: " ++ accept_value (bs "k"); bs "Connection: close"].
  split; [split; [exists (bs "websocket"); split; reflexivity|split; [vm_compute; discriminate|reflexivity]]|].
  split; [vm_compute; reflexivity|]. split; [reflexivity|]. cbn [In]. tauto.
Qed.
Print Assumptions c60_close_refuted.

(** A list of protocols that has websocket, as RFC 6455 allows, gets no WebSocket; a repeated Upgrade field raises while the request is
    routed, a repeated key when it is accepted. *)
Theorem c60_lists_refuted :
  (exists r, ws_request (bs "GET") (bs "1.1") [(bs "Host", bs "a"); (bs "Upgrade", bs "websocket, h2c"); (bs "Connection", bs "Upgrade"); (bs "Sec-WebSocket-Key", bs "k")] = Ok r /\
     ws_offered true (rq_headers r) = Ok false) /\
  (exists r, ws_request (bs "GET") (bs "1.1") [(bs "Host", bs "a"); (bs "Upgrade", bs "websocket"); (bs "Upgrade", bs "h2c"); (bs "Connection", bs "Upgrade"); (bs "Sec-WebSocket-Key", bs "k")] = Ok r /\
     ws_offered true (rq_headers r) = Raise AttributeError) /\
  (exists r, ws_request (bs "GET") (bs "1.1") [(bs "Host", bs "a"); (bs "Upgrade", bs "websocket"); (bs "Connection", bs "Upgrade"); (bs "Sec-WebSocket-Key", bs "k"); (bs "Sec-WebSocket-Key", bs "l")] = Ok r /\
     ws_offered true (rq_headers r) = Ok true /\ fst (accept (ws_env r) (rq_headers r) (start (ws_env r) [HBase] true)) = Raise TypeError).
Proof.
  split; [eexists; split; vm_compute; reflexivity|]. split; [eexists; split; vm_compute; reflexivity|].
  eexists. split; [vm_compute; reflexivity|]. split; vm_compute; reflexivity.
Qed.
Print Assumptions c60_lists_refuted.

(** What is not a handshake of RFC 6455 is accepted too: any method and version of HTTP, any Connection field, any key, no Sec-WebSocket-Version. *)
Theorem c60_loose_refuted : exists fields rest,
  values (bs "sec-websocket-version") fields = [] /\ values (bs "connection") fields = [bs "keep-alive"] /\
  answer (ws_request (bs "PUT") (bs "1.0") fields) = Some (Ok true, [Some (head_of (bs "HTTP/1.0 101 Switching Protocols" :: rest)); None], true).
Proof.
  exists [(bs "Upgrade", bs "websocket"); (bs "Connection", bs "keep-alive"); (bs "Sec-WebSocket-Key", bs "k")].
  exists [bs "Date: Thu, 01 Jan 1970 00:00:00 GMT"; bs "Server: Tremolo"; bs "Upgrade: websocket"; bs "Sec-WebSocket-Accept: " ++ accept_value (bs "k"); bs "Connection: upgrade"].
  split; [reflexivity|]. split; [reflexivity|]. vm_compute. reflexivity.
Qed.
Print Assumptions c60_loose_refuted.
