(** C61: a session on an upgraded connection. One connection under every schedule of its tasks, its transport and the handler of its first request, which
    upgrades it (accept() of a WebSocket: C60); the frames in these bytes are C24-C33. *)
From Verif Require Import PyBytes PyBytesFacts PyInt PyExn M_Parser M_Framing M_Conn S_Conn S_Upgrade P_Conn2 P_Conn7 P_Upgrade.

(** Partial: what the handler reads is what the client sends after the head, from its beginning, nothing left out, doubled or out of order, until the connection
    is lost; one handler is started; and what is written is what the handler puts, from its beginning. Missing: clients that do not wait for the answer, and
    handshakes that are not the first request of their connection (refuted below). *)
Theorem c61_stream_partial : forall o m tr s b, msg_ok o m -> m_has m = false -> conn_run o conn_new tr = Some (s, b) -> client_session o m tr -> handler_accepts tr ->
  ((starts b = [] /\ got 0 b = []) \/ (starts b = [(0, m_head m)] /\ is_prefix (m_head m ++ got 0 b) (input tr))) /\ is_prefix (written b) (puts 0 tr).
Proof. exact got_stream. Qed.
Print Assumptions c61_stream_partial.

(** Nothing is kept back: when no task can run, all that was put is written, the server waits for more, and the handler can read all that has come. *)
Theorem c61_delivered_partial : forall o m tr s b, msg_ok o m -> m_has m = false -> (-1 <= o_body o)%Z -> conn_run o conn_new tr = Some (s, b) -> c_closing s = false ->
  client_session o m tr -> handler_accepts tr -> In Ended b -> idle o s ->
  c_paused s = false /\ written b = puts 0 tr /\
  (~ In (HEnd 0) tr -> exists n s' b', conn_run o s (HRead 0 :: repeat (HTake 0) n) = Some (s', b') /\ m_head m ++ got 0 (b ++ b') = input tr).
Proof. exact session_delivered. Qed.
Print Assumptions c61_delivered_partial.

(** The connection stays open: until it is aborted or lost, the client sends eof, the receive queue overflows, or the handler closes its response once more
    (the first time is in accept()). *)
Theorem c61_open_partial : forall o m tr s b R, msg_ok o m -> m_has m = false -> parsed m = Some R -> rq_keepalive R = true -> (blen (m_head m) <= o_head o)%Z ->
  conn_run o conn_new tr = Some (s, b) -> client_session o m tr -> handler_accepts tr ->
  roomy o tr -> ~ In Abort tr -> ~ In Eof tr -> ~ In Lost tr -> ~ In (HClose 0 false) tr -> ended b <= 1 -> c_closing s = false.
Proof. exact stays_open. Qed.
Print Assumptions c61_open_partial.

(** The end of the session: when this second end of the response is taken, all that was put before it has been written, and the connection is closed. *)
Theorem c61_close_partial : forall o m tr s b kicked s' bx, msg_ok o m -> m_has m = false -> conn_run o conn_new tr = Some (s, b) -> c_closing s = false ->
  client_session o m tr -> handler_accepts tr -> ended b = 1 -> conn_step o s (RunSend kicked) = Some (s', bx) -> In Ended bx -> c_closing s' = true /\ written b = said 1 tr.
Proof. exact session_close. Qed.
Print Assumptions c61_close_partial.

(** ** Examples *)
Definition ln (x : String.string) : bytes := bs x ++ CRLF.
Definition ws_msg : msg := mkM (ln "GET /chat HTTP/1.1" ++ ln "Host: a" ++ ln "Upgrade: websocket" ++ ln "Connection: Upgrade, keep-alive" ++ ln "Sec-WebSocket-Key: k" ++ CRLF) false [].
Definition ws_opts : copts := mkO 8192 2097152 128 512 4.
(** The head in two segments, the answer, then two segments of frames, the first longer than buffer_size; the handler answers and closes. *)
Definition ws_open : list cev :=
  [Data (firstn 30 (m_head ws_msg)); Data (skipn 30 (m_head ws_msg)); RunHR 0; HUpgrade 0; HPut 0 (bs "101"); HClose 0 true; RunSend false; RunSend false;
   Data (bs "frames"); RunRcv 0; HRead 0; HTake 0; HTake 0; RunRcv 0; RunRcv 0; HPut 0 (bs "x"); Data (bs "more"); RunRcv 1; RunRcv 1; RunSend false].
Definition ws_end : list cev := ws_open ++ [HTake 0; HPut 0 (bs "bye"); HClose 0 true; RunSend false].
Lemma ws_msg_ok : msg_ok ws_opts ws_msg.
Proof. apply msg_b_ok. vm_compute. reflexivity. Qed.
Example c61_example : exists s b R, conn_run ws_opts conn_new ws_open = Some (s, b) /\ msg_ok ws_opts ws_msg /\ client_session ws_opts ws_msg ws_open /\ handler_accepts ws_open /\
  parsed ws_msg = Some R /\ rq_keepalive R = true /\ (blen (m_head ws_msg) <= o_head ws_opts)%Z /\ roomy ws_opts ws_open /\ ended b = 1 /\ In Ended b /\ idle ws_opts s /\ c_closing s = false /\
  got 0 b = bs "fram" /\ written b = bs "101x" /\ input ws_open = m_head ws_msg ++ bs "framesmore".
Proof.
  destruct (conn_run ws_opts conn_new ws_open) as [[s b]|] eqn:E; [|exfalso; revert E; vm_compute; discriminate]. exists s, b.
  assert (match conn_run ws_opts conn_new ws_open with Some (s, b) => (c_closing s, idle_b s, ended b, got 0 b, written b) = (false, true, 1, bs "fram", bs "101x") | None => False end) as F by (vm_compute; reflexivity). rewrite E in F.
  destruct (parsed ws_msg) as [R|] eqn:Pm; [|exfalso; revert Pm; vm_compute; discriminate]. exists R.
  assert (match parsed ws_msg with Some R => rq_keepalive R = true | None => False end) as K by (vm_compute; reflexivity). rewrite Pm in K.
  split; [reflexivity|]. split; [exact ws_msg_ok|]. split; [apply session_b_ok; vm_compute; reflexivity|]. split; [apply accepts_b_ok; vm_compute; reflexivity|]. split; [reflexivity|]. split; [exact K|]. split; [vm_compute; discriminate|].
  split; [apply roomy_b_ok; vm_compute; reflexivity|]. split; [congruence|]. split; [apply ended_in; assert (ended b = 1) as -> by congruence; discriminate|]. split; [apply idle_b_ok; congruence|]. split; [congruence|]. split; [congruence|]. split; [congruence|]. vm_compute. reflexivity.
Qed.
Lemma end_view o tr e v : match conn_run o conn_new tr with Some (s, b) => match conn_step o s e with Some (_, bx) => Some (c_closing s, ended b, written b, bx) | None => None end | None => None end = Some v ->
  exists s b s' bx, conn_run o conn_new tr = Some (s, b) /\ conn_step o s e = Some (s', bx) /\ (c_closing s, ended b, written b, bx) = v.
Proof.
  destruct (conn_run o conn_new tr) as [[s b]|] eqn:E; [|discriminate]. destruct (conn_step o s e) as [[s' bx]|] eqn:F; [|discriminate]. intros H. injection H as <-. now exists s, b, s', bx.
Qed.
Example c61_end_example : exists s b s' bx, conn_run ws_opts conn_new ws_end = Some (s, b) /\ c_closing s = false /\ client_session ws_opts ws_msg ws_end /\ handler_accepts ws_end /\ ended b = 1 /\
  conn_step ws_opts s (RunSend false) = Some (s', bx) /\ bx = [Ended] /\ written b = bs "101xbye".
Proof.
  destruct (end_view ws_opts ws_end (RunSend false) (false, 1, bs "101xbye", [Ended])) as (s & b & s' & bx & E & Es & F); [vm_compute; reflexivity|]. exists s, b, s', bx.
  split; [exact E|]. split; [congruence|]. split; [apply session_b_ok; vm_compute; reflexivity|]. split; [apply accepts_b_ok; vm_compute; reflexivity|]. split; [congruence|]. split; [exact Es|]. split; congruence.
Qed.

(** ** What fails *)
(** A handshake on a connection that has served a request before: the connection is closed with the answer (480-484: there is no _waiters['request'] any more). *)
Definition plain_msg : msg := mkM (ln "GET / HTTP/1.1" ++ ln "Host: a" ++ CRLF) false [].
Definition second_run : list cev :=
  [Data (m_head plain_msg); RunHR 0; HPut 0 (bs "200"); HClose 0 true; RunSend false; RunSend false; HEnd 0;
   Data (m_head ws_msg); RunHR 1; HUpgrade 1; HPut 1 (bs "101"); HClose 1 true; RunSend false; RunSend false].
Theorem c61_second_refuted : exists o m1 m2 tr s b, msg_ok o m1 /\ msg_ok o m2 /\ conn_run o conn_new tr = Some (s, b) /\ client_waits o [m1; m2] tr /\
  ~ In Abort tr /\ ~ In Eof tr /\ ~ In Lost tr /\ ~ In (HClose 1 false) tr /\ closers tr = [0; 1] /\ In (HUpgrade 1) tr /\ written b = bs "200101" /\ c_closing s = true.
Proof.
  exists ws_opts, plain_msg, ws_msg, second_run. destruct (conn_run ws_opts conn_new second_run) as [[s b]|] eqn:E; [|exfalso; revert E; vm_compute; discriminate]. exists s, b.
  assert (match conn_run ws_opts conn_new second_run with Some (s, b) => (c_closing s, written b) = (true, bs "200101") | None => False end) as F by (vm_compute; reflexivity). rewrite E in F.
  split; [apply msg_b_ok; vm_compute; reflexivity|]. split; [exact ws_msg_ok|]. split; [reflexivity|]. split; [apply waits_b_ok; vm_compute; reflexivity|].
  assert (forallb (fun e => match e with Abort | Eof | Lost | HClose 1 false => false | _ => true end) second_run = true) as N by (vm_compute; reflexivity).
  do 4 (split; [intros X; apply (proj1 (forallb_forall _ _) N) in X; discriminate X|]). split; [vm_compute; reflexivity|]. split; [do 9 right; now left|]. split; congruence.
Qed.
Print Assumptions c61_second_refuted.

(** A client that sends frames before it has the answer: the handler reads them out of order (402, 482: the frames that come after the answer no longer wait for
    those that came before it). *)
Definition early_run : list cev :=
  [Data (m_head ws_msg ++ bs "1"); RunHR 0; RunHR 0; Data (bs "abcdef"); RunRcv 0; HUpgrade 0; HPut 0 (bs "101"); HClose 0 true; RunSend false; RunSend false;
   Data (bs "X"); RunRcv 1; RunRcv 0; HRead 0; HTake 0; HTake 0; HTake 0; HTake 0; HTake 0].
Theorem c61_early_refuted : exists o m tr s b, msg_ok o m /\ m_has m = false /\ conn_run o conn_new tr = Some (s, b) /\ c_closing s = false /\ handler_accepts tr /\ roomy o tr /\
  input tr = m_head m ++ bs "1abcdefX" /\ got 0 b = bs "1abcdXef".
Proof.
  exists ws_opts, ws_msg, early_run. destruct (conn_run ws_opts conn_new early_run) as [[s b]|] eqn:E; [|exfalso; revert E; vm_compute; discriminate]. exists s, b.
  assert (match conn_run ws_opts conn_new early_run with Some (s, b) => (c_closing s, got 0 b) = (false, bs "1abcdXef") | None => False end) as F by (vm_compute; reflexivity). rewrite E in F.
  split; [exact ws_msg_ok|]. split; [reflexivity|]. split; [reflexivity|]. split; [congruence|]. split; [apply accepts_b_ok; vm_compute; reflexivity|]. split; [apply roomy_b_ok; vm_compute; reflexivity|]. split; [vm_compute; reflexivity|congruence].
Qed.
Print Assumptions c61_early_refuted.
