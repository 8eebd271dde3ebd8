(** C45, C46: the requests of one connection. *)
From Verif Require Import PyBytes PyBytesFacts PyInt PyExn M_Parser M_Framing M_Conn S_Conn P_Conn2 P_Conn3 P_Conn5 P_Conn6 P_Conn7 P_Conn9 P_Conn10.

Lemma waits_ok o M tr : client_waits o M tr -> client_ok o M tr.
Proof. intros H pre d post s b E R. destruct (H pre d post s b E R) as (j & P & L). exists j. split; [exact P|]. intros i m L1 L2. lia. Qed.

(** The client sends each request after the response to the one before, in any segments; any number of requests, any schedule of the tasks, any contents of
    the bodies. Each handler reads the body of its request before it closes the response. Then a handler reads bytes of its own request's body only, in
    order, and all of them if it reads up to the end; and the handlers that are started are those of the requests the client sent: no byte of a body is
    taken for a head.
    Partial: a handler that does not read the body, and a client that does not wait, see the refutations below; so for a receive task that has not ended
    when the response to a chunked request does ([calm]); as long as the connection is open. *)
Theorem c45_bodies_partial : forall o M tr s b, opts_ok o -> Forall (msg_ok o) M -> conn_run o conn_new tr = Some (s, b) -> c_closing s = false ->
  client_waits o M tr -> calm o M tr -> handlers_ok o M tr ->
  (forall i m, nth_error M i = Some m -> is_prefix (got i b) (m_body m) /\ (In (Got i None) b -> got i b = m_body m)) /\
  (exists k, k <= List.length M /\ starts b = combine (seq 0 k) (map m_head M)).
Proof.
  intros o M tr s b Oo Mo R Cl Hw Hm Hh. destruct (run_inv o M Mo Oo tr s b R Cl (waits_ok _ _ _ Hw) Hh (or_intror (conj Hw Hm))) as (k & n & C & _). split; [apply (cm_got _ _ _ _ _ _ C)|]. exists k. split; [apply (cm_k _ _ _ _ _ _ C)|apply (cm_starts _ _ _ _ _ _ C)].
Qed.
Print Assumptions c45_bodies_partial.

(** The same for a client that sends body-less requests, and one request after them, without waiting; if no data is still on its way into the queue when
    the end of a response is taken. *)
Theorem c45_pipelined_partial : forall o M tr s b, opts_ok o -> Forall (msg_ok o) M -> conn_run o conn_new tr = Some (s, b) -> c_closing s = false ->
  client_ok o M tr -> handlers_ok o M tr -> settled o tr ->
  forall i m, nth_error M i = Some m -> is_prefix (got i b) (m_body m) /\ (In (Got i None) b -> got i b = m_body m).
Proof.
  intros o M tr s b Oo Mo R Cl Hw Hh Hs. destruct (run_inv o M Mo Oo tr s b R Cl Hw Hh (or_introl Hs)) as (k & n & C & _). apply (cm_got _ _ _ _ _ _ C).
Qed.
Print Assumptions c45_pipelined_partial.

(** Requests sent back to back: the handlers start in the order of the requests, each once, and each after the end of the response before it.
    Partial: [settled]; as long as the connection is open. *)
Theorem c46_order_partial : forall o M tr s b, opts_ok o -> Forall (msg_ok o) M -> conn_run o conn_new tr = Some (s, b) -> c_closing s = false ->
  client_ok o M tr -> handlers_ok o M tr -> settled o tr ->
  (exists k, k <= List.length M /\ starts b = combine (seq 0 k) (map m_head M)) /\ alternate true (marks b).
Proof.
  intros o M tr s b Oo Mo R Cl Hw Hh Hs. destruct (run_inv o M Mo Oo tr s b R Cl Hw Hh (or_introl Hs)) as (k & n & C & P & _). split; [|exact (phase_alternate M _ _ _ _ _ P)]. exists k. split; [apply (cm_k _ _ _ _ _ _ C)|apply (cm_starts _ _ _ _ _ _ C)].
Qed.
Print Assumptions c46_order_partial.

(** None of them is lost: when the client has sent all of them and nothing is left to do, the handlers of all of them were started and all responses ended. *)
Theorem c46_complete_partial : forall o M tr s b, opts_ok o -> Forall (msg_ok o) M -> conn_run o conn_new tr = Some (s, b) -> c_closing s = false ->
  client_ok o M tr -> handlers_ok o M tr -> settled o tr -> input tr = List.concat (map wire M) -> quiet o tr s b ->
  starts b = combine (seq 0 (List.length M)) (map m_head M) /\ ended b = List.length M.
Proof.
  intros o M tr s b Oo Mo R Cl Hw Hh Hs E Q. apply (complete o M Mo tr s b (closers tr) (askers tr) (input tr)); try assumption; [|reflexivity]. exact (run_inv o M Mo Oo tr s b R Cl Hw Hh (or_introl Hs)).
Qed.
Print Assumptions c46_complete_partial.
(** The same for a client that waits: [settled] is needed only for requests with chunked bodies. *)
Theorem c46_waiting_partial : forall o M tr s b, opts_ok o -> Forall (msg_ok o) M -> conn_run o conn_new tr = Some (s, b) -> c_closing s = false ->
  client_waits o M tr -> calm o M tr -> handlers_ok o M tr ->
  alternate true (marks b) /\ (input tr = List.concat (map wire M) -> quiet o tr s b -> starts b = combine (seq 0 (List.length M)) (map m_head M) /\ ended b = List.length M).
Proof.
  intros o M tr s b Oo Mo R Cl Hw Hm Hh. pose proof (run_inv o M Mo Oo tr s b R Cl (waits_ok _ _ _ Hw) Hh (or_intror (conj Hw Hm))) as I. split.
  - destruct I as (k & n & _ & P & _). exact (phase_alternate M _ _ _ _ _ P).
  - intros E Q. now apply (complete o M Mo tr s b (closers tr) (askers tr) (input tr)).
Qed.
Print Assumptions c46_waiting_partial.

(** The bytes written between the end of response i - 1 and the end of response i are those that the handler of request i put into its response, all of
    them, in order; if a handler puts nothing after it closed its response. For a request that expects a 100-continue, see C59 (T_Continue).
    Partial: as above ([settled] or a client that waits); as long as the connection is open. *)
Theorem c46_responses_partial : forall o M tr s b, opts_ok o -> Forall (msg_ok o) M -> conn_run o conn_new tr = Some (s, b) -> c_closing s = false ->
  client_ok o M tr -> handlers_ok o M tr -> settled o tr \/ (client_waits o M tr /\ calm o M tr) -> tidy tr ->
  forall i m, i < ended b -> nth_error M i = Some m -> expects m = false -> out i b = puts i tr.
Proof.
  intros o M tr s b Oo Mo R Cl Hw Hh Hs Td i m Hi Em Ex. destruct (run_layers o M Mo Oo tr s b R Cl Hw Hh Hs) as (_ & _ & L). destruct (lw_old _ _ _ _ (L Td) i Hi) as [-> _]. unfold response. rewrite Em, Ex. apply answer_puts.
Qed.
Print Assumptions c46_responses_partial.

(** The server does not stop to read for nothing: when no task can run and reading is paused, a handler was started and has not closed its response, and it
    is one without a body, or it has seen the end of its body, or there is an item for it in the queue. *)
Theorem c45_progress_partial : forall o M tr s b, opts_ok o -> Forall (msg_ok o) M -> conn_run o conn_new tr = Some (s, b) -> c_closing s = false ->
  client_ok o M tr -> handlers_ok o M tr -> settled o tr \/ (client_waits o M tr /\ calm o M tr) -> idle o s ->
  c_paused s = false \/ exists i m, nth_error M i = Some m /\ In (Started i (m_head m)) b /\ ended b = i /\ ~ In i (closers tr) /\ (m_has m = false \/ In (Got i None) b \/ c_q0 s <> []).
Proof. intros o M tr s b Oo Mo. exact (progress o M Mo Oo tr s b). Qed.
Print Assumptions c45_progress_partial.

(** No part of a body is kept back: when all bytes of the first i + 1 requests have come, the handler of request i runs and no task can run, then it has seen
    the end of its body, or it can go on reading, without waiting, and gets the whole body and its end; if the body is chunked, the whole of it, the last chunk included. *)
Theorem c45_delivered_partial : forall o M tr s b i m, opts_ok o -> Forall (msg_ok o) M -> conn_run o conn_new tr = Some (s, b) -> c_closing s = false ->
  client_ok o M tr -> handlers_ok o M tr -> settled o tr \/ (client_waits o M tr /\ calm o M tr) -> idle o s ->
  nth_error M i = Some m -> m_has m = true -> In (Started i (m_head m)) b -> ~ In (HEnd i) tr -> is_prefix (List.concat (map wire (firstn (S i) M))) (input tr) -> (blen (m_body m) <= o_body o)%Z ->
  read_all i m b \/ exists n s' b', conn_run o s (HRead i :: repeat (HTake i) n) = Some (s', b') /\ got i (b ++ b') = m_body m /\ read_all i m (b ++ b').
Proof. intros o M tr s b i m Oo Mo. exact (delivered o M Mo Oo tr s b i m). Qed.
Print Assumptions c45_delivered_partial.

(** ** Examples *)
Definition line (x : String.string) : bytes := bs x ++ CRLF.
Definition conn_opts : copts := mkO 8192 2097152 128 512 512.
Definition a_get (x : String.string) : msg := mkM (line ("GET /" ++ x ++ " HTTP/1.1") ++ line "Host: a" ++ CRLF) false [].
Definition a_post (x n : String.string) (b : bytes) : msg := mkM (line ("POST /" ++ x ++ " HTTP/1.1") ++ line "Host: a" ++ line ("Content-Length: " ++ n) ++ CRLF) true b.
Definition done (o : copts) (tr : list cev) : option (conn * list obs) := conn_run o conn_new tr.
Definition all_waits (o : copts) (M : list msg) (tr : list cev) : bool := forallb (msg_b o) M && waits_b o M tr && handlers_b o M tr.
Definition all_pipes (o : copts) (M : list msg) (tr : list cev) : bool := forallb (msg_b o) M && pipes_b o M tr && handlers_b o M tr && settled_b o tr.

(** Two uploads and a request without a body, one after the other; the first body comes in two segments. *)
Definition uploads : list msg := [a_post "a" "11" (bs "hello world"); a_get "b"; a_post "c" "2" (bs "ok")].
Definition uploads_run : list cev :=
  let w i := wire (nth i uploads (a_get "")) in
  [Data (firstn 54 (w 0)); RunHR 0; RunHR 0; HRead 0; HTake 0; Data (skipn 54 (w 0)); RunRcv 0; HPut 0 (bs "1"); RunRcv 0; HTake 0; HTake 0; HClose 0 true; RunSend false; RunSend false; HEnd 0;
   Data (firstn 10 (w 1)); Data (skipn 10 (w 1)); RunHR 1; HPut 1 (bs "2"); HClose 1 true; RunSend false; RunSend false;
   Data (w 2); RunHR 2; RunHR 2; HRead 2; HTake 2; HTake 2; HClose 2 true; RunSend false].
Example c45_example : exists s b, conn_run conn_opts conn_new uploads_run = Some (s, b) /\ c_closing s = false /\ opts_ok conn_opts /\ Forall (msg_ok conn_opts) uploads /\
  client_waits conn_opts uploads uploads_run /\ calm conn_opts uploads uploads_run /\ handlers_ok conn_opts uploads uploads_run /\
  got 0 b = bs "hello world" /\ got 2 b = bs "ok" /\ starts b = [(0, m_head (a_post "a" "11" [])); (1, m_head (a_get "b")); (2, m_head (a_post "c" "2" []))].
Proof.
  destruct (conn_run conn_opts conn_new uploads_run) as [[s b]|] eqn:E; [|exfalso; revert E; vm_compute; discriminate]. exists s, b.
  assert (all_waits conn_opts uploads uploads_run = true) as A by (vm_compute; reflexivity). apply andb_prop in A as [A A3]. apply andb_prop in A as [A1 A2].
  assert (match conn_run conn_opts conn_new uploads_run with Some (s, b) => (c_closing s, got 0 b, got 2 b, starts b) = (false, bs "hello world", bs "ok", [(0, m_head (a_post "a" "11" [])); (1, m_head (a_get "b")); (2, m_head (a_post "c" "2" []))]) | None => False end) as F by (vm_compute; reflexivity).
  rewrite E in F. split; [reflexivity|]. split; [congruence|]. split; [split; apply Nat.ltb_lt; reflexivity|]. split; [now apply msgs_b_ok|]. split; [now apply waits_b_ok|]. split; [apply counted_b_ok; vm_compute; reflexivity|]. split; [now apply handlers_b_ok|]. repeat split; congruence.
Qed.

(** A chunked upload in two segments, an upload with Content-Length and a request without a body, one after the other. The handler of the first stops reading after the last chunk. *)
Definition in_chunks (x : String.string) (b : bytes) : msg := mkM (line ("POST /" ++ x ++ " HTTP/1.1") ++ line "Host: a" ++ line "Transfer-Encoding: chunked" ++ CRLF) true b.
Definition some_chunks : bytes := line "5" ++ line "hello" ++ line "6" ++ line " world" ++ line "0" ++ CRLF.
Definition chunked_calls : list msg := [in_chunks "a" some_chunks; a_post "b" "2" (bs "ok"); a_get "c"].
Definition chunked_run : list cev :=
  let w i := wire (nth i chunked_calls (a_get "")) in
  [Data (firstn 75 (w 0)); RunHR 0; RunHR 0; HRead 0; HTake 0; Data (skipn 75 (w 0)); RunRcv 0; HPut 0 (bs "1"); HTake 0; RunRcv 0; HClose 0 true; RunSend false; RunSend false; HEnd 0;
   Data (w 1); RunHR 1; RunHR 1; HRead 1; HTake 1; HTake 1; HPut 1 (bs "2"); HClose 1 true; RunSend false; RunSend false;
   Data (w 2); RunHR 2; HPut 2 (bs "3"); HClose 2 true; RunSend false; RunSend false].
Example c45_chunked_example : exists s b, conn_run conn_opts conn_new chunked_run = Some (s, b) /\ c_closing s = false /\ Forall (msg_ok conn_opts) chunked_calls /\ map counted chunked_calls = [false; true; false] /\
  client_waits conn_opts chunked_calls chunked_run /\ calm conn_opts chunked_calls chunked_run /\ handlers_ok conn_opts chunked_calls chunked_run /\ tidy chunked_run /\
  got 0 b = some_chunks /\ got 1 b = bs "ok" /\ starts b = combine [0; 1; 2] (map m_head chunked_calls) /\ ended b = 3 /\ map (fun i => out i b) [0; 1; 2] = [bs "1"; bs "2"; bs "3"].
Proof.
  destruct (conn_run conn_opts conn_new chunked_run) as [[s b]|] eqn:E; [|exfalso; revert E; vm_compute; discriminate]. exists s, b.
  assert (all_waits conn_opts chunked_calls chunked_run = true) as A by (vm_compute; reflexivity). apply andb_prop in A as [A A3]. apply andb_prop in A as [A1 A2].
  assert (match conn_run conn_opts conn_new chunked_run with Some (s, b) => (c_closing s, got 0 b, got 1 b, starts b, ended b, map (fun i => out i b) [0; 1; 2]) = (false, some_chunks, bs "ok", combine [0; 1; 2] (map m_head chunked_calls), 3, [bs "1"; bs "2"; bs "3"]) | None => False end) as F by (vm_compute; reflexivity).
  rewrite E in F. split; [reflexivity|]. split; [congruence|]. split; [now apply msgs_b_ok|]. split; [vm_compute; reflexivity|]. split; [now apply waits_b_ok|]. split; [apply calm_b_ok; vm_compute; reflexivity|]. split; [now apply handlers_b_ok|].
  split; [apply tidy_b_ok; vm_compute; reflexivity|]. repeat (split; [congruence|]). congruence.
Qed.
(** What was written in the run of [c45_example]. *)
Example c46_responses_example : exists s b, conn_run conn_opts conn_new uploads_run = Some (s, b) /\ tidy uploads_run /\ Forall (fun m => expects m = false) uploads /\ ended b = 3 /\ out 0 b = bs "1" /\ puts 0 uploads_run = bs "1" /\ out 1 b = bs "2" /\ puts 1 uploads_run = bs "2".
Proof.
  destruct (conn_run conn_opts conn_new uploads_run) as [[s b]|] eqn:E; [|exfalso; revert E; vm_compute; discriminate]. exists s, b.
  assert (match conn_run conn_opts conn_new uploads_run with Some (s, b) => (ended b, out 0 b, out 1 b) = (3, bs "1", bs "2") | None => False end) as F by (vm_compute; reflexivity). rewrite E in F.
  split; [reflexivity|]. split; [apply tidy_b_ok; vm_compute; reflexivity|]. split; [repeat (constructor; [vm_compute; reflexivity|]); constructor|]. repeat split; congruence || (vm_compute; reflexivity).
Qed.
(** The first upload, before its handler reads: all has come, reading is paused. *)
Definition upload_run : list cev := let w := wire (nth 0 uploads (a_get "")) in [Data (firstn 54 w); RunHR 0; RunHR 0; Data (skipn 54 w); RunRcv 0; RunRcv 0].
Example c45_delivered_example : exists s b, conn_run conn_opts conn_new upload_run = Some (s, b) /\ c_closing s = false /\ c_paused s = true /\ client_waits conn_opts uploads upload_run /\ handlers_ok conn_opts uploads upload_run /\
  idle conn_opts s /\ In (Started 0 (m_head (a_post "a" "11" []))) b /\ ~ In (HEnd 0) upload_run /\ is_prefix (List.concat (map wire (firstn 1 uploads))) (input upload_run) /\ (11 <= o_body conn_opts)%Z /\ ~ In (Got 0 None) b.
Proof.
  destruct (conn_run conn_opts conn_new upload_run) as [[s b]|] eqn:E; [|exfalso; revert E; vm_compute; discriminate]. exists s, b.
  assert (match conn_run conn_opts conn_new upload_run with Some (s, b) => (c_closing s, c_paused s, idle_b s, b) = (false, true, true, [Started 0 (m_head (a_post "a" "11" []))]) | None => False end) as F by (vm_compute; reflexivity). rewrite E in F.
  assert (b = [Started 0 (m_head (a_post "a" "11" []))]) as Eb by congruence.
  split; [reflexivity|]. split; [congruence|]. split; [congruence|]. split; [apply waits_b_ok; vm_compute; reflexivity|]. split; [apply handlers_b_ok; vm_compute; reflexivity|]. split; [apply idle_b_ok; congruence|]. rewrite Eb.
  split; [now left|]. split; [intros H; repeat (destruct H as [H|H]; [discriminate H|]); exact H|]. split; [apply prefix_b_ok; vm_compute; reflexivity|]. split; [vm_compute; discriminate|]. intros [H|[]]. discriminate H.
Qed.

(** Three requests in one segment; the handler of the second one asks for its body once. *)
Definition pipeline : list msg := [a_get "1"; a_get "2"; a_get "3"].
Definition pipeline_run : list cev :=
  [Data (List.concat (map wire pipeline)); RunHR 0; RunHR 0; HPut 0 (bs "1"); HClose 0 true; RunSend false; RunSend false;
   RunHR 1; RunHR 1; HRead 1; HTake 1; HPut 1 (bs "2"); HClose 1 true; RunSend false; RunSend false; RunHR 2; HClose 2 true; RunSend false].
Example c46_example : exists s b, conn_run conn_opts conn_new pipeline_run = Some (s, b) /\ c_closing s = false /\ Forall (msg_ok conn_opts) pipeline /\
  client_ok conn_opts pipeline pipeline_run /\ handlers_ok conn_opts pipeline pipeline_run /\ settled conn_opts pipeline_run /\ input pipeline_run = List.concat (map wire pipeline) /\
  quiet conn_opts pipeline_run s b /\ starts b = [(0, m_head (a_get "1")); (1, m_head (a_get "2")); (2, m_head (a_get "3"))] /\ ended b = 3.
Proof.
  destruct (conn_run conn_opts conn_new pipeline_run) as [[s b]|] eqn:E; [|exfalso; revert E; vm_compute; discriminate]. exists s, b.
  assert (all_pipes conn_opts pipeline pipeline_run = true) as A by (vm_compute; reflexivity). apply andb_prop in A as [A A4]. apply andb_prop in A as [A A3]. apply andb_prop in A as [A1 A2].
  assert (match conn_run conn_opts conn_new pipeline_run with Some (s, b) => (c_closing s, c_hrs s, c_rcv s, c_q1 s, starts b, ended b) = (false, [HOver; HOver; HOver], [], [], [(0, m_head (a_get "1")); (1, m_head (a_get "2")); (2, m_head (a_get "3"))], 3) | None => False end) as F by (vm_compute; reflexivity).
  rewrite E in F. assert (c_hrs s = [HOver; HOver; HOver]) as F2 by congruence. assert (c_rcv s = []) as F3 by congruence. assert (c_q1 s = []) as F4 by congruence. assert (starts b = [(0, m_head (a_get "1")); (1, m_head (a_get "2")); (2, m_head (a_get "3"))]) as F5 by congruence.
  split; [reflexivity|]. split; [congruence|]. split; [now apply msgs_b_ok|]. split; [now apply pipes_b_ok|]. split; [now apply handlers_b_ok|]. split; [now apply settled_b_ok|]. split; [vm_compute; reflexivity|]. split; [|split; congruence].
  split; [|split; [|split]].
  - intros j. unfold conn_step. rewrite F2. destruct (c_lost s); [reflexivity|]. destruct j as [|[|[|[|j]]]]; reflexivity.
  - intros j. unfold conn_step. rewrite F3. destruct (c_lost s); [reflexivity|]. now destruct j.
  - intros kicked. unfold conn_step, run_send. rewrite F4. destruct (c_lost s); [reflexivity|]. now destruct (c_sending s).
  - intros i h Hi. assert (In (i, h) (starts b)) as X by (apply in_flat_map; exists (Started i h); split; [exact Hi|now left]). rewrite F5 in X. cbn in X. cbn. intuition congruence.
Qed.

(** ** What does not hold *)
(** A handler that answers without reading the body: the body stays in the queue, and the next request's handler gets it as its own. *)
Definition unread : list msg := [a_post "a" "5" (bs "hello"); a_post "b" "5" (bs "world")].
Definition unread_run : list cev :=
  let w i := wire (nth i unread (a_get "")) in
  [Data (w 0); RunHR 0; RunHR 0; HClose 0 true; RunSend false; Data (w 1); RunHR 1; RunHR 1; HRead 1; HTake 1; HTake 1].
Theorem c45_unread_refuted : exists o M tr s b, opts_ok o /\ Forall (msg_ok o) M /\ conn_run o conn_new tr = Some (s, b) /\ c_closing s = false /\ client_waits o M tr /\ NoDup (closers tr) /\
  nth_error M 0 = Some (a_post "a" "5" (bs "hello")) /\ nth_error M 1 = Some (a_post "b" "5" (bs "world")) /\ got 1 b = bs "hello" /\ In (Got 1 None) b.
Proof.
  exists conn_opts, unread, unread_run. destruct (conn_run conn_opts conn_new unread_run) as [[s b]|] eqn:E; [|exfalso; revert E; vm_compute; discriminate]. exists s, b.
  assert (match conn_run conn_opts conn_new unread_run with Some (s, b) => (c_closing s, b) = (false, [Started 0 (m_head (a_post "a" "5" [])); Ended; Started 1 (m_head (a_post "b" "5" [])); Got 1 (Some (bs "hello")); Got 1 None]) | None => False end) as F by (vm_compute; reflexivity).
  rewrite E in F. assert (b = [Started 0 (m_head (a_post "a" "5" [])); Ended; Started 1 (m_head (a_post "b" "5" [])); Got 1 (Some (bs "hello")); Got 1 None]) as -> by congruence.
  split; [split; apply Nat.ltb_lt; reflexivity|]. split; [apply msgs_b_ok; vm_compute; reflexivity|]. split; [reflexivity|]. split; [congruence|]. split; [apply waits_b_ok; vm_compute; reflexivity|]. split; [apply nodup_b_ok; vm_compute; reflexivity|].
  split; [reflexivity|]. split; [reflexivity|]. split; [reflexivity|]. cbn. tauto.
Qed.
Print Assumptions c45_unread_refuted.
(** Or the body is taken for a request: the client sent two requests, and a third one is handled, with a head that is the body of the first. *)
Definition smuggled : bytes := m_head (a_get "admin").
Definition smuggle : list msg := [a_post "a" "32" smuggled; a_get "b"].
Definition smuggle_run : list cev :=
  let w i := wire (nth i smuggle (a_get "")) in
  [Data (w 0); RunHR 0; RunHR 0; HClose 0 true; RunSend false; Data (w 1); RunHR 1; HClose 1 true; RunSend false; RunHR 2].
Theorem c45_smuggle_refuted : exists o M tr s b, opts_ok o /\ Forall (msg_ok o) M /\ conn_run o conn_new tr = Some (s, b) /\ c_closing s = false /\ client_waits o M tr /\ NoDup (closers tr) /\
  List.length M = 2 /\ option_map m_body (nth_error M 0) = Some smuggled /\ In (Started 2 smuggled) b.
Proof.
  exists conn_opts, smuggle, smuggle_run. destruct (conn_run conn_opts conn_new smuggle_run) as [[s b]|] eqn:E; [|exfalso; revert E; vm_compute; discriminate]. exists s, b.
  assert (match conn_run conn_opts conn_new smuggle_run with Some (s, b) => (c_closing s, nth 4 b Ended) = (false, Started 2 smuggled) | None => False end) as F by (vm_compute; reflexivity).
  rewrite E in F. split; [split; apply Nat.ltb_lt; reflexivity|]. split; [apply msgs_b_ok; vm_compute; reflexivity|]. split; [reflexivity|]. split; [congruence|]. split; [apply waits_b_ok; vm_compute; reflexivity|]. split; [apply nodup_b_ok; vm_compute; reflexivity|].
  split; [reflexivity|]. split; [reflexivity|]. assert (nth 4 b Ended = Started 2 smuggled) as <- by congruence. apply nth_In. destruct b as [|? [|? [|? [|? [|? ?]]]]]; cbn in F |- *; try discriminate F; lia.
Qed.
Print Assumptions c45_smuggle_refuted.
(** A request without a body, and an upload whose head comes before the response to the first: the receive task still waits (156) when the response ends,
    and then adds the size of the head to the body_size of the upload (167): its handler sees the end of the body before the body has come. *)
Definition late : list msg := [a_get "a"; a_post "b" "5" (bs "hello")].
Definition late_run : list cev :=
  let h := m_head (nth 1 late (a_get "")) in
  [Data (m_head (a_get "a") ++ firstn 1 h); RunHR 0; RunHR 0; Data (skipn 1 h); RunRcv 0; HClose 0 true; RunSend false; RunHR 1; RunRcv 0; HRead 1; HTake 1].
Theorem c45_late_refuted : exists o M tr s b, opts_ok o /\ Forall (msg_ok o) M /\ conn_run o conn_new tr = Some (s, b) /\ c_closing s = false /\ client_ok o M tr /\ handlers_ok o M tr /\
  nth_error M 1 = Some (a_post "b" "5" (bs "hello")) /\ In (Got 1 None) b /\ got 1 b = [].
Proof.
  exists conn_opts, late, late_run. destruct (conn_run conn_opts conn_new late_run) as [[s b]|] eqn:E; [|exfalso; revert E; vm_compute; discriminate]. exists s, b.
  assert (match conn_run conn_opts conn_new late_run with Some (s, b) => (c_closing s, b) = (false, [Started 0 (m_head (a_get "a")); Ended; Started 1 (m_head (a_post "b" "5" [])); Got 1 None]) | None => False end) as F by (vm_compute; reflexivity).
  rewrite E in F. assert (b = [Started 0 (m_head (a_get "a")); Ended; Started 1 (m_head (a_post "b" "5" [])); Got 1 None]) as -> by congruence.
  split; [split; apply Nat.ltb_lt; reflexivity|]. split; [apply msgs_b_ok; vm_compute; reflexivity|]. split; [reflexivity|]. split; [congruence|]. split; [apply pipes_b_ok; vm_compute; reflexivity|]. split; [apply handlers_b_ok; vm_compute; reflexivity|].
  split; [reflexivity|]. split; [|reflexivity]. cbn. tauto.
Qed.
Print Assumptions c45_late_refuted.

(** The same after a chunked upload, if the client waits and the handler reads all of it: the task that put the last segment into the queue sleeps (156) while the
    handler reads it and answers; then it adds its size to the body_size of the next upload. *)
Definition late_chunks : list msg := [in_chunks "a" some_chunks; a_post "b" "5" (bs "hello")].
Definition late_chunks_run : list cev :=
  let m i := nth i late_chunks (a_get "") in
  [Data (m_head (m 0)); RunHR 0; HRead 0; Data some_chunks; RunRcv 0; HTake 0; HClose 0 true; RunSend false; Data (m_head (m 1)); RunHR 1; RunRcv 0; HRead 1; HTake 1].
Theorem c45_chunks_refuted : exists o M tr s b, opts_ok o /\ Forall (msg_ok o) M /\ conn_run o conn_new tr = Some (s, b) /\ c_closing s = false /\ client_waits o M tr /\ handlers_ok o M tr /\
  nth_error M 1 = Some (a_post "b" "5" (bs "hello")) /\ In (Got 1 None) b /\ got 1 b = [].
Proof.
  exists conn_opts, late_chunks, late_chunks_run. destruct (conn_run conn_opts conn_new late_chunks_run) as [[s b]|] eqn:E; [|exfalso; revert E; vm_compute; discriminate]. exists s, b.
  assert (match conn_run conn_opts conn_new late_chunks_run with Some (s, b) => (c_closing s, b) = (false, [Started 0 (m_head (in_chunks "a" [])); Got 0 (Some some_chunks); Ended; Started 1 (m_head (a_post "b" "5" [])); Got 1 None]) | None => False end) as F by (vm_compute; reflexivity).
  rewrite E in F. assert (b = [Started 0 (m_head (in_chunks "a" [])); Got 0 (Some some_chunks); Ended; Started 1 (m_head (a_post "b" "5" [])); Got 1 None]) as -> by congruence.
  split; [split; apply Nat.ltb_lt; reflexivity|]. split; [apply msgs_b_ok; vm_compute; reflexivity|]. split; [reflexivity|]. split; [congruence|]. split; [apply waits_b_ok; vm_compute; reflexivity|]. split; [apply handlers_b_ok; vm_compute; reflexivity|].
  split; [reflexivity|]. split; [|reflexivity]. cbn. tauto.
Qed.
Print Assumptions c45_chunks_refuted.

(** Two requests without a body; the rest of the second comes in a segment longer than buffer_size while the first is handled. Of that segment, what the
    receive task puts into the queue after the end of the first response is never looked at again: the second request is lost. *)
Definition slow_opts : copts := mkO 8192 2097152 128 512 16.
Definition stuck : list msg := [a_get "a"; a_get "b"].
Definition stuck_run : list cev :=
  let h := m_head (nth 1 stuck (a_get "")) in
  [Data (m_head (a_get "a") ++ firstn 1 h); RunHR 0; RunHR 0; Data (skipn 1 h); RunRcv 0; HClose 0 true; RunSend false; RunRcv 0; RunRcv 0].
Theorem c46_stuck_refuted : exists o M tr s b, opts_ok o /\ Forall (msg_ok o) M /\ conn_run o conn_new tr = Some (s, b) /\ c_closing s = false /\ client_ok o M tr /\ handlers_ok o M tr /\
  Forall (fun m => m_has m = false) M /\ input tr = List.concat (map wire M) /\ quiet o tr s b /\ List.length M = 2 /\ starts b = [(0, m_head (a_get "a"))].
Proof.
  exists slow_opts, stuck, stuck_run. destruct (conn_run slow_opts conn_new stuck_run) as [[s b]|] eqn:E; [|exfalso; revert E; vm_compute; discriminate]. exists s, b.
  assert (match conn_run slow_opts conn_new stuck_run with Some (s, b) => (c_closing s, c_hrs s, c_rcv s, c_q1 s, b) = (false, [HOver], [ROver], [], [Started 0 (m_head (a_get "a")); Ended]) | None => False end) as F by (vm_compute; reflexivity).
  rewrite E in F. assert (b = [Started 0 (m_head (a_get "a")); Ended]) as -> by congruence. assert (c_hrs s = [HOver]) as F2 by congruence. assert (c_rcv s = [ROver]) as F3 by congruence. assert (c_q1 s = []) as F4 by congruence.
  split; [split; apply Nat.ltb_lt; reflexivity|]. split; [apply msgs_b_ok; vm_compute; reflexivity|]. split; [reflexivity|]. split; [congruence|]. split; [apply pipes_b_ok; vm_compute; reflexivity|]. split; [apply handlers_b_ok; vm_compute; reflexivity|].
  split; [repeat constructor|]. split; [vm_compute; reflexivity|]. split; [|split; reflexivity]. split; [|split; [|split]].
  - intros j. unfold conn_step. rewrite F2. destruct (c_lost s); [reflexivity|]. destruct j as [|[|j]]; reflexivity.
  - intros j. unfold conn_step. rewrite F3. destruct (c_lost s); [reflexivity|]. destruct j as [|[|j]]; reflexivity.
  - intros kicked. unfold conn_step, run_send. rewrite F4. destruct (c_lost s); [reflexivity|]. now destruct (c_sending s).
  - intros i h [H|[H|[]]]; [injection H as <- <-; cbn; now left|discriminate].
Qed.
Print Assumptions c46_stuck_refuted.
(** A handler of a request without a body that reads twice: it gets the next request, which is then not dispatched. *)
Definition steal_run : list cev :=
  [Data (wire (a_get "a") ++ wire (a_get "b")); RunHR 0; RunHR 0; HRead 0; HTake 0; HTake 0; HClose 0 true; RunSend false].
Theorem c46_steal_refuted : exists o M tr s b, opts_ok o /\ Forall (msg_ok o) M /\ conn_run o conn_new tr = Some (s, b) /\ c_closing s = false /\ client_ok o M tr /\ settled o tr /\ NoDup (closers tr) /\
  Forall (fun m => m_has m = false) M /\ input tr = List.concat (map wire M) /\ quiet o tr s b /\ List.length M = 2 /\ starts b = [(0, m_head (a_get "a"))] /\ got 0 b = wire (a_get "b").
Proof.
  exists conn_opts, stuck, steal_run. destruct (conn_run conn_opts conn_new steal_run) as [[s b]|] eqn:E; [|exfalso; revert E; vm_compute; discriminate]. exists s, b.
  assert (match conn_run conn_opts conn_new steal_run with Some (s, b) => (c_closing s, c_hrs s, c_rcv s, c_q1 s, b) = (false, [HOver], [], [], [Started 0 (m_head (a_get "a")); Got 0 (Some []); Got 0 (Some (wire (a_get "b"))); Ended]) | None => False end) as F by (vm_compute; reflexivity).
  rewrite E in F. assert (b = [Started 0 (m_head (a_get "a")); Got 0 (Some []); Got 0 (Some (wire (a_get "b"))); Ended]) as -> by congruence. assert (c_hrs s = [HOver]) as F2 by congruence. assert (c_rcv s = []) as F3 by congruence. assert (c_q1 s = []) as F4 by congruence.
  split; [split; apply Nat.ltb_lt; reflexivity|]. split; [apply msgs_b_ok; vm_compute; reflexivity|]. split; [reflexivity|]. split; [congruence|]. split; [apply pipes_b_ok; vm_compute; reflexivity|]. split; [apply settled_b_ok; vm_compute; reflexivity|]. split; [apply nodup_b_ok; vm_compute; reflexivity|].
  split; [repeat constructor|]. split; [vm_compute; reflexivity|]. split; [|repeat split]. split; [|split; [|split]].
  - intros j. unfold conn_step. rewrite F2. destruct (c_lost s); [reflexivity|]. destruct j as [|[|j]]; reflexivity.
  - intros j. unfold conn_step. rewrite F3. destruct (c_lost s); [reflexivity|]. now destruct j.
  - intros kicked. unfold conn_step, run_send. rewrite F4. destruct (c_lost s); [reflexivity|]. now destruct (c_sending s).
  - intros i h [H|[H|[H|[H|[]]]]]; [|discriminate..]. assert (i = 0) as -> by congruence. left. reflexivity.
Qed.
Print Assumptions c46_steal_refuted.
