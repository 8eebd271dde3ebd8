(** C77: a connection that nobody wants to end stays open. *)
From Verif Require Import PyBytes PyBytesFacts PyInt PyExn M_Parser M_Framing M_Conn M_Response M_Site
  S_Head S_Response S_Calls S_Conn S_Route S_Site S_Open P_Conn P_Conn2 P_Conn3 P_Conn5 P_Conn6 P_Conn7 P_Conn10 P_Conn11 P_Site3 P_Exchange P_Site5 T_Conn T_Scope T_Site.

(** A client that sends requests within the limits, with keep-alive, and waits for each response; handlers that close their responses with keep-alive and read
    the bodies fast enough; no time-out. Any number of requests, any segments, any schedule of the tasks: the server has not closed the connection,
    whenever one looks.
    Partial: see the refutations below for heads at the limit and for handlers that do not read fast enough; a client that waits; [calm], see C45. *)
Theorem c77_open_partial : forall o M tr s b, opts_ok o -> (0 < o_body o)%Z -> Forall (msg_ok o) M -> Forall (in_limits o) M ->
  conn_run o conn_new tr = Some (s, b) -> client_waits o M tr -> calm o M tr -> handlers_ok o M tr -> wanted tr -> keeps_up o tr ->
  c_closing s = false /\ c_lost s = false.
Proof.
  intros o M tr s b Oo Ob Mo Mf R Hw Hm Hh Hp Hk. destruct (stays_open o M Mo Oo Mf Ob tr s b R (waits_ok _ _ _ Hw) Hw Hm Hh Hp Hk) as (A & B & _). now split.
Qed.
Print Assumptions c77_open_partial.
(** So each request of such a client is answered: when all was sent and nothing is left to do, all handlers were started and all responses ended. *)
Theorem c77_answered_partial : forall o M tr s b, opts_ok o -> (0 < o_body o)%Z -> Forall (msg_ok o) M -> Forall (in_limits o) M ->
  conn_run o conn_new tr = Some (s, b) -> client_waits o M tr -> calm o M tr -> handlers_ok o M tr -> wanted tr -> keeps_up o tr ->
  input tr = List.concat (map wire M) -> quiet o tr s b -> starts b = combine (List.seq 0 (List.length M)) (map m_head M) /\ ended b = List.length M.
Proof.
  intros o M tr s b Oo Ob Mo Mf R Hw Hm Hh Hp Hk E Q. destruct (c77_open_partial o M tr s b Oo Ob Mo Mf R Hw Hm Hh Hp Hk) as [Cl _].
  now apply (c46_waiting_partial o M tr s b Oo Mo R Cl Hw Hm Hh).
Qed.
Print Assumptions c77_answered_partial.
(** The exchange of C75, without saying that the connection stays open. *)
Theorem c77_exchange : forall o si paths reqs date tr s b,
  opts_ok o -> (0 < o_body o)%Z -> site_ok si paths -> Forall (good_call o) reqs -> (forall i, one_line (date i)) ->
  Forall (fun c => blen (m_head (msg_of c)) - 1 <= o_head o /\ blen (body_of c) <= o_body o)%Z reqs ->
  conn_run o conn_new tr = Some (s, b) -> client_waits o (map msg_of reqs) tr -> handlers_ok o (map msg_of reqs) tr -> wanted tr -> keeps_up o tr -> performs si date tr b ->
  exists answers rest, read_responses (ended b) (written b) = Some (answers, rest) /\ Forall2 (right_answer si paths) (firstn (ended b) reqs) answers /\
    (input tr = List.concat (map wire (map msg_of reqs)) -> quiet o tr s b -> ended b = List.length reqs /\ rest = []).
Proof.
  intros o si paths reqs date tr s b Oo Ob So Ro Do Lo R Hw Hh Hp Hk Pf.
  assert (Forall (msg_ok o) (map msg_of reqs)) as Mo by exact (all_ok o reqs (all_sound _ _ Ro)).
  assert (Forall (in_limits o) (map msg_of reqs)) as Mf.
  { apply Forall_map, Forall_forall. intros c Hc. destruct (proj1 (Forall_forall _ _) Lo c Hc) as [L1 L2]. pose proof (proj1 (Forall_forall _ _) Ro c Hc) as G. split; [exact L1|]. split.
    { destruct (counted (msg_of c)) eqn:Cm; [exact L2|]. assert (m_has (msg_of c) = false) as Hn by (destruct (m_has (msg_of c)) eqn:X; [rewrite (call_counted o c (good_sound _ _ G) X) in Cm; discriminate|reflexivity]). unfold m_has, msg_of in Hn. cbn [m_body msg_of]. unfold body_of. destruct (k_body c); [discriminate|exact Ob]. }
    intros r Pr. destruct (call_framed o c (good_sound _ _ G)) as (r' & Fr & _ & _ & _ & _ & Ka & _). destruct (proj1 (Forall_forall _ _) Mo (msg_of c) (in_map _ _ _ Hc)) as (p & r2 & F & L & _ & F2 & _).
    unfold parsed in Pr. rewrite F in Pr. assert (blen (m_head (msg_of c)) - 2 = Z.of_nat p + 2)%Z as Ep by (unfold blen; lia). rewrite Ep in Fr. rewrite Fr in Pr. apply (good_keeps o c _ G) in Ka. congruence. }
  assert (calm o (map msg_of reqs) tr) as Hm by (apply counted_calm, Forall_map; eapply Forall_impl; [|exact (all_sound _ _ Ro)]; intros c; apply call_counted).
  destruct (c77_open_partial o (map msg_of reqs) tr s b Oo Ob Mo Mf R Hw Hm Hh Hp Hk) as [Cl _].
  exact (c75_exchange o si paths reqs date tr s b Oo So Ro Do R Cl (waits_ok _ _ _ Hw) (or_intror Hw) Hh Pf).
Qed.
Print Assumptions c77_exchange.

(** ** Examples *)
Definition in_limits_b (o : copts) (m : msg) : bool :=
  (blen (m_head m) - 1 <=? o_head o)%Z && (if counted m then blen (m_body m) <=? o_body o else blen (m_body m) <? o_body o)%Z && match parsed m with Some r => rq_keepalive r | None => true end.
Lemma in_limits_b_ok o M : forallb (in_limits_b o) M = true -> Forall (in_limits o) M.
Proof.
  intros H. apply Forall_forall. intros m Hm. apply (proj1 (forallb_forall _ _) H) in Hm. apply andb_prop in Hm as [Hm K]. apply andb_prop in Hm as [A B]. split; [lia|]. split; [destruct (counted m); lia|]. intros r E. now rewrite E in K.
Qed.
Definition wanted_b (tr : list cev) : bool := forallb (fun e => match e with Eof | Abort | Lost | RunSend true | HClose _ false => false | _ => true end) tr.
Lemma wanted_b_ok tr : wanted_b tr = true -> wanted tr.
Proof. intros H. apply Forall_forall. intros e He. apply (proj1 (forallb_forall _ _) H) in He. destruct e; try exact I; try discriminate He; [destruct kicked|destruct keep]; exact I || discriminate He. Qed.
Definition keeps_up_b (o : copts) (tr : list cev) : bool :=
  forallb (fun n => match conn_run o conn_new (firstn n tr) with Some (s, _) => (Z.of_nat (List.length (c_q0 s)) <=? o_queue o)%Z | None => true end) (List.seq 0 (S (List.length tr))).
Lemma keeps_up_b_ok o tr : keeps_up_b o tr = true -> keeps_up o tr.
Proof.
  intros H pre post s b Et E. unfold keeps_up_b in H. rewrite forallb_forall in H. specialize (H (List.length pre)). rewrite Et, firstn_app, Nat.sub_diag, firstn_O, firstn_all, app_nil_r, E in H. apply Z.leb_le, H, in_seq. rewrite app_length. lia.
Qed.
Example c77_example : Forall (in_limits conn_opts) (map msg_of calls) /\ (0 < o_body conn_opts)%Z /\ wanted calls_run /\ keeps_up conn_opts calls_run /\
  Forall (fun c => blen (m_head (msg_of c)) - 1 <= o_head conn_opts /\ blen (body_of c) <= o_body conn_opts)%Z calls.
Proof.
  split; [apply in_limits_b_ok; vm_compute; reflexivity|]. split; [reflexivity|]. split; [apply wanted_b_ok; vm_compute; reflexivity|]. split; [apply keeps_up_b_ok; vm_compute; reflexivity|].
  repeat (constructor; [split; vm_compute; discriminate|]). constructor.
Qed.
(** The uploads of C45. *)
Example c77_example_uploads : exists s b, conn_run conn_opts conn_new uploads_run = Some (s, b) /\ opts_ok conn_opts /\ (0 < o_body conn_opts)%Z /\ Forall (msg_ok conn_opts) uploads /\ Forall (in_limits conn_opts) uploads /\
  client_waits conn_opts uploads uploads_run /\ calm conn_opts uploads uploads_run /\ handlers_ok conn_opts uploads uploads_run /\ wanted uploads_run /\ keeps_up conn_opts uploads_run /\ c_closing s = false /\ ended b = 3.
Proof.
  destruct (conn_run conn_opts conn_new uploads_run) as [[s b]|] eqn:E; [|exfalso; revert E; vm_compute; discriminate]. exists s, b.
  assert (all_waits conn_opts uploads uploads_run = true) as A by (vm_compute; reflexivity). apply andb_prop in A as [A A3]. apply andb_prop in A as [A1 A2].
  assert (match conn_run conn_opts conn_new uploads_run with Some (s, b) => (c_closing s, ended b) = (false, 3) | None => False end) as F by (vm_compute; reflexivity). rewrite E in F.
  split; [reflexivity|]. split; [split; apply Nat.ltb_lt; reflexivity|]. split; [reflexivity|]. split; [now apply msgs_b_ok|]. split; [apply in_limits_b_ok; vm_compute; reflexivity|]. split; [now apply waits_b_ok|]. split; [apply counted_b_ok; vm_compute; reflexivity|]. split; [now apply handlers_b_ok|].
  split; [apply wanted_b_ok; vm_compute; reflexivity|]. split; [apply keeps_up_b_ok; vm_compute; reflexivity|]. split; congruence.
Qed.
(** And the run with the chunked upload (its other hypotheses are in c45_chunked_example). *)
Example c77_example_chunked : Forall (in_limits conn_opts) chunked_calls /\ wanted chunked_run /\ keeps_up conn_opts chunked_run.
Proof. split; [apply in_limits_b_ok; vm_compute; reflexivity|]. split; [apply wanted_b_ok; vm_compute; reflexivity|]. apply keeps_up_b_ok. vm_compute. reflexivity. Qed.

(** ** What does not hold *)
(** Whether a head at the limit is refused depends on the segments: in one segment it is handled; in two, the connection is closed without a response when
    all but the last byte have come (http_protocol.py:374-388: the size of the head is compared without the last two bytes, that of an incomplete head with all of them). *)
Definition edge_opts : copts := mkO 24 2097152 128 512 512.
Theorem c77_segments_refuted : exists o m tr1 tr2 s1 b1 s2 b2, opts_ok o /\ (0 < o_body o)%Z /\ msg_ok o m /\ input tr1 = wire m /\ is_prefix (input tr2) (wire m) /\ wanted tr1 /\ wanted tr2 /\
  conn_run o conn_new tr1 = Some (s1, b1) /\ conn_run o conn_new tr2 = Some (s2, b2) /\ client_waits o [m] tr1 /\ client_waits o [m] tr2 /\ handlers_ok o [m] tr1 /\ handlers_ok o [m] tr2 /\
  keeps_up o tr1 /\ keeps_up o tr2 /\ c_closing s1 = false /\ ended b1 = 1 /\ c_closing s2 = true /\ b2 = [].
Proof.
  set (m := mkM (line "GET / HTTP/1.1" ++ line "Host:a" ++ CRLF) false []). exists edge_opts, m, [Data (wire m); RunHR 0; HPut 0 (bs "1"); HClose 0 true; RunSend false; RunSend false], [Data (firstn 25 (wire m))].
  destruct (conn_run edge_opts conn_new [Data (wire m); RunHR 0; HPut 0 (bs "1"); HClose 0 true; RunSend false; RunSend false]) as [[s1 b1]|] eqn:E1; [|exfalso; revert E1; vm_compute; discriminate].
  destruct (conn_run edge_opts conn_new [Data (firstn 25 (wire m))]) as [[s2 b2]|] eqn:E2; [|exfalso; revert E2; vm_compute; discriminate].
  exists s1, b1, s2, b2.
  assert (match conn_run edge_opts conn_new [Data (wire m); RunHR 0; HPut 0 (bs "1"); HClose 0 true; RunSend false; RunSend false] with Some (s1, b1) => (c_closing s1, ended b1) = (false, 1) | None => False end) as F1 by (vm_compute; reflexivity). rewrite E1 in F1.
  assert (match conn_run edge_opts conn_new [Data (firstn 25 (wire m))] with Some (s2, b2) => (c_closing s2, b2) = (true, []) | None => False end) as F2 by (vm_compute; reflexivity). rewrite E2 in F2.
  split; [split; apply Nat.ltb_lt; reflexivity|]. split; [reflexivity|].
  split. { assert (Forall (msg_ok edge_opts) [m]) as G by (apply msgs_b_ok; vm_compute; reflexivity). now inversion_clear G. }
  split; [vm_compute; reflexivity|]. split; [apply prefix_b_ok; vm_compute; reflexivity|]. split; [apply wanted_b_ok; reflexivity|]. split; [apply wanted_b_ok; reflexivity|]. split; [reflexivity|]. split; [reflexivity|].
  split; [apply waits_b_ok; vm_compute; reflexivity|]. split; [apply waits_b_ok; vm_compute; reflexivity|]. split; [apply handlers_b_ok; vm_compute; reflexivity|]. split; [apply handlers_b_ok; vm_compute; reflexivity|].
  split; [apply keeps_up_b_ok; vm_compute; reflexivity|]. split; [apply keeps_up_b_ok; vm_compute; reflexivity|]. repeat split; congruence.
Qed.
Print Assumptions c77_segments_refuted.
(** A handler that does not read yet and a client that sends a small body in small segments: the server goes on reading from the client, and closes the
    connection when max_queue_size segments are waiting. Here 129 bytes, with the default settings. *)
Definition slow : msg := a_post "a" "129" (List.concat (repeat (bs "x") 129)).
Definition slow_run : list cev := [Data (m_head slow); RunHR 0] ++ flat_map (fun j => [Data (bs "x"); RunRcv j; RunRcv j]) (List.seq 0 128) ++ [Data (bs "x"); RunRcv 128].
Theorem c77_slow_refuted : exists o m tr s b, opts_ok o /\ (0 < o_body o)%Z /\ msg_ok o m /\ in_limits o m /\ conn_run o conn_new tr = Some (s, b) /\ client_waits o [m] tr /\ handlers_ok o [m] tr /\ wanted tr /\
  c_closing s = true /\ ended b = 0.
Proof.
  exists conn_opts, slow, slow_run. destruct (conn_run conn_opts conn_new slow_run) as [[s b]|] eqn:E; [|exfalso; revert E; vm_compute; discriminate]. exists s, b.
  assert (match conn_run conn_opts conn_new slow_run with Some (s, b) => (c_closing s, ended b) = (true, 0) | None => False end) as F by (vm_compute; reflexivity). rewrite E in F.
  split; [split; apply Nat.ltb_lt; reflexivity|]. split; [reflexivity|].
  split. { assert (Forall (msg_ok conn_opts) [slow]) as G by (apply msgs_b_ok; vm_compute; reflexivity). now inversion_clear G. }
  split. { assert (Forall (in_limits conn_opts) [slow]) as G by (apply in_limits_b_ok; vm_compute; reflexivity). now inversion_clear G. }
  split; [reflexivity|]. split; [apply waits_b_ok; vm_compute; reflexivity|]. split; [apply handlers_b_ok; vm_compute; reflexivity|]. split; [apply wanted_b_ok; vm_compute; reflexivity|]. split; congruence.
Qed.
Print Assumptions c77_slow_refuted.
