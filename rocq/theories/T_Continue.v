(** C59: requests with Expect: 100-continue. That the connection goes on to serve the requests after such a one, and that its body is read as it was sent, is
    in T_Conn: the requests there may expect a 100-continue. *)
From Verif Require Import PyBytes PyBytesFacts PyInt PyExn M_Parser M_Framing M_Conn S_Conn P_Conn P_Conn2 P_Conn3 P_Conn4 P_Conn5 P_Conn6 P_Conn7 P_Conn8 P_Conn9 P_Conn10 T_Conn.

(** The handler of request i asked for the body (with a read, or with send_continue), and the request has Expect: 100-continue. When the response is complete,
    or no task can run, then what was written of the response is what the handler put before it first asked, then one interim response, then what it put after
    that; and before it asked it had read nothing of the body. Every complete response to such a request is of this kind.
    Partial: handlers that read the body to its end before they close the response, and that do not ask again before the interim response was taken
    ([handlers_ok]), see the refutations below; [settled], or a client that waits and [calm]; as long as the connection is open. *)
Theorem c59_interim_partial : forall o M tr s b, opts_ok o -> Forall (msg_ok o) M -> conn_run o conn_new tr = Some (s, b) -> c_closing s = false ->
  client_ok o M tr -> handlers_ok o M tr -> settled o tr \/ (client_waits o M tr /\ calm o M tr) -> tidy tr ->
  forall i m, nth_error M i = Some m -> expects m = true -> i < ended b \/ (idle o s /\ In i (askers tr)) ->
  exists pre e post s1 b1, tr = pre ++ e :: post /\ (e = HRead i \/ e = HContinue i) /\ ~ In i (askers pre) /\ out i b = puts i pre ++ interim m ++ puts i post /\
    conn_run o conn_new pre = Some (s1, b1) /\ forall x, ~ In (Got i x) b1.
Proof.
  intros o M tr s b Oo Mo R Cl Hw Hh Hs Td i m Em Ex H.
  assert (In i (askers tr) /\ out i b = response M i tr) as [Hi Eo].
  { destruct (run_layers o M Mo Oo tr s b R Cl Hw Hh Hs) as (_ & L2 & L). specialize (L Td). destruct H as [H|[H Ha]].
    - destruct (lw_old _ _ _ _ L i H) as [Eo Hc]. split; [|exact Eo]. destruct (run_inv o M Mo Oo tr s b R Cl Hw Hh Hs) as (k & n & C & _).
      destruct (m_has m) eqn:Mc.
      { pose proof (proj2 (cm_closers _ _ _ _ _ _ C i Hc) m Em Mc) as Ra. unfold read_all in Ra. destruct (counted m) eqn:Cm; [exact (got_asked o M Mo Oo tr s b i None R Cl Hw Hh Hs Ra)|]. apply (read_some _ b) in Ra; [destruct Ra as (d & Hd); exact (got_asked o M Mo Oo tr s b i (Some d) R Cl Hw Hh Hs Hd)|].
        pose proof (proj1 (Forall_forall _ _) Mo m (nth_error_In _ _ Em)) as (p & r1 & Fd & _ & _ & Fr & Rl). unfold counted, parsed in Cm. rewrite Fd, Fr in Cm. rewrite Mc, Cm in Rl. apply Rl. }
      unfold expects in Ex. destruct (parsed m) as [r|] eqn:Pm; [|discriminate]. rewrite (not_expected o M Mo m r (nth_error_In _ _ Em) Mc Pm) in Ex. discriminate.
    - split; [exact Ha|]. apply (idle_out o M Mo Oo tr s b R Cl Hw Hh Hs Td H i Ha). }
  destruct (answer_asked (match nth_error M i with Some m => if expects m then interim m else [] | None => [] end) i tr Hi) as (pre & e & post & Et & He & Np & Ea).
  destruct (conn_run o conn_new pre) as [[s1 b1]|] eqn:E1; [|rewrite Et, conn_run_app, E1 in R; discriminate].
  exists pre, e, post, s1, b1. split; [exact Et|]. split; [exact He|]. split; [exact Np|]. split; [rewrite Eo; unfold response; rewrite Ea, Em, Ex; reflexivity|]. split; [exact E1|].
  intros x Hx. apply Np. destruct (prefix_runs o M (e :: post) pre s b) as (s2 & b2 & E2 & Cl2 & Hc2 & Hh2 & Hs2); try (rewrite <- Et; assumption); [exact Cl|]. assert (s2 = s1 /\ b2 = b1) as [-> ->] by (split; congruence).
  exact (got_asked o M Mo Oo pre s1 b1 i x E2 Cl2 Hc2 Hh2 Hs2 Hx).
Qed.
Print Assumptions c59_interim_partial.

(** ** Examples *)
Definition an_upload (x n : String.string) (extra b : bytes) : msg := mkM (line ("POST /" ++ x ++ " HTTP/1.1") ++ line "Host: a" ++ line "Expect: 100-continue" ++ extra ++ line ("Content-Length: " ++ n) ++ CRLF) true b.
Definition hundred : bytes := bs "HTTP/1.1 100 Continue" ++ CRLF ++ CRLF.
(** An upload whose body is sent after the interim response, and another request. *)
Definition waited : list msg := [an_upload "a" "11" [] (bs "hello world"); a_get "b"].
Definition waited_run : list cev :=
  [Data (m_head (nth 0 waited (a_get ""))); RunHR 0; HRead 0; RunSend false; RunSend false; Data (bs "hello world"); RunRcv 0; RunRcv 0; HTake 0; HTake 0;
   HPut 0 (bs "1"); HClose 0 true; RunSend false; RunSend false; HEnd 0; Data (wire (a_get "b")); RunHR 1; HPut 1 (bs "2"); HClose 1 true; RunSend false; RunSend false].
Example c59_example : exists s b, conn_run conn_opts conn_new waited_run = Some (s, b) /\ c_closing s = false /\ opts_ok conn_opts /\ Forall (msg_ok conn_opts) waited /\
  client_waits conn_opts waited waited_run /\ calm conn_opts waited waited_run /\ handlers_ok conn_opts waited waited_run /\ tidy waited_run /\ option_map expects (nth_error waited 0) = Some true /\ 0 < ended b /\
  input waited_run = List.concat (map wire waited) /\ quiet conn_opts waited_run s b /\
  got 0 b = bs "hello world" /\ out 0 b = hundred ++ bs "1" /\ out 1 b = bs "2" /\ ended b = 2.
Proof.
  destruct (conn_run conn_opts conn_new waited_run) as [[s b]|] eqn:E; [|exfalso; revert E; vm_compute; discriminate]. exists s, b.
  assert (all_waits conn_opts waited waited_run = true) as A by (vm_compute; reflexivity). apply andb_prop in A as [A A3]. apply andb_prop in A as [A1 A2].
  assert (match conn_run conn_opts conn_new waited_run with Some (s, b) => (c_closing s, c_hrs s, c_rcv s, c_q1 s, map fst (starts b), got 0 b, out 0 b, out 1 b, ended b) = (false, [HOver; HOver], [ROver], [], [0; 1], bs "hello world", hundred ++ bs "1", bs "2", 2) | None => False end) as F by (vm_compute; reflexivity).
  rewrite E in F. assert (c_hrs s = [HOver; HOver]) as F2 by congruence. assert (c_rcv s = [ROver]) as F3 by congruence. assert (c_q1 s = []) as F4 by congruence. assert (map fst (starts b) = [0; 1]) as F5 by congruence. assert (ended b = 2) as F6 by congruence.
  split; [reflexivity|]. split; [congruence|]. split; [split; apply Nat.ltb_lt; reflexivity|]. split; [now apply msgs_b_ok|]. split; [now apply waits_b_ok|]. split; [apply counted_b_ok; vm_compute; reflexivity|]. split; [now apply handlers_b_ok|]. split; [apply tidy_b_ok; vm_compute; reflexivity|].
  split; [vm_compute; reflexivity|]. split; [lia|]. split; [vm_compute; reflexivity|]. split; [|repeat split; congruence]. split; [|split; [|split]].
  - intros j. unfold conn_step. rewrite F2. destruct (c_lost s); [reflexivity|]. destruct j as [|[|[|j]]]; reflexivity.
  - intros j. unfold conn_step. rewrite F3. destruct (c_lost s); [reflexivity|]. destruct j as [|[|j]]; reflexivity.
  - intros kicked. unfold conn_step, run_send. rewrite F4. destruct (c_lost s); [reflexivity|]. now destruct (c_sending s).
  - intros i h Hi. assert (In i (map fst (starts b))) as X by (apply in_map_iff; exists (i, h); split; [reflexivity|apply in_flat_map; exists (Started i h); split; [exact Hi|now left]]). rewrite F5 in X. cbn in X |- *. intuition congruence.
Qed.
(** The same run where the interim response has just been sent and the client has not sent the body: the other case of the theorem. *)
Example c59_idle_example : exists s b, conn_run conn_opts conn_new (firstn 5 waited_run) = Some (s, b) /\ c_closing s = false /\ c_paused s = false /\
  client_waits conn_opts waited (firstn 5 waited_run) /\ handlers_ok conn_opts waited (firstn 5 waited_run) /\ tidy (firstn 5 waited_run) /\ idle conn_opts s /\ In 0 (askers (firstn 5 waited_run)) /\
  out 0 b = hundred.
Proof.
  destruct (conn_run conn_opts conn_new (firstn 5 waited_run)) as [[s b]|] eqn:E; [|exfalso; revert E; vm_compute; discriminate]. exists s, b.
  assert (match conn_run conn_opts conn_new (firstn 5 waited_run) with Some (s, b) => (c_closing s, c_paused s, idle_b s, out 0 b) = (false, false, true, hundred) | None => False end) as F by (vm_compute; reflexivity). rewrite E in F.
  split; [reflexivity|]. split; [congruence|]. split; [congruence|]. split; [apply waits_b_ok; vm_compute; reflexivity|]. split; [apply handlers_b_ok; vm_compute; reflexivity|]. split; [apply tidy_b_ok; vm_compute; reflexivity|]. split; [apply idle_b_ok; congruence|]. split; [now left|congruence].
Qed.

(** ** What does not hold *)
(** A handler that answers without asking for the body, so that no 100 is sent: http_continue is still set when the end of the response is taken, and only that
    is reset (478, 479), the connection is not. It stays open, and what the client sends next, here the next request, is taken as the body of the first. *)
Definition unasked_run : list cev :=
  [Data (m_head (nth 0 waited (a_get ""))); RunHR 0; HPut 0 (bs "1"); HClose 0 true; RunSend false; RunSend false; HEnd 0; Data (wire (a_get "b")); RunRcv 0; RunRcv 0].
Theorem c59_unasked_refuted : exists o M tr s b, opts_ok o /\ Forall (msg_ok o) M /\ conn_run o conn_new tr = Some (s, b) /\ c_closing s = false /\ NoDup (closers tr) /\ tidy tr /\
  M = waited /\ input tr = m_head (an_upload "a" "11" [] (bs "hello world")) ++ wire (a_get "b") /\ quiet o tr s b /\ out 0 b = puts 0 tr /\ starts b = [(0, m_head (an_upload "a" "11" [] (bs "hello world")))] /\ c_paused s = true.
Proof.
  exists conn_opts, waited, unasked_run. destruct (conn_run conn_opts conn_new unasked_run) as [[s b]|] eqn:E; [|exfalso; revert E; vm_compute; discriminate]. exists s, b.
  assert (match conn_run conn_opts conn_new unasked_run with Some (s, b) => (c_closing s, c_paused s, c_hrs s, c_rcv s, c_q1 s, b) = (false, true, [HOver], [ROver], [], [Started 0 (m_head (an_upload "a" "11" [] (bs "hello world"))); Wrote (bs "1"); Interim 0]) | None => False end) as F by (vm_compute; reflexivity).
  rewrite E in F. assert (b = [Started 0 (m_head (an_upload "a" "11" [] (bs "hello world"))); Wrote (bs "1"); Interim 0]) as -> by congruence. assert (c_hrs s = [HOver]) as F2 by congruence. assert (c_rcv s = [ROver]) as F3 by congruence. assert (c_q1 s = []) as F4 by congruence.
  split; [split; apply Nat.ltb_lt; reflexivity|]. split; [apply msgs_b_ok; vm_compute; reflexivity|]. split; [reflexivity|]. split; [congruence|]. split; [apply nodup_b_ok; vm_compute; reflexivity|]. split; [apply tidy_b_ok; vm_compute; reflexivity|]. split; [reflexivity|]. split; [vm_compute; reflexivity|].
  split; [|split; [vm_compute; reflexivity|split; [reflexivity|congruence]]]. split; [|split; [|split]].
  - intros j. unfold conn_step. rewrite F2. destruct (c_lost s); [reflexivity|]. destruct j as [|[|j]]; reflexivity.
  - intros j. unfold conn_step. rewrite F3. destruct (c_lost s); [reflexivity|]. destruct j as [|[|j]]; reflexivity.
  - intros kicked. unfold conn_step, run_send. rewrite F4. destruct (c_lost s); [reflexivity|]. now destruct (c_sending s).
  - intros i h [H|[H|[H|[]]]]; [|discriminate..]. assert (i = 0) as -> by congruence. left. reflexivity.
Qed.
Print Assumptions c59_unasked_refuted.
(** Expect: 100-continue on a connection that is not to be kept alive: the connection is closed after the interim response, and nothing of the response that the
    handler then gives is sent. *)
Definition closed : list msg := [an_upload "a" "11" (line "Connection: close") (bs "hello world")].
Definition closed_run : list cev :=
  [Data (wire (nth 0 closed (a_get ""))); RunHR 0; RunHR 0; HRead 0; RunSend false; RunSend false; HTake 0; HTake 0; HPut 0 (bs "1"); HClose 0 true].
Theorem c59_close_refuted : exists o M tr s b, opts_ok o /\ Forall (msg_ok o) M /\ conn_run o conn_new tr = Some (s, b) /\ client_waits o M tr /\ handlers_ok o M tr /\ tidy tr /\
  input tr = List.concat (map wire M) /\ got 0 b = bs "hello world" /\ In (Got 0 None) b /\ In 0 (closers tr) /\ puts 0 tr = bs "1" /\ out 0 b = hundred /\
  c_closing s = true /\ forall tr' s' b', conn_run o s tr' = Some (s', b') -> forall d, ~ In (Wrote d) b'.
Proof.
  exists conn_opts, closed, closed_run. destruct (conn_run conn_opts conn_new closed_run) as [[s b]|] eqn:E; [|exfalso; revert E; vm_compute; discriminate]. exists s, b.
  assert (match conn_run conn_opts conn_new closed_run with Some (s, b) => (c_closing s, nth 4 b Ended, got 0 b, out 0 b) = (true, Got 0 None, bs "hello world", hundred) | None => False end) as F by (vm_compute; reflexivity). rewrite E in F.
  split; [split; apply Nat.ltb_lt; reflexivity|]. split; [apply msgs_b_ok; vm_compute; reflexivity|]. split; [reflexivity|]. split; [apply waits_b_ok; vm_compute; reflexivity|]. split; [apply handlers_b_ok; vm_compute; reflexivity|]. split; [apply tidy_b_ok; vm_compute; reflexivity|].
  split; [vm_compute; reflexivity|]. split; [congruence|]. split; [|split; [now left|split; [reflexivity|split; [congruence|]]]].
  - assert (nth 4 b Ended = Got 0 None) as X by congruence. rewrite <- X. apply nth_In. destruct (Nat.lt_ge_cases 4 (List.length b)) as [L|L]; [exact L|]. rewrite nth_overflow in X by exact L. discriminate.
  - split; [congruence|]. assert (c_closing s = true) as Cl by congruence. clear -Cl. intros tr'. revert s Cl. induction tr' as [|e tr' IH]; intros s Cl s' b' R d; [injection R as <- <-; intros []|]. cbn [conn_run] in R. destruct (conn_step conn_opts s e) as [[s1 b1]|] eqn:E1; [|discriminate]. pose proof (step_closing _ _ _ _ _ E1 Cl) as Cl1.
    destruct (conn_run conn_opts s1 tr') as [[s2 b2]|] eqn:E2; [|discriminate]. assert (b' = b1 ++ b2) as -> by congruence. intros H. apply in_app_or in H as [H|H]; [exact (step_silent _ _ _ _ _ _ E1 Cl H)|exact (IH s1 Cl1 s2 b2 E2 d H)].
Qed.
Print Assumptions c59_close_refuted.
(** A handler that calls send_continue and then reads, with no turn of the send task in between: two interim responses; and the marker of the second is taken
    for the end of the response: the body that the client sends is taken for the head of a request. *)
Definition twice_run : list cev :=
  [Data (m_head (nth 0 waited (a_get ""))); RunHR 0; HContinue 0; HRead 0; RunSend false; RunSend false; RunSend false; RunSend false; Data (bs "hello world")].
Theorem c59_twice_refuted : exists o M tr s b, opts_ok o /\ Forall (msg_ok o) M /\ conn_run o conn_new tr = Some (s, b) /\ c_closing s = false /\ client_waits o M tr /\ closers tr = [] /\ M = waited /\
  List.concat (map (fun x => match x with Wrote d => d | _ => [] end) b) = hundred ++ hundred /\ c_hb s = Some (bs "hello world").
Proof.
  exists conn_opts, waited, twice_run. destruct (conn_run conn_opts conn_new twice_run) as [[s b]|] eqn:E; [|exfalso; revert E; vm_compute; discriminate]. exists s, b.
  assert (match conn_run conn_opts conn_new twice_run with Some (s, b) => (c_closing s, c_hb s, List.concat (map (fun x => match x with Wrote d => d | _ => [] end) b)) = (false, Some (bs "hello world"), hundred ++ hundred) | None => False end) as F by (vm_compute; reflexivity). rewrite E in F.
  split; [split; apply Nat.ltb_lt; reflexivity|]. split; [apply msgs_b_ok; vm_compute; reflexivity|]. split; [reflexivity|]. split; [congruence|]. split; [apply waits_b_ok; vm_compute; reflexivity|]. repeat split; congruence.
Qed.
Print Assumptions c59_twice_refuted.
