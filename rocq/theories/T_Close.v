(** C83: a connection that the server ends is ended after a whole response, and for a reason. *)
From Verif Require Import PyBytes PyBytesFacts PyInt PyExn M_Parser M_Framing M_Conn M_Response M_Server M_Stack
  S_Head S_Response S_Calls S_Conn S_Route S_Site S_AsgiSite S_Stack S_Open S_Keep S_Bare S_Close P_Conn2 P_Conn3 P_Conn7 P_Conn10 P_Site3 P_Stack2 P_Keep P_Bare P_Close T_Conn T_Scope T_Site T_Open T_AsgiSite T_Stack T_Keep T_Bare.

(** Handlers, middlewares and requests as in C81; a request may have a Connection field, of any value. Neither the client nor the network nor a time-out ends the
    connection. [e] is the step in which the server decides to end it. All that the server has written by then, and whatever happens afterwards, are the right
    responses to the first n requests, each of them whole, and nothing else; no other handler was started. If no async generator has status 204 or 304, then the last of
    these requests asked to close the connection, or the server puts out connections to make room for others.
    Partial: the client waits, the requests are within the limits, the handlers keep up (otherwise the connection is closed in the middle: c83_middle_refuted, c77_slow_refuted);
    for the generators see c81_stream_refuted. *)
Theorem c83_closed_partial : forall o ap paths reqs date tr e post s b s' bx s2 b2,
  opts_ok o -> (0 < o_body o)%Z -> soft_app ap paths -> Forall (sound_call o) reqs -> Forall (small o) reqs -> (forall i, one_line (date i)) ->
  conn_run o conn_new tr = Some (s, b) -> c_closing s = false -> conn_step o s e = Some (s', bx) -> c_closing s' = true -> conn_run o s' post = Some (s2, b2) ->
  client_waits o (map msg_of reqs) (tr ++ [e]) -> handlers_ok o (map msg_of reqs) (tr ++ [e]) -> uncut (tr ++ [e]) -> keeps_up o (tr ++ [e]) ->
  performs_app ap date tr b -> closes_app ap date tr b ->
  exists n, ended (b ++ bx) = S n /\ List.length (starts (b ++ bx)) = S n /\
    (exists answers, read_answers_to (map method_of (firstn (S n) reqs)) (written (b ++ bx ++ b2)) = Some (answers, []) /\ Forall2 (right_page_to ap paths) (firstn (S n) reqs) answers) /\
    (full_streams ap -> e = RunSend true \/ exists c, nth_error reqs n = Some c /\ bids_close c).
Proof.
  intros o ap paths reqs date tr e post s b s' bx s2 b2 Oo Ob Ao Ro Lo Do Run Op St Cl Aft Hw Hh Hu Hk Hp Hq.
  destruct (closed_silent o post s' s2 b2 Aft Cl) as [_ W2]. destruct (app_closed o ap paths reqs date tr e s b s' bx Oo Ob Ao Ro Lo Do Run Op St Cl Hw Hh Hu Hk Hp Hq) as ((l & Rd & Ra) & Ls & Why & n & En).
  exists n. rewrite En in *. split; [reflexivity|]. split; [exact Ls|]. split.
  - exists l. split; [|exact Ra]. rewrite app_assoc. unfold written in *. rewrite map_app, concat_app, W2, app_nil_r. exact Rd.
  - intros Fs. destruct (Why Fs) as [->|(i & c & Ei & Ec & Bc)]; [now left|right]. exists c. injection Ei as ->. now split.
Qed.
Print Assumptions c83_closed_partial.
(** And it does end it then: while the connection is open, no request that was answered has asked to close it. *)
Theorem c83_obeyed : forall o ap paths reqs date tr s b,
  opts_ok o -> soft_app ap paths -> full_streams ap -> Forall (sound_call o) reqs -> (forall i, one_line (date i)) ->
  conn_run o conn_new tr = Some (s, b) -> c_closing s = false ->
  client_ok o (map msg_of reqs) tr -> S_Conn.settled o tr \/ client_waits o (map msg_of reqs) tr -> handlers_ok o (map msg_of reqs) tr -> closes_app ap date tr b ->
  Forall (fun c => ~ bids_close c) (firstn (ended b) reqs).
Proof. exact app_obeys. Qed.
Print Assumptions c83_obeyed.

(** ** Examples *)
(** The second request asks to close the connection. *)
Definition leaving : list S_Site.call :=
  [mkCall (bs "GET") (bs "/hello") [(bs "Host", bs "a"); (bs "Connection", bs "keep-alive")] None;
   mkCall (bs "HEAD") (bs "/same") [(bs "Host", bs "a"); (bs "Connection", bs "TE, Close")] None].
Definition leaving_run : list cev := removelast (bare_run (bare_app bare_page) leaving).
Example c83_calls : Forall (sound_call conn_opts) leaving.
Proof.
  assert (forall n, existsb (beqb n) length_names = false -> ~ In n length_names) as N.
  { intros n E I. assert (existsb (beqb n) length_names = true); [|congruence]. apply existsb_exists. exists n. split; [exact I|apply beqb_refl]. }
  repeat apply Forall_cons; [..|apply Forall_nil]; (split; [apply fits_ok; vm_compute; reflexivity|]; split; [vm_compute; discriminate|];
    split; [split; [repeat (constructor; [apply N; vm_compute; reflexivity|]); constructor|apply Nat.leb_le; vm_compute; reflexivity]|]; split; [|split; vm_compute; discriminate]);
    [exists (bs "hello")|exists (bs "same")]; (split; [apply bare_b; reflexivity|]; exists 0, 0, []; split; [reflexivity|]; now left).
Qed.
Example c83_bids : exists c d, leaving = [c; d] /\ ~ bids_close c /\ bids_close d.
Proof.
  eexists _, _. split; [reflexivity|]. split.
  - pose proof (proj1 (Forall_forall _ _) c83_calls _ (or_introl eq_refl)) as G. destruct (call_framed conn_opts _ G) as (r & Fr & _ & _ & _ & _ & Ka & _). intros B. apply Ka in B.
    assert (match frame_head (m_head (msg_of (hd (mkCall [] [] [] None) leaving))) (blen (m_head (msg_of (hd (mkCall [] [] [] None) leaving))) - 2) with Framed r => rq_keepalive r = true | _ => False end) as X by (vm_compute; reflexivity).
    cbn [hd leaving] in X. rewrite Fr in X. congruence.
  - exists [bs "TE"; bs " Close"], (bs " Close"). split; [now left|]. split; [|split; [right; now left|reflexivity]]. repeat constructor; apply memb_notIn; reflexivity.
Qed.
Example c83_example : exists s b s' bx, conn_run conn_opts conn_new leaving_run = Some (s, b) /\ c_closing s = false /\ conn_step conn_opts s (RunSend false) = Some (s', bx) /\ c_closing s' = true /\
  opts_ok conn_opts /\ Forall (small conn_opts) leaving /\ let tr := leaving_run ++ [RunSend false] in
  client_waits conn_opts (map msg_of leaving) tr /\ handlers_ok conn_opts (map msg_of leaving) tr /\ uncut tr /\ keeps_up conn_opts tr /\
  performs_app (bare_app bare_page) (fun _ => bs "now") leaving_run b /\ closes_app (bare_app bare_page) (fun _ => bs "now") leaving_run b /\
  match read_answers_to (map method_of leaving) (written (b ++ bx)) with
  | Some (l, rest) => rest = [] /\ map bare_gist l = [(bs "HTTP/1.1 200 OK", 1, bs "hello"); (bs "HTTP/1.1 304 Not Modified", 1, [])]
  | None => False
  end.
Proof.
  set (tr := leaving_run).
  assert (match conn_run conn_opts conn_new tr with
    | Some (s, b) => c_closing s = false /\ starts b = combine [0; 1] (map m_head (map msg_of leaving)) /\ map (fun i => got i b) [0; 1] = [[]; []] /\
        match conn_step conn_opts s (RunSend false) with
        | Some (s', bx) => c_closing s' = true /\
          match read_answers_to (map method_of leaving) (written (b ++ bx)) with
          | Some (l, rest) => rest = [] /\ map bare_gist l = [(bs "HTTP/1.1 200 OK", 1, bs "hello"); (bs "HTTP/1.1 304 Not Modified", 1, [])]
          | None => False
          end
        | None => False end
    | None => False end) as F by (vm_compute; repeat split; reflexivity).
  assert (all_waits conn_opts (map msg_of leaving) (tr ++ [RunSend false]) = true) as A by (vm_compute; reflexivity). apply andb_prop in A as [A A3]. apply andb_prop in A as [A1 A2].
  assert (unbroken_b (tr ++ [RunSend false]) = true) as Ub by (vm_compute; reflexivity). apply unbroken_b_ok in Ub.
  destruct (conn_run conn_opts conn_new tr) as [[s b]|] eqn:E; [|contradiction]. destruct F as (Op & Es & Eg & F). destruct (conn_step conn_opts s (RunSend false)) as [[s' bx]|] eqn:E2; [|contradiction]. destruct F as [Cl F].
  destruct (bare_performs (bare_app bare_page) leaving tr s b E) as [P C]; [vm_compute; reflexivity|exact Es| |].
  { cbn [map] in Eg. injection Eg as G0 G1. intros [|[|i]] c Ei; [..|destruct i; discriminate Ei]; injection Ei as <-; (split; [assumption|]; split; vm_compute; reflexivity). }
  exists s, b, s', bx. split; [reflexivity|]. split; [exact Op|]. split; [exact E2|]. split; [exact Cl|]. split; [split; apply Nat.ltb_lt; reflexivity|]. split; [apply small_b_ok; vm_compute; reflexivity|]. cbv zeta.
  split; [now apply waits_b_ok|]. split; [now apply handlers_b_ok|]. split; [eapply Forall_impl; [|exact Ub]; intros []; tauto|]. split; [apply keeps_up_b_ok; vm_compute; reflexivity|]. split; [exact P|]. split; [exact C|exact F].
Qed.

(** ** What does not hold *)
(** A request whose body is larger than client_max_body_size, to a handler that streams its response: when too much of the body has come, the server ends the
    response in the middle and closes the connection. *)
Definition tight_opts : copts := mkO 8192 3 128 512 512.
Definition heavy : S_Site.call := mkCall (bs "POST") (bs "/hello") [(bs "Host", bs "a")] (Some (bs "12345")).
Definition heavy_run : list cev :=
  [Data (m_head (msg_of heavy)); RunHR 0] ++ flat_map (fun x => match x with Some d => [HPut 0 d; RunSend false] | None => [] end) (firstn 2 (r_out (served (bare_app bare_page) heavy))) ++
  [Data (bs "1234"); RunRcv 0; RunRcv 0].
Lemma heavy_sound : sound_call tight_opts heavy.
Proof.
  split; [apply fits_ok; vm_compute; reflexivity|]. split; [vm_compute; discriminate|].
  split; [split; [repeat (constructor; [apply length_b; vm_compute; reflexivity|]); constructor|apply Nat.leb_le; vm_compute; reflexivity]|]. split; [|split; vm_compute; discriminate].
  exists (bs "hello"). split; [apply bare_b; reflexivity|]. exists 0, 0, []. split; [reflexivity|]. now left.
Qed.
Lemma nobody_closes ap date tr b : closers tr = [] -> performs_app ap date tr b /\ closes_app ap date tr b.
Proof.
  intros E. split; [intros i h r _ Hi; rewrite E in Hi; contradiction|]. intros i h r keep _ Hi. assert (In i (closers tr)) as X by (apply in_flat_map; exists (HClose i keep); split; [exact Hi|now left]). rewrite E in X. contradiction.
Qed.
Theorem c83_middle_refuted : exists o ap paths reqs date tr e s b s' bx,
  opts_ok o /\ (0 < o_body o)%Z /\ soft_app ap paths /\ full_streams ap /\ Forall (sound_call o) reqs /\ Forall (fun c => ~ bids_close c) reqs /\ (forall i, one_line (date i)) /\
  conn_run o conn_new tr = Some (s, b) /\ c_closing s = false /\ conn_step o s e = Some (s', bx) /\ c_closing s' = true /\ e <> RunSend true /\
  client_waits o (map msg_of reqs) (tr ++ [e]) /\ handlers_ok o (map msg_of reqs) (tr ++ [e]) /\ uncut (tr ++ [e]) /\ keeps_up o (tr ++ [e]) /\
  performs_app ap date tr b /\ closes_app ap date tr b /\ is_prefix (did 0 tr) (r_out (served ap heavy)) /\ reqs = [heavy] /\
  ended (b ++ bx) = 1 /\ startswith (bs "HTTP/1.1 200 OK") (written (b ++ bx)) = true /\ read_answers_to (map method_of reqs) (written (b ++ bx)) = None.
Proof.
  set (tr := heavy_run). set (o := tight_opts).
  assert (match conn_run o conn_new tr with
    | Some (s, b) => c_closing s = false /\
        match conn_step o s (RunSend false) with
        | Some (s', bx) => c_closing s' = true /\ ended (b ++ bx) = 1 /\ startswith (bs "HTTP/1.1 200 OK") (written (b ++ bx)) = true /\ read_answers_to (map method_of [heavy]) (written (b ++ bx)) = None
        | None => False end
    | None => False end) as F by (vm_compute; repeat split; reflexivity).
  assert (all_waits o (map msg_of [heavy]) (tr ++ [RunSend false]) = true) as A by (vm_compute; reflexivity). apply andb_prop in A as [A A3]. apply andb_prop in A as [A1 A2].
  assert (unbroken_b (tr ++ [RunSend false]) = true) as Ub by (vm_compute; reflexivity). apply unbroken_b_ok in Ub.
  destruct (conn_run o conn_new tr) as [[s b]|] eqn:E; [|contradiction]. destruct F as (Op & F). destruct (conn_step o s (RunSend false)) as [[s' bx]|] eqn:E2; [|contradiction]. destruct F as (Cl & F).
  assert (closers tr = []) as Ec by (vm_compute; reflexivity).
  exists o, (bare_app bare_page), [bs "hello"; bs "same"], [heavy], (fun _ => bs "now"), tr, (RunSend false), s, b, s', bx.
  split; [split; apply Nat.ltb_lt; reflexivity|]. split; [reflexivity|]. split; [exact (proj1 c81_app)|]. split; [exact (proj2 c81_app)|]. split; [constructor; [exact heavy_sound|constructor]|]. split; [apply stays_b; vm_compute; reflexivity|].
  split; [intros i; apply memb_notIn; reflexivity|]. split; [exact E|]. split; [exact Op|]. split; [exact E2|]. split; [exact Cl|]. split; [discriminate|].
  split; [now apply waits_b_ok|]. split; [now apply handlers_b_ok|]. split; [eapply Forall_impl; [|exact Ub]; intros []; tauto|]. split; [apply keeps_up_b_ok; vm_compute; reflexivity|].
  destruct (nobody_closes (bare_app bare_page) (fun _ => bs "now") tr b Ec) as [P C]. split; [exact P|]. split; [exact C|].
  split; [exists (skipn 2 (r_out (served (bare_app bare_page) heavy))); vm_compute; reflexivity|]. split; [reflexivity|exact F].
Qed.
Print Assumptions c83_middle_refuted.
