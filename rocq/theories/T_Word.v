(** C86: the Connection line of a response says truly whether the connection goes on. *)
From Verif Require Import PyBytes PyBytesFacts PyInt PyExn M_Parser M_Framing M_Conn M_Response M_Server M_Stack M_Fault
  S_Head S_Response S_Calls S_Conn S_Route S_Site S_AsgiSite S_Stack S_Open S_Keep S_Bare S_Told S_Close S_Fault S_Word P_Conn2 P_Conn3 P_Conn7 P_Conn10 P_Site3 P_Stack2 P_Keep P_Bare P_Close P_Fault P_Word T_Conn T_Scope T_Site T_Open T_AsgiSite T_Stack T_Keep T_Bare T_Close T_Fault.

(** Handlers, middlewares and requests as in C84; response middlewares set no Connection header. The response to a request says that the connection is closed if the client asked for that or the handler or a middleware fails, and else
    that it goes on: there is one such line, or several that are the same. *)
Theorem c86_words : forall o fa paths reqs date tr s b,
  opts_ok o -> soft_app (f_app fa) paths -> leaves_connection (f_app fa) -> sound_faults fa -> Forall (sound_call o) reqs -> (forall i, one_line (date i)) ->
  conn_run o conn_new tr = Some (s, b) -> c_closing s = false ->
  client_ok o (map msg_of reqs) tr -> S_Conn.settled o tr \/ client_waits o (map msg_of reqs) tr -> handlers_ok o (map msg_of reqs) tr -> performs_faulty fa date tr b ->
  exists answers rest, read_answers_to (map method_of (firstn (ended b) reqs)) (written b) = Some (answers, rest) /\ Forall2 (right_reply fa paths) (firstn (ended b) reqs) answers /\
    Forall2 (right_word fa paths) (firstn (ended b) reqs) answers.
Proof. exact word_exchange. Qed.
Print Assumptions c86_words.
(** While the connection is open, no response has said that it is closed. Partial: not if an async generator has status 204 or 304: such a response says that the connection goes on, and it is closed (c81_stream_refuted); nor if a
    response middleware sets a Connection header (c86_middleware_refuted). *)
Theorem c86_open_partial : forall o fa paths reqs date tr s b,
  opts_ok o -> soft_app (f_app fa) paths -> full_streams (f_app fa) -> leaves_connection (f_app fa) -> sound_faults fa -> Forall (sound_call o) reqs -> (forall i, one_line (date i)) ->
  conn_run o conn_new tr = Some (s, b) -> c_closing s = false ->
  client_ok o (map msg_of reqs) tr -> S_Conn.settled o tr \/ client_waits o (map msg_of reqs) tr -> handlers_ok o (map msg_of reqs) tr -> performs_faulty fa date tr b -> closes_faulty fa date tr b ->
  exists answers rest, read_answers_to (map method_of (firstn (ended b) reqs)) (written b) = Some (answers, rest) /\ Forall2 (right_reply fa paths) (firstn (ended b) reqs) answers /\ Forall says_open answers.
Proof.
  intros o fa paths reqs date tr s b Oo Ao Fs Lc Fo Ro Do Run Op Hc Hs Hh Hp Hq. destruct (word_exchange o fa paths reqs date tr s b Oo Ao Lc Fo Ro Do Run Op Hc Hs Hh Hp) as (l & rest & R & A & W).
  exists l, rest. split; [exact R|]. split; [exact A|]. apply (words_open fa paths (firstn (ended b) reqs)); [exact W|]. eapply Forall_impl; [|exact (fault_obeys o fa paths reqs date tr s b Oo Ao Fo Ro Do Run Op Hc Hs Hh Hq)]. intros c [X1 X2]. split; [exact X1|now apply X2].
Qed.
Print Assumptions c86_open_partial.
(** [e] is the step in which the server decides to end the connection; [post] is what happens afterwards. All responses but the last have said that the connection goes on; the last says that it is closed, unless the server puts
    out connections to make room for others. Partial: as c84_closed_partial and c86_open_partial. *)
Theorem c86_closed_partial : forall o fa paths reqs date tr e post s b s' bx s2 b2,
  opts_ok o -> (0 < o_body o)%Z -> soft_app (f_app fa) paths -> full_streams (f_app fa) -> leaves_connection (f_app fa) -> sound_faults fa -> Forall (sound_call o) reqs -> Forall (small o) reqs -> (forall i, one_line (date i)) ->
  conn_run o conn_new tr = Some (s, b) -> c_closing s = false -> conn_step o s e = Some (s', bx) -> c_closing s' = true -> conn_run o s' post = Some (s2, b2) ->
  client_waits o (map msg_of reqs) (tr ++ [e]) -> handlers_ok o (map msg_of reqs) (tr ++ [e]) -> uncut (tr ++ [e]) -> keeps_up o (tr ++ [e]) ->
  performs_faulty fa date tr b -> closes_faulty fa date tr b ->
  exists n init last, ended (b ++ bx) = S n /\ List.length init = n /\ read_answers_to (map method_of (firstn (S n) reqs)) (written (b ++ bx ++ b2)) = Some (init ++ [last], []) /\
    Forall2 (right_reply fa paths) (firstn (S n) reqs) (init ++ [last]) /\ Forall says_open init /\ (says_close last \/ e = RunSend true).
Proof.
  intros o fa paths reqs date tr e post s b s' bx s2 b2 Oo Ob Ao Fs Lc Fo Ro Sm Do Run Op St Cl Aft Hw Hh Hu Hk Hp Hq.
  destruct (closed_silent o post s' s2 b2 Aft Cl) as [_ W2]. destruct (word_closed o fa paths reqs date tr e s b s' bx Oo Ob Ao Fs Lc Fo Ro Sm Do Run Op St Cl Hw Hh Hu Hk Hp Hq) as (n & init & last & En & Rd & Ra & Li & Oi & La).
  exists n, init, last. split; [exact En|]. split; [exact Li|]. split; [|now split]. rewrite app_assoc. unfold written in *. rewrite map_app, concat_app, W2, app_nil_r. exact Rd.
Qed.
Print Assumptions c86_closed_partial.
(** What a client makes of it: it has read the last response of a connection that is closed, and this response says that the connection goes on; then the server has made room for others. *)
Theorem c86_trust_partial : forall o fa paths reqs date tr e post s b s' bx s2 b2 answers last rest,
  opts_ok o -> (0 < o_body o)%Z -> soft_app (f_app fa) paths -> full_streams (f_app fa) -> leaves_connection (f_app fa) -> sound_faults fa -> Forall (sound_call o) reqs -> Forall (small o) reqs -> (forall i, one_line (date i)) ->
  conn_run o conn_new tr = Some (s, b) -> c_closing s = false -> conn_step o s e = Some (s', bx) -> c_closing s' = true -> conn_run o s' post = Some (s2, b2) ->
  client_waits o (map msg_of reqs) (tr ++ [e]) -> handlers_ok o (map msg_of reqs) (tr ++ [e]) -> uncut (tr ++ [e]) -> keeps_up o (tr ++ [e]) ->
  performs_faulty fa date tr b -> closes_faulty fa date tr b ->
  read_answers_to (map method_of (firstn (ended (b ++ bx)) reqs)) (written (b ++ bx ++ b2)) = Some (answers ++ [last], rest) -> says_open last -> e = RunSend true.
Proof.
  intros o fa paths reqs date tr e post s b s' bx s2 b2 answers last rest Oo Ob Ao Fs Lc Fo Ro Sm Do Run Op St Cl Aft Hw Hh Hu Hk Hp Hq Rd Sl.
  destruct (c86_closed_partial o fa paths reqs date tr e post s b s' bx s2 b2 Oo Ob Ao Fs Lc Fo Ro Sm Do Run Op St Cl Aft Hw Hh Hu Hk Hp Hq) as (n & init & last' & En & _ & Rd' & _ & _ & [C|C]); [|exact C]. exfalso.
  rewrite En, Rd' in Rd. assert (init ++ [last'] = answers ++ [last]) as X by congruence. apply app_inj_tail in X as [_ <-]. destruct C as [I U], Sl as [[I' _]|[I' _]]; specialize (U _ I' eq_refl); discriminate.
Qed.
Print Assumptions c86_trust_partial.

(** ** Examples *)
(** The hypotheses hold for the run of C84: two requests are answered, the third handler fails. *)
Example c86_app : leaves_connection (f_app fault_app).
Proof. constructor; [|constructor]. intros m u v. constructor; [|constructor]. intros [X|[]]. discriminate. Qed.
Example c86_example : exists s b s' bx, conn_run conn_opts conn_new failing_run = Some (s, b) /\ conn_step conn_opts s (RunSend false) = Some (s', bx) /\ ended (b ++ bx) = 3 /\
  match read_answers_to (map method_of failing) (written (b ++ bx)) with
  | Some (l, rest) => rest = [] /\ map (fun y => lines_named (bs "connection") (r_lines y)) l = [[bs "Connection: keep-alive"]; [bs "Connection: keep-alive"]; [bs "Connection: close"]]
  | None => False
  end.
Proof.
  assert (match conn_run conn_opts conn_new failing_run with
    | Some (s, b) => match conn_step conn_opts s (RunSend false) with
        | Some (s', bx) => ended (b ++ bx) = 3 /\
          match read_answers_to (map method_of failing) (written (b ++ bx)) with
          | Some (l, rest) => rest = [] /\ map (fun y => lines_named (bs "connection") (r_lines y)) l = [[bs "Connection: keep-alive"]; [bs "Connection: keep-alive"]; [bs "Connection: close"]]
          | None => False
          end
        | None => False end
    | None => False end) as F by (vm_compute; repeat split; reflexivity).
  destruct (conn_run conn_opts conn_new failing_run) as [[s b]|]; [|contradiction]. destruct (conn_step conn_opts s (RunSend false)) as [[s' bx]|] eqn:E2; [|contradiction].
  exists s, b, s', bx. split; [reflexivity|]. split; [exact E2|exact F].
Qed.

(** ** What does not hold *)
(** A response middleware sets Connection: close. The response says so, but the connection goes on. *)
Definition shut_app : stack :=
  mkStack [(bs "/hello", 1); (bs "/same", 2)] (fun _ => []) (fun f m u v x => bare_page f) [] [] [(fun m u v => [HSet (bs "Connection") (bs "close")])] 1048576 16384 (bs "Tremolo").
Theorem c86_middleware_refuted : exists o ap paths reqs date tr s b,
  opts_ok o /\ soft_app ap paths /\ full_streams ap /\ Forall (sound_call o) reqs /\ Forall (fun c => ~ bids_close c) reqs /\ (forall i, one_line (date i)) /\
  conn_run o conn_new tr = Some (s, b) /\ client_waits o (map msg_of reqs) tr /\ handlers_ok o (map msg_of reqs) tr /\ performs_app ap date tr b /\ closes_app ap date tr b /\
  c_closing s = false /\ ended b = 1 /\ exists x, read_answer_to (bs "GET") (written b) = Some (x, []) /\ In (bs "Connection: close") (r_lines x).
Proof.
  set (ap := shut_app). set (tr := bare_run ap one_call).
  assert (match conn_run conn_opts conn_new tr with
    | Some (s, b) => starts b = combine [0] (map m_head (map msg_of one_call)) /\ got 0 b = [] /\ c_closing s = false /\ ended b = 1 /\
        match read_answer_to (bs "GET") (written b) with Some (x, rest) => rest = [] /\ existsb (beqb (bs "Connection: close")) (r_lines x) = true | None => False end
    | None => False end) as F by (vm_compute; repeat split; reflexivity).
  destruct (conn_run conn_opts conn_new tr) as [[s b]|] eqn:E; [|contradiction]. destruct F as (Es & G0 & Cl & En & Rd).
  assert (all_waits conn_opts (map msg_of one_call) tr = true) as A by (vm_compute; reflexivity). apply andb_prop in A as [A A3]. apply andb_prop in A as [A1 A2].
  destruct (bare_performs ap one_call tr s b E) as [P C]; [vm_compute; reflexivity|exact Es| |].
  { intros [|i] c Ei; [|destruct i; discriminate Ei]. injection Ei as <-. split; [exact G0|]. split; vm_compute; reflexivity. }
  exists conn_opts, ap, [bs "hello"; bs "same"], one_call, (fun _ => bs "now"), tr, s, b.
  split; [split; apply Nat.ltb_lt; reflexivity|]. split; [|split; [|split; [exact one_sound|]]].
  - destruct (proj1 c81_app) as (A4 & A5 & A6 & A7 & A8 & _ & A9 & _ & _). split; [exact A4|]. split; [exact A5|]. split; [exact A6|]. split; [exact A7|]. split; [exact A8|]. split; [constructor|]. split; [exact A9|]. split; [constructor|].
    constructor; [|constructor]. intros m u v. split; [|split].
    + constructor; [|constructor]. vm_compute. intuition discriminate.
    + constructor; [|constructor]. vm_compute. intuition discriminate.
    + constructor; [exact I|constructor].
  - split; [|constructor]. exact (proj1 (proj2 c81_app)).
  - split; [apply stays_b; vm_compute; reflexivity|]. split; [intros i; apply memb_notIn; reflexivity|]. split; [exact E|]. split; [now apply waits_b_ok|]. split; [now apply handlers_b_ok|]. split; [exact P|]. split; [exact C|]. split; [exact Cl|]. split; [exact En|].
    destruct (read_answer_to _ _) as [[x rest]|]; [|contradiction]. destruct Rd as (-> & Rc). exists x. split; [reflexivity|]. apply existsb_exists in Rc as (y & Iy & Ey). apply beqb_eq in Ey. now subst y.
Qed.
Print Assumptions c86_middleware_refuted.
