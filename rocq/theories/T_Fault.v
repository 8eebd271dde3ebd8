(** C84: a handler or a middleware that fails gives the response of its exception, whole, and then the connection is ended. *)
From Verif Require Import PyBytes PyBytesFacts PyInt PyExn M_Parser M_Framing M_Conn M_Response M_Server M_Stack M_Fault
  S_Head S_Response S_Calls S_Conn S_Route S_Site S_AsgiSite S_Stack S_Open S_Keep S_Bare S_Close S_Fault P_Conn2 P_Conn3 P_Conn7 P_Conn10 P_Site3 P_Stack2 P_Keep P_Bare P_Close P_Fault T_Conn T_Scope T_Site T_Open T_AsgiSite T_Stack T_Keep T_Bare T_Close.

(** Handlers, middlewares and requests as in C83, but the function of a route may raise an exception, instead of returning or before its first yield, and so may middlewares,
    instead of returning. While the connection is open, the responses to the requests that were answered are right, and no handler or middleware has failed for these requests; nor has one
    of them asked to close the connection. *)
Theorem c84_open : forall o fa paths reqs date tr s b,
  opts_ok o -> soft_app (f_app fa) paths -> sound_faults fa -> Forall (sound_call o) reqs -> (forall i, one_line (date i)) ->
  conn_run o conn_new tr = Some (s, b) -> c_closing s = false ->
  client_ok o (map msg_of reqs) tr -> S_Conn.settled o tr \/ client_waits o (map msg_of reqs) tr -> handlers_ok o (map msg_of reqs) tr -> performs_faulty fa date tr b -> closes_faulty fa date tr b ->
  Forall (fun c => ~ fails fa paths c /\ (full_streams (f_app fa) -> ~ bids_close c)) (firstn (ended b) reqs) /\
  exists answers rest, read_answers_to (map method_of (firstn (ended b) reqs)) (written b) = Some (answers, rest) /\ Forall2 (right_reply fa paths) (firstn (ended b) reqs) answers /\
    (input tr = List.concat (map wire (map msg_of reqs)) -> S_Conn.quiet o tr s b -> ended b = List.length reqs /\ rest = []).
Proof.
  intros o fa paths reqs date tr s b Oo Ao Fo Ro Do Run Op Hc Hs Hh Hp Hq. split; [exact (fault_obeys o fa paths reqs date tr s b Oo Ao Fo Ro Do Run Op Hc Hs Hh Hq)|].
  exact (fault_exchange o fa paths reqs date tr s b Oo Ao Fo Ro Do Run Op Hc Hs Hh Hp).
Qed.
Print Assumptions c84_open.
(** [e] is the step in which the server decides to end the connection. All that it has written by then, and whatever happens afterwards, are the right responses to the first
    n + 1 requests, each of them whole, and nothing else. None of the first n requests has failed. If no async generator has status 204 or 304, then the last request's handler or a middleware has failed, or the
    last request asked to close the connection, or the server puts out connections to make room for others.
    Partial: as c83_closed_partial. *)
Theorem c84_closed_partial : forall o fa paths reqs date tr e post s b s' bx s2 b2,
  opts_ok o -> (0 < o_body o)%Z -> soft_app (f_app fa) paths -> sound_faults fa -> Forall (sound_call o) reqs -> Forall (small o) reqs -> (forall i, one_line (date i)) ->
  conn_run o conn_new tr = Some (s, b) -> c_closing s = false -> conn_step o s e = Some (s', bx) -> c_closing s' = true -> conn_run o s' post = Some (s2, b2) ->
  client_waits o (map msg_of reqs) (tr ++ [e]) -> handlers_ok o (map msg_of reqs) (tr ++ [e]) -> uncut (tr ++ [e]) -> keeps_up o (tr ++ [e]) ->
  performs_faulty fa date tr b -> closes_faulty fa date tr b ->
  exists n, ended (b ++ bx) = S n /\ List.length (starts (b ++ bx)) = S n /\ Forall (fun c => ~ fails fa paths c) (firstn n reqs) /\
    (exists answers, read_answers_to (map method_of (firstn (S n) reqs)) (written (b ++ bx ++ b2)) = Some (answers, []) /\ Forall2 (right_reply fa paths) (firstn (S n) reqs) answers) /\
    (full_streams (f_app fa) -> e = RunSend true \/ exists c, nth_error reqs n = Some c /\ (bids_close c \/ fails fa paths c)).
Proof.
  intros o fa paths reqs date tr e post s b s' bx s2 b2 Oo Ob Ao Fo Ro Lo Do Run Op St Cl Aft Hw Hh Hu Hk Hp Hq.
  destruct (closed_silent o post s' s2 b2 Aft Cl) as [_ W2]. destruct (fault_closed o fa paths reqs date tr e s b s' bx Oo Ob Ao Fo Ro Lo Do Run Op St Cl Hw Hh Hu Hk Hp Hq) as (n & En & Ls & Nf & (l & Rd & Ra) & Why).
  exists n. split; [exact En|]. split; [exact Ls|]. split; [exact Nf|]. split; [|exact Why]. exists l. split; [|exact Ra]. rewrite app_assoc. unfold written in *. rewrite map_app, concat_app, W2, app_nil_r. exact Rd.
Qed.
Print Assumptions c84_closed_partial.

(** ** Examples *)
(** The application of C81, but the function of /same raises an HTTPException for the method POST, and something else for HEAD; the request middleware raises one for PUT,
    the response middleware something else for DELETE. *)
Definition fault_app : faulty := mkFaulty (bare_app bare_page)
  (fun f m _ _ _ => match f with
                    | 2 => if beqb m (bs "POST") then Some (XHttp 409 (bs "Conflict") (bs "text/plain"), EData (bs "no")) else if beqb m (bs "HEAD") then Some (XOther, EData (bs "failed")) else None
                    | _ => None
                    end)
  (fun _ m _ _ => if beqb m (bs "PUT") then Some (XHttp 401 (bs "Unauthorized") (bs "text/plain"), EData (bs "who")) else None)
  (fun _ m _ _ => if beqb m (bs "DELETE") then Some (XOther, EData (bs "failed")) else None).
Example c84_app : soft_app (f_app fault_app) [bs "hello"; bs "same"] /\ full_streams (f_app fault_app) /\ sound_faults fault_app.
Proof.
  split; [exact (proj1 c81_app)|]. split; [exact (proj2 c81_app)|].
  assert (forall x d st ctype, error_status x = Some (st, ctype) -> d <> EUnencodable -> memb LF (snd st) = false -> memb LF ctype = false -> (fst st = 401 \/ fst st = 409 \/ fst st = 500)%Z -> sound_fault (x, d)) as K.
  { intros x d st ctype E N L1 L2 H. split; [exact N|]. exists st, ctype. split; [exact E|]. split; [now apply memb_notIn|]. split; [now apply memb_notIn|]. right. right. intros [X|X]; [discriminate|lia]. }
  split; [|split].
  - intros f m u v b xd E. cbn [f_raises fault_app] in E. destruct f as [|[|[|f]]]; try discriminate. destruct (beqb m (bs "POST")); [|destruct (beqb m (bs "HEAD")); [|discriminate]]; injection E as <-; (eapply K; [reflexivity|discriminate|reflexivity|reflexivity|cbn [fst]; tauto]).
  - intros i m u v xd E. cbn [f_before fault_app] in E. destruct (beqb m (bs "PUT")); [|discriminate]. injection E as <-. eapply K; [reflexivity|discriminate|reflexivity|reflexivity|cbn [fst]; tauto].
  - intros i m u v xd E. cbn [f_after fault_app] in E. destruct (beqb m (bs "DELETE")); [|discriminate]. injection E as <-. eapply K; [reflexivity|discriminate|reflexivity|reflexivity|cbn [fst]; tauto].
Qed.
Definition failing : list S_Site.call :=
  [mkCall (bs "GET") (bs "/hello") [(bs "Host", bs "a")] None; mkCall (bs "GET") (bs "/same") [(bs "Host", bs "a")] None; mkCall (bs "POST") (bs "/same") [(bs "Host", bs "a")] None].
Definition fault_served (fa : faulty) (c : S_Site.call) : rsp :=
  match frame_head (m_head (msg_of c)) (blen (m_head (msg_of c)) - 2) with Framed r => snd (fault_serve (bs "now") fa r []) | _ => new_rsp true end.
Definition fault_acts (fa : faulty) (i : nat) (c : S_Site.call) : list cev :=
  [Data (wire (msg_of c)); RunHR i] ++ flat_map (fun x => match x with Some d => [HPut i d; RunSend false] | None => [HClose i (r_keep (fault_served fa c)); RunSend false] end) (r_out (fault_served fa c)).
Definition fault_run (fa : faulty) (l : list S_Site.call) : list cev := List.concat (map (fun ic => fault_acts fa (fst ic) (snd ic)) (combine (List.seq 0 (List.length l)) l)).
Example c84_calls : Forall (sound_call conn_opts) failing.
Proof.
  repeat apply Forall_cons; [..|apply Forall_nil]; (split; [apply fits_ok; vm_compute; reflexivity|]; split; [vm_compute; discriminate|];
    split; [split; [repeat (constructor; [apply length_b; vm_compute; reflexivity|]); constructor|apply Nat.leb_le; vm_compute; reflexivity]|]; split; [|split; vm_compute; discriminate]);
    [exists (bs "hello")|exists (bs "same")|exists (bs "same")]; (split; [apply bare_b; reflexivity|]; exists 0, 0, []; split; [reflexivity|]; now left).
Qed.
Lemma fault_performs fa l tr s b : conn_run conn_opts conn_new tr = Some (s, b) -> closers tr = List.seq 0 (List.length l) ->
  starts b = combine (List.seq 0 (List.length l)) (map m_head (map msg_of l)) ->
  (forall i c, nth_error l i = Some c -> got i b = [] /\ did i tr = r_out (fault_served fa c) /\ forallb (fun e => match e with HClose j k => negb (j =? i)%nat || Bool.eqb k (r_keep (fault_served fa c)) | _ => true end) tr = true) ->
  performs_faulty fa (fun _ => bs "now") tr b /\ closes_faulty fa (fun _ => bs "now") tr b.
Proof.
  intros R Ec Es H. assert (forall i h, In (Started i h) b -> exists c, nth_error l i = Some c /\ h = m_head (msg_of c)) as K.
  { intros i h Hi. assert (In (i, h) (starts b)) as J by (apply in_flat_map; exists (Started i h); split; [exact Hi|now left]). rewrite Es in J.
    apply (In_nth _ _ (0, [])) in J as (k & Lk & J). rewrite combine_length, seq_length, !map_length, Nat.min_id in Lk. rewrite combine_nth in J by (rewrite seq_length, !map_length; reflexivity). rewrite seq_nth in J by exact Lk. cbn [Nat.add] in J.
    apply pair_equal_spec in J as [-> <-]. destruct (nth_error l i) as [c|] eqn:Ei; [|apply nth_error_None in Ei; lia]. exists c. split; [reflexivity|]. rewrite map_map. apply nth_error_nth. rewrite nth_error_map, Ei. reflexivity. }
  split.
  - intros i h r Hi _ Fr. destruct (K i h Hi) as (c & Ei & ->). destruct (H i c Ei) as (G & D & _). rewrite G, D. unfold fault_served. now rewrite Fr.
  - intros i h r keep Hi Hk Fr. destruct (K i h Hi) as (c & Ei & ->). destruct (H i c Ei) as (G & _ & D). apply (proj1 (forallb_forall _ _) D) in Hk. rewrite Nat.eqb_refl in Hk. cbn [negb orb] in Hk. apply eqb_prop in Hk. rewrite Hk, G. unfold fault_served. now rewrite Fr.
Qed.
(** Two requests are answered; the third handler fails. *)
Definition failing_run : list cev := removelast (fault_run fault_app failing).
Example c84_example : exists s b s' bx, conn_run conn_opts conn_new failing_run = Some (s, b) /\ c_closing s = false /\ ended b = 2 /\ conn_step conn_opts s (RunSend false) = Some (s', bx) /\ c_closing s' = true /\
  opts_ok conn_opts /\ Forall (small conn_opts) failing /\ let tr := failing_run ++ [RunSend false] in
  client_waits conn_opts (map msg_of failing) tr /\ handlers_ok conn_opts (map msg_of failing) tr /\ uncut tr /\ keeps_up conn_opts tr /\
  performs_faulty fault_app (fun _ => bs "now") failing_run b /\ closes_faulty fault_app (fun _ => bs "now") failing_run b /\
  match read_answers_to (map method_of failing) (written (b ++ bx)) with
  | Some (l, rest) => rest = [] /\ map bare_gist l = [(bs "HTTP/1.1 200 OK", 1, bs "hello"); (bs "HTTP/1.1 304 Not Modified", 1, []); (bs "HTTP/1.1 409 Conflict", 0, bs "no")]
  | None => False
  end.
Proof.
  set (tr := failing_run).
  assert (match conn_run conn_opts conn_new tr with
    | Some (s, b) => c_closing s = false /\ ended b = 2 /\ starts b = combine [0; 1; 2] (map m_head (map msg_of failing)) /\ map (fun i => got i b) [0; 1; 2] = [[]; []; []] /\
        match conn_step conn_opts s (RunSend false) with
        | Some (s', bx) => c_closing s' = true /\
          match read_answers_to (map method_of failing) (written (b ++ bx)) with
          | Some (l, rest) => rest = [] /\ map bare_gist l = [(bs "HTTP/1.1 200 OK", 1, bs "hello"); (bs "HTTP/1.1 304 Not Modified", 1, []); (bs "HTTP/1.1 409 Conflict", 0, bs "no")]
          | None => False
          end
        | None => False end
    | None => False end) as F by (vm_compute; repeat split; reflexivity).
  assert (all_waits conn_opts (map msg_of failing) (tr ++ [RunSend false]) = true) as A by (vm_compute; reflexivity). apply andb_prop in A as [A A3]. apply andb_prop in A as [A1 A2].
  assert (unbroken_b (tr ++ [RunSend false]) = true) as Ub by (vm_compute; reflexivity). apply unbroken_b_ok in Ub.
  destruct (conn_run conn_opts conn_new tr) as [[s b]|] eqn:E; [|contradiction]. destruct F as (Op & Ee & Es & Eg & F). destruct (conn_step conn_opts s (RunSend false)) as [[s' bx]|] eqn:E2; [|contradiction]. destruct F as [Cl F].
  destruct (fault_performs fault_app failing tr s b E) as [P C]; [vm_compute; reflexivity|exact Es| |].
  { cbn [map] in Eg. injection Eg as G0 G1 G2. intros [|[|[|i]]] c Ei; [..|destruct i; discriminate Ei]; injection Ei as <-; (split; [assumption|]; split; vm_compute; reflexivity). }
  exists s, b, s', bx. split; [reflexivity|]. split; [exact Op|]. split; [exact Ee|]. split; [exact E2|]. split; [exact Cl|]. split; [split; apply Nat.ltb_lt; reflexivity|]. split; [apply small_b_ok; vm_compute; reflexivity|]. cbv zeta.
  split; [now apply waits_b_ok|]. split; [now apply handlers_b_ok|]. split; [eapply Forall_impl; [|exact Ub]; intros []; tauto|]. split; [apply keeps_up_b_ok; vm_compute; reflexivity|]. split; [exact P|]. split; [exact C|exact F].
Qed.
Example c84_fails : exists a b c, failing = [a; b; c] /\ fails fault_app [bs "hello"; bs "same"] c.
Proof.
  eexists _, _, _. split; [reflexivity|]. eexists. unfold raised. cbv zeta. exists (bs "same"). split; [|reflexivity]. split; [apply bare_b; reflexivity|]. exists 0, 0, []. split; [reflexivity|]. now left.
Qed.
(** A request middleware fails, whatever the path; a response middleware fails. *)
Example c84_middlewares :
  let put := mkCall (bs "PUT") (bs "/nowhere") [(bs "Host", bs "a")] None in
  let delete := mkCall (bs "DELETE") (bs "/hello") [(bs "Host", bs "a")] None in
  fails fault_app [bs "hello"; bs "same"] put /\ fails fault_app [bs "hello"; bs "same"] delete /\
  map (fun c => match r_out (fault_served fault_app c) with
                | [Some w; None] => option_map (fun x => bare_gist (fst x)) (read_answer_to (method_of c) w)
                | _ => None
                end) [put; delete] =
  [Some (bs "HTTP/1.1 401 Unauthorized", 0, bs "who"); Some (bs "HTTP/1.1 500 Internal Server Error", 0, bs "failed")].
Proof.
  cbv zeta. split; [|split].
  - eexists. reflexivity.
  - eexists. unfold raised. cbv zeta. exists (bs "hello"). split; [|reflexivity]. split; [apply bare_b; reflexivity|]. exists 0, 0, []. split; [reflexivity|]. now left.
  - vm_compute. reflexivity.
Qed.
