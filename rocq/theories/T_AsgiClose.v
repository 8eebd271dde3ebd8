(** C83 for ASGI applications: a connection that the server ends is ended after a whole response, and because the application asked for it. *)
From Verif Require Import PyBytes PyBytesFacts PyInt PyExn M_Parser M_Framing M_Conn M_Response M_Scope M_Asgi M_AsgiSite
  S_Head S_Response S_Calls S_Scope S_Asgi S_Conn S_Route S_Site S_AsgiSite S_Told S_Open S_Keep S_Close S_AsgiClose P_Conn2 P_Conn3 P_Conn7 P_Conn10 P_Conn12 P_Site3 P_Exchange P_AsgiSite P_Keep P_Bare P_Close P_AsgiClose T_Conn T_Scope T_Site T_Open T_AsgiSite T_Stack T_Keep.

(** Applications and requests as in C78; the application may send Connection: close with any of its responses. Neither the client nor the network nor a time-out
    ends the connection. [e] is the step in which the server decides to end it. All that the server has written by then, and whatever happens afterwards, are the right
    responses to the first n requests, each of them whole, and nothing else; no other application was called. With the last of these responses the application asked to
    close the connection, or the server puts out connections to make room for others.
    Partial: as in c83_closed_partial, and all of the responses have a Content-Length, or none (c80_mode_refuted); the requests have no Connection field. *)
Theorem c83_asgi_partial : forall o y reqs date ch tr e post s b s' bx s2 b2,
  opts_ok o -> (0 < o_body o)%Z -> app_ok y -> steady y -> Forall (good_call o) reqs -> Forall (small o) reqs -> Forall (fun c => exists sc, told y c sc) reqs -> (forall i, one_line (date i)) ->
  conn_run o conn_new tr = Some (s, b) -> c_closing s = false -> conn_step o s e = Some (s', bx) -> c_closing s' = true -> conn_run o s' post = Some (s2, b2) ->
  client_waits o (map msg_of reqs) (tr ++ [e]) -> handlers_ok o (map msg_of reqs) (tr ++ [e]) -> uncut (tr ++ [e]) -> keeps_up o (tr ++ [e]) -> performs_asgi y date ch tr b ->
  exists n, ended (b ++ bx) = S n /\ List.length (starts (b ++ bx)) = S n /\
    (exists answers, read_answers (S n) (written (b ++ bx ++ b2)) = Some (answers, []) /\ Forall2 (right_reply y) (firstn (S n) reqs) answers) /\
    (e = RunSend true \/ exists c, nth_error reqs n = Some c /\ leaves y c).
Proof.
  intros o y reqs date ch tr e post s b s' bx s2 b2 Oo Ob Ao So Ro Lo To Do Run Op St Cl Aft Hw Hh Hu Hk Hp.
  destruct (closed_silent o post s' s2 b2 Aft Cl) as [_ W2]. destruct (asgi_closed o y reqs date ch tr e s b s' bx Oo Ob Ao So Ro Lo To Do Run Op St Cl Hw Hh Hu Hk Hp) as (-> & Ls & (l & Rd & Ra) & Why).
  exists (ended b). split; [rewrite ended_app; cbn; lia|]. split; [rewrite starts_app, app_length, Ls; cbn; lia|]. split; [|exact Why].
  exists l. split; [|clear -Ra; induction Ra as [|c x cs l [H _] F IH]; now constructor]. unfold written in *. rewrite map_app, concat_app. cbn [app map List.concat]. now rewrite W2, app_nil_r.
Qed.
Print Assumptions c83_asgi_partial.
(** And it does end it then: while the connection is open, the application has not asked to close it with any response that was given. *)
Theorem c83_asgi_obeyed_partial : forall o y reqs date ch tr s b,
  opts_ok o -> app_ok y -> steady y -> Forall (good_call o) reqs -> Forall (fun c => exists sc, told y c sc) reqs -> (forall i, one_line (date i)) ->
  conn_run o conn_new tr = Some (s, b) -> c_closing s = false ->
  client_ok o (map msg_of reqs) tr -> S_Conn.settled o tr \/ client_waits o (map msg_of reqs) tr -> handlers_ok o (map msg_of reqs) tr -> performs_asgi y date ch tr b ->
  Forall (fun c => ~ leaves y c) (firstn (ended b) reqs).
Proof. exact asgi_obeys. Qed.
Print Assumptions c83_asgi_obeyed_partial.

(** ** C86: the Connection line *)
(** While the connection is open, no response has said that it is closed, whatever application it is. (For the applications of C78 it goes on only after responses whose end the client can tell.) *)
Theorem c86_asgi_open : forall o y reqs date ch tr s b,
  opts_ok o -> app_ok y -> Forall (good_call o) reqs -> Forall (fun c => exists sc, told y c sc) reqs -> (forall i, one_line (date i)) ->
  conn_run o conn_new tr = Some (s, b) -> c_closing s = false ->
  client_ok o (map msg_of reqs) tr -> S_Conn.settled o tr \/ client_waits o (map msg_of reqs) tr -> handlers_ok o (map msg_of reqs) tr -> performs_asgi y date ch tr b ->
  exists answers rest, read_answers (ended b) (written b) = Some (answers, rest) /\ Forall2 (right_reply y) (firstn (ended b) reqs) answers /\ Forall says_open answers.
Proof.
  intros o y reqs date ch tr s b Oo Ao Ro To Do Run Op Hc Hs Hh Hp. destruct (asgi_words o y reqs date ch tr s b Oo Ao Ro To Do Run Op Hc Hs Hh Hp) as (l & rest & R & F & _).
  exists l, rest. split; [exact R|]. split; (clear -F; induction F as [|c x cs l [H1 H2] F IH]; now constructor).
Qed.
Print Assumptions c86_asgi_open.
(** [e] is the step in which the server decides to end the connection; [post] is what happens afterwards. All responses but the last have said that the connection goes on; the last says that it is closed, unless the server puts
    out connections to make room for others. Partial: as c83_asgi_partial; with lengths in some responses only, it is false (c86_mode_refuted). *)
Theorem c86_asgi_closed_partial : forall o y reqs date ch tr e post s b s' bx s2 b2,
  opts_ok o -> (0 < o_body o)%Z -> app_ok y -> steady y -> Forall (good_call o) reqs -> Forall (small o) reqs -> Forall (fun c => exists sc, told y c sc) reqs -> (forall i, one_line (date i)) ->
  conn_run o conn_new tr = Some (s, b) -> c_closing s = false -> conn_step o s e = Some (s', bx) -> c_closing s' = true -> conn_run o s' post = Some (s2, b2) ->
  client_waits o (map msg_of reqs) (tr ++ [e]) -> handlers_ok o (map msg_of reqs) (tr ++ [e]) -> uncut (tr ++ [e]) -> keeps_up o (tr ++ [e]) -> performs_asgi y date ch tr b ->
  exists n init last, ended (b ++ bx) = S n /\ List.length init = n /\ read_answers (S n) (written (b ++ bx ++ b2)) = Some (init ++ [last], []) /\
    Forall2 (right_reply y) (firstn (S n) reqs) (init ++ [last]) /\ Forall says_open init /\ (says_close last \/ e = RunSend true).
Proof.
  intros o y reqs date ch tr e post s b s' bx s2 b2 Oo Ob Ao So Ro Lo To Do Run Op St Cl Aft Hw Hh Hu Hk Hp.
  destruct (closed_silent o post s' s2 b2 Aft Cl) as [_ W2]. destruct (asgi_closed o y reqs date ch tr e s b s' bx Oo Ob Ao So Ro Lo To Do Run Op St Cl Hw Hh Hu Hk Hp) as (-> & Ls & (l & Rd & Ra) & Why).
  assert (client_waits o (map msg_of reqs) tr) as Hw1 by (intros pre d post' s3 b3 Et; apply (Hw pre d (post' ++ [e]) s3 b3); rewrite Et, <- app_assoc; reflexivity).
  assert (calm o (map msg_of reqs) (tr ++ [e])) as Hm by (apply counted_calm, Forall_map; eapply Forall_impl; [|exact (all_sound _ _ Ro)]; intros c; apply call_counted).
  destruct (prefix_ok o (map msg_of reqs) tr e (waits_ok _ _ _ Hw) Hh (or_intror (conj Hw Hm))) as (Hc1 & Hh1 & _).
  pose proof (asgi_obeys o y reqs date ch tr s b Oo Ao So Ro To Do Run Op Hc1 (or_intror Hw1) Hh1 Hp) as Ob1.
  assert (List.length l = S (ended b)) as Ll by (clear -Rd; revert Rd; generalize (S (ended b)) as n, (written b) as w; revert l; intros l n; revert l; induction n as [|n IH]; intros l w; cbn [read_answers]; [intros E; injection E as <-; reflexivity|]; destruct (read_answer w) as [[x r]|]; [|discriminate]; destruct (read_answers n r) as [[l' r']|] eqn:E'; [|discriminate]; intros E; assert (l = x :: l' /\ r' = []) as [-> ->] by (split; congruence); cbn [List.length]; f_equal; exact (IH _ _ E')).
  assert (ended b < List.length reqs) as Lr by (pose proof (f2_length _ _ _ Ra) as X; rewrite firstn_length, Ll in X; lia).
  destruct (words_last y (ended b) reqs l Ra Ob1 Lr) as (init & last & c & -> & Li & Oi & En & Wl). exists (ended b), init, last.
  split; [rewrite ended_app; cbn; lia|]. split; [exact Li|]. split; [|split; [|split; [exact Oi|]]].
  - unfold written in *. rewrite map_app, concat_app. cbn [app map List.concat]. now rewrite W2, app_nil_r.
  - clear -Ra. induction Ra as [|c x cs l [H _] F IH]; now constructor.
  - destruct Why as [->|(c' & En' & Lv)]; [now right|left]. apply Wl. congruence.
Qed.
Print Assumptions c86_asgi_closed_partial.

(** ** Examples *)
(** An application that streams its responses, and asks to close the connection with the one to a body of four bytes. *)
Definition bye_app : asite :=
  mkASite (fun sc x => mkReply 200 (if (blen x =? 4)%Z then [(bs "connection", bs "Close")] else [(bs "X-A", bs "1")]) [bs "got "] x)
    (fun z => if (z =? 200)%Z then Some (bs "OK") else None) (bs "oops") true [] 16384 (bs "Tremolo") ex_peer false.
Definition bye_ch (i : nat) : option bool := None.
Definition bye_run : list cev :=
  let c i := nth i posts (mkCall [] [] [] None) in
  [Data (wire (msg_of (c 0))); RunHR 0; RunHR 0; HRead 0; HTake 0; HTake 0] ++ asgi_acts bye_app bye_ch 0 (c 0) (body_of (c 0)) ++
  [Data (wire (msg_of (c 1))); RunHR 1; RunHR 1; HRead 1; HTake 1; HTake 1] ++ removelast (asgi_acts bye_app bye_ch 1 (c 1) (body_of (c 1))).
Example c83_asgi_app : app_ok bye_app /\ steady bye_app.
Proof.
  split.
  - split; [discriminate|]. split; [apply memb_notIn; reflexivity|]. intros sc x. cbn [y_app bye_app y_phrase y_status y_headers]. cbv zeta.
    split; [exists (bs "OK"); split; [reflexivity|apply memb_notIn; reflexivity]|]. split; [intros [H|H]; [discriminate|lia]|].
    destruct (blen x =? 4)%Z; (split; [constructor; [split; [apply memb_notIn; reflexivity|vm_compute; discriminate]|constructor]|]; split; [constructor; [split; apply memb_notIn; reflexivity|constructor]|]; intros h [<-|[]]; vm_compute; discriminate).
  - exists false. intros sc x. cbn [y_app bye_app y_headers]. destruct (blen x =? 4)%Z; reflexivity.
Qed.
Example c83_asgi_leaves : exists c d, posts = [c; d] /\ ~ leaves bye_app c /\ leaves bye_app d.
Proof.
  eexists _, _. split; [reflexivity|]. split; [intros (sc & _ & W); vm_compute in W; discriminate|]. destruct posts_good as [_ T]. change (fun c => exists sc, told posts_app c sc) with (fun c => exists sc, told bye_app c sc) in T.
  inversion_clear T as [|? ? _ T']. inversion_clear T' as [|? ? (sc & Ts) _]. exists sc. split; [exact Ts|reflexivity].
Qed.
Example c83_asgi_example : exists s b s' bx, conn_run conn_opts conn_new bye_run = Some (s, b) /\ c_closing s = false /\ conn_step conn_opts s (RunSend false) = Some (s', bx) /\ c_closing s' = true /\
  Forall (good_call conn_opts) posts /\ Forall (small conn_opts) posts /\ Forall (fun c => exists sc, told bye_app c sc) posts /\ let tr := bye_run ++ [RunSend false] in
  client_waits conn_opts (map msg_of posts) tr /\ handlers_ok conn_opts (map msg_of posts) tr /\ uncut tr /\ keeps_up conn_opts tr /\
  performs_asgi bye_app (fun _ => bs "now") bye_ch bye_run b /\
  match read_answers 2 (written (b ++ bx)) with
  | Some (l, rest) => rest = [] /\ map (fun x => (r_line x, r_data x)) l = [(bs "HTTP/1.1 200 OK", bs "got some text"); (bs "HTTP/1.1 200 OK", bs "got more")]
  | None => False
  end.
Proof.
  set (tr := bye_run).
  assert (match conn_run conn_opts conn_new tr with
    | Some (s, b) => c_closing s = false /\ starts b = combine [0; 1] (map m_head (map msg_of posts)) /\ map (fun i => got i b) [0; 1] = map body_of posts /\
        match conn_step conn_opts s (RunSend false) with
        | Some (s', bx) => c_closing s' = true /\
          match read_answers 2 (written (b ++ bx)) with
          | Some (l, rest) => rest = [] /\ map (fun x => (r_line x, r_data x)) l = [(bs "HTTP/1.1 200 OK", bs "got some text"); (bs "HTTP/1.1 200 OK", bs "got more")]
          | None => False
          end
        | None => False end
    | None => False end) as F by (vm_compute; repeat split; reflexivity).
  assert (all_waits conn_opts (map msg_of posts) (tr ++ [RunSend false]) = true) as A by (vm_compute; reflexivity). apply andb_prop in A as [A A3]. apply andb_prop in A as [A1 A2].
  assert (unbroken_b (tr ++ [RunSend false]) = true) as Ub by (vm_compute; reflexivity). apply unbroken_b_ok in Ub.
  destruct (conn_run conn_opts conn_new tr) as [[s b]|] eqn:E; [|contradiction]. destruct F as (Op & Es & Eg & F). destruct (conn_step conn_opts s (RunSend false)) as [[s' bx]|] eqn:E2; [|contradiction]. destruct F as [Cl F].
  exists s, b, s', bx. split; [reflexivity|]. split; [exact Op|]. split; [exact E2|]. split; [exact Cl|]. split; [exact (proj1 posts_good)|]. split; [apply small_b_ok; vm_compute; reflexivity|]. split; [exact (proj2 posts_good)|]. cbv zeta.
  split; [now apply waits_b_ok|]. split; [now apply handlers_b_ok|]. split; [eapply Forall_impl; [|exact Ub]; intros []; tauto|]. split; [apply keeps_up_b_ok; vm_compute; reflexivity|]. split; [|exact F].
  apply (performs_b bye_app bye_ch posts tr s b eq_refl E); [vm_compute; reflexivity|exact Es|]. cbn [map posts] in Eg. injection Eg as G0 G1.
  intros [|[|i]] c Ei; [..|destruct i; discriminate Ei]; injection Ei as <-; rewrite ?G0, ?G1; (split; [vm_compute; reflexivity|]; split; vm_compute; reflexivity).
Qed.
(** What the two responses say about the connection. *)
Example c86_asgi_example : exists s b s' bx, conn_run conn_opts conn_new bye_run = Some (s, b) /\ conn_step conn_opts s (RunSend false) = Some (s', bx) /\
  match read_answers 2 (written (b ++ bx)) with
  | Some (l, _) => map (fun x => filter (fun y => beqb (field_name y) (bs "connection")) (r_lines x)) l = [[bs "Connection: keep-alive"]; [bs "Connection: close"]]
  | None => False
  end.
Proof.
  assert (match conn_run conn_opts conn_new bye_run with
    | Some (s, b) => match conn_step conn_opts s (RunSend false) with
        | Some (s', bx) => match read_answers 2 (written (b ++ bx)) with
            | Some (l, _) => map (fun x => filter (fun y => beqb (field_name y) (bs "connection")) (r_lines x)) l = [[bs "Connection: keep-alive"]; [bs "Connection: close"]]
            | None => False end
        | None => False end
    | None => False end) as F by (vm_compute; reflexivity).
  destruct (conn_run conn_opts conn_new bye_run) as [[s b]|]; [|contradiction]. destruct (conn_step conn_opts s (RunSend false)) as [[s' bx]|] eqn:E2; [|contradiction].
  exists s, b, s', bx. split; [reflexivity|]. split; [exact E2|exact F].
Qed.

(** ** What does not hold *)
(** The run of c80_mode_refuted: the second response has no length and is not chunked, so the server closes the connection to end it. But it says that the connection goes on. *)
Theorem c86_mode_refuted : exists o y reqs date ch tr s b x w first lines body,
  opts_ok o /\ (0 < o_body o)%Z /\ app_ok y /\ (forall sc x, wants_close (y_headers (y_app y sc x)) = false) /\ Forall (good_call o) reqs /\ Forall (small o) reqs /\
  Forall (fun c => exists sc, told y c sc) reqs /\ (forall i, one_line (date i)) /\ conn_run o conn_new tr = Some (s, b) /\ client_waits o (map msg_of reqs) tr /\
  handlers_ok o (map msg_of reqs) tr /\ unbroken tr /\ keeps_up o tr /\ performs_asgi y date ch tr b /\ c_closing s = true /\
  read_answers 1 (written b) = Some ([x], w) /\ read_head (S (List.length w)) w = Some (first :: lines, body) /\
  In (bs "Connection: keep-alive") lines /\ (forall l, In l lines -> field_name l <> bs "content-length" /\ field_name l <> bs "transfer-encoding").
Proof.
  assert (match conn_run conn_opts conn_new mode_run with
    | Some (s, b) => starts b = combine [0; 1] (map m_head (map msg_of mode_calls)) /\ map (fun i => got i b) [0; 1] = map body_of mode_calls /\ c_closing s = true /\
        match read_answers 1 (written b) with
        | Some ([x], w) => match read_head (S (List.length w)) w with
            | Some (first :: lines, body) => existsb (beqb (bs "Connection: keep-alive")) lines && forallb (fun l => negb (beqb (field_name l) (bs "content-length")) && negb (beqb (field_name l) (bs "transfer-encoding"))) lines = true
            | _ => False end
        | _ => False end
    | None => False end) as F by (vm_compute; repeat split; reflexivity).
  destruct (conn_run conn_opts conn_new mode_run) as [[s b]|] eqn:E; [|contradiction]. destruct F as (Es & Eg & Cl & Rd).
  destruct (read_answers 1 (written b)) as [[[|x [|]] w]|] eqn:E1; try contradiction. destruct (read_head (S (List.length w)) w) as [[[|first lines] body]|] eqn:E3; try contradiction. apply andb_prop in Rd as [R1 R2].
  exists conn_opts, an_app, mode_calls, (fun _ => bs "now"), mode_ch, mode_run, s, b, x, w, first, lines, body.
  assert (all_waits conn_opts (map msg_of mode_calls) mode_run = true) as A by (vm_compute; reflexivity). apply andb_prop in A as [A A3]. apply andb_prop in A as [A1 A2].
  assert (forall P : S_Site.call -> Prop, Forall P asgi_calls -> Forall P mode_calls) as Sub by (intros P H; inversion_clear H as [|? ? H0 H']; inversion_clear H' as [|? ? H1 _]; repeat constructor; assumption).
  split; [split; apply Nat.ltb_lt; reflexivity|]. split; [reflexivity|]. split; [exact c78_app|]. split; [intros sc [|x0 x1]; reflexivity|]. split; [apply Sub, c78_calls|]. split; [apply small_b_ok; vm_compute; reflexivity|].
  split; [apply Sub, c78_calls|]. split; [intros i; apply memb_notIn; reflexivity|]. split; [exact E|]. split; [now apply waits_b_ok|]. split; [now apply handlers_b_ok|]. split; [apply unbroken_b_ok; vm_compute; reflexivity|].
  split; [apply keeps_up_b_ok; vm_compute; reflexivity|]. split; [|split; [exact Cl|split; [exact E1|split; [exact E3|split]]]].
  - apply (performs_b an_app mode_ch mode_calls mode_run s b eq_refl E); [vm_compute; reflexivity|exact Es|]. cbn [map mode_calls] in Eg. injection Eg as G0 G1.
    intros [|[|i]] c Ei; [..|destruct i; discriminate Ei]; injection Ei as <-; rewrite ?G0, ?G1; (split; [vm_compute; reflexivity|]; split; vm_compute; reflexivity).
  - apply existsb_exists in R1 as (l & I & B). apply beqb_eq in B. now subst l.
  - intros l I. apply (proj1 (forallb_forall _ _) R2) in I. apply andb_prop in I as [I1 I2]. apply negb_true_iff in I1, I2. split; now apply beqb_neq.
Qed.
Print Assumptions c86_mode_refuted.
