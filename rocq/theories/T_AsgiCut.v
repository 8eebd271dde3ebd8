(** C85 for ASGI applications: a response that was cut off is not mistaken for a whole one. *)
From Verif Require Import PyBytes PyBytesFacts PyInt PyExn M_Parser M_Framing M_Conn M_Response M_Asgi M_AsgiSite
  S_Head S_Response S_Calls S_Conn S_Scope S_Site S_AsgiSite S_Told S_Bare S_AsgiClose S_Cut S_AsgiCut P_Conn2 P_Conn3 P_Conn7 P_Conn10 P_Conn13 P_Site3 P_Keep P_Bare P_Close P_Cut P_AsgiCut T_Conn T_Scope T_Site T_Open T_AsgiSite T_Keep T_Bare T_Close T_AsgiClose.

(** The application and the requests are as in C70. It may change from one response to the next whether it gives a length, may ask to close the connection with any of them, bodies may exceed the limits, and it may be stopped
    anywhere. [tr] is what happens while the connection is open, [post] what comes after as in c85_whole, [w] what has arrived at the client of what was written.
    Then whatever the client reads as the responses to the first k requests are what the application answered to them, and the application was called for k requests. *)
Theorem c85_asgi : forall o y reqs date ch tr post s b s2 b2 w k answers rest,
  opts_ok o -> app_ok y -> Forall (good_call o) reqs -> Forall (fun c => exists sc, told y c sc) reqs -> (forall i, one_line (date i)) ->
  conn_run o conn_new tr = Some (s, b) -> c_closing s = false ->
  client_ok o (map msg_of reqs) tr -> S_Conn.settled o tr \/ client_waits o (map msg_of reqs) tr -> handlers_ok o (map msg_of reqs) tr -> performs_asgi y date ch tr b -> begins_asgi y date ch reqs tr b ->
  conn_run o s post = Some (s2, b2) -> (post = [] \/ exists e later s' bx, post = e :: later /\ conn_step o s e = Some (s', bx) /\ c_closing s' = true) -> is_prefix w (written (b ++ b2)) ->
  k <= List.length reqs -> read_answers k w = Some (answers, rest) ->
  Forall2 (right_reply y) (firstn k reqs) answers /\ k <= List.length (starts b).
Proof.
  intros o y reqs date ch tr post s b s2 b2 w k answers rest Oo Ao Ro To Do Run Op Hc Hs Hh Hp Hb Aft Po (t & Ew) Lk E.
  assert (written (b ++ b2) = written b) as Eb.
  { assert (written b2 = []) as X.
    { destruct Po as [->|(e & later & s' & bx & -> & St & Cl)]; [cbn [conn_run] in Aft; assert (b2 = []) as -> by congruence; reflexivity|]. cbn [conn_run] in Aft. rewrite St in Aft. destruct (conn_run o s' later) as [[s3 b3]|] eqn:E3; [|discriminate].
      assert (b2 = bx ++ b3) as -> by congruence. destruct (closed_silent o later s' s3 b3 E3 Cl) as [_ W]. unfold written in *. rewrite map_app, concat_app, W, app_nil_r.
      pose proof (closing_mute _ _ _ _ _ St Op Cl) as N. clear -N. induction bx as [|x bx IH]; [reflexivity|]. cbn [map List.concat]. rewrite IH by (intros d H; apply (N d); now right). destruct x; try reflexivity. destruct (N d). now left. }
    unfold written in *. now rewrite map_app, concat_app, X, app_nil_r. }
  rewrite Eb in Ew. apply (answers_more _ _ t) in E. rewrite Ew in E. exact (asgi_cut o y reqs date ch tr s b Oo Ao Ro To Do Run Op Hc Hs Hh Hp Hb k answers _ Lk E).
Qed.
Print Assumptions c85_asgi.

(** ** Examples *)
(** The application of C83: its first response is whole, the second stops after n pieces, and the server aborts the connection. *)
Definition part_run (n : nat) : list cev :=
  let c i := nth i posts (mkCall [] [] [] None) in
  [Data (wire (msg_of (c 0))); RunHR 0; RunHR 0; HRead 0; HTake 0; HTake 0] ++ asgi_acts bye_app bye_ch 0 (c 0) (body_of (c 0)) ++
  [Data (wire (msg_of (c 1))); RunHR 1; RunHR 1; HRead 1; HTake 1; HTake 1] ++
  flat_map (fun d => match d with Some d => [HPut 1 d; RunSend false] | None => [] end) (firstn n (r_out (a_rsp (asgi_did bye_app bye_ch 1 (c 1) (body_of (c 1)))))).
(** The hypotheses hold for it. [readable] is for which k the client reads k responses. *)
Definition part_holds (n : nat) (readable : list bool) : Prop :=
  exists s b s2 b2, conn_run conn_opts conn_new (part_run n) = Some (s, b) /\ c_closing s = false /\ conn_run conn_opts s [Abort; Lost] = Some (s2, b2) /\
  (exists s' bx, conn_step conn_opts s Abort = Some (s', bx) /\ c_closing s' = true) /\
  client_waits conn_opts (map msg_of posts) (part_run n) /\ handlers_ok conn_opts (map msg_of posts) (part_run n) /\
  performs_asgi bye_app (fun _ => bs "now") bye_ch (part_run n) b /\ begins_asgi bye_app (fun _ => bs "now") bye_ch posts (part_run n) b /\
  map (fun k => match read_answers k (written (b ++ b2)) with Some _ => true | None => false end) [0; 1; 2] = readable.
Lemma part_ok y ch c0 c1 tr n s b : ch 0 = None -> conn_run conn_opts conn_new tr = Some (s, b) ->
  starts b = [(0, m_head (msg_of c0)); (1, m_head (msg_of c1))] -> got 0 b = body_of c0 -> closers tr = [0] ->
  forallb (fun e => match e with HClose j k => Bool.eqb k (r_keep (a_rsp (asgi_did y ch 0 c0 (body_of c0)))) | _ => true end) tr = true -> ch 1 = a_chunked (asgi_did y ch 0 c0 (body_of c0)) ->
  did 0 tr = r_out (a_rsp (asgi_did y ch 0 c0 (body_of c0))) -> did 1 tr = firstn n (r_out (a_rsp (asgi_did y ch 1 c1 (body_of c1)))) ->
  performs_asgi y (fun _ => bs "now") ch tr b /\ begins_asgi y (fun _ => bs "now") ch [c0; c1] tr b.
Proof.
  intros C0 E Es G0 Ec Kp C1 D0 D1.
  assert (forall i h, In (Started i h) b -> In (i, h) (starts b)) as Sb by (intros i h Hi; apply in_flat_map; exists (Started i h); split; [exact Hi|now left]). split.
  - split; [exact C0|]. intros i h r Hi Hcl Fr. rewrite Ec in Hcl. destruct Hcl as [<-|[]]. apply Sb in Hi. rewrite Es in Hi. destruct Hi as [Hi|[Hi|[]]]; [|discriminate Hi]. cbv zeta. apply pair_equal_spec in Hi as [_ <-].
    rewrite G0. unfold asgi_did in D0, Kp, C1. rewrite Fr in D0, Kp, C1. split; [exact D0|]. split; [|exact C1]. intros keep Hk. rewrite forallb_forall in Kp. specialize (Kp _ Hk). now apply Bool.eqb_prop in Kp.
  - intros i c r Ei Hi Nc Fr. rewrite Ec in Nc. apply Sb in Hi. rewrite Es in Hi. destruct Hi as [Hi|[Hi|[]]]; [destruct Nc; left; congruence|].
    assert (1 = i) as <- by congruence. injection Ei as <-. rewrite D1. unfold asgi_did. rewrite Fr. eexists. apply firstn_skipn.
Qed.
Example c85_asgi_example : part_holds 2 [true; true; false] /\ part_holds 4 [true; true; true].
Proof.
  assert (forall n readable,
    match conn_run conn_opts conn_new (part_run n) with
    | Some (s, b) => c_closing s = false /\ starts b = map (fun i => (i, m_head (msg_of (nth i posts (mkCall [] [] [] None))))) [0; 1] /\ got 0 b = body_of (nth 0 posts (mkCall [] [] [] None)) /\
        match conn_run conn_opts s [Abort; Lost], conn_step conn_opts s Abort with
        | Some (s2, b2), Some (s', bx) => c_closing s' = true /\ map (fun k => match read_answers k (written (b ++ b2)) with Some _ => true | None => false end) [0; 1; 2] = readable
        | _, _ => False
        end
    | None => False
    end ->
    closers (part_run n) = [0] ->
    forallb (fun e => match e with HClose j k => Bool.eqb k (r_keep (a_rsp (asgi_did bye_app bye_ch 0 (nth 0 posts (mkCall [] [] [] None)) (body_of (nth 0 posts (mkCall [] [] [] None)))))) | _ => true end) (part_run n) = true ->
    None = a_chunked (asgi_did bye_app bye_ch 0 (nth 0 posts (mkCall [] [] [] None)) (body_of (nth 0 posts (mkCall [] [] [] None)))) ->
    did 0 (part_run n) = r_out (a_rsp (asgi_did bye_app bye_ch 0 (nth 0 posts (mkCall [] [] [] None)) (body_of (nth 0 posts (mkCall [] [] [] None))))) ->
    did 1 (part_run n) = firstn n (r_out (a_rsp (asgi_did bye_app bye_ch 1 (nth 1 posts (mkCall [] [] [] None)) (body_of (nth 1 posts (mkCall [] [] [] None)))))) ->
    waits_b conn_opts (map msg_of posts) (part_run n) = true -> handlers_b conn_opts (map msg_of posts) (part_run n) = true -> part_holds n readable) as X.
  { intros n readable F Ec Kp C1 D0 D1 A1 A2. unfold part_holds. destruct (conn_run conn_opts conn_new (part_run n)) as [[s b]|] eqn:E; [|contradiction]. destruct F as (Op & Es & G0 & F).
    destruct (conn_run conn_opts s [Abort; Lost]) as [[s2 b2]|] eqn:E2; [|contradiction]. destruct (conn_step conn_opts s Abort) as [[s' bx]|] eqn:E3; [|contradiction]. destruct F as [Cl F].
    exists s, b, s2, b2. split; [reflexivity|]. split; [exact Op|]. split; [exact E2|]. split; [exists s', bx; now split|]. split; [now apply waits_b_ok|]. split; [now apply handlers_b_ok|].
    destruct (part_ok bye_app bye_ch _ _ (part_run n) n s b eq_refl E Es G0 Ec Kp C1 D0 D1) as [P B]. split; [exact P|]. split; [exact B|exact F]. }
  split; (apply X; [vm_compute; repeat split; reflexivity|vm_compute; reflexivity..]).
Qed.
