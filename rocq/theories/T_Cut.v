(** C85: a response that was cut off is not mistaken for a whole one. *)
From Verif Require Import PyBytes PyBytesFacts PyInt PyExn M_Parser M_Framing M_Conn M_Response M_Server M_Stack M_Fault
  S_Head S_Response S_Calls S_Conn S_Route S_Site S_AsgiSite S_Stack S_Open S_Keep S_Bare S_Close S_Fault S_Cut P_Conn2 P_Conn3 P_Conn7 P_Conn10 P_Conn13 P_Site3 P_Stack2 P_Keep P_Bare P_Close P_Fault P_Cut T_Conn T_Scope T_Site T_Open T_AsgiSite T_Stack T_Keep T_Bare T_Close T_Fault.

(** Handlers, middlewares and requests as in C84, but bodies may exceed the limits and handlers may be stopped anywhere. [tr] is what happens while the connection is open. After that nothing happens, or a first step ends
    the connection (the client or the network breaks it, the server aborts it, or gives it up: for a time-out, a body over the limit, an exception) and then anything. [w] is what has arrived at the client of what was written.
    Then whatever the client reads as the responses to the first k requests are the right responses to them, and handlers of k requests were started. *)
Theorem c85_whole : forall o fa paths reqs date tr post s b s2 b2 w k answers rest,
  opts_ok o -> soft_app (f_app fa) paths -> sound_faults fa -> Forall (sound_call o) reqs -> (forall i, one_line (date i)) ->
  conn_run o conn_new tr = Some (s, b) -> c_closing s = false ->
  client_ok o (map msg_of reqs) tr -> S_Conn.settled o tr \/ client_waits o (map msg_of reqs) tr -> handlers_ok o (map msg_of reqs) tr -> begins_faulty fa date reqs tr b ->
  conn_run o s post = Some (s2, b2) -> (post = [] \/ exists e later s' bx, post = e :: later /\ conn_step o s e = Some (s', bx) /\ c_closing s' = true) -> is_prefix w (written (b ++ b2)) ->
  k <= List.length reqs -> read_answers_to (map method_of (firstn k reqs)) w = Some (answers, rest) ->
  Forall2 (right_reply fa paths) (firstn k reqs) answers /\ k <= List.length (starts b).
Proof.
  intros o fa paths reqs date tr post s b s2 b2 w k answers rest Oo Ao Fo Ro Do Run Op Hc Hs Hh Hb Aft Po (t & Ew) Lk E.
  assert (written (b ++ b2) = written b) as Eb.
  { assert (written b2 = []) as X.
    { destruct Po as [->|(e & later & s' & bx & -> & St & Cl)]; [cbn [conn_run] in Aft; assert (b2 = []) as -> by congruence; reflexivity|]. cbn [conn_run] in Aft. rewrite St in Aft. destruct (conn_run o s' later) as [[s3 b3]|] eqn:E3; [|discriminate].
      assert (b2 = bx ++ b3) as -> by congruence. destruct (closed_silent o later s' s3 b3 E3 Cl) as [_ W]. unfold written in *. rewrite map_app, concat_app, W, app_nil_r.
      pose proof (closing_mute _ _ _ _ _ St Op Cl) as N. clear -N. induction bx as [|x bx IH]; [reflexivity|]. cbn [map List.concat]. rewrite IH by (intros d H; apply (N d); now right). destruct x; try reflexivity. destruct (N d). now left. }
    unfold written in *. now rewrite map_app, concat_app, X, app_nil_r. }
  rewrite Eb in Ew. apply (answers_to_more _ _ t) in E. rewrite Ew in E. exact (cut_exchange o fa paths reqs date tr s b Oo Ao Fo Ro Do Run Op Hc Hs Hh Hb k answers _ Lk E).
Qed.
Print Assumptions c85_whole.

(** ** Examples *)
(** The first request is answered. The generator of the second stops in the middle, and the server aborts the connection. *)
Definition cut_calls : list S_Site.call := [nth 1 failing heavy; nth 0 failing heavy; nth 1 failing heavy].
Definition cut_run (n : nat) : list cev := fault_acts fault_app 0 (nth 0 cut_calls heavy) ++ [Data (wire (msg_of (nth 1 cut_calls heavy))); RunHR 1] ++
  flat_map (fun x => match x with Some d => [HPut 1 d; RunSend false] | None => [] end) (firstn n (r_out (fault_served fault_app (nth 1 cut_calls heavy)))).
Example c85_calls : Forall (sound_call conn_opts) cut_calls.
Proof. pose proof c84_calls as F. unfold failing in F. inversion_clear F as [|? ? A F']. inversion_clear F' as [|? ? B _]. unfold cut_calls, failing. cbn [nth]. repeat (apply Forall_cons; [assumption|]). apply Forall_nil. Qed.
(** The hypotheses hold for it; with two pieces of the second response the client reads one response, with four, before the handler has closed it, two. *)
Definition cut_holds (n : nat) (readable : list bool) : Prop :=
  exists s b s2 b2, conn_run conn_opts conn_new (cut_run n) = Some (s, b) /\ c_closing s = false /\ conn_run conn_opts s [Abort; Lost] = Some (s2, b2) /\
  (exists s' bx, conn_step conn_opts s Abort = Some (s', bx) /\ c_closing s' = true) /\
  client_waits conn_opts (map msg_of cut_calls) (cut_run n) /\ handlers_ok conn_opts (map msg_of cut_calls) (cut_run n) /\ begins_faulty fault_app (fun _ => bs "now") cut_calls (cut_run n) b /\
  map (fun k => match read_answers_to (map method_of (firstn k cut_calls)) (written (b ++ b2)) with Some _ => true | None => false end) [0; 1; 2; 3] = readable.
Lemma cut_ok n readable :
  match conn_run conn_opts conn_new (cut_run n) with
  | Some (s, b) => c_closing s = false /\ map fst (starts b) = [0; 1] /\
      match conn_run conn_opts s [Abort; Lost], conn_step conn_opts s Abort with
      | Some (s2, b2), Some (s', bx) => c_closing s' = true /\
          map (fun k => match read_answers_to (map method_of (firstn k cut_calls)) (written (b ++ b2)) with Some _ => true | None => false end) [0; 1; 2; 3] = readable
      | _, _ => False
      end
  | None => False
  end ->
  did 0 (cut_run n) = r_out (fault_served fault_app (nth 0 cut_calls heavy)) -> did 1 (cut_run n) = firstn n (r_out (fault_served fault_app (nth 1 cut_calls heavy))) ->
  waits_b conn_opts (map msg_of cut_calls) (cut_run n) = true -> handlers_b conn_opts (map msg_of cut_calls) (cut_run n) = true -> cut_holds n readable.
Proof.
  intros F D0 D1 A1 A2. destruct (conn_run conn_opts conn_new (cut_run n)) as [[s b]|] eqn:E; [|contradiction]. destruct F as (Op & Es & F).
  destruct (conn_run conn_opts s [Abort; Lost]) as [[s2 b2]|] eqn:E2; [|contradiction]. destruct (conn_step conn_opts s Abort) as [[s' bx]|] eqn:E3; [|contradiction]. destruct F as [Cl F].
  exists s, b, s2, b2. split; [exact E|]. split; [exact Op|]. split; [exact E2|]. split; [exists s', bx; now split|]. split; [now apply waits_b_ok|]. split; [now apply handlers_b_ok|]. split; [|exact F].
  intros i c r Ei Hi Fr. assert (In i (map fst (starts b))) as J by (apply in_map_iff; exists (i, m_head (msg_of c)); split; [reflexivity|]; apply in_flat_map; exists (Started i (m_head (msg_of c))); split; [exact Hi|now left]). rewrite Es in J.
  assert (body_of c = [] /\ is_prefix (did i (cut_run n)) (r_out (fault_served fault_app c))) as [Eb P].
  { destruct J as [<-|[<-|[]]]; injection Ei as <-; (split; [reflexivity|]).
    - rewrite D0. exists []. apply app_nil_r.
    - rewrite D1. eexists. apply firstn_skipn. }
  rewrite Eb. unfold fault_served in P. now rewrite Fr in P.
Qed.
Example c85_example : cut_holds 2 [true; true; false; false] /\ cut_holds 4 [true; true; true; false].
Proof. split; (apply cut_ok; [vm_compute; repeat split; reflexivity|vm_compute; reflexivity..]). Qed.
