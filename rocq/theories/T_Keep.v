(** C80: exchanges, with handlers and middlewares or with ASGI applications, on connections that nobody asks to close. *)
From Verif Require Import PyBytes PyBytesFacts PyInt PyExn M_Parser M_Framing M_Conn M_Response M_Scope M_Asgi M_AsgiSite M_Stack
  S_Head S_Response S_Calls S_Scope S_Asgi S_Conn S_Route S_Site S_AsgiSite S_Stack S_Open S_Keep P_Conn2 P_Conn3 P_Conn7 P_Conn10 P_AsgiSite P_Stack P_Stack2 P_Keep T_Conn T_Scope T_Site T_Open T_AsgiSite T_Stack.

(** Handlers and middlewares as in C79. Any number of requests within the limits, in any segments; the client waits for each response; the handlers read
    fast enough; any schedule of the tasks. No handler needs to be asked to keep the connection: as long as the client, the network and the time-outs do not end it,
    it is open, and so the client gets from it what C79 says: one response for each request, in order, the right one; when nothing is left to do, all. *)
Theorem c80_stack : forall o ap paths reqs date tr s b,
  opts_ok o -> (0 < o_body o)%Z -> good_app ap paths -> Forall (good_call o) reqs -> Forall (small o) reqs -> (forall i, one_line (date i)) ->
  conn_run o conn_new tr = Some (s, b) -> client_waits o (map msg_of reqs) tr -> handlers_ok o (map msg_of reqs) tr -> unbroken tr -> keeps_up o tr ->
  performs_app ap date tr b -> closes_app ap date tr b ->
  c_closing s = false /\ c_lost s = false /\
  exists answers rest, read_answers (ended b) (written b) = Some (answers, rest) /\ Forall2 (right_page ap paths) (firstn (ended b) reqs) answers /\
    (input tr = List.concat (map wire (map msg_of reqs)) -> quiet o tr s b -> ended b = List.length reqs /\ rest = []).
Proof.
  intros o ap paths reqs date tr s b Oo Ob A R L D Run W H U K P C. destruct (stack_kept o ap paths reqs date tr s b Oo Ob A R L D Run W H U K C) as [Cl Lo].
  split; [exact Cl|]. split; [exact Lo|]. exact (stack_exchange o ap paths reqs date tr s b Oo A R D Run Cl (waits_ok _ _ _ W) (or_intror W) H P).
Qed.
Print Assumptions c80_stack.
(** ASGI applications as in C78 that never send Connection: close. Partial: all of their responses have a Content-Length, or none (c80_mode_refuted). *)
Theorem c80_asgi_partial : forall o y reqs date ch tr s b,
  opts_ok o -> (0 < o_body o)%Z -> app_ok y -> keeps_asgi y -> Forall (good_call o) reqs -> Forall (small o) reqs -> Forall (fun c => exists sc, told y c sc) reqs -> (forall i, one_line (date i)) ->
  conn_run o conn_new tr = Some (s, b) -> client_waits o (map msg_of reqs) tr -> handlers_ok o (map msg_of reqs) tr -> unbroken tr -> keeps_up o tr -> performs_asgi y date ch tr b ->
  c_closing s = false /\ c_lost s = false /\
  exists answers rest, read_answers (ended b) (written b) = Some (answers, rest) /\ Forall2 (right_reply y) (firstn (ended b) reqs) answers /\
    (input tr = List.concat (map wire (map msg_of reqs)) -> quiet o tr s b -> ended b = List.length reqs /\ rest = []).
Proof.
  intros o y reqs date ch tr s b Oo Ob A Ke R L T D Run W H U K P. destruct (asgi_kept o y reqs date ch tr s b Oo Ob A Ke R L T D Run W H U K P) as [Cl Lo].
  split; [exact Cl|]. split; [exact Lo|]. exact (asgi_exchange o y reqs date ch tr s b Oo A R T D Run Cl (waits_ok _ _ _ W) (or_intror W) H P).
Qed.
Print Assumptions c80_asgi_partial.

(** ** Examples *)
Definition unbroken_b (tr : list cev) : bool := forallb (fun e => match e with Eof | Abort | Lost | RunSend true => false | _ => true end) tr.
Lemma unbroken_b_ok tr : unbroken_b tr = true -> unbroken tr.
Proof. intros H. apply Forall_forall. intros e He. apply (proj1 (forallb_forall _ _) H) in He. destruct e; try exact I; try discriminate He; destruct kicked; exact I || discriminate He. Qed.
Definition small_b (o : copts) (c : S_Site.call) : bool := (blen (m_head (msg_of c)) - 1 <=? o_head o)%Z && (blen (body_of c) <=? o_body o)%Z.
Lemma small_b_ok o l : forallb (small_b o) l = true -> Forall (small o) l.
Proof. intros H. apply Forall_forall. intros c Hc. apply (proj1 (forallb_forall _ _) H) in Hc. apply andb_prop in Hc as [A B]. split; lia. Qed.
(** The run of C79. *)
Example c80_example : exists s b, conn_run conn_opts conn_new stack_run = Some (s, b) /\ Forall (small conn_opts) stack_calls /\ unbroken stack_run /\ keeps_up conn_opts stack_run /\
  performs_app a_stack (fun _ => bs "now") stack_run b /\ closes_app a_stack (fun _ => bs "now") stack_run b.
Proof.
  destruct c79_example as (s & b & E & _ & _ & _ & _ & P & _). exists s, b. split; [exact E|]. split; [apply small_b_ok; vm_compute; reflexivity|]. split; [apply unbroken_b_ok; vm_compute; reflexivity|].
  split; [apply keeps_up_b_ok; vm_compute; reflexivity|]. split; [exact P|]. intros i h r keep Hi Hk Fr.
  assert (keep = true) as -> by (assert (forallb (fun e => match e with HClose _ k => k | _ => true end) stack_run = true) as F by (vm_compute; reflexivity); apply (proj1 (forallb_forall _ _) F) in Hk; exact Hk).
  symmetry. assert (match conn_run conn_opts conn_new stack_run with Some (_, b) => starts b = combine [0; 1; 2; 3] (map m_head (map msg_of stack_calls)) | None => False end) as Es by (vm_compute; reflexivity). rewrite E in Es.
  assert (In (i, h) (starts b)) as J by (apply in_flat_map; exists (Started i h); split; [exact Hi|now left]). rewrite Es in J. apply in_combine_r in J. rewrite map_map in J. apply in_map_iff in J as (c & <- & Hc).
  apply (stack_keeps conn_opts a_stack [bs "hello"; bs "echo"] c); [exact c79_app|exact (proj1 (Forall_forall _ _) c79_calls c Hc)|apply memb_notIn; reflexivity|exact Fr].
Qed.
(** An ASGI application that gives a Content-Length with all of its responses, and a run of it. *)
Definition kept_run : list cev :=
  let c i := nth i posts (mkCall [] [] [] None) in
  [Data (wire (msg_of (c 0))); RunHR 0; RunHR 0; HRead 0; HTake 0; HTake 0] ++ asgi_acts posts_app posts_ch 0 (c 0) (body_of (c 0)) ++
  [Data (wire (msg_of (c 1))); RunHR 1; RunHR 1; HRead 1; HTake 1; HTake 1] ++ asgi_acts posts_app posts_ch 1 (c 1) (body_of (c 1)).
Example c80_app : keeps_asgi posts_app.
Proof. split; [reflexivity|]. now exists true. Qed.
Lemma posts_good : Forall (good_call conn_opts) posts /\ Forall (fun c => exists sc, told posts_app c sc) posts.
Proof.
  destruct c78_calls as [G T]. split; [|change (fun c => exists sc, told posts_app c sc) with (fun c => exists sc, told an_app c sc)];
    (inversion_clear G as [|? ? _ G']; inversion_clear T as [|? ? _ T']; assumption).
Qed.
Example c80_example_asgi : exists s b, conn_run conn_opts conn_new kept_run = Some (s, b) /\ Forall (small conn_opts) posts /\ client_waits conn_opts (map msg_of posts) kept_run /\
  handlers_ok conn_opts (map msg_of posts) kept_run /\ unbroken kept_run /\ keeps_up conn_opts kept_run /\ performs_asgi posts_app (fun _ => bs "now") posts_ch kept_run b /\
  input kept_run = List.concat (map wire (map msg_of posts)) /\ quiet conn_opts kept_run s b.
Proof.
  destruct (tally_ok posts kept_run) as (s & b & E & Cl & En & Q); [vm_compute; reflexivity|vm_compute; reflexivity|]. exists s, b.
  assert (all_waits conn_opts (map msg_of posts) kept_run = true) as A by (vm_compute; reflexivity). apply andb_prop in A as [A A3]. apply andb_prop in A as [A1 A2].
  assert (match conn_run conn_opts conn_new kept_run with
    | Some (s, b) => starts b = combine [0; 1] (map m_head (map msg_of posts)) /\ map (fun i => got i b) [0; 1] = map body_of posts | None => False end) as F by (vm_compute; repeat split; reflexivity).
  rewrite E in F. destruct F as (Es & Eg). specialize (Q Es).
  split; [exact E|]. split; [apply small_b_ok; vm_compute; reflexivity|]. split; [now apply waits_b_ok|]. split; [now apply handlers_b_ok|]. split; [apply unbroken_b_ok; vm_compute; reflexivity|].
  split; [apply keeps_up_b_ok; vm_compute; reflexivity|]. split; [|split; [vm_compute; reflexivity|exact Q]].
  apply (performs_b posts_app posts_ch posts kept_run s b eq_refl E); [vm_compute; reflexivity|exact Es|]. cbn [map posts] in Eg. injection Eg as G0 G1.
  intros [|[|i]] c Ei; [..|destruct i; discriminate Ei]; injection Ei as <-; rewrite ?G0, ?G1; (split; [vm_compute; reflexivity|]; split; vm_compute; reflexivity).
Qed.

(** ** What does not hold *)
(** The server decides once for a connection that responses are not chunked: after one with a Content-Length, the next one without is neither chunked
    nor has it a length, and the connection is closed after it, though neither client nor application asked for it. *)
Definition mode_calls : list S_Site.call := [nth 1 asgi_calls (mkCall [] [] [] None); nth 0 asgi_calls (mkCall [] [] [] None)].
Definition mode_ch (i : nat) : option bool := match i with 0 => None | _ => Some false end.
Definition mode_run : list cev :=
  let c i := nth i mode_calls (mkCall [] [] [] None) in
  [Data (wire (msg_of (c 0))); RunHR 0; RunHR 0; HRead 0; HTake 0; HTake 0] ++ asgi_acts an_app mode_ch 0 (c 0) (body_of (c 0)) ++
  [Data (wire (msg_of (c 1))); RunHR 1] ++ asgi_acts an_app mode_ch 1 (c 1) [].
Theorem c80_mode_refuted : exists o y reqs date ch tr s b,
  opts_ok o /\ (0 < o_body o)%Z /\ app_ok y /\ (forall sc x, wants_close (y_headers (y_app y sc x)) = false) /\ Forall (good_call o) reqs /\ Forall (small o) reqs /\
  Forall (fun c => exists sc, told y c sc) reqs /\ (forall i, one_line (date i)) /\ conn_run o conn_new tr = Some (s, b) /\ client_waits o (map msg_of reqs) tr /\
  handlers_ok o (map msg_of reqs) tr /\ unbroken tr /\ keeps_up o tr /\ performs_asgi y date ch tr b /\
  c_closing s = true /\ read_answers 2 (written b) = None.
Proof.
  assert (match conn_run conn_opts conn_new mode_run with
    | Some (s, b) => starts b = combine [0; 1] (map m_head (map msg_of mode_calls)) /\ map (fun i => got i b) [0; 1] = map body_of mode_calls /\ c_closing s = true /\ read_answers 2 (written b) = None | None => False end) as F by (vm_compute; repeat split; reflexivity).
  destruct (conn_run conn_opts conn_new mode_run) as [[s b]|] eqn:E; [|contradiction]. destruct F as (Es & Eg & Cl & Rd).
  exists conn_opts, an_app, mode_calls, (fun _ => bs "now"), mode_ch, mode_run, s, b.
  assert (all_waits conn_opts (map msg_of mode_calls) mode_run = true) as A by (vm_compute; reflexivity). apply andb_prop in A as [A A3]. apply andb_prop in A as [A1 A2].
  assert (forall P : S_Site.call -> Prop, Forall P asgi_calls -> Forall P mode_calls) as Sub by (intros P H; inversion_clear H as [|? ? H0 H']; inversion_clear H' as [|? ? H1 _]; repeat constructor; assumption).
  split; [split; apply Nat.ltb_lt; reflexivity|]. split; [reflexivity|]. split; [exact c78_app|]. split; [intros sc [|x0 x]; reflexivity|]. split; [apply Sub, c78_calls|]. split; [apply small_b_ok; vm_compute; reflexivity|].
  split; [apply Sub, c78_calls|]. split; [intros i; apply memb_notIn; reflexivity|]. split; [exact E|]. split; [now apply waits_b_ok|]. split; [now apply handlers_b_ok|]. split; [apply unbroken_b_ok; vm_compute; reflexivity|].
  split; [apply keeps_up_b_ok; vm_compute; reflexivity|]. split; [|now split].
  apply (performs_b an_app mode_ch mode_calls mode_run s b eq_refl E); [vm_compute; reflexivity|exact Es|]. cbn [map mode_calls] in Eg. injection Eg as G0 G1.
  intros [|[|i]] c Ei; [..|destruct i; discriminate Ei]; injection Ei as <-; rewrite ?G0, ?G1; (split; [vm_compute; reflexivity|]; split; vm_compute; reflexivity).
Qed.
Print Assumptions c80_mode_refuted.
