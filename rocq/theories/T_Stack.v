(** C79: a client and an application with middlewares and streaming handlers, from the bytes of the requests to the bytes of the responses. *)
From Verif Require Import PyBytes PyBytesFacts PyInt PyExn M_Parser M_Framing M_Conn M_Response M_Server M_Site M_Stack
  S_Head S_Response S_Calls S_Conn S_Route S_Site S_AsgiSite S_Stack P_Conn2 P_Conn3 P_Conn7 P_Stack2 T_Conn T_Scope T_Site T_AsgiSite.

(** An application with any number of literal routes, request middlewares and response middlewares. Handlers are coroutine functions that return bytes or
    async generator functions that yield them; handlers and middlewares look at header fields and make calls of the header API (and may catch what those
    raise), a request middleware may answer instead of going on. Any number of requests of a client, any lengths of bodies, on one connection that stays open,
    in any segments; the client waits for each response, or no data is on its way when a response ends; any schedule of the tasks. Whenever one looks,
    reading the responses that have ended from what was written, chunked or by Content-Length, gives one for each request, in order; status line, header
    lines and body of each are what the calls of the request middlewares, of the handler of the path and of the response middlewares say for this
    request, in the order in which they are made, or, if a request middleware answered, what the calls up to it and its answer say. When the client has sent
    all and nothing is left to do, every request has its response and nothing else was written. *)
Theorem c79_exchange : forall o ap paths reqs date tr s b,
  opts_ok o -> good_app ap paths -> Forall (good_call o) reqs -> (forall i, one_line (date i)) ->
  conn_run o conn_new tr = Some (s, b) -> c_closing s = false ->
  client_ok o (map msg_of reqs) tr -> S_Conn.settled o tr \/ client_waits o (map msg_of reqs) tr -> handlers_ok o (map msg_of reqs) tr -> performs_app ap date tr b ->
  exists answers rest, read_answers (ended b) (written b) = Some (answers, rest) /\ Forall2 (right_page ap paths) (firstn (ended b) reqs) answers /\
    (input tr = List.concat (map wire (map msg_of reqs)) -> quiet o tr s b -> ended b = List.length reqs /\ rest = []).
Proof. exact stack_exchange. Qed.
Print Assumptions c79_exchange.

(** ** Example *)
(** The first request middleware sets a header, the second turns away requests with X-Ban. The response middlewares mark the response. *)
Definition a_stack : stack :=
  mkStack [(bs "/hello", 1); (bs "/echo", 2)] (fun f => match f with 2 => [bs "x-name"] | _ => [] end)
    (fun f m u v x => match f with
                      | 1 => ([HStatus 201 (bs "Made"); HSet (bs "X-A") (bs "1")], Parts (bs "hel") [[]; bs "lo"])
                      | _ => ([HAppend (bs "X-M") (bs "2")], Whole (m ++ bs " " ++ List.concat (List.concat v) ++ bs ":" ++ x))
                      end)
    [bs "x-ban"]
    [(fun m u v => ([HSet (bs "X-M") (bs "1")], None)); (fun m u v => if existsb (fun l => negb (List.length l =? 0)%nat) v then ([HStatus 403 (bs "No")], Some (bs "go away")) else ([], None))]
    [(fun m u v => [HAppend (bs "X-Z") (bs "last")]); (fun m u v => [HAppend (bs "X-Z") (bs "first")])] 1048576 16384 (bs "Tremolo").
Definition stack_calls : list S_Site.call :=
  [mkCall (bs "GET") (bs "/hello/?q=1") [(bs "Host", bs "a")] None;
   mkCall (bs "POST") (bs "/echo") [(bs "Host", bs "a"); (bs "X-Name", bs "me")] (Some (bs "some text"));
   mkCall (bs "GET") (bs "/hello") [(bs "Host", bs "a"); (bs "X-Ban", bs "1")] None;
   mkCall (bs "GET") (bs "/nowhere") [(bs "Host", bs "a")] None].
Definition stack_did (c : S_Site.call) (x : bytes) : list (option bytes) :=
  match frame_head (m_head (msg_of c)) (blen (m_head (msg_of c)) - 2) with Framed r => r_out (snd (app_serve (bs "now") a_stack r x)) | _ => [] end.
Definition stack_acts (i : nat) (c : S_Site.call) : list cev :=
  flat_map (fun x => match x with Some d => [HPut i d; RunSend false] | None => [HClose i true; RunSend false] end) (stack_did c (body_of c)).
Definition stack_run : list cev :=
  let c i := nth i stack_calls (mkCall [] [] [] None) in
  [Data (firstn 9 (wire (msg_of (c 0)))); Data (skipn 9 (wire (msg_of (c 0)))); RunHR 0] ++ stack_acts 0 (c 0) ++
  [Data (wire (msg_of (c 1))); RunHR 1; RunHR 1; HRead 1; HTake 1; HTake 1] ++ stack_acts 1 (c 1) ++
  [Data (wire (msg_of (c 2))); RunHR 2] ++ stack_acts 2 (c 2) ++ [Data (wire (msg_of (c 3))); RunHR 3] ++ stack_acts 3 (c 3).

Example c79_app : good_app a_stack [bs "hello"; bs "echo"].
Proof.
  assert (forall p, forallb (fun c => negb (memb c special)) p = true -> forall c, In c p -> ~ In c special) as K.
  { intros p H c I. rewrite forallb_forall in H. specialize (H c I). intros J. destruct (memb c special) eqn:E; [discriminate|]. apply memb_notIn in E. contradiction. }
  assert (forall n, existsb (beqb n) reserved = false -> ~ In n reserved) as N.
  { intros n E I. assert (existsb (beqb n) reserved = true); [|congruence]. apply existsb_exists. exists n. split; [exact I|apply beqb_refl]. }
  assert (~ bodyless [] 201 /\ ~ bodyless [] 403) as [B1 B2] by (split; intros [H|H]; [discriminate|lia|discriminate|lia]).
  split; [|split; [|split; [|split; [|split; [|split; [|split; [|split]]]]]]].
  - cbn [p_regs a_stack]. repeat apply Forall2_cons; [..|apply Forall2_nil]; (split; [apply bare_b; reflexivity|]; split; [apply K; reflexivity|]); now exists 1, 0.
  - cbn [p_regs a_stack]. repeat constructor; discriminate.
  - discriminate.
  - apply memb_notIn. reflexivity.
  - intros f. cbn [p_looks a_stack]. destruct f as [|[|[|f]]]; try constructor; [|constructor]. now apply N.
  - cbn [p_eyes a_stack]. constructor; [now apply N|constructor].
  - intros f m u v x. cbn [p_page a_stack]. destruct f as [|[|f]]; cbn [fst]; cbv zeta; repeat constructor; try assumption; try (apply memb_notIn; reflexivity); try discriminate.
  - cbn [p_before a_stack]. constructor; [|constructor; [|constructor]]; intros m u v; cbv zeta.
    + repeat constructor; [apply memb_notIn; reflexivity|discriminate].
    + destruct (existsb _ v); repeat constructor; assumption.
  - cbn [p_after a_stack]. assert (~ In (bs "x-z") [bs "transfer-encoding"; bs "content-length"]) as X by (intros [X|[X|[]]]; discriminate X).
    constructor; [|constructor; [|constructor]]; intros m u v; (split; (constructor; [|constructor]); [split; [apply memb_notIn; reflexivity|split; [discriminate|]]; split; apply memb_notIn; reflexivity|split; [apply memb_notIn; reflexivity|split; [apply memb_notIn; reflexivity|exact X]]]).
Qed.
Example c79_calls : Forall (good_call conn_opts) stack_calls.
Proof.
  repeat apply Forall_cons; [..|apply Forall_nil]; (split; [apply fits_ok; vm_compute; reflexivity|]; split; [vm_compute; discriminate|];
    split; [repeat (constructor; [apply framing_b; vm_compute; reflexivity|]); constructor|]; split; [vm_compute; discriminate|]; split; [|split; vm_compute; discriminate]).
  - exists (bs "hello"). split; [apply bare_b; reflexivity|]. exists 0, 1, (bs "?q=1"). split; [reflexivity|]. right. now eexists.
  - exists (bs "echo"). split; [apply bare_b; reflexivity|]. exists 0, 0, []. split; [reflexivity|]. now left.
  - exists (bs "hello"). split; [apply bare_b; reflexivity|]. exists 0, 0, []. split; [reflexivity|]. now left.
  - exists (bs "nowhere"). split; [apply bare_b; reflexivity|]. exists 0, 0, []. split; [reflexivity|]. now left.
Qed.
Lemma performs_stack_b l tr s b : conn_run conn_opts conn_new tr = Some (s, b) -> closers tr = List.seq 0 (List.length l) ->
  starts b = combine (List.seq 0 (List.length l)) (map m_head (map msg_of l)) -> (forall i c, nth_error l i = Some c -> did i tr = stack_did c (got i b)) ->
  performs_app a_stack (fun _ => bs "now") tr b.
Proof.
  intros R Ec Es H i h r Hi Hcl Fr. rewrite Ec in Hcl. apply in_seq in Hcl as [_ L]. cbn [Nat.add] in L.
  destruct (nth_error l i) as [c|] eqn:Ei; [|apply nth_error_None in Ei; lia].
  assert (h = m_head (msg_of c)) as ->.
  { assert (In (i, h) (starts b)) as J by (apply in_flat_map; exists (Started i h); split; [exact Hi|now left]). rewrite Es in J.
    apply (In_nth _ _ (0, [])) in J as (k & Lk & J). rewrite combine_length, seq_length, !map_length, Nat.min_id in Lk. rewrite combine_nth in J by (rewrite seq_length, !map_length; reflexivity). rewrite seq_nth in J by exact Lk. cbn [Nat.add] in J.
    apply pair_equal_spec in J as [-> <-]. rewrite map_map. apply nth_error_nth. rewrite nth_error_map, Ei. reflexivity. }
  rewrite (H i c Ei). unfold stack_did. now rewrite Fr.
Qed.
(** What the client of the example reads: status line, X-M and X-Z lines, body. *)
Definition gist (x : answer) : bytes * list bytes * list bytes * bytes := (r_line x, lines_named (bs "x-m") (r_lines x), lines_named (bs "x-z") (r_lines x), r_data x).
Definition stack_gist : list (bytes * list bytes * list bytes) :=
  [(bs "HTTP/1.1 201 Made", [bs "X-M: 1"], [bs "X-Z: first"; bs "X-Z: last"]); (bs "HTTP/1.1 200 OK", [bs "X-M: 1"; bs "X-M: 2"], [bs "X-Z: first"; bs "X-Z: last"]);
   (bs "HTTP/1.1 403 No", [bs "X-M: 1"], []); (bs "HTTP/1.1 404 Not Found", [bs "X-M: 1"], [bs "X-Z: first"; bs "X-Z: last"])].
Example c79_example : exists s b, conn_run conn_opts conn_new stack_run = Some (s, b) /\ c_closing s = false /\ opts_ok conn_opts /\
  client_waits conn_opts (map msg_of stack_calls) stack_run /\ handlers_ok conn_opts (map msg_of stack_calls) stack_run /\ performs_app a_stack (fun _ => bs "now") stack_run b /\
  input stack_run = List.concat (map wire (map msg_of stack_calls)) /\ quiet conn_opts stack_run s b /\ ended b = 4 /\
  match read_answers 4 (written b) with
  | Some (l, rest) => rest = [] /\ map fst (map gist l) = stack_gist /\ firstn 3 (map r_data l) = [bs "hello"; bs "POST me:some text"; bs "go away"]
  | None => False
  end.
Proof.
  destruct (tally_ok stack_calls stack_run) as (s & b & E & Cl & En & Q); [vm_compute; reflexivity|vm_compute; reflexivity|]. exists s, b.
  assert (all_waits conn_opts (map msg_of stack_calls) stack_run = true) as A by (vm_compute; reflexivity). apply andb_prop in A as [A A3]. apply andb_prop in A as [A1 A2].
  assert (match conn_run conn_opts conn_new stack_run with
    | Some (s, b) => starts b = combine [0; 1; 2; 3] (map m_head (map msg_of stack_calls)) /\ map (fun i => got i b) [0; 1; 2; 3] = map body_of stack_calls /\
        match read_answers 4 (written b) with
        | Some (l, rest) => rest = [] /\ map fst (map gist l) = stack_gist /\ firstn 3 (map r_data l) = [bs "hello"; bs "POST me:some text"; bs "go away"]
        | None => False
        end
    | None => False end) as F by (vm_compute; repeat split; reflexivity).
  rewrite E in F. destruct F as (Es & Eg & F). specialize (Q Es).
  split; [exact E|]. split; [exact Cl|]. split; [split; apply Nat.ltb_lt; reflexivity|]. split; [now apply waits_b_ok|]. split; [now apply handlers_b_ok|].
  split; [|split; [vm_compute; reflexivity|split; [exact Q|split; [exact En|exact F]]]].
  apply (performs_stack_b stack_calls stack_run s b E); [vm_compute; reflexivity|exact Es|]. cbn [map] in Eg. injection Eg as G0 G1 G2 G3.
  intros [|[|[|[|i]]]] c Ei; [..|destruct i; discriminate Ei]; injection Ei as <-; rewrite ?G0, ?G1, ?G2, ?G3; vm_compute; reflexivity.
Qed.
