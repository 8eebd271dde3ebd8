(** C75: a client and an application, from the bytes of the requests to the bytes of the responses. *)
From Verif Require Import PyBytes PyBytesFacts PyInt PyExn M_Parser M_Framing M_Conn M_Response M_Server M_Site
  S_Head S_Response S_Calls S_Conn S_Route S_Site P_Conn2 P_Conn3 P_Conn7 P_Site5 T_Conn T_Scope.

(** An application whose routes are literal paths and whose handlers are coroutine functions that read the body, look at header fields, make calls of the
    header API and return bytes; any number of such routes and any such functions. Any number of requests of a client, any lengths of bodies, on one
    connection that stays open, in any segments; the client waits for each response, or no data is on its way when a response ends; any schedule of the
    tasks. Whenever one looks, reading the responses that have ended from what was written gives one status line and one body for each request, in
    order, and each is what the function of the path of the request returned for the method, the URL, the header fields and the body of this request, or
    the page for unknown paths. When the client has sent all and nothing is left to do, every request has its response and nothing else was written. *)
Theorem c75_exchange : forall o si paths reqs date tr s b,
  opts_ok o -> site_ok si paths -> Forall (good_call o) reqs -> (forall i, one_line (date i)) ->
  conn_run o conn_new tr = Some (s, b) -> c_closing s = false ->
  client_ok o (map msg_of reqs) tr -> settled o tr \/ client_waits o (map msg_of reqs) tr -> handlers_ok o (map msg_of reqs) tr -> performs si date tr b ->
  exists answers rest, read_responses (ended b) (written b) = Some (answers, rest) /\ Forall2 (right_answer si paths) (firstn (ended b) reqs) answers /\
    (input tr = List.concat (map wire (map msg_of reqs)) -> quiet o tr s b -> ended b = List.length reqs /\ rest = []).
Proof. exact exchange. Qed.
Print Assumptions c75_exchange.

(** ** Example *)
Definition a_site : site :=
  mkSite [(bs "/hello", 1); (bs "/echo", 2)] (fun f => match f with 2 => [bs "x-name"] | _ => [] end)
    (fun f m u v x => match f with
                      | 1 => ([HStatus 201 (bs "Made"); HSet (bs "X-A") (bs "1")], bs "hello")
                      | _ => ([], m ++ bs " " ++ List.concat (List.concat v) ++ bs ":" ++ x)
                      end) 1048576 16384 (bs "Tremolo").
Definition calls : list S_Site.call :=
  [mkCall (bs "GET") (bs "/hello/?q=1") [(bs "Host", bs "a")] None;
   mkCall (bs "POST") (bs "/echo") [(bs "Host", bs "a"); (bs "X-Name", bs "me")] (Some (bs "some text"));
   mkCall (bs "GET") (bs "/nowhere") [(bs "Host", bs "a")] None].
Definition acts_of (c : S_Site.call) : list (option bytes) :=
  match frame_head (m_head (msg_of c)) (blen (m_head (msg_of c)) - 2) with Framed r => r_out (snd (serve (bs "now") a_site r (body_of c))) | _ => [] end.
Definition acts (i : nat) (c : S_Site.call) : list cev :=
  flat_map (fun x => match x with Some d => [HPut i d; RunSend false] | None => [HClose i true; RunSend false] end) (acts_of c).
Definition calls_run : list cev :=
  let c i := nth i calls (mkCall [] [] [] None) in
  [Data (firstn 9 (wire (msg_of (c 0)))); Data (skipn 9 (wire (msg_of (c 0)))); RunHR 0] ++ acts 0 (c 0) ++
  [Data (wire (msg_of (c 1))); RunHR 1; RunHR 1; HRead 1; HTake 1; HTake 1] ++ acts 1 (c 1) ++
  [Data (wire (msg_of (c 2))); RunHR 2] ++ acts 2 (c 2).

Lemma bare_b p : negb (memb "?"%char p) && negb (Ascii.eqb (hd " "%char p) "/"%char) && negb (Ascii.eqb (last p " "%char) "/"%char) = true -> bare p.
Proof.
  intros H. apply andb_prop in H as [H H3]. apply andb_prop in H as [H1 H2]. split; [|split].
  - destruct (memb "?"%char p) eqn:E; [discriminate|]. now apply memb_notIn.
  - intros E. rewrite E in H2. discriminate.
  - intros E. rewrite E in H3. discriminate.
Qed.
Example c75_site : site_ok a_site [bs "hello"; bs "echo"].
Proof.
  assert (forall p, forallb (fun c => negb (memb c special)) p = true -> forall c, In c p -> ~ In c special) as K.
  { intros p H c I. rewrite forallb_forall in H. specialize (H c I). intros J. destruct (memb c special) eqn:E; [discriminate|]. apply memb_notIn in E. contradiction. }
  split; [|split; [|split; [|split; [|split]]]].
  - cbn [t_regs a_site]. repeat apply Forall2_cons; [..|apply Forall2_nil]; (split; [apply bare_b; reflexivity|]; split; [apply K; reflexivity|]); now exists 1, 0.
  - cbn [t_regs a_site]. repeat constructor; discriminate.
  - discriminate.
  - apply memb_notIn. reflexivity.
  - intros f. cbn [t_looks a_site]. destruct f as [|[|[|f]]]; try constructor; [|constructor]. intros H. repeat (destruct H as [H|H]; [discriminate H|]). exact H.
  - intros f m u v x. cbn [t_page a_site]. assert (~ bodyless [] 201 /\ ~ bodyless [] 200) as [B1 B2] by (split; intros [H|H]; [discriminate|lia|discriminate|lia]).
    destruct f as [|[|f]]; cbn [fst]; cbv zeta; repeat split; try constructor; try assumption; try exact I.
    + constructor; [exact I|constructor].
    + constructor; [|constructor]. cbn [name_ok]. apply memb_notIn. reflexivity.
    + constructor; [|constructor]. cbn [unreserved]. discriminate.
Qed.
Example c75_calls : Forall (good_call conn_opts) calls.
Proof.
  assert (forall n, existsb (beqb n) framing_names = false -> ~ In n framing_names) as N.
  { intros n E I. assert (existsb (beqb n) framing_names = true); [|congruence]. apply existsb_exists. exists n. split; [exact I|apply beqb_refl]. }
  repeat apply Forall_cons; [..|apply Forall_nil]; (split; [apply fits_ok; vm_compute; reflexivity|]; split; [vm_compute; discriminate|];
    split; [repeat (constructor; [apply N; vm_compute; reflexivity|]); constructor|]; split; [vm_compute; discriminate|]; split; [|split; vm_compute; discriminate]).
  - exists (bs "hello"). split; [apply bare_b; reflexivity|]. exists 0, 1, (bs "?q=1"). split; [reflexivity|]. right. now eexists.
  - exists (bs "echo"). split; [apply bare_b; reflexivity|]. exists 0, 0, []. split; [reflexivity|]. now left.
  - exists (bs "nowhere"). split; [apply bare_b; reflexivity|]. exists 0, 0, []. split; [reflexivity|]. now left.
Qed.
Example c75_example : exists s b, conn_run conn_opts conn_new calls_run = Some (s, b) /\ c_closing s = false /\ opts_ok conn_opts /\
  client_waits conn_opts (map msg_of calls) calls_run /\ handlers_ok conn_opts (map msg_of calls) calls_run /\ performs a_site (fun _ => bs "now") calls_run b /\
  input calls_run = List.concat (map wire (map msg_of calls)) /\ quiet conn_opts calls_run s b /\ ended b = 3 /\
  exists page, read_responses 3 (written b) = Some ([(bs "HTTP/1.1 201 Made", bs "hello"); (bs "HTTP/1.1 200 OK", bs "POST me:some text"); (bs "HTTP/1.1 404 Not Found", page)], []).
Proof.
  destruct (conn_run conn_opts conn_new calls_run) as [[s b]|] eqn:E; [|exfalso; revert E; vm_compute; discriminate]. exists s, b.
  assert (all_waits conn_opts (map msg_of calls) calls_run = true) as A by (vm_compute; reflexivity). apply andb_prop in A as [A A3]. apply andb_prop in A as [A1 A2].
  assert (match conn_run conn_opts conn_new calls_run with Some (s, b) => (c_closing s, c_hrs s, c_rcv s, c_q1 s, starts b, ended b, map (fun i => got i b) [0; 1; 2]) = (false, [HOver; HOver; HOver], [], [], combine [0; 1; 2] (map m_head (map msg_of calls)), 3, map body_of calls) /\
    (match read_responses 3 (written b) with Some ([a1; a2; (h, p)], []) => (a1, a2, h) = ((bs "HTTP/1.1 201 Made", bs "hello"), (bs "HTTP/1.1 200 OK", bs "POST me:some text"), bs "HTTP/1.1 404 Not Found") | _ => False end) | None => False end) as F by (vm_compute; split; reflexivity).
  rewrite E in F. destruct F as [F Rd].
  assert (c_hrs s = [HOver; HOver; HOver]) as F2 by congruence. assert (c_rcv s = []) as F3 by congruence. assert (c_q1 s = []) as F4 by congruence. assert (starts b = combine [0; 1; 2] (map m_head (map msg_of calls))) as F5 by congruence.
  assert (map (fun i => got i b) [0; 1; 2] = map body_of calls) as F6 by congruence. assert (ended b = 3) as F7 by congruence. assert (c_closing s = false) as F8 by congruence. clear F.
  split; [reflexivity|]. split; [exact F8|]. split; [split; apply Nat.ltb_lt; reflexivity|]. split; [now apply waits_b_ok|]. split; [now apply handlers_b_ok|].
  assert (forall i h, In (Started i h) b -> In (i, h) (combine [0; 1; 2] (map m_head (map msg_of calls)))) as St.
  { intros i h Hi. rewrite <- F5. apply in_flat_map. exists (Started i h). split; [exact Hi|now left]. }
  split; [|split; [vm_compute; reflexivity|split; [|split; [exact F7|]]]].
  - intros i h r Hi _ Fr. apply St in Hi. unfold calls in F6, Hi. cbn [map combine] in F6, Hi. injection F6 as G0 G1 G2.
    assert (forall c, In c calls -> h = m_head (msg_of c) -> got i b = body_of c -> did i calls_run = acts_of c -> did i calls_run = r_out (snd (serve (bs "now") a_site r (got i b)))) as L.
    { intros c _ Eh Eg Ed. rewrite Ed, Eg. unfold acts_of. now rewrite <- Eh, Fr. }
    destruct Hi as [Hi|[Hi|[Hi|[]]]]; apply pair_equal_spec in Hi as [<- <-]; (eapply L; [| reflexivity | eassumption | vm_compute; reflexivity]); [now left|right; now left|right; right; now left].
  - split; [|split; [|split]].
    + intros j. unfold conn_step. rewrite F2. destruct (c_lost s); [reflexivity|]. destruct j as [|[|[|[|j]]]]; reflexivity.
    + intros j. unfold conn_step. rewrite F3. destruct (c_lost s); [reflexivity|]. now destruct j.
    + intros kicked. unfold conn_step, run_send. rewrite F4. destruct (c_lost s); [reflexivity|]. now destruct (c_sending s).
    + intros i h Hi. apply St in Hi. assert (closers calls_run = [0; 1; 2]) as -> by (vm_compute; reflexivity). apply in_combine_l in Hi. exact Hi.
  - destruct (read_responses 3 (written b)) as [[[|a1 [|a2 [|[h p] [|]]]] [|]]|]; try contradiction. exists p. injection Rd as -> -> ->. reflexivity.
Qed.
