(** C81: HEAD requests, and responses with the statuses 204 and 304, in exchanges. *)
From Verif Require Import PyBytes PyBytesFacts PyInt PyExn M_Parser M_Framing M_Conn M_Response M_Server M_Site M_Stack
  S_Head S_Response S_Calls S_Conn S_Route S_Site S_AsgiSite S_Stack S_Open S_Keep S_Bare P_Conn2 P_Conn3 P_Conn7 P_Conn10 P_Stack2 P_Keep P_Bare T_Conn T_Scope T_Site T_Open T_AsgiSite T_Stack T_Keep.

(** As C79, with requests of any method, also HEAD, and handlers and request middlewares that may set the statuses 204 and 304; the response middlewares do not
    change the status. The client reads of a response to HEAD, and of one with status 1xx, 204 or 304, only the head, and others as in C79. It gets one response for
    each request, in order; status line, header lines and body are what the calls say, and there is no body for HEAD, 204 and 304, whatever was returned. *)
Theorem c81_exchange : forall o ap paths reqs date tr s b,
  opts_ok o -> soft_app ap paths -> Forall (sound_call o) reqs -> (forall i, one_line (date i)) ->
  conn_run o conn_new tr = Some (s, b) -> c_closing s = false ->
  client_ok o (map msg_of reqs) tr -> S_Conn.settled o tr \/ client_waits o (map msg_of reqs) tr -> handlers_ok o (map msg_of reqs) tr -> performs_app ap date tr b ->
  exists answers rest, read_answers_to (map method_of (firstn (ended b) reqs)) (written b) = Some (answers, rest) /\ Forall2 (right_page_to ap paths) (firstn (ended b) reqs) answers /\
    (input tr = List.concat (map wire (map msg_of reqs)) -> quiet o tr s b -> ended b = List.length reqs /\ rest = []).
Proof. exact bare_exchange. Qed.
Print Assumptions c81_exchange.
(** And as C80: the connection stays open if the client does not ask to close it. Partial: not if an async generator has status 204 or 304 (c81_stream_refuted). *)
Theorem c81_open_partial : forall o ap paths reqs date tr s b,
  opts_ok o -> (0 < o_body o)%Z -> soft_app ap paths -> full_streams ap -> Forall (sound_call o) reqs -> Forall (fun c => ~ bids_close c) reqs -> Forall (small o) reqs -> (forall i, one_line (date i)) ->
  conn_run o conn_new tr = Some (s, b) -> client_waits o (map msg_of reqs) tr -> handlers_ok o (map msg_of reqs) tr -> unbroken tr -> keeps_up o tr ->
  performs_app ap date tr b -> closes_app ap date tr b ->
  c_closing s = false /\ c_lost s = false /\
  exists answers rest, read_answers_to (map method_of (firstn (ended b) reqs)) (written b) = Some (answers, rest) /\ Forall2 (right_page_to ap paths) (firstn (ended b) reqs) answers /\
    (input tr = List.concat (map wire (map msg_of reqs)) -> quiet o tr s b -> ended b = List.length reqs /\ rest = []).
Proof.
  intros o ap paths reqs date tr s b Oo Ob A Fs R Nb L D Run W H U K P C. destruct (bare_kept o ap paths reqs date tr s b Oo Ob A Fs R Nb L D Run W H U K C) as [Cl Lo].
  split; [exact Cl|]. split; [exact Lo|]. exact (bare_exchange o ap paths reqs date tr s b Oo A R D Run Cl (waits_ok _ _ _ W) (or_intror W) H P).
Qed.
Print Assumptions c81_open_partial.

(** ** Examples *)
(** Requests with X-Ban are turned away; /hello streams, /same is never modified. *)
Definition bare_app (page : nat -> list hop * content) : stack :=
  mkStack [(bs "/hello", 1); (bs "/same", 2)] (fun _ => []) (fun f m u v x => page f) [bs "x-ban"]
    [(fun m u v => if existsb (fun l => negb (List.length l =? 0)%nat) v then ([HStatus 403 (bs "No")], Some (bs "go away")) else ([], None))]
    [(fun m u v => [HAppend (bs "X-Z") (bs "last")])] 1048576 16384 (bs "Tremolo").
Definition bare_page (f : nat) : list hop * content := match f with 1 => ([], Parts (bs "hel") [bs "lo"]) | _ => ([HStatus 304 (bs "Not Modified"); HSet (bs "ETag") (bs "1")], Whole (bs "nothing")) end.
Definition heads : list S_Site.call :=
  [mkCall (bs "HEAD") (bs "/hello") [(bs "Host", bs "a")] None; mkCall (bs "GET") (bs "/same") [(bs "Host", bs "a")] None;
   mkCall (bs "HEAD") (bs "/hello") [(bs "Host", bs "a"); (bs "X-Ban", bs "1")] None; mkCall (bs "HEAD") (bs "/nowhere") [(bs "Host", bs "a")] None;
   mkCall (bs "GET") (bs "/hello") [(bs "Host", bs "a")] None].
Definition served (ap : stack) (c : S_Site.call) : rsp :=
  match frame_head (m_head (msg_of c)) (blen (m_head (msg_of c)) - 2) with Framed r => snd (app_serve (bs "now") ap r []) | _ => new_rsp false end.
Definition bare_acts (ap : stack) (i : nat) (c : S_Site.call) : list cev :=
  [Data (wire (msg_of c)); RunHR i] ++ flat_map (fun x => match x with Some d => [HPut i d; RunSend false] | None => [HClose i (r_keep (served ap c)); RunSend false] end) (r_out (served ap c)).
Definition bare_run (ap : stack) (l : list S_Site.call) : list cev := List.concat (map (fun ic => bare_acts ap (fst ic) (snd ic)) (combine (List.seq 0 (List.length l)) l)).

Lemma bare_soft page : (forall f, Forall soft_call (fst (page f))) -> soft_app (bare_app page) [bs "hello"; bs "same"].
Proof.
  intros Sp. assert (forall p, forallb (fun c => negb (memb c special)) p = true -> forall c, In c p -> ~ In c special) as K.
  { intros p H c I. rewrite forallb_forall in H. specialize (H c I). intros J. destruct (memb c special) eqn:E; [discriminate|]. apply memb_notIn in E. contradiction. }
  assert (forall n, existsb (beqb n) reserved = false -> ~ In n reserved) as N.
  { intros n E I. assert (existsb (beqb n) reserved = true); [|congruence]. apply existsb_exists. exists n. split; [exact I|apply beqb_refl]. }
  assert (~ bodyless [] 403) as B by (intros [H|H]; [discriminate|lia]).
  split; [|split; [|split; [|split; [|split; [|split; [|split; [|split]]]]]]].
  - cbn [p_regs bare_app]. repeat apply Forall2_cons; [..|apply Forall2_nil]; (split; [apply bare_b; reflexivity|]; split; [apply K; reflexivity|]); now exists 1, 0.
  - cbn [p_regs bare_app]. repeat constructor; discriminate.
  - discriminate.
  - apply memb_notIn. reflexivity.
  - intros f. constructor.
  - cbn [p_eyes bare_app]. constructor; [now apply N|constructor].
  - intros f m u v x. apply Sp.
  - cbn [p_before bare_app]. constructor; [|constructor]. intros m u v. destruct (existsb _ v); [|constructor]. constructor; [right; right; exact B|constructor].
  - cbn [p_after bare_app]. assert (~ In (bs "x-z") [bs "transfer-encoding"; bs "content-length"]) as X by (intros [X|[X|[]]]; discriminate X).
    constructor; [|constructor]; intros m u v; (split; [|split]; (constructor; [|constructor])); [split; [apply memb_notIn; reflexivity|split; [discriminate|]]; split; apply memb_notIn; reflexivity|split; [apply memb_notIn; reflexivity|split; [apply memb_notIn; reflexivity|exact X]]|exact I].
Qed.
Example c81_app : soft_app (bare_app bare_page) [bs "hello"; bs "same"] /\ full_streams (bare_app bare_page).
Proof.
  split.
  - apply bare_soft. intros [|[|f]]; cbn [bare_page fst]; repeat constructor; try (now right; left); try (apply memb_notIn; reflexivity); discriminate.
  - split.
    + intros [|[|f]] m u v x; cbn [p_page bare_app bare_page]; constructor.
    + cbn [p_before bare_app]. constructor; [|constructor]. intros m u v. destruct (existsb _ v); [discriminate|constructor].
Qed.
Lemma length_b n : existsb (beqb n) framing_names = false -> ~ In n length_names.
Proof. intros E I. apply (framing_b n E). now right. Qed.
Lemma stays_b l : forallb (fun c => match values (bs "connection") (k_fields c) with [] => true | _ => false end) l = true -> Forall (fun c => ~ bids_close c) l.
Proof. intros H. apply Forall_forall. intros c Hc (words & t & I & _). apply (proj1 (forallb_forall _ _) H) in Hc. now destruct (values (bs "connection") (k_fields c)). Qed.
Example c81_calls : Forall (sound_call conn_opts) heads.
Proof.
  repeat apply Forall_cons; [..|apply Forall_nil]; (split; [apply fits_ok; vm_compute; reflexivity|]; split; [vm_compute; discriminate|];
    split; [split; [repeat (constructor; [apply length_b; vm_compute; reflexivity|]); constructor|apply Nat.leb_le; vm_compute; reflexivity]|]; split; [|split; vm_compute; discriminate]);
    [exists (bs "hello")|exists (bs "same")|exists (bs "hello")|exists (bs "nowhere")|exists (bs "hello")]; (split; [apply bare_b; reflexivity|]; exists 0, 0, []; split; [reflexivity|]; now left).
Qed.
(** The handlers of such a run do what they should. *)
Lemma bare_performs ap l tr s b : conn_run conn_opts conn_new tr = Some (s, b) -> closers tr = List.seq 0 (List.length l) ->
  starts b = combine (List.seq 0 (List.length l)) (map m_head (map msg_of l)) ->
  (forall i c, nth_error l i = Some c -> got i b = [] /\ did i tr = r_out (served ap c) /\ forallb (fun e => match e with HClose j k => negb (j =? i)%nat || Bool.eqb k (r_keep (served ap c)) | _ => true end) tr = true) ->
  performs_app ap (fun _ => bs "now") tr b /\ closes_app ap (fun _ => bs "now") tr b.
Proof.
  intros R Ec Es H. assert (forall i h, In (Started i h) b -> exists c, nth_error l i = Some c /\ h = m_head (msg_of c)) as K.
  { intros i h Hi. assert (In (i, h) (starts b)) as J by (apply in_flat_map; exists (Started i h); split; [exact Hi|now left]). rewrite Es in J.
    apply (In_nth _ _ (0, [])) in J as (k & Lk & J). rewrite combine_length, seq_length, !map_length, Nat.min_id in Lk. rewrite combine_nth in J by (rewrite seq_length, !map_length; reflexivity). rewrite seq_nth in J by exact Lk. cbn [Nat.add] in J.
    apply pair_equal_spec in J as [-> <-]. destruct (nth_error l i) as [c|] eqn:Ei; [|apply nth_error_None in Ei; lia]. exists c. split; [reflexivity|]. rewrite map_map. apply nth_error_nth. rewrite nth_error_map, Ei. reflexivity. }
  split.
  - intros i h r Hi _ Fr. destruct (K i h Hi) as (c & Ei & ->). destruct (H i c Ei) as (G & D & _). rewrite G, D. unfold served. now rewrite Fr.
  - intros i h r keep Hi Hk Fr. destruct (K i h Hi) as (c & Ei & ->). destruct (H i c Ei) as (G & _ & D). apply (proj1 (forallb_forall _ _) D) in Hk. rewrite Nat.eqb_refl in Hk. cbn [negb orb] in Hk. apply eqb_prop in Hk. rewrite Hk, G. unfold served. now rewrite Fr.
Qed.
(** What the client of the example reads: status line, number of X-Z lines, body. *)
Definition bare_gist (x : answer) : bytes * nat * bytes := (r_line x, List.length (lines_named (bs "x-z") (r_lines x)), r_data x).
Example c81_example : exists s b, let tr := bare_run (bare_app bare_page) heads in conn_run conn_opts conn_new tr = Some (s, b) /\ opts_ok conn_opts /\ Forall (fun c => ~ bids_close c) heads /\ Forall (small conn_opts) heads /\
  client_waits conn_opts (map msg_of heads) tr /\ handlers_ok conn_opts (map msg_of heads) tr /\ unbroken tr /\ keeps_up conn_opts tr /\
  performs_app (bare_app bare_page) (fun _ => bs "now") tr b /\ closes_app (bare_app bare_page) (fun _ => bs "now") tr b /\ input tr = List.concat (map wire (map msg_of heads)) /\ quiet conn_opts tr s b /\
  match read_answers_to (map method_of heads) (written b) with
  | Some (l, rest) => rest = [] /\ map bare_gist l = [(bs "HTTP/1.1 200 OK", 1, []); (bs "HTTP/1.1 304 Not Modified", 1, []); (bs "HTTP/1.1 403 No", 0, []); (bs "HTTP/1.1 404 Not Found", 1, []); (bs "HTTP/1.1 200 OK", 1, bs "hello")]
  | None => False
  end.
Proof.
  set (tr := bare_run _ _). destruct (tally_ok heads tr) as (s & b & E & Cl & En & Q); [vm_compute; reflexivity|vm_compute; reflexivity|]. exists s, b. cbv zeta.
  assert (all_waits conn_opts (map msg_of heads) tr = true) as A by (vm_compute; reflexivity). apply andb_prop in A as [A A3]. apply andb_prop in A as [A1 A2].
  assert (match conn_run conn_opts conn_new tr with
    | Some (s, b) => starts b = combine [0; 1; 2; 3; 4] (map m_head (map msg_of heads)) /\ map (fun i => got i b) [0; 1; 2; 3; 4] = [[]; []; []; []; []] /\
        match read_answers_to (map method_of heads) (written b) with
        | Some (l, rest) => rest = [] /\ map bare_gist l = [(bs "HTTP/1.1 200 OK", 1, []); (bs "HTTP/1.1 304 Not Modified", 1, []); (bs "HTTP/1.1 403 No", 0, []); (bs "HTTP/1.1 404 Not Found", 1, []); (bs "HTTP/1.1 200 OK", 1, bs "hello")]
        | None => False
        end
    | None => False end) as F by (vm_compute; repeat split; reflexivity).
  rewrite E in F. destruct F as (Es & Eg & F). specialize (Q Es).
  destruct (bare_performs (bare_app bare_page) heads tr s b E) as [P C]; [vm_compute; reflexivity|exact Es| |].
  { cbn [map] in Eg. injection Eg as G0 G1 G2 G3 G4. intros [|[|[|[|[|i]]]]] c Ei; [..|destruct i; discriminate Ei]; injection Ei as <-; (split; [assumption|]; split; vm_compute; reflexivity). }
  split; [exact E|]. split; [split; apply Nat.ltb_lt; reflexivity|]. split; [apply stays_b; vm_compute; reflexivity|]. split; [apply small_b_ok; vm_compute; reflexivity|]. split; [now apply waits_b_ok|]. split; [now apply handlers_b_ok|].
  split; [apply unbroken_b_ok; vm_compute; reflexivity|]. split; [apply keeps_up_b_ok; vm_compute; reflexivity|]. split; [exact P|]. split; [exact C|]. split; [vm_compute; reflexivity|]. split; [exact Q|exact F].
Qed.

(** ** What does not hold *)
(** After a response of an async generator with status 204 the connection is closed, though neither client nor application asked for it; the response said
    that it is kept. *)
Definition drip_page (f : nat) : list hop * content := ([HStatus 204 (bs "No Content")], Parts (bs "a") []).
Definition one_call : list S_Site.call := [mkCall (bs "GET") (bs "/hello") [(bs "Host", bs "a")] None].
Lemma one_sound : Forall (sound_call conn_opts) one_call.
Proof. pose proof c81_calls as H. do 4 (inversion_clear H as [|? ? _ H']; rename H' into H). exact H. Qed.
Theorem c81_stream_refuted : exists o ap paths reqs date tr s b,
  opts_ok o /\ (0 < o_body o)%Z /\ soft_app ap paths /\ Forall (sound_call o) reqs /\ Forall (fun c => ~ bids_close c) reqs /\ Forall (small o) reqs /\ (forall i, one_line (date i)) /\
  conn_run o conn_new tr = Some (s, b) /\ client_waits o (map msg_of reqs) tr /\ handlers_ok o (map msg_of reqs) tr /\ unbroken tr /\ keeps_up o tr /\
  performs_app ap date tr b /\ closes_app ap date tr b /\
  c_closing s = true /\ exists x, read_answer_to (bs "GET") (written b) = Some (x, []) /\ r_line x = bs "HTTP/1.1 204 No Content" /\ In (bs "Connection: keep-alive") (r_lines x).
Proof.
  set (ap := bare_app drip_page). set (tr := bare_run ap one_call).
  assert (match conn_run conn_opts conn_new tr with
    | Some (s, b) => starts b = combine [0] (map m_head (map msg_of one_call)) /\ got 0 b = [] /\ c_closing s = true /\
        match read_answer_to (bs "GET") (written b) with Some (x, rest) => rest = [] /\ r_line x = bs "HTTP/1.1 204 No Content" /\ existsb (beqb (bs "Connection: keep-alive")) (r_lines x) = true | None => False end
    | None => False end) as F by (vm_compute; repeat split; reflexivity).
  destruct (conn_run conn_opts conn_new tr) as [[s b]|] eqn:E; [|contradiction]. destruct F as (Es & G0 & Cl & Rd).
  assert (all_waits conn_opts (map msg_of one_call) tr = true) as A by (vm_compute; reflexivity). apply andb_prop in A as [A A3]. apply andb_prop in A as [A1 A2].
  destruct (bare_performs ap one_call tr s b E) as [P C]; [vm_compute; reflexivity|exact Es| |].
  { intros [|i] c Ei; [|destruct i; discriminate Ei]. injection Ei as <-. split; [exact G0|]. split; vm_compute; reflexivity. }
  exists conn_opts, ap, [bs "hello"; bs "same"], one_call, (fun _ => bs "now"), tr, s, b.
  split; [split; apply Nat.ltb_lt; reflexivity|]. split; [reflexivity|]. split; [apply bare_soft; intros f; constructor; [now left|constructor]|]. split; [exact one_sound|]. split; [apply stays_b; vm_compute; reflexivity|]. split; [apply small_b_ok; vm_compute; reflexivity|].
  split; [intros i; apply memb_notIn; reflexivity|]. split; [exact E|]. split; [now apply waits_b_ok|]. split; [now apply handlers_b_ok|]. split; [apply unbroken_b_ok; vm_compute; reflexivity|].
  split; [apply keeps_up_b_ok; vm_compute; reflexivity|]. split; [exact P|]. split; [exact C|]. split; [exact Cl|].
  destruct (read_answer_to _ _) as [[x rest]|]; [|contradiction]. destruct Rd as (-> & Rl & Rc). exists x. split; [reflexivity|]. split; [exact Rl|]. apply existsb_exists in Rc as (y & Iy & Ey). apply beqb_eq in Ey. now subst y.
Qed.
Print Assumptions c81_stream_refuted.
(** A response with status 205 has neither a body nor a length, and it is not chunked; the connection is kept, so the client cannot tell where it ends
    (RFC 9110, 15.3.6, and RFC 9112, 6.3). *)
Definition reset_page (f : nat) : list hop * content := ([HStatus 205 (bs "Reset Content")], Whole []).
Theorem c81_reset_refuted : exists o ap reqs date tr s b,
  (forall f m u v x, p_page ap f m u v x = ([HStatus 205 (bs "Reset Content")], Whole [])) /\ Forall (sound_call o) reqs /\
  conn_run o conn_new tr = Some (s, b) /\ client_waits o (map msg_of reqs) tr /\ handlers_ok o (map msg_of reqs) tr /\ performs_app ap date tr b /\ closes_app ap date tr b /\
  c_closing s = false /\ ended b = 1 /\ startswith (bs "HTTP/1.1 205 Reset Content") (written b) = true /\ read_answer_to (bs "GET") (written b) = None.
Proof.
  set (ap := bare_app reset_page). set (tr := bare_run ap one_call).
  assert (match conn_run conn_opts conn_new tr with
    | Some (s, b) => starts b = combine [0] (map m_head (map msg_of one_call)) /\ got 0 b = [] /\ c_closing s = false /\ ended b = 1 /\ startswith (bs "HTTP/1.1 205 Reset Content") (written b) = true /\ read_answer_to (bs "GET") (written b) = None
    | None => False end) as F by (vm_compute; repeat split; reflexivity).
  destruct (conn_run conn_opts conn_new tr) as [[s b]|] eqn:E; [|contradiction]. destruct F as (Es & G0 & Cl & En & Rs & Rd).
  assert (all_waits conn_opts (map msg_of one_call) tr = true) as A by (vm_compute; reflexivity). apply andb_prop in A as [A A3]. apply andb_prop in A as [A1 A2].
  destruct (bare_performs ap one_call tr s b E) as [P C]; [vm_compute; reflexivity|exact Es| |].
  { intros [|i] c Ei; [|destruct i; discriminate Ei]. injection Ei as <-. split; [exact G0|]. split; vm_compute; reflexivity. }
  exists conn_opts, ap, one_call, (fun _ => bs "now"), tr, s, b. split; [reflexivity|]. split; [exact one_sound|]. split; [exact E|]. split; [now apply waits_b_ok|]. split; [now apply handlers_b_ok|]. split; [exact P|]. split; [exact C|].
  repeat split; assumption.
Qed.
Print Assumptions c81_reset_refuted.
