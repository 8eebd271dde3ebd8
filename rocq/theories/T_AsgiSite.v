(** C78: a client and an ASGI application, from the bytes of the requests to the bytes of the responses. *)
From Verif Require Import PyBytes PyBytesFacts PyInt PyExn PyUtf8 M_Parser M_Framing M_Conn M_Response M_Scope M_Asgi M_AsgiSite
  S_Head S_Response S_Calls S_Scope S_Asgi S_Conn S_Route S_Site S_AsgiSite P_Conn2 P_Conn3 P_Conn7 P_AsgiSite T_Conn T_Scope T_Site.

(** An ASGI application that reads the body of its request up to http.disconnect (or, of a request without a body, calls receive at most once) and then sends
    a response in any number of parts, with or without Content-Length. Any such application, any number of requests on one connection that stays open, in any
    segments; the client waits for each response, or no data is on its way when a response ends; any schedule of the tasks. Whenever one looks,
    reading the responses that have ended from what was written, chunked or by Content-Length, gives one for each request, in order, and each has the
    status, the headers and the body which the application gave for the scope of this request and for its body. When the client has sent all and nothing is
    left to do, every request has its response and nothing else was written.
    Partial: an application that stops reading when more_body is false may get http.disconnect instead of the body of the next request
    (c78_leftover_refuted). *)
Theorem c78_exchange_partial : forall o y reqs date ch tr s b,
  opts_ok o -> app_ok y -> Forall (good_call o) reqs -> Forall (fun c => exists sc, told y c sc) reqs -> (forall i, one_line (date i)) ->
  conn_run o conn_new tr = Some (s, b) -> c_closing s = false ->
  client_ok o (map msg_of reqs) tr -> settled o tr \/ client_waits o (map msg_of reqs) tr -> handlers_ok o (map msg_of reqs) tr -> performs_asgi y date ch tr b ->
  exists answers rest, read_answers (ended b) (written b) = Some (answers, rest) /\ Forall2 (right_reply y) (firstn (ended b) reqs) answers /\
    (input tr = List.concat (map wire (map msg_of reqs)) -> quiet o tr s b -> ended b = List.length reqs /\ rest = []).
Proof. exact asgi_exchange. Qed.
Print Assumptions c78_exchange_partial.

(** ** Example *)
(** It answers with the path and the body; with Content-Length if there is a body, otherwise in two parts and without. *)
Definition an_app : asite :=
  mkASite (fun sc x => match x with
                       | [] => mkReply 404 [(bs "X-A", bs "1")] [bs "no body "] (sc_raw_path sc)
                       | _ => mkReply 200 [(bs "Content-Length", fmt_d (blen (sc_raw_path sc ++ x))); (bs "X-A", bs "2")] [] (sc_raw_path sc ++ x)
                       end)
    (fun z => if (z =? 200)%Z then Some (bs "OK") else if (z =? 404)%Z then Some (bs "Not Found") else None) (bs "oops") true [] 16384 (bs "Tremolo") ex_peer false.
Definition asgi_calls : list S_Site.call :=
  [mkCall (bs "GET") (bs "/a") [(bs "Host", bs "a")] None;
   mkCall (bs "POST") (bs "/b?q") [(bs "Host", bs "a"); (bs "X-Name", bs "me")] (Some (bs "some text"));
   mkCall (bs "PUT") (bs "/c") [(bs "Host", bs "a")] (Some (bs "more"))].
Definition asgi_ch (i : nat) : option bool := match i with 0 | 1 => None | _ => Some false end.
Definition asgi_did (y : asite) (ch : nat -> option bool) (i : nat) (c : S_Site.call) (x : bytes) : aserver :=
  match frame_head (m_head (msg_of c)) (blen (m_head (msg_of c)) - 2) with Framed r => asgi_serve (bs "now") y (m_head (msg_of c)) r x (ch i) | _ => mkA (new_rsp true) None true end.
Definition asgi_acts (y : asite) (ch : nat -> option bool) (i : nat) (c : S_Site.call) (x : bytes) : list cev :=
  flat_map (fun d => match d with Some d => [HPut i d; RunSend false] | None => [HClose i (r_keep (a_rsp (asgi_did y ch i c x))); RunSend false] end) (r_out (a_rsp (asgi_did y ch i c x))).
Definition asgi_run : list cev :=
  let c i := nth i asgi_calls (mkCall [] [] [] None) in
  [Data (firstn 9 (wire (msg_of (c 0)))); Data (skipn 9 (wire (msg_of (c 0)))); RunHR 0; HRead 0; HTake 0] ++ asgi_acts an_app asgi_ch 0 (c 0) [] ++
  [Data (wire (msg_of (c 1))); RunHR 1; RunHR 1; HRead 1; HTake 1; HTake 1] ++ asgi_acts an_app asgi_ch 1 (c 1) (body_of (c 1)) ++
  [Data (wire (msg_of (c 2))); RunHR 2; RunHR 2; HRead 2; HTake 2; HTake 2] ++ asgi_acts an_app asgi_ch 2 (c 2) (body_of (c 2)).

Example c78_app : app_ok an_app.
Proof.
  split; [discriminate|]. split; [apply memb_notIn; reflexivity|]. intros sc x. cbn [y_app an_app y_phrase]. cbv zeta.
  assert (~ bodyless [] 404 /\ ~ bodyless [] 200) as [B1 B2] by (split; intros [H|H]; [discriminate|lia|discriminate|lia]).
  destruct x as [|c x]; cbn [y_status y_headers].
  - split; [exists (bs "Not Found"); split; [reflexivity|apply memb_notIn; reflexivity]|]. split; [exact B1|]. split; [|split].
    + constructor; [split; [apply memb_notIn; reflexivity|vm_compute; discriminate]|constructor].
    + constructor; [split; apply memb_notIn; reflexivity|constructor].
    + intros h [<-|[]]. vm_compute. discriminate.
  - split; [exists (bs "OK"); split; [reflexivity|apply memb_notIn; reflexivity]|]. split; [exact B2|]. split; [|split].
    + repeat (constructor; [split; [apply memb_notIn; reflexivity|vm_compute; discriminate]|]). constructor.
    + constructor; [|constructor; [split; apply memb_notIn; reflexivity|constructor]]. split; [apply memb_notIn; reflexivity|]. cbn [snd]. apply digits_line.
    + unfold data_of. cbn [y_more y_last app List.concat]. rewrite app_nil_r. intros h [<-|[<-|[]]] E; [reflexivity|]. revert E. vm_compute. discriminate.
Qed.
Lemma framing_b n : existsb (beqb n) framing_names = false -> ~ In n framing_names.
Proof. intros E I. assert (existsb (beqb n) framing_names = true); [|congruence]. apply existsb_exists. exists n. split; [exact I|apply beqb_refl]. Qed.
Lemma written_plain p : forallb (fun c => negb (Ascii.eqb c "%"%char)) p = true -> path_written p p.
Proof.
  intros H. exists (map (fun c => [c]) p). split; [|induction p as [|c p IH]; [reflexivity|cbn [forallb] in H; apply andb_prop in H as [_ H]; cbn [map List.concat app]; f_equal; now apply IH]].
  induction p as [|c p IH]; [constructor|]. cbn [forallb] in H. apply andb_prop in H as [H1 H2]. constructor; [left; split; [reflexivity|]; intros ->; discriminate|now apply IH].
Qed.
Example c78_calls : Forall (good_call conn_opts) asgi_calls /\ Forall (fun c => exists sc, told an_app c sc) asgi_calls.
Proof.
  split.
  - repeat apply Forall_cons; [..|apply Forall_nil]; (split; [apply fits_ok; vm_compute; reflexivity|]; split; [vm_compute; discriminate|];
      split; [repeat (constructor; [apply framing_b; vm_compute; reflexivity|]); constructor|]; split; [vm_compute; discriminate|]; split; [|split; vm_compute; discriminate]).
    + exists (bs "a"). split; [apply bare_b; reflexivity|]. exists 0, 0, []. split; [reflexivity|]. now left.
    + exists (bs "b"). split; [apply bare_b; reflexivity|]. exists 0, 0, (bs "?q"). split; [reflexivity|]. right. now eexists.
    + exists (bs "c"). split; [apply bare_b; reflexivity|]. exists 0, 0, []. split; [reflexivity|]. now left.
  - assert (forall c path query, target (k_url c) path query -> forallb (fun c => negb (Ascii.eqb c "%"%char)) path = true -> absent (bs "x-forwarded-proto") (sent_fields c) -> exists sc, told an_app c sc) as K.
    { intros c path query T P A. eexists. exists path, query, path, (bs "http"), (Some (APair (latin (bs "10.0.0.9")) 4000)). split; [exact T|]. split; [now apply written_plain|]. split; [right; split; [now left|reflexivity]|]. split; reflexivity. }
    repeat apply Forall_cons; [..|apply Forall_nil].
    + apply (K _ (bs "/a") []); [split; [apply memb_notIn; reflexivity|right; now split]|reflexivity|reflexivity].
    + apply (K _ (bs "/b") (bs "q")); [split; [apply memb_notIn; reflexivity|left; reflexivity]|reflexivity|reflexivity].
    + apply (K _ (bs "/c") []); [split; [apply memb_notIn; reflexivity|right; now split]|reflexivity|reflexivity].
Qed.
(** A run whose handlers did what [asgi_did] says. *)
Lemma performs_b y ch l tr s b : ch 0 = None -> conn_run conn_opts conn_new tr = Some (s, b) -> closers tr = List.seq 0 (List.length l) ->
  starts b = combine (List.seq 0 (List.length l)) (map m_head (map msg_of l)) ->
  (forall i c, nth_error l i = Some c -> did i tr = r_out (a_rsp (asgi_did y ch i c (got i b))) /\ forallb (fun e => match e with HClose j k => negb (i =? j)%nat || Bool.eqb k (r_keep (a_rsp (asgi_did y ch i c (got i b)))) | _ => true end) tr = true /\
     ch (S i) = a_chunked (asgi_did y ch i c (got i b))) ->
  performs_asgi y (fun _ => bs "now") ch tr b.
Proof.
  intros C0 R Ec Es H. split; [exact C0|]. intros i h r Hi Hcl Fr. rewrite Ec in Hcl. apply in_seq in Hcl as [_ L]. cbn [Nat.add] in L.
  destruct (nth_error l i) as [c|] eqn:Ei; [|apply nth_error_None in Ei; lia]. destruct (H i c Ei) as (D & K & C).
  assert (h = m_head (msg_of c)) as ->.
  { assert (In (i, h) (starts b)) as J by (apply in_flat_map; exists (Started i h); split; [exact Hi|now left]). rewrite Es in J.
    apply (In_nth _ _ (0, [])) in J as (k & Lk & J). rewrite combine_length, seq_length, !map_length, Nat.min_id in Lk. rewrite combine_nth in J by (rewrite seq_length, !map_length; reflexivity). rewrite seq_nth in J by exact Lk. cbn [Nat.add] in J.
    apply pair_equal_spec in J as [-> <-]. rewrite map_map. apply nth_error_nth. rewrite nth_error_map, Ei. reflexivity. }
  unfold asgi_did in D, K, C. rewrite Fr in D, K, C. cbv zeta. split; [exact D|]. split; [|exact C]. intros keep Hk. rewrite forallb_forall in K. specialize (K _ Hk). cbn beta iota in K. rewrite Nat.eqb_refl in K. now apply Bool.eqb_prop in K.
Qed.
Lemma quiet_b n tr s b : c_hrs s = repeat HOver n -> c_rcv s = [] -> c_q1 s = [] -> closers tr = List.seq 0 n -> (forall i h, In (Started i h) b -> i < n) -> quiet conn_opts tr s b.
Proof.
  intros F2 F3 F4 Ec St. split; [|split; [|split]].
  - intros j. unfold conn_step. rewrite F2. destruct (c_lost s); [reflexivity|]. destruct (nth_error (repeat HOver n) j) as [x|] eqn:E; [|reflexivity]. apply nth_error_In, repeat_spec in E. now subst x.
  - intros j. unfold conn_step. rewrite F3. destruct (c_lost s); [reflexivity|]. now destruct j.
  - intros kicked. unfold conn_step, run_send. rewrite F4. destruct (c_lost s); [reflexivity|]. now destruct (c_sending s).
  - intros i h Hi. apply St in Hi. rewrite Ec. apply in_seq. lia.
Qed.
(** All that can be computed about a run of [l]. *)
Definition tally (l : list S_Site.call) (tr : list cev) : bool :=
  match conn_run conn_opts conn_new tr with
  | Some (s, b) =>
      negb (c_closing s) && (List.length (c_hrs s) =? List.length l)%nat && forallb (fun x => match x with HOver => true | _ => false end) (c_hrs s) &&
      match c_rcv s, c_q1 s with [], [] => true | _, _ => false end && (ended b =? List.length l)%nat
  | None => false
  end.
Lemma started_lt l b i h : starts b = combine (List.seq 0 (List.length l)) (map m_head (map msg_of l)) -> In (Started i h) b -> i < List.length l.
Proof.
  intros Es Hi. assert (In (i, h) (starts b)) as J by (apply in_flat_map; exists (Started i h); split; [exact Hi|now left]). rewrite Es in J. apply in_combine_l, in_seq in J. lia.
Qed.
Lemma over_repeat (l : list hrt) n : forallb (fun x => match x with HOver => true | _ => false end) l = true -> List.length l = n -> l = repeat HOver n.
Proof.
  revert n. induction l as [|x l IH]; intros n H <-; [reflexivity|]. cbn [forallb] in H. apply andb_prop in H as [H1 H2]. destruct x; try discriminate. cbn [List.length repeat]. f_equal. now apply IH.
Qed.
Lemma tally_ok l tr : tally l tr = true -> closers tr = List.seq 0 (List.length l) ->
  exists s b, conn_run conn_opts conn_new tr = Some (s, b) /\ c_closing s = false /\ ended b = List.length l /\
    (starts b = combine (List.seq 0 (List.length l)) (map m_head (map msg_of l)) -> quiet conn_opts tr s b).
Proof.
  unfold tally. destruct (conn_run conn_opts conn_new tr) as [[s b]|]; [|discriminate]. intros H Ec. exists s, b. apply andb_prop in H as [H H5]. apply andb_prop in H as [H H4]. apply andb_prop in H as [H H3]. apply andb_prop in H as [H1 H2].
  apply Nat.eqb_eq in H2, H5. apply negb_true_iff in H1. split; [reflexivity|]. split; [exact H1|]. split; [exact H5|]. intros Es.
  destruct (c_rcv s) eqn:E3; [|discriminate]. destruct (c_q1 s) eqn:E4; [|discriminate]. apply (quiet_b (List.length l)); try assumption; [now apply over_repeat|]. intros i h. now apply started_lt.
Qed.

Example c78_example : exists s b, conn_run conn_opts conn_new asgi_run = Some (s, b) /\ c_closing s = false /\ opts_ok conn_opts /\
  client_waits conn_opts (map msg_of asgi_calls) asgi_run /\ handlers_ok conn_opts (map msg_of asgi_calls) asgi_run /\ performs_asgi an_app (fun _ => bs "now") asgi_ch asgi_run b /\
  input asgi_run = List.concat (map wire (map msg_of asgi_calls)) /\ quiet conn_opts asgi_run s b /\ ended b = 3 /\
  match read_answers 3 (written b) with
  | Some (l, rest) => rest = [] /\ map (fun x => (r_line x, r_data x)) l =
      [(bs "HTTP/1.1 404 Not Found", bs "no body /a"); (bs "HTTP/1.1 200 OK", bs "/bsome text"); (bs "HTTP/1.1 200 OK", bs "/cmore")] /\ Forall (fun x => In (bs "X-A: 1") (r_lines x) \/ In (bs "X-A: 2") (r_lines x)) l
  | None => False
  end.
Proof.
  destruct (tally_ok asgi_calls asgi_run) as (s & b & E & Cl & En & Q); [vm_compute; reflexivity|vm_compute; reflexivity|]. exists s, b.
  assert (all_waits conn_opts (map msg_of asgi_calls) asgi_run = true) as A by (vm_compute; reflexivity). apply andb_prop in A as [A A3]. apply andb_prop in A as [A1 A2].
  assert (match conn_run conn_opts conn_new asgi_run with
    | Some (s, b) => starts b = combine [0; 1; 2] (map m_head (map msg_of asgi_calls)) /\ map (fun i => got i b) [0; 1; 2] = map body_of asgi_calls /\
        match read_answers 3 (written b) with
        | Some (l, rest) => rest = [] /\ map (fun x => (r_line x, r_data x)) l = [(bs "HTTP/1.1 404 Not Found", bs "no body /a"); (bs "HTTP/1.1 200 OK", bs "/bsome text"); (bs "HTTP/1.1 200 OK", bs "/cmore")] /\
            forallb (fun x => existsb (beqb (bs "X-A: 1")) (r_lines x) || existsb (beqb (bs "X-A: 2")) (r_lines x)) l = true
        | None => False
        end
    | None => False end) as F by (vm_compute; repeat split; reflexivity).
  rewrite E in F. destruct F as (Es & Eg & F). specialize (Q Es).
  split; [exact E|]. split; [exact Cl|]. split; [split; apply Nat.ltb_lt; reflexivity|]. split; [now apply waits_b_ok|]. split; [now apply handlers_b_ok|].
  split; [|split; [vm_compute; reflexivity|split; [exact Q|split; [exact En|]]]].
  - apply (performs_b an_app asgi_ch asgi_calls asgi_run s b eq_refl E); [vm_compute; reflexivity|exact Es|]. cbn [map] in Eg. injection Eg as G0 G1 G2.
    intros [|[|[|i]]] c Ei; [..|destruct i; discriminate Ei]; injection Ei as <-; rewrite ?G0, ?G1, ?G2; (split; [vm_compute; reflexivity|]; split; vm_compute; reflexivity).
  - destruct (read_answers 3 (written b)) as [[l rest]|]; [|contradiction]. destruct F as (F1 & F2 & F3). split; [exact F1|]. split; [exact F2|]. apply Forall_forall. intros x Hx. apply (proj1 (forallb_forall _ _) F3) in Hx.
    apply orb_prop in Hx as [Hx|Hx]; apply existsb_exists in Hx as (l0 & I0 & B0); apply beqb_eq in B0; subst l0; tauto.
Qed.

(** ** An application that stops reading when more_body is false *)
Definition reads_b (o : copts) (M : list msg) (tr : list cev) : bool :=
  nodup_b (closers tr) &&
  forallb id (at_each tr (fun pre e _ => match e, conn_run o conn_new pre with
    | HClose i _, Some (_, b) => match nth_error M i with Some m => negb (m_has m) || beqb (got i b) (m_body m) || existsb (fun x => match x with Got j None => (i =? j)%nat | _ => false end) b | None => true end | _, _ => true end)) &&
  forallb id (at_each tr (fun pre e _ => match e with HTake i => match nth_error M i with Some m => m_has m | None => true end | HUpgrade _ | HContinue _ => false | _ => true end)).
Lemma reads_b_ok o M tr : reads_b o M tr = true -> reads_asgi o M tr.
Proof.
  intros H. apply andb_prop in H as [H H3]. apply andb_prop in H as [H1 H2].
  assert (forall pre e post, tr = pre ++ e :: post -> match e with HTake i => match nth_error M i with Some m => m_has m | None => true end | HUpgrade _ | HContinue _ => false | _ => true end = true) as K.
  { intros pre e post E. apply (at_each_in tr (fun pre e _ => match e with HTake i => match nth_error M i with Some m => m_has m | None => true end | HUpgrade _ | HContinue _ => false | _ => true end)) in E. exact (proj1 (forallb_forall _ _) H3 _ E). }
  split; [now apply nodup_b_ok|]. split; [|split; [|split]].
  - intros pre i keep post s b m E R Em Cm. apply (at_each_in tr (fun pre e _ => match e, conn_run o conn_new pre with
      | HClose i _, Some (_, b) => match nth_error M i with Some m => negb (m_has m) || beqb (got i b) (m_body m) || existsb (fun x => match x with Got j None => (i =? j)%nat | _ => false end) b | None => true end | _, _ => true end)) in E.
    apply (proj1 (forallb_forall _ _) H2) in E. unfold id in E. rewrite R, Em, Cm in E. cbn [negb orb] in E. apply orb_prop in E as [E|E]; [left; now apply beqb_eq|right].
    apply existsb_exists in E as (x & Hx & E). destruct x as [| j [|] | | |]; try discriminate. apply Nat.eqb_eq in E. now subst j.
  - intros pre i post s b m E R Em. left. specialize (K pre (HTake i) post E). cbn beta iota in K. now rewrite Em in K.
  - intros i Hi. apply in_split in Hi as (pre & post & E). discriminate (K _ _ _ E).
  - intros i Hi. apply in_split in Hi as (pre & post & E). discriminate (K _ _ _ E).
Qed.
Definition posts : list S_Site.call := [nth 1 asgi_calls (mkCall [] [] [] None); nth 2 asgi_calls (mkCall [] [] [] None)].
(** Each body comes in one piece; the application takes one piece, which is all of the first body. *)
Definition posts_ch (i : nat) : option bool := match i with 0 => None | _ => Some false end.
Definition posts_app : asite :=
  mkASite (fun sc x => mkReply 200 [(bs "Content-Length", fmt_d (blen x))] [] x)
    (fun z => if (z =? 200)%Z then Some (bs "OK") else None) (bs "oops") true [] 16384 (bs "Tremolo") ex_peer false.
Definition posts_run : list cev :=
  let c i := nth i posts (mkCall [] [] [] None) in
  [Data (wire (msg_of (c 0))); RunHR 0; RunHR 0; HRead 0; HTake 0] ++ asgi_acts posts_app posts_ch 0 (c 0) (body_of (c 0)) ++
  [Data (wire (msg_of (c 1))); RunHR 1; RunHR 1; HRead 1; HTake 1] ++ asgi_acts posts_app posts_ch 1 (c 1) [].

Lemma took_end b : existsb (fun x => match x with Got 1 None => true | _ => false end) b = true -> In (Got 1 None) b.
Proof. intros H. apply existsb_exists in H as (x & Hx & X). destruct x as [|[|[|j]] [?|]| | |]; try discriminate X. exact Hx. Qed.
Example c78_posts_app : app_ok posts_app.
Proof.
  split; [discriminate|]. split; [apply memb_notIn; reflexivity|]. intros sc x. cbn [y_app posts_app y_phrase y_status y_headers]. cbv zeta.
  split; [exists (bs "OK"); split; [reflexivity|apply memb_notIn; reflexivity]|]. split; [intros [H|H]; [discriminate|lia]|]. split; [|split].
  - constructor; [split; [apply memb_notIn; reflexivity|vm_compute; discriminate]|constructor].
  - constructor; [|constructor]. split; [apply memb_notIn; reflexivity|]. cbn [snd]. apply digits_line.
  - unfold data_of. cbn [y_more y_last app List.concat]. rewrite app_nil_r. intros h [<-|[]] _. reflexivity.
Qed.
(** The end of a body is a mark in the queue. It stays there, and the next application takes it for the end of its own body: it gets http.disconnect
    and nothing of the body, and answers as if there were none. The client waits for each response, the connection stays open, all was read that was offered. *)
Theorem c78_leftover_refuted : exists o y reqs date ch tr s b,
  opts_ok o /\ app_ok y /\ Forall (good_call o) reqs /\ Forall (fun c => exists sc, told y c sc) reqs /\ (forall i : nat, one_line (date i)) /\
  conn_run o conn_new tr = Some (s, b) /\ c_closing s = false /\ client_waits o (map msg_of reqs) tr /\ reads_asgi o (map msg_of reqs) tr /\ performs_asgi y date ch tr b /\
  input tr = List.concat (map wire (map msg_of reqs)) /\ quiet o tr s b /\ map body_of reqs = [bs "some text"; bs "more"] /\ got 1 b = [] /\ In (Got 1 None) b /\
  exists answers, read_answers 2 (written b) = Some (answers, []) /\ ~ Forall2 (right_reply y) reqs answers.
Proof.
  destruct (tally_ok posts posts_run) as (s & b & E & Cl & En & Q); [vm_compute; reflexivity|vm_compute; reflexivity|].
  exists conn_opts, posts_app, posts, (fun _ => bs "now"), posts_ch, posts_run, s, b.
  assert (waits_b conn_opts (map msg_of posts) posts_run = true) as A by (vm_compute; reflexivity).
  assert (match conn_run conn_opts conn_new posts_run with
    | Some (s, b) => starts b = combine [0; 1] (map m_head (map msg_of posts)) /\ map (fun i => got i b) [0; 1] = [bs "some text"; []] /\ existsb (fun x => match x with Got 1 None => true | _ => false end) b = true /\
        match read_answers 2 (written b) with Some ([x1; x2], []) => r_data x2 = [] | _ => False end
    | None => False end) as F by (vm_compute; repeat split; reflexivity).
  rewrite E in F. destruct F as (Es & Eg & Ei & F). specialize (Q Es). cbn [map] in Eg. injection Eg as G0 G1. destruct c78_calls as [C1 C2].
  assert (Forall (fun c => exists sc, told posts_app c sc) posts) as T.
  { inversion_clear C2 as [|? ? _ C3]. exact C3. }
  split; [split; apply Nat.ltb_lt; reflexivity|]. split; [exact c78_posts_app|]. split; [inversion_clear C1 as [|? ? _ C3]; exact C3|]. split; [exact T|]. split; [intros _; apply memb_notIn; reflexivity|].
  split; [exact E|]. split; [exact Cl|]. split; [now apply waits_b_ok|]. split; [apply reads_b_ok; vm_compute; reflexivity|].
  split. { apply (performs_b posts_app posts_ch posts posts_run s b eq_refl E); [vm_compute; reflexivity|exact Es|].
    intros [|[|i]] c Ec; [..|destruct i; discriminate Ec]; injection Ec as <-; rewrite ?G0, ?G1; (split; [vm_compute; reflexivity|]; split; vm_compute; reflexivity). }
  split; [vm_compute; reflexivity|]. split; [exact Q|]. split; [vm_compute; reflexivity|]. split; [exact G1|].
  split; [now apply took_end|].
  destruct (read_answers 2 (written b)) as [[[|x1 [|x2 [|]]] [|]]|]; try contradiction. exists [x1; x2]. split; [reflexivity|]. intros R.
  inversion_clear R as [|? ? ? ? _ R2]. inversion_clear R2 as [|? ? ? ? R3 _].
  inversion_clear T as [|? ? _ T2]. inversion_clear T2 as [|? ? (sc & T3) _]. destruct (R3 sc T3) as (_ & D & _). rewrite F in D. discriminate D.
Qed.
Print Assumptions c78_leftover_refuted.
