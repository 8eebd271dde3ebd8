(** C63: what handlers and ASGI applications are told about a request. *)
From Verif Require Import PyBytes PyExn PyUtf8 M_Parser M_Framing M_Scope S_Head S_Form S_Scope P_Scope.

(** C63, the request line and the host. For every head within the limits, whatever its fields are called and whatever follows it: a request object is made,
    its method is the one of the line in upper case, path and query string are the target before and after its first question mark; the version is 1.0 or
    1.1; the host is the first X-Forwarded-Host, otherwise the first Host. It is valid unless it is HTTP/1.1 without Host. *)
Theorem c63_request : forall method url version fields body path query,
  head_fits method url version fields -> target url path query ->
  exists r, request_init (heard method url version fields body) = Ok r /\
    rq_method r = upper method /\ rq_url r = url /\ rq_path r = path /\ rq_query_string r = query /\
    rq_version r = (if beqb version (bs "1.0") then bs "1.0" else bs "1.1") /\
    (rq_is_valid r = true <-> has_host version fields) /\
    (forall v vs, S_Head.values (bs "x-forwarded-host") fields ++ S_Head.values (bs "host") fields = v :: vs -> rq_host r = Some (One (AB v))).
Proof.
  intros method url version fields body path query F T.
  destruct (init_facts method url version fields body F) as (r & R & _ & V & Ho & M & U & PQ & Ve). exists r. split; [exact R|].
  destruct (partition_target url path query T) as (q & E). rewrite E in PQ. injection PQ as P Q. split; [exact M|]. split; [exact U|]. split; [exact P|]. split; [exact Q|].
  split; [exact Ve|]. split.
  - destruct (heard_facts method url version fields body F) as (_ & _ & _ & _ & _ & Y). rewrite V. unfold has_host. destruct (is_valid_request _); split; try easy.
    + intros _ V1 N. destruct Y as (_ & Y). now discriminate Y.
    + intros X. destruct Y as (Y & _). destruct (Y eq_refl) as (Y1 & Y2). now destruct (X Y1).
  - intros v vs X. rewrite Ho. exact (host_facts method url version fields body F v vs X).
Qed.
Print Assumptions c63_request.

(** C63, request.ip behind a proxy: the first element of the first X-Forwarded-For, whoever the peer is. Partial: the element must not be empty nor be
    separated from the comma by spaces (see the refutation). *)
Theorem c63_ip_forwarded_partial : forall method url version fields body r peer tls sock v vs a,
  head_fits method url version fields -> request_init (heard method url version fields body) = Ok r ->
  S_Head.values (bs "x-forwarded-for") fields = v :: vs -> first_element v a ->
  fst (read_ip (mkWorld peer tls sock (rq_headers r)) memo0) = Ok a.
Proof.
  intros method url version fields body r peer tls sock v vs a F R E A. apply (ip_forwarded _ _ v); [reflexivity| |exact A].
  cbn [w_headers]. rewrite (forwarded_for_values method url version fields body r F R). now rewrite E.
Qed.
Print Assumptions c63_ip_forwarded_partial.

(** C63, request.ip without a proxy: if X-Forwarded-For is absent or blank it is the address of the peer. *)
Theorem c63_ip_direct : forall method url version fields body r host port tls sock b,
  head_fits method url version fields -> request_init (heard method url version fields body) = Ok r ->
  (forall v vs, S_Head.values (bs "x-forwarded-for") fields = v :: vs -> all_space v) -> utf8_encode host = Some b ->
  fst (read_ip (mkWorld (PeerTuple host port) tls sock (rq_headers r)) memo0) = Ok b.
Proof.
  intros method url version fields body r host port tls sock b F R A U.
  apply (ip_direct _ (hd [] (S_Head.values (bs "x-forwarded-for") fields)) host port); [|destruct (S_Head.values _ fields) as [|v vs]; [constructor|exact (A v vs eq_refl)]|reflexivity|exact U].
  cbn [w_headers]. exact (forwarded_for_values method url version fields body r F R).
Qed.
Print Assumptions c63_ip_direct.

Definition ex_host : field := (bs "Host", bs "a.b").
Definition ex_peer : peername := PeerTuple (latin (bs "10.0.0.9")) 4000.
Definition fits (method url version : bytes) (fields : list field) : bool :=
  negb (memb SP method) && negb (memb LF (method ++ url ++ version)) && negb (contains (bs "HTTP/") version) &&
  forallb (fun f => negb (beqb (fst f) []) && negb (memb ":" (fst f)) && negb (memb CR (fst f)) && negb (memb LF (fst f)) && negb (Ascii.eqb (last (fst f) LF) SP) &&
    negb (memb LF (snd f)) && negb (existsb (beqb (lower (fst f))) reserved)) fields &&
  (S (List.length fields) <=? 100) && forallb (fun l => blen l <=? 8190)%Z (request_line method url version :: map field_bytes fields).
Lemma not_memb c l : negb (memb c l) = true -> ~ In c l.
Proof. intros N I. apply negb_true_iff in N. assert (memb c l = true); [|congruence]. apply existsb_exists. exists c. split; [exact I|apply Ascii.eqb_refl]. Qed.
Lemma fits_ok method url version fields : fits method url version fields = true -> head_fits method url version fields.
Proof.
  unfold fits. rewrite !andb_true_iff. intros (((((A & B) & C) & D) & E) & G). split; [now apply not_memb|]. split; [now apply not_memb|].
  split; [now apply negb_true_iff|]. rewrite forallb_forall in D.
  assert (forall f, In f fields -> good_field f /\ ~ In (lower (fst f)) reserved) as K.
  { intros f I. specialize (D f I). rewrite !andb_true_iff in D. destruct D as ((((((D1 & D2) & D3) & D4) & D5) & D6) & D7). split.
    - split; [|now apply not_memb]. split; [intros Z; rewrite Z in D1; discriminate|]. split; [now apply not_memb|]. split; [now apply not_memb|]. split; [now apply not_memb|].
      apply negb_true_iff in D5. now apply Ascii.eqb_neq.
    - intros J. apply negb_true_iff in D7. assert (existsb (beqb (lower (fst f))) reserved = true); [|congruence]. apply existsb_exists. exists (lower (fst f)). split; [exact J|apply PyBytesFacts.beqb_refl]. }
  split; [now apply Forall_forall; intros f I; apply K|]. split; [now apply Forall_forall; intros f I; apply K|]. split; [now apply Nat.leb_le|].
  apply Forall_forall. intros l I. rewrite forallb_forall in G. specialize (G l I). now apply Z.leb_le.
Qed.

(** The full claim about request.ip fails: an empty first element makes it empty, and the space before a comma is kept. *)
Theorem c63_ip_refuted :
  (exists fields r, head_fits (bs "GET") (bs "/") (bs "1.1") fields /\ request_init (heard (bs "GET") (bs "/") (bs "1.1") fields []) = Ok r /\
     S_Head.values (bs "x-forwarded-for") fields = [bs ", 1.2.3.4"] /\ fst (read_ip (mkWorld ex_peer false true (rq_headers r)) memo0) = Ok []) /\
  (exists fields r, head_fits (bs "GET") (bs "/") (bs "1.1") fields /\ request_init (heard (bs "GET") (bs "/") (bs "1.1") fields []) = Ok r /\
     S_Head.values (bs "x-forwarded-for") fields = [bs "1.2.3.4 , 5.6.7.8"] /\ fst (read_ip (mkWorld ex_peer false true (rq_headers r)) memo0) = Ok (bs "1.2.3.4 ")).
Proof.
  split.
  - exists [ex_host; (bs "X-Forwarded-For", bs ", 1.2.3.4")]. eexists. split; [apply fits_ok; reflexivity|]. split; [vm_compute; reflexivity|]. split; reflexivity.
  - exists [ex_host; (bs "X-Forwarded-For", bs "1.2.3.4 , 5.6.7.8")]. eexists. split; [apply fits_ok; reflexivity|]. split; [vm_compute; reflexivity|]. split; reflexivity.
Qed.
Print Assumptions c63_ip_refuted.

(** C63, request.scheme: what X-Forwarded-Proto says, if it is there once and not blank; otherwise https if the connection has TLS and http if it has not. *)
Theorem c63_scheme_partial : forall method url version fields body r peer tls sock s,
  head_fits method url version fields -> request_init (heard method url version fields body) = Ok r -> scheme_is tls fields s ->
  fst (read_scheme (mkWorld peer tls sock (rq_headers r)) memo0) = Ok s.
Proof.
  intros method url version fields body r peer tls sock s F R S.
  destruct (scheme_ok (mkWorld peer tls sock (rq_headers r)) fields s memo0) as (m & E); [|exact S|reflexivity|reflexivity|now rewrite E].
  apply (proto_values method url version fields body r F R); [cbn; intuition discriminate|discriminate].
Qed.
Print Assumptions c63_scheme_partial.

(** Sent twice, X-Forwarded-Proto makes reading the scheme raise, whatever it says; then an ASGI application is not called. *)
Theorem c63_scheme_refuted : forall method url version fields body r v1 v2 vs peer tls sock,
  head_fits method url version fields -> request_init (heard method url version fields body) = Ok r ->
  S_Head.values (bs "x-forwarded-proto") fields = v1 :: v2 :: vs ->
  fst (read_scheme (mkWorld peer tls sock (rq_headers r)) memo0) = Raise AttributeError /\
  forall ws root, rq_is_valid r = true -> exists x, fst (asgi_called ws root (heard method url version fields body) r (mkWorld peer tls sock (rq_headers r)) memo0) = Raise x.
Proof.
  intros method url version fields body r v1 v2 vs peer tls sock F R E.
  assert (hget (bs "x-forwarded-proto") (rq_headers r) = Some (Many (map AB (v1 :: v2 :: vs)))) as D.
  { rewrite (proto_values method url version fields body r F R); [now rewrite E|cbn; intuition discriminate|discriminate]. }
  assert (forall m, m_scheme m = None -> read_scheme (mkWorld peer tls sock (rq_headers r)) m = (Raise AttributeError, m)) as K.
  { intros m M. unfold read_scheme. rewrite M. cbn [w_headers]. now rewrite D. }
  split; [now rewrite (K memo0 eq_refl)|]. intros ws root V. unfold asgi_called. rewrite V. unfold asgi_scope.
  assert (m_scheme (snd (read_client (mkWorld peer tls sock (rq_headers r)) memo0)) = None) as N by (unfold read_client; cbn [m_client memo0 w_peer]; destruct peer as [? ?|[|? ?]| |]; reflexivity).
  destruct (read_client _ memo0) as [[c|x] m1]; [|now exists x]. cbn [snd] in N. cbn [w_sock]. destruct sock; [|now exists OSError]. cbn [negb w_headers].
  destruct (M_Handshake.ws_offered ws (rq_headers r)) as [[]|x]; [| |now exists x]; rewrite (K m1 N); now eexists.
Qed.
Print Assumptions c63_scheme_refuted.

(** C63, reads are stable: once ip (not empty), scheme or client (not None) was read, it stays what it was: whatever else is read in between, and whatever
    happens to the headers, the peer and the connection. *)
Theorem c63_stable : forall w m l w',
  (forall v m1, read_ip w m = (Ok v, m1) -> v <> [] -> fst (read_ip w' (do_reads l m1)) = Ok v) /\
  (forall v m1, read_scheme w m = (Ok v, m1) -> fst (read_scheme w' (do_reads l m1)) = Ok v) /\
  (forall a m1, read_client w m = (Ok (Some a), m1) -> fst (read_client w' (do_reads l m1)) = Ok (Some a)).
Proof.
  intros w m l w'. split; [|split].
  - intros v m1 R N. exact (ip_stable w m v m1 R N l w').
  - intros v m1 R. exact (scheme_stable w m v m1 R l w').
  - intros a m1 R. exact (client_stable w m a m1 R l w').
Qed.
Print Assumptions c63_stable.

(** C63, lists: getlist() of a field sent in any number of lines gives the elements of all of them in order. Partial: a line may have at most 101 elements,
    separated by a comma and at most one space (see the refutation). *)
Theorem c63_list_partial : forall method url version fields body r name elss,
  head_fits method url version fields -> request_init (heard method url version fields body) = Ok r ->
  ~ In name reserved -> name <> bs "host" ->
  Forall2 (fun els v => listed els v /\ Forall element els /\ List.length els <= 101) elss (S_Head.values name fields) ->
  getlist (rq_headers r) name = Ok (concat elss).
Proof.
  intros method url version fields body r name elss F R N O G. apply (getlist_listed _ _ elss (S_Head.values name fields)); [|exact G].
  exact (proto_values method url version fields body r F R name N O).
Qed.
Print Assumptions c63_list_partial.

(** The elements after the hundredth comma stay together; spaces before commas stay. *)
Theorem c63_list_refuted :
  (exists d els v, listed els v /\ Forall element els /\ hget (bs "x") d = Some (One (AB v)) /\ getlist d (bs "x") <> Ok els) /\
  getlist [(bs "x", One (AB (bs "a , b")))] (bs "x") = Ok [bs "a "; bs "b"].
Proof.
  split; [|reflexivity]. set (els := repeat (bs "a") 102). exists [(bs "x", One (AB (join (bs ",") els)))], els, (join (bs ",") els).
  split.
  - unfold els. generalize 101. intros n. induction n as [|n IH]; [reflexivity|]. change (repeat (bs "a") (S (S n))) with (bs "a" :: repeat (bs "a") (S n)).
    exists (join (bs ",") (repeat (bs "a") (S n))). split; [exact IH|]. left. reflexivity.
  - split; [|split; [reflexivity|]].
    + apply Forall_forall. intros a I. apply repeat_spec in I. subst a. split; [vm_compute; intuition discriminate|discriminate].
    + intros E. assert (match getlist [(bs "x", One (AB (join (bs ",") els)))] (bs "x") with Ok l => List.length l | _ => 0 end = 102) as K by (rewrite E; reflexivity).
      vm_compute in K. discriminate.
Qed.
Print Assumptions c63_list_refuted.

(** C63, scopes of ASGI applications: HTTP. When the request is not an offer of a WebSocket the application is called with type http and this scope: the
    version and the method of the line, the scheme, the path as written and percent-decoded, the query string, the root path, all fields but Proxy in order
    with their names in lower case, and the client. Partial: the path is decoded as Latin-1, not as UTF-8; see the refutation. *)
Theorem c63_scope_http_partial : forall method url version fields body r path query b s tls peer a root ws,
  head_fits method url version fields -> has_host version fields -> request_init (heard method url version fields body) = Ok r ->
  target url path query -> path_written b path -> scheme_is tls fields s -> client_of peer = Some a ->
  (ws = false \/ absent (bs "upgrade") fields \/ absent (bs "connection") fields \/ absent (bs "sec-websocket-key") fields \/
   exists v, single (bs "upgrade") fields v /\ lower v <> bs "websocket") ->
  exists sc, fst (asgi_called ws root (heard method url version fields body) r (mkWorld peer tls true (rq_headers r)) memo0) = Ok (Some sc) /\
    sc_websocket sc = false /\ sc_version sc = latin (if beqb version (bs "1.0") then bs "1.0" else bs "1.1") /\
    sc_method sc = Some (latin (upper method)) /\ sc_scheme sc = latin s /\ sc_path sc = map N_of_ascii b /\ sc_raw_path sc = path /\ sc_query sc = query /\
    sc_root sc = root /\ sc_headers sc = filter (fun nv => negb (beqb (fst nv) (bs "proxy"))) (map (fun f => (lower (fst f), snd f)) fields) /\
    sc_client sc = a /\ sc_subprotocols sc = None.
Proof.
  intros method url version fields body r path query b s tls peer a root ws F Ho R T W S C O.
  destruct (scope_http method url version fields body r path query b s tls peer a root F Ho R T W S C ws) as (m & E).
  { rewrite (offered_values method url version fields body r F R). destruct O as [->|[E|[E|[E|(v & E & N)]]]]; [reflexivity| | | |].
    - rewrite E. now rewrite andb_false_r.
    - rewrite E. now rewrite !andb_false_r.
    - rewrite E. now rewrite !andb_false_r.
    - unfold single in E. rewrite !E. cbv beta iota. assert (beqb (lower v) (bs "websocket") = false) as -> by (destruct (beqb _ _) eqn:B; [now apply PyBytesFacts.beqb_eq in B|reflexivity]). now destruct (_ && _). }
  rewrite E. eexists. split; [reflexivity|]. now repeat split.
Qed.
Print Assumptions c63_scope_http_partial.

(** C63, scopes of ASGI applications: WebSockets. The same with type websocket: the scheme is wss exactly if it would be https; the subprotocols are those
    that the client lists, in order. *)
Theorem c63_scope_ws_partial : forall method url version fields body r path query b s tls peer a root u elss,
  head_fits method url version fields -> has_host version fields -> request_init (heard method url version fields body) = Ok r ->
  target url path query -> path_written b path -> scheme_is tls fields s -> client_of peer = Some a ->
  single (bs "upgrade") fields u -> lower u = bs "websocket" -> ~ absent (bs "connection") fields -> ~ absent (bs "sec-websocket-key") fields ->
  Forall2 (fun els v => listed els v /\ Forall element els /\ List.length els <= 101) elss (S_Head.values (bs "sec-websocket-protocol") fields) ->
  exists sc, fst (asgi_called true root (heard method url version fields body) r (mkWorld peer tls true (rq_headers r)) memo0) = Ok (Some sc) /\
    sc_websocket sc = true /\ sc_version sc = latin (if beqb version (bs "1.0") then bs "1.0" else bs "1.1") /\
    sc_scheme sc = latin (if beqb s (bs "https") then bs "wss" else bs "ws") /\ sc_path sc = map N_of_ascii b /\ sc_raw_path sc = path /\ sc_query sc = query /\
    sc_root sc = root /\ sc_headers sc = filter (fun nv => negb (beqb (fst nv) (bs "proxy"))) (map (fun f => (lower (fst f), snd f)) fields) /\
    sc_client sc = a /\ sc_subprotocols sc = Some (map latin (concat elss)).
Proof.
  intros method url version fields body r path query b s tls peer a root u elss F Ho R T W S C U L Co K G.
  destruct (scope_ws method url version fields body r path query b s tls peer a root F Ho R T W S C elss) as (m & E); [|exact G|rewrite E; eexists; split; [reflexivity|now repeat split]].
  unfold single in U. rewrite (offered_values method url version fields body r F R), !U, L. unfold absent in Co, K.
  destruct (S_Head.values (bs "connection") fields); [easy|]. destruct (S_Head.values (bs "sec-websocket-key") fields); easy.
Qed.
Print Assumptions c63_scope_ws_partial.

(** An application is not called with an invalid request. *)
Theorem c63_invalid : forall method url version fields body r ws root w,
  head_fits method url version fields -> request_init (heard method url version fields body) = Ok r -> ~ has_host version fields ->
  fst (asgi_called ws root (heard method url version fields body) r w memo0) = Ok None.
Proof.
  intros method url version fields body r ws root w F R N.
  destruct (init_facts method url version fields body F) as (r' & R' & _ & V & _). rewrite R in R'. injection R' as <-.
  destruct (heard_facts method url version fields body F) as (_ & _ & _ & _ & _ & Y). unfold asgi_called. rewrite V. destruct (is_valid_request _) eqn:E; [|reflexivity].
  exfalso. apply N. intros V1 X. destruct Y as (_ & Y). now discriminate Y.
Qed.
Print Assumptions c63_invalid.

(** The ASGI specification has the path percent-decoded and then UTF-8-decoded: it is not. *)
Theorem c63_path_refuted : exists t b path fields r sc,
  utf8_encode t = Some b /\ path_written b path /\ head_fits (bs "GET") path (bs "1.1") fields /\ has_host (bs "1.1") fields /\
  request_init (heard (bs "GET") path (bs "1.1") fields []) = Ok r /\
  fst (asgi_called true [] (heard (bs "GET") path (bs "1.1") fields []) r (mkWorld ex_peer false true (rq_headers r)) memo0) = Ok (Some sc) /\ sc_path sc <> t.
Proof.
  exists [47%N; 233%N], (bs "/" ++ [ascii_of_N 195; ascii_of_N 169]), (bs "/%C3%a9"), [ex_host]. do 2 eexists.
  split; [vm_compute; reflexivity|]. split.
  { exists [bs "/"; bs "%C3"; bs "%a9"]. split; [|reflexivity]. constructor; [left; split; [reflexivity|discriminate]|]. constructor; [|constructor; [|constructor]].
    - right. exists "C"%char, "3"%char, 12%N, 3%N. split; [reflexivity|]. split; [unfold is_hex; vm_compute; intuition discriminate|]. split; [unfold is_hex; vm_compute; intuition discriminate|reflexivity].
    - right. exists "a"%char, "9"%char, 10%N, 9%N. split; [reflexivity|]. split; [unfold is_hex; vm_compute; intuition discriminate|]. split; [unfold is_hex; vm_compute; intuition discriminate|reflexivity]. }
  split; [apply fits_ok; reflexivity|]. split; [intros _; discriminate|]. split; [vm_compute; reflexivity|]. split; [vm_compute; reflexivity|]. discriminate.
Qed.
Print Assumptions c63_path_refuted.

(** ** Examples *)
Definition ex_ws : list field :=
  [ex_host; (bs "Upgrade", bs "WebSocket"); (bs "Connection", bs "Upgrade"); (bs "Sec-WebSocket-Key", bs "x"); (bs "Sec-WebSocket-Protocol", bs "chat, superchat");
   (bs "X-Forwarded-For", bs "  1.2.3.4, 5.6.7.8"); (bs "X-Forwarded-Proto", bs "https "); (bs "Proxy", bs "evil"); (bs "sec-websocket-protocol", bs "v2")].
Example c63_example : exists r,
  head_fits (bs "get") (bs "/a?b?c") (bs "1.1") ex_ws /\ has_host (bs "1.1") ex_ws /\ request_init (heard (bs "get") (bs "/a?b?c") (bs "1.1") ex_ws (bs "zz")) = Ok r /\
  target (bs "/a?b?c") (bs "/a") (bs "b?c") /\ path_written (bs "/a") (bs "/a") /\ scheme_is false ex_ws (bs "https") /\
  single (bs "upgrade") ex_ws (bs "WebSocket") /\
  first_element (bs "  1.2.3.4, 5.6.7.8") (bs "1.2.3.4") /\
  Forall2 (fun els v => listed els v /\ Forall element els /\ List.length els <= 101) [[bs "chat"; bs "superchat"]; [bs "v2"]] (S_Head.values (bs "sec-websocket-protocol") ex_ws) /\
  fst (read_ip (mkWorld ex_peer false true (rq_headers r)) memo0) = Ok (bs "1.2.3.4") /\
  (exists sc, fst (asgi_called true [] (heard (bs "get") (bs "/a?b?c") (bs "1.1") ex_ws (bs "zz")) r (mkWorld ex_peer false true (rq_headers r)) memo0) = Ok (Some sc) /\
     sc_scheme sc = latin (bs "wss") /\ sc_subprotocols sc = Some [latin (bs "chat"); latin (bs "superchat"); latin (bs "v2")] /\ List.length (sc_headers sc) = 8).
Proof.
  eexists. split; [apply fits_ok; reflexivity|]. split; [intros _; discriminate|]. split; [vm_compute; reflexivity|].
  split; [split; [vm_compute; intuition discriminate|now left]|].
  split; [exists [bs "/"; bs "a"]; split; [|reflexivity]; repeat constructor; discriminate|].
  split. { left. exists (bs "https "). split; [reflexivity|]. exists [], (bs " "). repeat split; try discriminate; repeat constructor. }
  split; [reflexivity|].
  split. { exists (bs "  "), (bs ", 5.6.7.8"). split; [reflexivity|]. split; [repeat constructor|]. split; [discriminate|]. split; [reflexivity|]. split; [reflexivity|].
           split; [vm_compute; intuition discriminate|]. right. now eexists. }
  split. { constructor; [|constructor; [|constructor]].
           - split; [exists (bs "superchat"); split; [reflexivity|now right]|]. split; [|cbn; lia]. repeat constructor; (vm_compute; intuition discriminate) || discriminate.
           - split; [reflexivity|]. split; [|cbn; lia]. repeat constructor; (vm_compute; intuition discriminate) || discriminate. }
  split; [vm_compute; reflexivity|]. eexists. split; [vm_compute; reflexivity|]. now repeat split.
Qed.
Example c63_direct_example : exists r,
  head_fits (bs "GET") (bs "/") (bs "1.0") [(bs "X-Forwarded-For", bs " ")] /\ request_init (heard (bs "GET") (bs "/") (bs "1.0") [(bs "X-Forwarded-For", bs " ")] []) = Ok r /\
  all_space (bs " ") /\ scheme_is true [(bs "X-Forwarded-For", bs " ")] (bs "https") /\
  fst (read_ip (mkWorld ex_peer true true (rq_headers r)) memo0) = Ok (bs "10.0.0.9").
Proof.
  eexists. split; [apply fits_ok; reflexivity|]. split; [vm_compute; reflexivity|]. split; [repeat constructor|]. split; [right; split; [now left|reflexivity]|vm_compute; reflexivity].
Qed.
