(** C28-C33: responses.

    A handler's header calls are a list [pre] of [hop]s made on a new response
    ([start e pre keep]), where the handler may catch the exceptions. [e] is the request and
    server the response is for; [keep] whether the connection is kept alive.
    The items put on the send queue are [r_out]: [Some] bytes, or [None] for the end of the
    response. *)
From Verif Require Import PyBytes PyBytesFacts PyInt PyExn PyUrl M_Response S_Response S_Calls S_Chunked
  P_Response2 P_Response3 P_Response5 P_Response6 P_Response8.

Definition get11 := mkEnv true (bs "GET") (bs "Thu, 01 Jan 1970 00:00:00 GMT") (bs "Tremolo").
Definition head11 := mkEnv true (bs "HEAD") (bs "Thu, 01 Jan 1970 00:00:00 GMT") (bs "Tremolo").
Definition get10 := mkEnv false (bs "GET") (bs "Thu, 01 Jan 1970 00:00:00 GMT") (bs "Tremolo").
Ltac fin := first [reflexivity | discriminate | exact I
  | (unfold one_line; apply memb_notIn; vm_compute; reflexivity)
  | (apply memb_notIn; vm_compute; reflexivity) | (intros ?; vm_compute in *; intuition discriminate)].
Ltac fall := repeat (first [apply Forall_nil | apply Forall_cons]); repeat split; fin.

(** C28. Every stored header line is free of LF, whatever the calls were given, as long as
    append_header was given LF-free arguments. *)
Theorem c28_stored : forall e pre keep stored name lines, Forall appends_clean pre ->
  r_headers (start e pre keep) = Some stored -> In (name, lines) stored -> Forall one_line lines.
Proof. exact c28_stored_main. Qed.
Print Assumptions c28_stored.

(** The head that write() sends is the status line and the lines of [sent], each a single
    line. [sent_from]: they are the stored lines, except for Content-Type, Transfer-Encoding and
    Connection, which may be replaced by one line each.
    [unreserved]: no call used the internal key "_line" as a header name. *)
Theorem c28_write : forall e pre keep data chunked k, Forall appends_clean pre -> Forall unreserved pre ->
  forall stored, r_headers (start e pre keep) = Some stored -> stored <> [] ->
  exists s' sent rest, write e data chunked k (start e pre keep) = (Ok tt, s') /\
    r_out s' = Some (head_of (status_line e (the_status pre) :: concat (map snd sent))) :: rest /\
    sent_from stored sent /\
    one_line (status_line e (the_status pre)) /\ (forall name lines, In (name, lines) sent -> Forall one_line lines).
Proof. exact c28_write_main. Qed.
Print Assumptions c28_write.

Definition evil := bs "x" ++ CRLF ++ bs "Set-Cookie: a=b" ++ CRLF ++ CRLF ++ bs "<script>".
Definition pre28 := [HBase; HSet (bs "X-A") (bs "1"); HSet (bs "X-B") evil; HCookie evil (bs "v") (bs "date") 60 (bs "/") [] [] true false;
  HStatus 404 evil; HCtype evil; HAppend (bs "x-a") (bs "2"); HStatus 201 (bs "Created"); HCookie (bs "sid") evil (bs "date") 60 (bs "/") [] [] true false].
Example c28_nonvacuous : Forall appends_clean pre28 /\ Forall unreserved pre28 /\
  exists stored, r_headers (start get11 pre28 true) = Some stored /\
    map fst stored = [bs "date"; bs "server"; bs "x-a"; bs "set-cookie"] /\
    option_map (hget (bs "x-a")) (r_headers (start get11 pre28 true)) = Some (Some [bs "X-A: 1"; bs "x-a: 2"]).
Proof.
  split; [fall|]. split; [fall|]. eexists. split; [vm_compute; reflexivity|]. split; vm_compute; reflexivity.
Qed.

(** append_header checks nothing: its value can end the head. *)
Theorem c28_append_refuted : exists pre stored name lines,
  r_headers (start get11 pre true) = Some stored /\ In (name, lines) stored /\ ~ Forall one_line lines.
Proof.
  exists [HAppend (bs "X") evil]. eexists _, (bs "x"), _. split; [vm_compute; reflexivity|]. split; [left; reflexivity|].
  intros F. inversion_clear F as [|? ? O _]. apply O. vm_compute. intuition.
Qed.
Print Assumptions c28_append_refuted.

(** C29. What is stored for a name after LF-free set_header and append_header calls is what
    [lines_for] says: set replaces, append adds, the case of names does not matter. *)
Theorem c29_lines : forall e name calls keep,
  Forall (fun c => one_line (fst (snd c)) /\ one_line (snd (snd c))) calls ->
  now_at name (start e (map hop_of calls) keep) = lines_for name calls [].
Proof. exact (fun e name calls keep => c29_main e name calls (new_rsp keep) [] eq_refl). Qed.
Print Assumptions c29_lines.

(** A set_header with LF raises and changes nothing. *)
Theorem c29_reject : forall e n v s, ~ one_line (n ++ v) -> do_hop e (HSet n v) s = (Raise InternalServerError, s).
Proof. exact reject_lf. Qed.
Print Assumptions c29_reject.

(** Once the head was sent, every header call raises and changes nothing; set_base_header is
    a no-op that does not raise. *)
Theorem c29_sent : forall e h s, r_headers s = None ->
  do_hop e h s = (match h with HBase => Ok tt | _ => Raise InternalServerError end, s).
Proof. exact c29_sent_main. Qed.
Print Assumptions c29_sent.

(** It is sent by the first write() or end(). *)
Theorem c29_write_sends : forall e pre keep data chunked k stored, Forall appends_clean pre -> Forall unreserved pre ->
  r_headers (start e pre keep) = Some stored -> stored <> [] ->
  r_headers (snd (write e data chunked k (start e pre keep))) = None.
Proof. exact write_sends. Qed.
Print Assumptions c29_write_sends.

Example c29_example :
  now_at (bs "VARY") (start get11 (map hop_of [(true, (bs "Vary", bs "a")); (false, (bs "vary", bs "b")); (true, (bs "X", bs "y"))]) true)
    = [bs "Vary: a"; bs "vary: b"] /\
  r_headers (snd (write get11 (Some (bs "hi")) None kw_now (start get11 [HBase] true))) = None.
Proof. split; vm_compute; reflexivity. Qed.

(** C30. end(data): one head, whose lines are the status line, one Content-Type, one
    Content-Length that is len(data), one Connection line and the other stored lines, none of
    which has a framing name; then [data], or nothing when the response has no body. The
    client finds the body after the first empty line.
    [pre] starts with set_base_header, as the server does before it calls the handler
    (http_server.py:60, 116). Missing: handlers of errors, for which the stored headers were
    cleared (refuted below); header names with a colon. *)
Theorem c30_end_partial : forall e pre keep data keepalive min stored,
  one_line (e_date e) -> one_line (e_server e) -> Forall appends_clean pre -> Forall name_ok pre -> Forall unreserved pre ->
  r_headers (start e (HBase :: pre) keep) = Some stored ->
  exists s' ctype body,
    let st := the_status pre in
    let others := concat (map snd (filter (fun kv => negb (existsb (beqb (fst kv)) framing)) stored)) in
    let lines := status_line e st :: (bs "Content-Type: " ++ ctype) :: (bs "Content-Length: " ++ fmt_d (blen data)) ::
                 (bs "Connection: " ++ (if keepalive && keep then bs "keep-alive" else bs "close")) :: others in
    end_ e data keepalive min (start e (HBase :: pre) keep) = (Ok tt, s') /\
    r_out s' = [Some (head_of lines ++ body); None] /\ r_keep s' = (keepalive && keep)%bool /\
    (bodyless (e_method e) (fst st) -> body = []) /\ (~ bodyless (e_method e) (fst st) -> body = data) /\
    Forall one_line lines /\ Forall (fun l => ~ In (field_name l) framing) others /\
    client_body (head_of lines ++ body) = Some body.
Proof. exact c30_main. Qed.
Print Assumptions c30_end_partial.

Definition pre30 := [HSet (bs "X-A") (bs "1"); HSet (bs "content-length") (bs "99"); HSet (bs "Transfer-Encoding") (bs "chunked"); HCtype (bs "text/plain")].
Example c30_example :
  Forall appends_clean pre30 /\ Forall name_ok pre30 /\ Forall unreserved pre30 /\
  r_out (snd (end_ get11 (bs "hello") true None (start get11 (HBase :: pre30) true))) =
  [Some (bs "HTTP/1.1 200 OK" ++ CRLF ++ bs "Content-Type: text/plain" ++ CRLF ++ bs "Content-Length: 5" ++ CRLF ++ bs "Connection: keep-alive" ++ CRLF
   ++ bs "Date: Thu, 01 Jan 1970 00:00:00 GMT" ++ CRLF ++ bs "Server: Tremolo" ++ CRLF ++ bs "X-A: 1" ++ CRLF ++ CRLF ++ bs "hello"); None].
Proof. split; [fall|]. split; [fall|]. split; [fall|]. vm_compute. reflexivity. Qed.

(** After headers.clear() (http_protocol.py:238-265) an error handler that only sets the
    content type with set_header: the head ends with an empty line too many, which the client
    takes for the first bytes of the body, so that it misses the last two of [data]. *)
Theorem c30_cleared_refuted : exists s' wire,
  end_ get11 (bs "hello") true None (start get11 [HSet (bs "Content-Type") (bs "text/plain")] true) = (Ok tt, s') /\
  r_out s' = [Some wire; None] /\ client_body wire = Some (CRLF ++ bs "hello").
Proof. eexists _, _. split; [vm_compute; reflexivity|]. split; vm_compute; reflexivity. Qed.
Print Assumptions c30_cleared_refuted.

(** C31. A generator handler that yields [y0], [ys] on HTTP/1.1, after the header calls
    [pre], with response middlewares making the header calls [mid]: one head with a single
    Transfer-Encoding line, then a well-formed chunked body (grammar of S_Chunked.v) that
    decodes to the yields, then the end marker. The connection stays as it was. The head has
    the header lines that the calls say, name by name, except for names that the server decides about. *)
Theorem c31_stream : forall e o pre mid y0 ys keep,
  e_11 e = true -> h_chunked o <> Some false -> (1 <= h_buf o)%Z ->
  Forall appends_clean pre -> Forall name_ok (pre ++ mid) -> Forall unreserved pre -> Forall (clean e) mid ->
  Forall (fun h => ~ In (bs "transfer-encoding") (names h)) mid ->
  ~ bodyless (e_method e) (fst (the_status pre)) ->
  exists s' lines items cs, respond_stream e o mid y0 ys (start e pre keep) = (Ok tt, s') /\
    r_out s' = Some (head_of (status_line e (final_status mid (the_status pre)) :: lines)) :: map Some items ++ [None] /\
    Forall one_line (status_line e (final_status mid (the_status pre)) :: lines) /\
    only_line (bs "transfer-encoding") (bs "Transfer-Encoding: chunked") lines /\ ~ In [] lines /\
    concat items = chunked_body cs (bs "0") [] CRLF /\ Forall good_chunk cs /\ chunks_data cs = concat (y0 :: ys) /\
    r_keep s' = keep /\ forall name, ~ In name added -> lines_named name lines = said name (pre ++ mid) [].
Proof. exact c31_main. Qed.
Print Assumptions c31_stream.

(** Without chunking (HTTP/1.0 or the option chunked=False) the bytes are the yields, and the
    connection is closed after them unless the handler set a Content-Length itself. *)
Theorem c31_unchunked : forall e o pre mid y0 ys keep,
  match h_chunked o with Some b => b | None => e_11 e end = false -> (1 <= h_buf o)%Z ->
  Forall appends_clean pre -> Forall unreserved pre -> Forall (clean e) mid ->
  ~ bodyless (e_method e) (fst (the_status pre)) ->
  exists s' lines items, respond_stream e o mid y0 ys (start e pre keep) = (Ok tt, s') /\
    r_out s' = Some (head_of (status_line e (final_status mid (the_status pre)) :: lines)) :: map Some items ++ [None] /\
    concat items = concat (y0 :: ys) /\
    (r_keep s' = true -> exists l, lines_at (bs "content-length") (start e pre keep) = Some l).
Proof. exact c31_plain_main. Qed.
Print Assumptions c31_unchunked.

(** A handler that returns [data]: chunked as above, or with its Content-Length. *)
Theorem c31_value : forall e o pre mid data keep,
  (1 <= h_buf o)%Z -> Forall appends_clean pre -> Forall name_ok (pre ++ mid) -> Forall unreserved pre -> Forall (clean e) mid ->
  Forall (fun h => ~ In (bs "transfer-encoding") (names h) /\ ~ In (bs "content-length") (names h)) mid ->
  ~ bodyless (e_method e) (fst (the_status pre)) ->
  exists s' lines items, respond_value e o mid data (start e pre keep) = (Ok tt, s') /\
    r_out s' = Some (head_of (status_line e (final_status mid (the_status pre)) :: lines)) :: map Some items ++ [None] /\
    Forall one_line (status_line e (final_status mid (the_status pre)) :: lines) /\ ~ In [] lines /\ r_keep s' = keep /\
    (forall name, ~ In name added -> lines_named name lines = said name (pre ++ mid) []) /\
    if (match h_chunked o with Some b => b | None => e_11 e end)
    then only_line (bs "transfer-encoding") (bs "Transfer-Encoding: chunked") lines /\
         exists cs, concat items = chunked_body cs (bs "0") [] CRLF /\ Forall good_chunk cs /\ chunks_data cs = data
    else only_line (bs "content-length") (bs "Content-Length: " ++ fmt_d (blen data)) lines /\ concat items = data.
Proof. exact c31_value_main. Qed.
Print Assumptions c31_value.

Definition mid31 := [HSet (bs "X-Mid") (bs "1"); HStatus 203 (bs "Altered")].
Definition o31 := mkHOpts None false 4.
Example c31_hyps : Forall (clean get11) mid31 /\ Forall name_ok mid31 /\ Forall (fun h => ~ In (bs "transfer-encoding") (names h)) mid31 /\
  ~ bodyless (e_method get11) (fst (the_status [])).
Proof.
  split; [fall|]. split; [fall|]. split.
  - repeat constructor; vm_compute; intuition discriminate.
  - intros H. vm_compute in H. intuition discriminate.
Qed.
Example c31_example : exists s', respond_stream get11 o31 mid31 [] [bs "hello"; []; bs "x"] (start get11 [] true) = (Ok tt, s') /\
  concat (map (fun i => match i with Some b => b | None => [] end) (tl (r_out s')))
  = bs "5" ++ CRLF ++ bs "hello" ++ CRLF ++ bs "1" ++ CRLF ++ bs "x" ++ CRLF ++ bs "0" ++ CRLF ++ CRLF.
Proof. eexists. split; vm_compute; reflexivity. Qed.
Example c31_said : said (bs "x-mid") ([HSet (bs "X-Mid") (bs "0"); HAppend (bs "x-mid") (bs "1")] ++ mid31 ++ [HAppend (bs "x-Mid") (bs "2")]) [] = [bs "X-Mid: 1"; bs "x-Mid: 2"] /\
  said (bs "set-cookie") [HCookie (bs "a") (bs "b c") (bs "now") 5 (bs "/") [] [] false true; HCookie (bs "a") (bs "b") evil 5 (bs "/") [] [] false true] [] =
    [bs "Set-Cookie: a=b%20c; expires=now; max-age=5; path=/; httponly"].
Proof. split; vm_compute; reflexivity. Qed.

(** C32. When the response has no body, what is queued is the head and the end marker:
    generator handlers, *)
Theorem c32_stream : forall e o pre mid y0 ys keep,
  (1 <= h_buf o)%Z -> Forall appends_clean pre -> Forall unreserved pre -> Forall (clean e) mid ->
  bodyless (e_method e) (fst (the_status pre)) ->
  exists s' lines, respond_stream e o mid y0 ys (start e pre keep) = (Ok tt, s') /\
    r_out s' = [Some (head_of (status_line e (final_status mid (the_status pre)) :: lines)); None] /\
    Forall one_line (status_line e (final_status mid (the_status pre)) :: lines).
Proof. exact c32_stream_main. Qed.
Print Assumptions c32_stream.

(** handlers that return a value, *)
Theorem c32_value : forall e o pre mid data keep,
  (1 <= h_buf o)%Z -> Forall appends_clean pre -> Forall unreserved pre -> Forall (clean e) mid ->
  bodyless (e_method e) (fst (the_status pre)) ->
  exists s' lines, respond_value e o mid data (start e pre keep) = (Ok tt, s') /\
    r_out s' = [Some (head_of (status_line e (final_status mid (the_status pre)) :: lines)); None] /\
    Forall one_line (status_line e (final_status mid (the_status pre)) :: lines).
Proof. exact c32_value_main. Qed.
Print Assumptions c32_value.

(** and handlers that call write() themselves, however often: the client gets the head and
    the connection is closed. end() is in c30_end_partial. Missing: status 101, after which
    the connection carries another protocol, and HEAD with status 426. *)
Theorem c32_direct_partial : forall e pre keep w ws stored, Forall appends_clean pre -> Forall unreserved pre ->
  r_headers (start e pre keep) = Some stored -> stored <> [] ->
  bodyless (e_method e) (fst (the_status pre)) -> fst (the_status pre) <> 101%Z -> fst (the_status pre) <> 426%Z ->
  let s' := run_writes e (w :: ws) (start e pre keep) in
  exists lines, Forall one_line (status_line e (the_status pre) :: lines) /\
    on_wire (r_keep s') (r_out s') = head_of (status_line e (the_status pre) :: lines).
Proof. exact c32_direct_main. Qed.
Print Assumptions c32_direct_partial.

Definition w_hi := (Some (bs "hello"), @None bool, kw_now).
Example c32_example :
  bodyless (e_method get11) (fst (the_status [HBase; HStatus 204 (bs "No Content")])) /\ bodyless (e_method head11) (fst (the_status [HBase])) /\
  r_out (run_writes head11 [w_hi; w_hi] (start head11 [HBase] true)) =
  [Some (bs "HTTP/1.1 200 OK" ++ CRLF ++ bs "Date: Thu, 01 Jan 1970 00:00:00 GMT" ++ CRLF ++ bs "Server: Tremolo" ++ CRLF
     ++ bs "Content-Type: text/html; charset=utf-8" ++ CRLF ++ bs "Transfer-Encoding: chunked" ++ CRLF ++ bs "Connection: keep-alive" ++ CRLF ++ CRLF);
   None; Some (bs "5" ++ CRLF ++ bs "hello" ++ CRLF)].
Proof. split; [vm_compute; intuition|]. split; [vm_compute; intuition|]. vm_compute. reflexivity. Qed.

(** HEAD answered with 426 through write(): the second write reaches the client of a
    persistent connection, as bytes after the head. *)
Theorem c32_direct_refuted : exists pre head,
  bodyless (e_method head11) (fst (the_status pre)) /\ Forall appends_clean pre /\ Forall unreserved pre /\
  let s' := run_writes head11 [w_hi; w_hi] (start head11 pre true) in
  on_wire (r_keep s') (r_out s') = head ++ bs "5" ++ CRLF ++ bs "hello" ++ CRLF /\ client_body head = Some [].
Proof.
  exists [HBase; HStatus 426 (bs "Upgrade Required")]. eexists (match r_out (run_writes head11 [w_hi] (start head11 [HBase; HStatus 426 (bs "Upgrade Required")] true)) with Some h :: _ => h | _ => [] end).
  split; [vm_compute; intuition|]. split; [fall|]. split; [fall|]. cbv zeta. split; vm_compute; reflexivity.
Qed.
Print Assumptions c32_direct_refuted.

(** A response middleware that sets status 204 after the handler returned a value: the head
    says 204, and the body follows it. *)
Theorem c32_middleware_refuted : exists mid s' lines, Forall (clean get11) mid /\
  respond_value get11 o31 mid (bs "hello") (start get11 [HBase] true) = (Ok tt, s') /\
  r_out s' = Some (head_of (bs "HTTP/1.1 204 No Content" :: lines)) ::
             map Some [bs "5" ++ CRLF ++ bs "h"; bs "ello"; CRLF; bs "0" ++ CRLF ++ CRLF] ++ [None].
Proof.
  exists [HStatus 204 (bs "No Content")]. eexists _, [bs "Date: Thu, 01 Jan 1970 00:00:00 GMT"; bs "Server: Tremolo"; bs "Content-Type: text/html; charset=utf-8"; bs "Transfer-Encoding: chunked"; bs "Connection: keep-alive"].
  split; [fall|]. split; [vm_compute; reflexivity|]. vm_compute. reflexivity.
Qed.
Print Assumptions c32_middleware_refuted.

(** C33. Any sends followed by close: the items queued are the data sent, in order, then the
    end marker; nothing stays in the buffer. [sends] is the sequence of Response.send calls,
    from a state whose send buffer is empty. *)
Theorem c33_sends : forall l s, r_buf s = [] -> Forall (fun x => 1 <= k_bufsize (snd x))%Z l -> exists items,
  r_out (flush_close (sends l s)) = r_out s ++ map Some items ++ [None] /\ r_buf (flush_close (sends l s)) = [] /\
  concat items = concat (map fst l).
Proof. exact c33_main'. Qed.
Print Assumptions c33_sends.

Example c33_example : r_out (flush_close (sends [(bs "abcde", mkKw true 2 None); (bs "f", mkKw false 1 (Some 4%Z)); (bs "gh", mkKw true 3 (Some 1%Z)); (bs "i", mkKw true 3 (Some 9%Z))] (new_rsp true)))
  = [Some (bs "ab"); Some (bs "cd"); Some (bs "e"); Some (bs "fgh"); Some (bs "i"); None].
Proof. vm_compute. reflexivity. Qed.
