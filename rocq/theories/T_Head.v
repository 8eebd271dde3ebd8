(** C01-C09: request heads, save/remove/append, framing and keep-alive decisions. *)
From Verif Require Import PyBytes PyInt PyExn M_Parser M_Framing S_Head S_Num
  P_Parser P_Parser2 P_Parser3 P_Parser4 P_Framing P_Head5.

(** C01. A serialised head parses back to its parts, whatever body follows. [excludes],
    [ml] and [mls] are the parser's options; the head must fit the limits.
    (Request validity is C03; only the Host clause can fail here.) *)
Theorem c01_head_roundtrip : forall method url version fields body hs hmax excludes ml mls,
  ~ In SP method -> ~ In LF (method ++ url ++ version) -> contains (bs "HTTP/") version = false ->
  Forall good_field fields -> Forall (fun f => ~ In (lower (fst f)) reserved) fields ->
  S (List.length fields) <= ml ->
  Forall (fun l => blen l <= mls)%Z (request_line method url version :: map field_bytes fields) ->
  ((hs = -1 /\ blen (head_bytes method url version fields) <= hmax) \/
   hs = blen (head_bytes method url version fields) - 2)%Z ->
  let h := parse_header (head_bytes method url version fields ++ body) hs hmax excludes ml mls in
  is_request h = true /\ is_response h = false /\
  getmethod h = Some (One (AB method)) /\ geturl h = Some (One (AB url)) /\
  getversion h = Some (One (AB version)) /\
  hlist h = filter (fun nv => negb (mem_bytes (fst nv) excludes))
                   (map (fun f => (lower (fst f), snd f)) fields) /\
  (forall name, ~ In name reserved -> name <> bs "host" \/ values name fields <> [] ->
     hget name (headers h) = match values name fields with
                             | [] => None
                             | [v] => Some (One (AB v))
                             | vs => Some (Many (map AB vs))
                             end) /\
  hbody h = body /\
  (is_valid_request h = false <-> version = bs "1.1" /\ values (bs "host") fields = []).
Proof. exact c01_main. Qed.
Print Assumptions c01_head_roundtrip.

Definition ex_fields : list field :=
  [(bs "Host", bs "a.b"); (bs "X-A", bs "1"); (bs "x-a", bs " 2"); (bs "Cookie", bs "c=d:e")].
Example c01_nonvacuous :
  ~ In SP (bs "GET") /\ ~ In LF (bs "GET" ++ bs "/p?q r" ++ bs "1.1") /\ contains (bs "HTTP/") (bs "1.1") = false /\
  Forall good_field ex_fields /\ Forall (fun f => ~ In (lower (fst f)) reserved) ex_fields /\
  S (List.length ex_fields) <= 100 /\
  Forall (fun l => blen l <= 8190)%Z (request_line (bs "GET") (bs "/p?q r") (bs "1.1") :: map field_bytes ex_fields) /\
  (blen (head_bytes (bs "GET") (bs "/p?q r") (bs "1.1") ex_fields) <= 8192)%Z /\
  values (bs "x-a") ex_fields = [bs "1"; bs " 2"].
Proof.
  split; [vm_compute; intuition discriminate|]. split; [vm_compute; intuition discriminate|].
  split; [reflexivity|]. split; [repeat constructor; vm_compute; intuition discriminate|].
  split; [repeat constructor; vm_compute; intuition discriminate|]. split; [cbn; lia|].
  split; [repeat constructor; vm_compute; discriminate|]. split; [vm_compute; discriminate|reflexivity].
Qed.

(** C02. For a head whose only blank line is its end, the report does not depend on the
    bytes that follow, and those bytes are the body. *)
Theorem c02_body_independent : forall head body1 body2 p hs hmax excludes ml mls,
  find (CRLF ++ CRLF) head = Some p -> List.length head = p + 4 -> size_args hs hmax p ->
  let h1 := parse_header (head ++ body1) hs hmax excludes ml mls in
  let h2 := parse_header (head ++ body2) hs hmax excludes ml mls in
  is_request h1 = is_request h2 /\ is_response h1 = is_response h2 /\
  is_valid_request h1 = is_valid_request h2 /\ is_valid_response h1 = is_valid_response h2 /\
  headers h1 = headers h2 /\ hlist h1 = hlist h2 /\ hbody h1 = body1 /\ hbody h2 = body2.
Proof. exact c02_main. Qed.
Print Assumptions c02_body_independent.

Definition ex_head := head_bytes (bs "GET") (bs "/") (bs "1.1") ex_fields.
Example c02_nonvacuous : exists p, find (CRLF ++ CRLF) ex_head = Some p /\ List.length ex_head = p + 4 /\
  size_args (-1) 8192 p /\
  hbody (parse_header (ex_head ++ bs "body" ++ CRLF ++ CRLF ++ bs "x") (-1) 8192 [] 100 8190)
    = bs "body" ++ CRLF ++ CRLF ++ bs "x".
Proof. eexists. split; [reflexivity|]. split; [reflexivity|]. split; [|reflexivity]. left. lia. Qed.

(** C03. The full claim fails: a client field called "_version" switches the Host check off. *)
Theorem c03_valid_refuted : exists data hmax ml mls p,
  find (CRLF ++ CRLF) data = Some p /\ size_args (-1) hmax p /\
  is_valid_request (parse_header data (-1) hmax [] ml mls) = true /\
  ~ well_formed_request ml mls (firstn (p + 4) data).
Proof. exact c03_refuted_main. Qed.
Print Assumptions c03_valid_refuted.

(** C03, exact: well-formed line by line, and Host present when the version is 1.1 unless
    a field named "_version" is present. *)
Theorem c03_valid_exact : forall data p hs hmax excludes ml mls,
  find (CRLF ++ CRLF) data = Some p -> size_args hs hmax p ->
  (is_valid_request (parse_header data hs hmax excludes ml mls) = true <->
   exists first rest version, request_head ml mls (firstn (p + 4) data) first rest version /\
     (version = bs "1.1" -> has_field (bs "host") rest \/ has_field (bs "_version") rest)).
Proof. exact c03_exact'. Qed.
Print Assumptions c03_valid_exact.

(** C03 as claimed, for heads without a field named "_version". *)
Theorem c03_valid_partial : forall data p hs hmax excludes ml mls,
  find (CRLF ++ CRLF) data = Some p -> size_args hs hmax p ->
  (forall first rest version, request_head ml mls (firstn (p + 4) data) first rest version ->
     ~ has_field (bs "_version") rest) ->
  (is_valid_request (parse_header data hs hmax excludes ml mls) = true <->
   well_formed_request ml mls (firstn (p + 4) data)).
Proof. exact c03_main'. Qed.
Print Assumptions c03_valid_partial.

Example c03_nonvacuous : exists p, find (CRLF ++ CRLF) ex_head = Some p /\ size_args (-1) 8192 p /\
  is_valid_request (parse_header ex_head (-1) 8192 [] 100 8190) = true /\
  is_valid_request (parse_header ex_head (-1) 8192 [] 4 8190) = false /\
  is_valid_request (parse_header (head_bytes (bs "GET") (bs "/") (bs "1.1") []) (-1) 8192 [] 4 8190) = false.
Proof. eexists. split; [reflexivity|]. split; [left; lia|]. repeat split. Qed.

(** C04. Whenever a request object is created from a head whose first line is a request line,
    its method and URL are those of the line (the method in upper case). Its version is the
    one of the line (anything but 1.0 counts as 1.1), provided no field is called "_version". *)
Theorem c04_request_line_partial : forall data p hs hmax excludes ml mls first rest method target version r,
  find (CRLF ++ CRLF) data = Some p -> size_args hs hmax p ->
  firstn (p + 4) data = lines_bytes (first :: rest) ++ CRLF -> Forall crlf_line (first :: rest) ->
  is_request_line first method target version ->
  request_init (parse_header data hs hmax excludes ml mls) = Ok r ->
  rq_method r = upper method /\ rq_url r = target /\
  (~ has_field (bs "_version") rest -> rq_version r = if beqb version (bs "1.0") then bs "1.0" else bs "1.1").
Proof. exact c04_main'. Qed.
Print Assumptions c04_request_line_partial.

(** C04 fails for the version: a "_version" field makes a 1.0 request look like 1.1;
    and a "_method" field makes the request constructor raise. *)
Theorem c04_request_line_refuted :
  (exists fields r, request_init (parse_header (head_bytes (bs "GET") (bs "/") (bs "1.0") fields) (-1) 8192 [] 100 8190) = Ok r
     /\ rq_version r = bs "1.1") /\
  (exists fields, is_valid_request (parse_header (head_bytes (bs "GET") (bs "/") (bs "1.0") fields) (-1) 8192 [] 100 8190) = true
     /\ request_init (parse_header (head_bytes (bs "GET") (bs "/") (bs "1.0") fields) (-1) 8192 [] 100 8190) = Raise AttributeError).
Proof. exact c04_refuted_main. Qed.
Print Assumptions c04_request_line_refuted.

Example c04_nonvacuous : exists p r,
  find (CRLF ++ CRLF) ex_head = Some p /\ size_args (-1) 8192 p /\
  firstn (p + 4) ex_head = lines_bytes (request_line (bs "GET") (bs "/") (bs "1.1") :: map field_bytes ex_fields) ++ CRLF /\
  Forall crlf_line (request_line (bs "GET") (bs "/") (bs "1.1") :: map field_bytes ex_fields) /\
  is_request_line (request_line (bs "GET") (bs "/") (bs "1.1")) (bs "GET") (bs "/") (bs "1.1") /\
  request_init (parse_header ex_head (-1) 8192 [] 100 8190) = Ok r.
Proof.
  do 2 eexists. split; [reflexivity|]. split; [left; lia|]. split; [reflexivity|]. split.
  - repeat constructor.
  - split; [|vm_compute; reflexivity]. split; [reflexivity|]. split; [|reflexivity]. vm_compute. intuition discriminate.
Qed.

(** C05. save() of a valid head re-emits its lines in order and the body, and parsing the
    result gives the same entries and body. Partial: a field named "_line" makes save() raise,
    and save() may lengthen a line by one byte (a space after the colon), so the second parse
    is given one byte more of line length. *)
Theorem c05_save_partial : forall data p hs hmax excludes ml mls first rest,
  find (CRLF ++ CRLF) data = Some p -> size_args hs hmax p ->
  firstn (p + 4) data = lines_bytes (first :: rest) ++ CRLF -> Forall (fun l => ~ In LF l) (first :: rest) ->
  ~ has_field (bs "_line") rest ->
  let h := parse_header data hs hmax excludes ml mls in
  is_valid_request h = true \/ is_valid_response h = true ->
  let out := lines_bytes (first :: map field_bytes (hlist h)) ++ CRLF ++ skipn (p + 4) data in
  save h = Ok out /\
  forall hmax' mls', (mls + 1 <= mls')%Z -> (blen out <= hmax')%Z ->
    let h' := parse_header out (-1) hmax' excludes ml mls' in
    hlist h' = hlist h /\ hbody h' = hbody h /\ hbody h = skipn (p + 4) data.
Proof. exact c05_main'. Qed.
Print Assumptions c05_save_partial.

(** C05 fails in general: a "_line" field makes save() raise; a field line without a space
    after the colon at the line limit is not accepted again with the same limit. *)
Theorem c05_save_refuted :
  (exists data, is_valid_request (parse_header data (-1) 8192 [] 100 8190) = true /\
                save (parse_header data (-1) 8192 [] 100 8190) = Raise TypeError) /\
  (exists data out mls, is_valid_request (parse_header data (-1) 8192 [] 100 mls) = true /\
                save (parse_header data (-1) 8192 [] 100 mls) = Ok out /\
                is_valid_request (parse_header out (-1) 8192 [] 100 mls) = false /\
                hlist (parse_header out (-1) 8192 [] 100 mls) <> hlist (parse_header data (-1) 8192 [] 100 mls)).
Proof. exact c05_refuted_main. Qed.
Print Assumptions c05_save_refuted.

Example c05_nonvacuous : exists p,
  find (CRLF ++ CRLF) ex_head = Some p /\
  firstn (p + 4) ex_head = lines_bytes (request_line (bs "GET") (bs "/") (bs "1.1") :: map field_bytes ex_fields) ++ CRLF /\
  is_valid_request (parse_header ex_head (-1) 8192 [] 100 8190) = true /\
  List.length (hlist (parse_header ex_head (-1) 8192 [] 100 8190)) = 4.
Proof. eexists. repeat split. Qed.

(** C06. remove() keeps exactly the other entries in order; append() adds at the end in order
    (arguments that are not tuples are skipped); nothing else of the header changes. *)
Theorem c06_remove_exact : forall h names,
  hlist (remove h names) = filter (fun nv => negb (existsb (beqb (fst nv)) names)) (hlist h) /\
  headers (remove h names) = headers h /\ hbody (remove h names) = hbody h.
Proof. exact c06_remove_p. Qed.
Print Assumptions c06_remove_exact.

Theorem c06_append_exact : forall h args,
  hlist (append h args) = hlist h ++ flat_map (fun o => match o with Some v => [v] | None => [] end) args /\
  headers (append h args) = headers h /\ hbody (append h args) = hbody h.
Proof. exact c06_append. Qed.
Print Assumptions c06_append_exact.

Example c06_example :
  let h := parse_header ex_head (-1) 8192 [] 100 8190 in
  map fst (hlist (remove h [bs "x-a"; bs "zz"])) = [bs "host"; bs "cookie"] /\
  map fst (hlist (append (remove h [bs "x-a"]) [Some (bs "n", bs "v"); None])) = [bs "host"; bs "cookie"; bs "n"].
Proof. vm_compute. split; reflexivity. Qed.

(** C07. If the framing step accepts a request with a Content-Length, the header occurs once,
    is a canonical decimal numeral, and the declared length is its value. *)
Theorem c07_content_length : forall r r', frame r = Ok r' ->
  hget (bs "content-length") (rq_headers r) <> None ->
  exists v, hget (bs "content-length") (rq_headers r) = Some (One (AB v)) /\
            canonical_decimal v /\ rq_content_length r' = dec_value 0 v.
Proof. exact c07_main. Qed.
Print Assumptions c07_content_length.

(** Conversely canonical numerals (up to Python's 4300 digit limit) are accepted. *)
Theorem c07_content_length_accepts : forall r v c,
  hget (bs "content-length") (rq_headers r) = Some (One (AB v)) -> canonical_decimal v ->
  (blen v <= int_max_str_digits)%Z ->
  hget (bs "transfer-encoding") (rq_headers r) = None -> rq_transfer_encoding r = bs "none" ->
  keepalive_of r = Ok c -> hget (bs "expect") (rq_headers r) = None ->
  exists r', frame r = Ok r' /\ rq_content_length r' = dec_value 0 v.
Proof. exact c07_accept. Qed.
Print Assumptions c07_content_length_accepts.

Definition ex_request (v : bytes) (fields : list field) : res hreq :=
  let! r := request_init (parse_header (head_bytes (bs "POST") (bs "/") v fields) (-1) 8192 [] 100 8190) in frame r.
Example c07_nonvacuous :
  (exists r, ex_request (bs "1.1") [(bs "Host", bs "a"); (bs "Content-Length", bs "120")] = Ok r /\ rq_content_length r = 120%Z) /\
  map (fun v => match ex_request (bs "1.1") [(bs "Host", bs "a"); (bs "Content-Length", v)] with Ok _ => true | _ => false end)
      (map bs ["0"; "7"; "+7"; "-7"; "07"; " 7"; "7 "; "1_0"; ""; "x"; "0x1"]%string) =
    [true; true; false; false; false; false; false; false; false; false; false] /\
  ex_request (bs "1.1") [(bs "Host", bs "a"); (bs "Content-Length", bs "7"); (bs "content-length", bs "7")] = Raise TypeError.
Proof. split; [eexists; split; vm_compute; reflexivity|]. split; vm_compute; reflexivity. Qed.

(** C08. What the framing step accepts is never ambiguous. *)
Theorem c08_no_ambiguous_framing : forall r r', frame r = Ok r' ->
  let cl := hget (bs "content-length") (rq_headers r) in
  let te := hget (bs "transfer-encoding") (rq_headers r) in
  (cl <> None -> exists v, cl = Some (One (AB v))) /\
  (te <> None -> exists v, te = Some (One (AB v)) /\ rq_version r <> bs "1.0" /\
                           (cl <> None -> contains (bs "chunked") (lower v) = false)) /\
  (rq_version r = bs "1.0" -> te = None /\ (has_body r = true -> cl <> None)).
Proof. exact c08_main. Qed.
Print Assumptions c08_no_ambiguous_framing.

Example c08_nonvacuous :
  (exists r, ex_request (bs "1.1") [(bs "Host", bs "a"); (bs "Transfer-Encoding", bs "chunked")] = Ok r /\ has_body r = true) /\
  (exists r, ex_request (bs "1.0") [(bs "Content-Length", bs "7")] = Ok r /\ has_body r = true) /\
  ex_request (bs "1.1") [(bs "Host", bs "a"); (bs "Transfer-Encoding", bs "gzip, Chunked"); (bs "Content-Length", bs "7")] = Raise BadRequest /\
  ex_request (bs "1.0") [(bs "Transfer-Encoding", bs "chunked")] = Raise BadRequest /\
  ex_request (bs "1.1") [(bs "Host", bs "a"); (bs "Transfer-Encoding", bs "chunked"); (bs "transfer-encoding", bs "x")] = Raise AttributeError.
Proof. split; [eexists; split; vm_compute; reflexivity|]. split; [eexists; split; vm_compute; reflexivity|]. repeat split; vm_compute; reflexivity. Qed.

(** C09, exact form. With a Connection header (which must occur once) the connection is kept
    iff no comma-separated part is "close" once all its spaces are deleted, in any case;
    without one iff the version is not 1.0. *)
Theorem c09_keepalive_partial : forall h r r', request_init h = Ok r -> frame r = Ok r' ->
  match hget (bs "connection") (headers h) with
  | None => rq_keepalive r' = true <-> rq_version r <> bs "1.0"
  | Some v => exists s, v = One (AB s) /\ forall parts, comma_parts s parts ->
      (rq_keepalive r' = true <-> Forall (fun t => lower (delete_spaces t) <> bs "close") parts)
  end.
Proof. exact c09_main. Qed.
Print Assumptions c09_keepalive_partial.

(** C09 with tokens delimited as in RFC 9110 (optional spaces and tabs) fails. *)
Theorem c09_keepalive_refuted : exists data h r r' s parts,
  h = parse_header data (-1) 8192 [] 100 8190 /\ is_valid_request h = true /\
  request_init h = Ok r /\ frame r = Ok r' /\
  hget (bs "connection") (headers h) = Some (One (AB s)) /\ comma_parts s parts /\
  In (bs "close") (map (fun t => lower (trim_ows t)) parts) /\ rq_keepalive r' = true.
Proof. exact c09_refuted_main. Qed.
Print Assumptions c09_keepalive_refuted.

Example c09_nonvacuous :
  (exists r, ex_request (bs "1.0") [(bs "Connection", bs "foo, CLOSE ,bar")] = Ok r /\ rq_keepalive r = false) /\
  (exists r, ex_request (bs "1.0") [(bs "Connection", bs "foo,closed")] = Ok r /\ rq_keepalive r = true) /\
  (exists r, ex_request (bs "1.0") [] = Ok r /\ rq_keepalive r = false) /\
  (exists r, ex_request (bs "1.1") [] = Ok r /\ rq_keepalive r = true).
Proof. repeat split; eexists; split; vm_compute; reflexivity. Qed.
