(** C34, C35: files.

    [e], [pre], [keep] as in T_Response.v; [pre] starts with set_base_header, which the
    server calls before the handler (http_server.py:60, 116). [q] are the request's headers,
    [f] the file, [k] the keyword arguments passed on to write. The words of the
    statements are in S_Range.v and S_Sendfile.v. *)
From Verif Require Import PyBytes PyBytesFacts PyInt PyExn PyUrl M_Response S_Response S_Calls S_Chunked
  M_Sendfile S_Range S_Sendfile P_Response2 P_Response3 P_Response5 P_Sendfile P_Sendfile3 P_Sendfile4 T_Response.
Local Open Scope Z_scope.

(** C34. Whatever the Range header is, as long as no range-spec in it is a suffix of length 0:
    sendfile raises 400 or 416 and has changed nothing, or sends a complete 206 response with
    at most 101 ranges, each inside the file: one range with its Content-Length and
    Content-Range and exactly its bytes, several as a multipart body. *)
Theorem c34_range_partial : forall e q f file_size ctype boundary k pre keep,
  size_ok f file_size -> uses_range e q f -> Forall (fun v => ~ suffix0 v) (specs (f_range q)) ->
  1 <= k_bufsize k -> ctype_ok ctype -> one_line boundary -> one_line (e_date e) -> one_line (e_server e) ->
  Forall appends_clean pre -> Forall name_ok pre -> Forall unreserved pre -> Forall unframed_call pre -> e_method e <> bs "HEAD" ->
  let s := start e (HBase :: pre) keep in
  sendfile e q f file_size ctype boundary k s = (Raise BadRequest, s) \/
  sendfile e q f file_size ctype boundary k s = (Raise RangeNotSatisfiable, s) \/
  exists s' rs, sendfile e q f file_size ctype boundary k s = (Ok tt, s') /\
    (1 <= List.length rs <= 101)%nat /\ Forall (in_bounds (blen (fl_bytes f))) rs /\
    served e ctype boundary (fl_bytes f) keep rs s'.
Proof. exact c34_main. Qed.
Print Assumptions c34_range_partial.

(** For a header of plain range-specs ("a-b", "a-", "-n"), what is served is what was asked
    for, or 416 if one of them is not inside the file. Not treated like that: "-0" and "a-0". *)
Theorem c34_standard : forall e q f file_size ctype boundary k pre keep rs,
  size_ok f file_size -> uses_range e q f -> f_range q = [header_text rs] ->
  Forall spec_short rs -> Forall plain rs -> rs <> [] -> (List.length rs <= 101)%nat ->
  1 <= k_bufsize k -> ctype_ok ctype -> one_line boundary -> one_line (e_date e) -> one_line (e_server e) ->
  Forall appends_clean pre -> Forall name_ok pre -> Forall unreserved pre -> Forall unframed_call pre -> e_method e <> bs "HEAD" ->
  let s := start e (HBase :: pre) keep in
  match resolve_all (blen (fl_bytes f)) rs with
  | None => sendfile e q f file_size ctype boundary k s = (Raise RangeNotSatisfiable, s)
  | Some l => exists s', sendfile e q f file_size ctype boundary k s = (Ok tt, s') /\ served e ctype boundary (fl_bytes f) keep l s'
  end.
Proof. exact c34_standard_main. Qed.
Print Assumptions c34_standard.

(** A HEAD request for one range: the head of the 206 response and nothing else. *)
Theorem c34_head : forall e q f file_size ctype boundary k pre keep r a b,
  size_ok f file_size -> uses_range e q f -> f_range q = [header_text [r]] -> spec_short r -> plain r -> resolve (blen (fl_bytes f)) r = Some (a, b) ->
  1 <= k_bufsize k -> ctype_ok ctype ->
  Forall appends_clean pre -> Forall name_ok pre -> Forall unreserved pre -> Forall unframed_call pre -> e_method e = bs "HEAD" ->
  exists s' lines, sendfile e q f file_size ctype boundary k (start e pre keep) = (Ok tt, s') /\
    on_wire (r_keep s') (r_out s') = head_of (status_line e ok_206 :: lines) /\ Forall one_line (status_line e ok_206 :: lines) /\
    single_lines ctype (blen (fl_bytes f)) a b lines.
Proof. exact c34_head_main. Qed.
Print Assumptions c34_head.

Definition file34 := mkFile (bs "0123456789") (bs "Thu, 01 Jan 1970 00:00:00 GMT").
Definition q34 (range : bytes) := mkFReq [range] [] [].
Definition kw34 := mkKw true 4 None.
Definition plain34 := bs "text/plain".
Definition pre34 := [HSet (bs "X-A") (bs "1")].
Example c34_example :
  size_ok file34 0 /\ uses_range get11 (q34 (bs "bytes=2-7")) file34 /\ q34 (bs "bytes=2-7") = q34 (header_text [Between 2 7]) /\
  resolve_all (blen (fl_bytes file34)) [Between 2 7] = Some [(2, 7)] /\
  spec_short (Between 2 7) /\ plain (Between 2 7) /\ Forall (fun v => ~ suffix0 v) (specs [bs "bytes=2-7"]) /\
  ctype_ok plain34 /\ Forall appends_clean pre34 /\ Forall name_ok pre34 /\ Forall unreserved pre34 /\ Forall unframed_call pre34 /\
  map (fun x => match x with Some d => string_of_list_ascii d | None => ""%string end)
    (r_out (snd (sendfile get11 (q34 (bs "bytes=2-7")) file34 0 plain34 (bs "b") kw34 (start get11 (HBase :: pre34) true))))
  = [string_of_list_ascii (head_of (map bs ["HTTP/1.1 206 Partial Content"; "Date: Thu, 01 Jan 1970 00:00:00 GMT"; "Server: Tremolo"; "X-A: 1";
     "Content-Length: 6"; "Content-Range: bytes 2-7/10"; "Content-Type: text/plain"; "Connection: keep-alive"]%string)); "2345"; "67"; ""]%string.
Proof.
  assert (forall n, (n < 100)%N -> short n) as SH.
  { intros n H. unfold short. apply (N.lt_le_trans _ 100); [exact H|]. vm_compute. discriminate. }
  split; [now left|]. split; [split; [reflexivity|split; [discriminate|now left]]|]. split; [reflexivity|]. split; [reflexivity|].
  split; [split; apply SH; reflexivity|]. clear SH. split; [intros _; reflexivity|].
  split; [constructor; [intros [A B]; vm_compute in A; discriminate|constructor]|].
  split; [split; fin|]. split; [fall|]. split; [fall|]. split; [fall|]. split; [fall|]. vm_compute. reflexivity.
Qed.
Example c34_multi_example :
  let q := q34 (header_text [Between 0 1; Last 2]) in
  resolve_all 10 [Between 0 1; Last 2] = Some [(0, 1); (8, 9)] /\
  map (fun x => match x with Some d => string_of_list_ascii d | None => ""%string end)
    (tl (r_out (snd (sendfile get11 q file34 0 plain34 (bs "b") (mkKw false 4 (Some 200)) (start get11 (HBase :: pre34) true)))))
  = map (fun l => string_of_list_ascii (concat (map (fun x => bs x ++ CRLF) l)))
    [["3E"; "--b"; "Content-Type: text/plain"; "Content-Range: bytes 0-1/10"; ""; ""; "2"; "01"; "2"; ""; "";
      "3E"; "--b"; "Content-Type: text/plain"; "Content-Range: bytes 8-9/10"; ""; ""; "2"; "89"; "2"; ""; ""; "7"; "--b--"; ""; "0"; ""]; []]%string.
Proof. split; vm_compute; reflexivity. Qed.

(** "bytes=-0": the handler returns normally and no response is sent at all. *)
Theorem c34_suffix0_refuted : exists s',
  uses_range get11 (q34 (bs "bytes=-0")) file34 /\
  sendfile get11 (q34 (bs "bytes=-0")) file34 0 plain34 (bs "b") kw34 (start get11 [HBase] true) = (Ok tt, s') /\ r_out s' = [None].
Proof.
  eexists. split; [split; [reflexivity|split; [discriminate|now left]]|]. split; vm_compute; reflexivity.
Qed.
Print Assumptions c34_suffix0_refuted.
(** "bytes=3-0" is served as "bytes=3-3". *)
Theorem c34_zero_end_refuted : exists s' items,
  resolve 10 (Between 3 0) = None /\ q34 (header_text [Between 3 0]) = q34 (bs "bytes=3-0") /\
  sendfile get11 (q34 (bs "bytes=3-0")) file34 0 plain34 (bs "b") kw34 (start get11 [HBase] true) = (Ok tt, s') /\
  tl (r_out s') = map Some items ++ [None] /\ concat items = bs "3".
Proof. eexists _, [bs "3"]. split; [reflexivity|]. split; [reflexivity|]. split; [vm_compute; reflexivity|]. split; vm_compute; reflexivity. Qed.
Print Assumptions c34_zero_end_refuted.

(** C35. Without a usable Range (or If-Modified-Since) sendfile sends a complete response with
    Content-Length the size of the file, no Transfer-Encoding, and exactly the bytes of the
    file, whatever the buffer size; the connection stays as it was. *)
Theorem c35_full : forall e q f file_size ctype boundary k pre keep,
  size_ok f file_size -> ~ uses_range e q f -> ~ not_modified e q f -> 1 <= k_bufsize k ->
  ctype_ok ctype -> one_line (fl_mdate f) ->
  Forall appends_clean pre -> Forall name_ok pre -> Forall unreserved pre -> Forall unframed_call pre ->
  ~ bodyless (e_method e) (fst (the_status pre)) ->
  exists s' lines items, sendfile e q f file_size ctype boundary k (start e pre keep) = (Ok tt, s') /\
    r_out s' = Some (head_of (status_line e (the_status pre) :: lines)) :: map Some items ++ [None] /\
    Forall one_line (status_line e (the_status pre) :: lines) /\ full_lines ctype (fl_mdate f) (blen (fl_bytes f)) lines /\
    concat items = fl_bytes f /\ r_keep s' = keep.
Proof. exact c35_main. Qed.
Print Assumptions c35_full.

(** For a response that has no body (HEAD, 204, ...) only the head is sent. *)
Theorem c35_bodyless : forall e q f file_size ctype boundary k pre keep,
  size_ok f file_size -> ~ uses_range e q f -> ~ not_modified e q f -> 1 <= k_bufsize k ->
  ctype_ok ctype -> one_line (fl_mdate f) ->
  Forall appends_clean pre -> Forall name_ok pre -> Forall unreserved pre -> Forall unframed_call pre ->
  bodyless (e_method e) (fst (the_status pre)) -> fst (the_status pre) <> 101 -> fst (the_status pre) <> 426 ->
  exists s' lines, sendfile e q f file_size ctype boundary k (start e pre keep) = (Ok tt, s') /\
    on_wire (r_keep s') (r_out s') = head_of (status_line e (the_status pre) :: lines) /\
    Forall one_line (status_line e (the_status pre) :: lines) /\
    only_line (bs "content-length") (bs "Content-Length: " ++ fmt_d (blen (fl_bytes f))) lines.
Proof. exact c35_bodyless_main. Qed.
Print Assumptions c35_bodyless.

(** If-Modified-Since with the date of the file: a 304 head and nothing else. *)
Theorem c35_not_modified : forall e q f file_size ctype boundary k pre keep stored, not_modified e q f ->
  Forall appends_clean pre -> Forall name_ok pre -> Forall unreserved pre -> r_headers (start e pre keep) = Some stored -> stored <> [] ->
  exists s' lines, sendfile e q f file_size ctype boundary k (start e pre keep) = (Ok tt, s') /\
    on_wire (r_keep s') (r_out s') = head_of (status_line e (304, bs "Not Modified") :: lines) /\
    Forall one_line (status_line e (304, bs "Not Modified") :: lines).
Proof. exact c35_304_main. Qed.
Print Assumptions c35_not_modified.

Example c35_example :
  let q := mkFReq [bs "bytes=0-1"] [bs "yesterday"] [] in
  size_ok file34 10 /\ ~ uses_range get11 q file34 /\ ~ not_modified get11 q file34 /\ ctype_ok plain34 /\ Forall unframed_call pre34 /\
  ~ bodyless (e_method get11) (fst (the_status pre34)) /\
  map (fun x => match x with Some d => string_of_list_ascii d | None => ""%string end)
    (tl (r_out (snd (sendfile get11 q file34 10 plain34 (bs "b") kw34 (start get11 (HBase :: pre34) true))))) = ["0123"; "4567"; "89"; ""]%string /\
  not_modified get11 (mkFReq [] [] [fl_mdate file34]) file34.
Proof.
  split; [now right|]. split; [intros (_ & _ & [A|A]); vm_compute in A; discriminate|]. split; [intros ([A|A] & _); vm_compute in A; discriminate|].
  split; [split; fin|]. split; [fall|]. split; [intros [A|[A|[A|[A|A]]]]; vm_compute in A; intuition discriminate|].
  split; [vm_compute; reflexivity|]. split; [now right|reflexivity].
Qed.
